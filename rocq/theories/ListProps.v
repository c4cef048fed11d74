(** C01-C03: theorems about list.c. *)
From Verif Require Import Base ListModel ListSpec ListProof.

(** C01: every legal history of calls runs without dereferencing NULL and leaves a
    list that presents the abstract sequence, forwards, backwards and by count. *)
Theorem C01_lists_are_sequences : forall (ops : list lop) (h0 : heap),
  legal_history [] ops ->
  exists l h, lrun ops (list_initialize, h0) = Ok (l, h) /\
    presents l h (fold_left seq_step ops []).
Proof.
  intros ops h0 L.
  destruct (lrun_inv ops _ h0 [] (inv_init h0) L) as (l & h & E & I).
  exists l, h. split; [exact E|]. exact (inv_presents _ _ _ I).
Qed.
Print Assumptions C01_lists_are_sequences.

(** One more call, from any list presenting a sequence (not only from the empty one);
    memory outside the list and the inserted item is left alone by insert/remove. *)
Theorem C01_one_call : forall l h xs o,
  presents l h xs -> legal xs o ->
  exists l' h', lstep (l, h) o = Ok (l', h') /\ presents l' h' (seq_step xs o).
Proof.
  intros l h xs o P L.
  destruct (lstep_inv l h xs o (presents_inv _ _ _ P) L) as (l' & h' & E & I).
  exists l', h'. split; [exact E|]. exact (inv_presents _ _ _ I).
Qed.
Print Assumptions C01_one_call.

Definition C01_demo : list lop :=
  [Linsert_first 7; Linsert_last 9; Linsert_before 8 9; Lin_array; Linsert_after 9 4;
   Lremove 7; Linsert_first 5; Lin_array].

Example C01_nonvacuous :
  legal_history [] C01_demo /\ fold_left seq_step C01_demo [] = [5; 8; 9; 4].
Proof. split; [|reflexivity]. cbn. unfold NULL. intuition (try discriminate; try lia). Qed.

(** C02: after list_in_array the array is exactly the sequence (NULL iff empty) ... *)
Theorem C02_array_view : forall (ops : list lop) (h0 : heap),
  legal_history [] ops ->
  exists l h, lrun (ops ++ [Lin_array]) (list_initialize, h0) = Ok (l, h) /\
    let xs := fold_left seq_step ops [] in
    array l = match xs with [] => None | _ => Some xs end.
Proof.
  intros ops h0 L.
  destruct (lrun_inv ops _ h0 [] (inv_init h0) L) as (l & h & E & I).
  destruct (list_in_array_spec l h _ I) as (l' & E' & I' & A & _).
  exists l', h. split.
  - unfold lrun in *. rewrite ofold_app, E. cbn. rewrite E'. reflexivity.
  - cbn zeta. destruct (fold_left seq_step ops []) as [|x xs] eqn:Ex.
    + pose proof (inv_array _ _ _ I') as Ia.
      destruct (array l') as [a|]; [|reflexivity]. destruct Ia as [_ Ia]. congruence.
    + apply A. discriminate.
Qed.
Print Assumptions C02_array_view.

(** ... and at every point of every history a non-NULL array is the current contents. *)
Theorem C02_array_never_stale : forall (ops : list lop) (h0 : heap) l h a,
  legal_history [] ops ->
  lrun ops (list_initialize, h0) = Ok (l, h) ->
  array l = Some a -> a = fold_left seq_step ops [] /\ zlen a = count l.
Proof.
  intros ops h0 l h a L E Ea.
  destruct (lrun_inv ops _ h0 [] (inv_init h0) L) as (l' & h' & E' & I).
  rewrite E in E'. injection E' as <- <-.
  pose proof (inv_array _ _ _ I) as Ia. rewrite Ea in Ia. destruct Ia as [-> _].
  split; [reflexivity|]. symmetry. apply (inv_count _ _ _ I).
Qed.
Print Assumptions C02_array_never_stale.

Example C02_nonvacuous :
  match lrun C01_demo (list_initialize, fun _ => mknode 77 88) with
  | Ok (l, h) => array l = Some [5; 8; 9; 4] /\ first l = 5 /\ last l = 4 /\ count l = 4
  | _ => False
  end.
Proof. vm_compute. auto. Qed.

(** C03: list_empty hands over each item exactly once, in order, whatever the callback
    does to items already handed over and to memory outside the list. *)
Theorem C03_list_empty : forall process xs l h,
  presents l h xs ->
  (forall done x todo h, xs = done ++ x :: todo ->
     forall y, In y todo -> process x h y = h y) ->
  exists l' h',
    list_empty (Z.to_nat (count l)) process l h = Ok (l', h', xs) /\
  presents l' h' [] /\ NoDup xs.
Proof.
  intros process xs l h P Hp.
  rewrite (pr_count _ _ _ P). unfold zlen. rewrite Nat2Z.id.
  destruct (list_empty_spec process xs l h (presents_inv _ _ _ P) Hp) as (l' & h' & E & I & _).
  exists l', h'. split; [exact E|]. split; [exact (inv_presents _ _ _ I)|exact (pr_nodup _ _ _ P)].
Qed.
Print Assumptions C03_list_empty.

(** C03, no access after hand-over: if the callback overwrites the item it is given with
    arbitrary junk, the junk is still there at the end, the rest of memory is as
    before, and the traversal is unaffected. *)
Theorem C03_no_touch_after_handover : forall junk xs l h,
  presents l h xs ->
  exists l' h',
    list_empty (Z.to_nat (count l)) (fun x h => upd h x (junk x)) l h = Ok (l', h', xs) /\
  presents l' h' [] /\
  (forall x, In x xs -> h' x = junk x) /\ (forall x, ~ In x xs -> h' x = h x).
Proof.
  intros junk xs l h P.
  rewrite (pr_count _ _ _ P). unfold zlen. rewrite Nat2Z.id.
  destruct (list_empty_junk junk xs l h (presents_inv _ _ _ P)) as (l' & h' & E & I & J & F).
  exists l', h'. split; [exact E|]. split; [exact (inv_presents _ _ _ I)|]. split; [exact J|exact F].
Qed.
Print Assumptions C03_no_touch_after_handover.

Example C03_nonvacuous :
  (exists l h, presents l h [5; 8; 9; 4]) /\
  match lrun C01_demo (list_initialize, fun _ => mknode 77 88) with
  | Ok (l, h) =>
      match list_empty 4%nat (fun x h => upd h x (mknode 666 666)) l h with
      | Ok (l', h', log) => log = [5; 8; 9; 4] /\ first l' = NULL /\ count l' = 0
      | _ => False
      end
  | _ => False
  end.
Proof.
  split; [|vm_compute; auto].
  destruct (C01_lists_are_sequences C01_demo (fun _ => mknode 77 88)) as (l & h & E & P);
    [apply C01_nonvacuous|].
  exists l, h. exact P.
Qed.
