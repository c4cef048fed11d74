(** C66: what editop -D prints. *)
From Coq Require Import String Permutation.
From Verif Require Import Base CLib AccSpec SumProof SyncModel SyncSpec EdoModel EdoSpec EditopModel EditopSpec EditopProof EditopProps
  GreedySpec GreedyProof GreedyProps EditopDebugModel TraceSpec TraceProof.
Local Open Scope Z_scope.
Local Open Scope list_scope.

Lemma blocks_fit t l : forall pos, chain t pos l -> Forall (fun b => 1 <= blen b) (blocks l) -> pos + zlen (blocks l) <= zlen t.
Proof.
  induction l as [|it l IH]; intros pos C F; cbn [chain] in C; [rewrite C; cbn; lia|].
  destruct C as (u & E & _ & C1 & _ & C2 & C3). unfold blocks in *. cbn [flat_map] in *. fold (blocks l) in *.
  apply Forall_app in F. destruct F as [F1 F2]. specialize (IH _ C3 F2). rewrite zlen_app.
  destruct (inum it); [|cbn; lia]. rewrite E in F1. cbn in F1. inversion F1 as [|? ? F3 _]; subst. cbn in F3.
  change (zlen [_]) with 1. lia.
Qed.

(** C66: without -D the counts are those of C43 and C44, and nothing is printed. *)
Theorem C66_silent : forall t1 t2 d,
  edit_operations t1 t2 = Ok d -> edit_operations_shown false t1 t2 = Ok (d, []).
Proof.
  intros t1 t2 d. unfold edit_operations, edit_operations_shown.
  destruct (transpose_sync t1 t2) as [[l1 l2]| | |]; cbn [obind]; intros E; try discriminate E.
  destruct (count_insertions l1 t1 0) as [ins| | |]; cbn [obind] in *; try discriminate E.
  destruct (count_deletions l2 0) as [[del bs]| | |]; cbn [obind] in *; try discriminate E.
  unfold count_moves in E. unfold count_moves_shown, combine_adjacent_shown.
  destruct (combine_adjacent bs) as [l| | |]; cbn [obind] in *; try discriminate E.
  destruct (moves_loop (List.length l) l _) as [[l' d']| | |] eqn:Q; cbn [obind] in *; try discriminate E.
  injection E as <-. rewrite (silent_loop _ _ _ _ _ Q). reflexivity.
Qed.
Print Assumptions C66_silent.

(** C66: with -D the counts are the same.  What is printed is a line with the matched items in the
    order of the generated text, and then the trace of the moves of C60: for each state a line
    with the runs of items and their lengths, and for each move a line with the number of the run
    that is moved, and the runs in their new order. *)
Theorem C66_trace : forall t1 t2 l1 l2,
  transpose_sync t1 t2 = Ok (l1, l2) -> zlen t2 < 10000000000000 ->
  exists d ls es,
    edit_operations t1 t2 = Ok d /\
    edit_operations_shown true t1 t2 =
      Ok (d, line_text (bytes "original", map (fun n => (n, length_of l2 n)) (numbers l2)) ++ flat_map line_text es) /\
    trace (length_of l2) (numbers l2) ls es /\ records ls d.
Proof.
  intros t1 t2 l1 l2 E Big.
  destruct (edit_operations_ok t1 t2 l1 l2 E) as (d & _ & H1 & _ & _ & _ & _ & _ & _ & _ & C1 & C2 & R & Num & l' & Ec).
  rewrite Num in R.
  assert (Bf : zlen (blocks l2) < 10000000000000).
  { pose proof (blocks_fit t2 l2 0 C2). assert (0 + zlen (blocks l2) <= zlen t2); [|lia]. apply H.
    eapply Forall_impl; [|apply (r_len _ _ _ _ _ R)]. cbn. intros b Hb. apply Hb. }
  destruct (trace_moves_ok _ _ _ _ _ (mkedo (zlen (filter plain (unmatched_part t1 l1)))
      (zlen (unmatched_part t2 l2)) 0 (repeat 0 101)) R eq_refl Bf) as (l'' & d' & ls & es & E2 & E3 & Tr & B1 & B2 & B3 & B4).
  rewrite Ec in E2. injection E2 as <- <-. exists d, ls, es. split; [exact H1|]. split.
  { unfold edit_operations_shown. rewrite E. cbn [obind].
    rewrite (insertions_ok t1 l1 0 0 ltac:(lia) C1). cbn [obind].
    rewrite (deletions_ok t2 l2 0 0 ltac:(lia) C2). cbn [obind]. rewrite !Z.add_0_l. rewrite E3. cbn [obind].
    do 5 f_equal. rewrite <- blocks_numbers, map_map. apply map_ext_in. intros b Ib. unfold shown. f_equal.
    pose proof (r_len _ _ _ _ _ R) as F. rewrite Forall_forall in F. destruct (F b Ib) as [F1 _].
    rewrite F1. cbn [map]. unfold zsum. cbn [fold_right]. lia. }
  split; [exact Tr|]. split; [exact B1|]. split; [exact B2|]. split; [exact B3|]. intros i Hi. rewrite B4. cbn [moves].
  replace (entry (repeat 0 101) i) with 0; [reflexivity|]. unfold entry.
  destruct (znth (repeat 0 101) i) as [z|] eqn:Ez; [|reflexivity]. apply znth_In in Ez.
  apply (repeat_spec 101 0 z) in Ez. congruence.
Qed.
Print Assumptions C66_trace.

Lemma zsum_perm a b : Permutation a b -> zsum a = zsum b.
Proof. unfold zsum. induction 1; cbn [fold_right]; lia. Qed.
Lemma zsum_concat (f : Z -> Z) ws : zsum (map (fun w => zsum (map f w)) ws) = zsum (map f (concat ws)).
Proof. induction ws as [|w ws IH]; [reflexivity|]. cbn [map concat]. rewrite map_app, zsum_app, zsum_cons. lia. Qed.
Lemma numbered_total wt ws : zsum (map snd (numbered wt ws)) = zsum (map wt (concat ws)).
Proof. unfold numbered. rewrite map_map. cbn [snd]. apply zsum_concat. Qed.

(** C66: so there are two lines for every move, and one more; no part of the text is lost or
    counted twice: the lengths of a line always add up to the same; and the last line shows that
    the text is one part. *)
Theorem C66_lines : forall wt s ls es,
  trace wt s ls es ->
  zlen es = 2 * zlen ls + 1 /\
  Forall (fun e => zsum (map snd (snd e)) = zsum (map wt s)) es /\
  exists es' parts, es = es' ++ [(bytes "combined", parts)] /\ zlen parts <= 1.
Proof.
  intros wt s ls es H. induction H as [s R|s before w after before' after' ls rest R E E1 P1 P2 B H IH].
  - split; [reflexivity|]. split.
    + constructor; [|constructor]. cbn [snd]. rewrite numbered_total, concat_split. reflexivity.
    + exists [], (numbered wt (split_runs s)). split; [reflexivity|]. unfold numbered, runs, zlen in *. rewrite map_length. exact R.
  - destruct IH as (L & F & es' & parts & Eq & Lp). split; [|split].
    + rewrite !zlen_cons. lia.
    + assert (Q : zsum (map wt (concat (before' ++ w :: after'))) = zsum (map wt s)).
      { rewrite <- (concat_split s), E, !concat_app. cbn [concat]. rewrite !map_app, !zsum_app.
        apply (f_equal (@concat Z)) in E1. rewrite !concat_app in E1. apply (f_equal (map wt)) in E1. rewrite !map_app in E1.
        apply (f_equal zsum) in E1. rewrite !zsum_app in E1. lia. }
      constructor; [cbn [snd]; rewrite numbered_total, concat_split; reflexivity|].
      constructor; [cbn [snd]; rewrite numbered_total; exact Q|].
      eapply Forall_impl; [|exact F]. cbn beta. intros e ->. rewrite <- Q, concat_app. reflexivity.
    + exists ((bytes "combined", numbered wt (split_runs s)) ::
       (bytes "moved " ++ dec (place (split_runs s) w), numbered wt (before' ++ w :: after')) :: es'), parts.
      split; [rewrite Eq; reflexivity|exact Lp].
Qed.
Print Assumptions C66_lines.

(** A case: "cab" for "abc"; the one character "c" is moved. *)
Example C66_ex :
  edit_operations_shown true (bytes "abc") (bytes "cab") =
  Ok (mkedo 0 0 1 ([0; 1] ++ repeat 0 99),
      bytes "original : {2:1} {1:2}" ++ [10; 10] ++ bytes "combined : {2:1} {1:2}" ++ [10; 10] ++
      bytes "moved 2  : {1:2} {2:1}" ++ [10; 10] ++ bytes "combined : {1:3}" ++ [10; 10]).
Proof. vm_compute. reflexivity. Qed.
