(** C06-C07: theorems about sort.c and the comparison routines used with it. *)
From Verif Require Import Base SortModel SortSpec SortProof CompareModel CompareProof.
From Coq Require Import Permutation.

(** C06: whatever the comparison routine, sort terminates, stays inside the array and
    permutes it; if the routine is consistent on the elements of the array, the result is
    sorted. *)
Theorem C06_sort : forall (A : Type) (cmp : A -> A -> Z) (a : list A),
  exists a', sort cmp (zlen a) a = Ok a' /\ Permutation a a' /\
    (forall P : A -> Prop, preorder_on P cmp -> (forall x, In x a -> P x) -> sorted cmp a').
Proof.
  intros A cmp a.
  destruct (sort_spec cmp (fun _ => True) a) as (a' & E & Pm & _).
  exists a'. split; [exact E|]. split; [exact Pm|].
  intros P Pre HP. destruct (sort_spec cmp P a) as (a'' & E' & _ & S).
  rewrite E in E'. injection E' as <-. exact (S Pre HP).
Qed.
Print Assumptions C06_sort.

Example C06_nonvacuous :
  preorder Z.sub /\
  sort Z.sub 7 [3; 1; 2; 3; -5; 9; 1] = Ok [-5; 1; 1; 2; 3; 3; 9] /\
  (* an inconsistent routine: everything is greater than everything *)
  exists r, sort (fun _ _ => 1) 7 [3; 1; 2; 3; -5; 9; 1] = Ok r.
Proof.
  split; [constructor; intros; lia|]. split; [vm_compute; reflexivity|].
  eexists. vm_compute. reflexivity.
Qed.

(** C07: ustrcmp is the lexicographic order of unsigned bytes: total, antisymmetric,
    transitive, and 0 only on equal strings. *)
Theorem C07_ustrcmp_total_order :
  preorder_on bytes_ok ustrcmp /\
  (forall a b, bytes_ok a -> bytes_ok b -> (ustrcmp a b = 0 <-> a = b)) /\
  (forall a b p x y, bytes_ok (p ++ x :: a) -> bytes_ok (p ++ y :: b) ->
     x < y -> ustrcmp (p ++ x :: a) (p ++ y :: b) < 0) /\
  (forall a p x, bytes_ok (p ++ x :: a) -> ustrcmp p (p ++ x :: a) < 0).
Proof.
  split; [apply (key_preorder bytes_ok (fun s => s)); auto|].
  split; [apply ustrcmp_eq|]. split.
  - intros a b p x y _ _ Hxy. induction p as [|z p IH]; cbn.
    + destruct (Z.eqb_spec x y); [lia|]. destruct (Z.ltb_spec x y); lia.
    + now rewrite Z.eqb_refl.
  - intros a p x H. induction p as [|z p IH]; cbn.
    + cbn in H. inversion H; subst. destruct (Z.ltb_spec 0 x); lia.
    + rewrite Z.eqb_refl. apply IH. cbn in H. now inversion H.
Qed.
Print Assumptions C07_ustrcmp_total_order.

(** C07: each comparison routine used for a report is a total order on entries with
    figures below 2^31, and only identical entries (or, for key-only orders, entries with
    identical keys) compare equal. *)
Theorem C07_report_orders :
  (preorder_on conf_ok compare_conf /\
   forall x y, conf_ok x -> conf_ok y -> compare_conf x y = 0 -> x = y) /\
  (preorder_on term_ok compare_term /\
   forall x y, term_ok x -> term_ok y -> compare_term x y = 0 -> tkey x = tkey y) /\
  (preorder_on term_ok term_by_count /\
   forall x y, term_ok x -> term_ok y -> term_by_count x y = 0 ->
     tkey x = tkey y /\ tcnt x = tcnt y) /\
  (forall n, preorder_on (seq_ok n) order_by_value /\
   forall x y, seq_ok n x -> seq_ok n y -> order_by_value x y = 0 -> svalue x = svalue y) /\
  (forall n, preorder_on (seq_ok n) seq_by_count /\
   forall x y, seq_ok n x -> seq_ok n y -> seq_by_count x y = 0 -> x = y).
Proof.
  split; [split; [exact compare_conf_preorder|exact compare_conf_eq]|].
  split; [split; [exact compare_term_preorder|]|].
  { intros x y Hx Hy. apply ustrcmp_eq; [apply Hx|apply Hy]. }
  split; [split; [exact term_by_count_preorder|]|].
  { intros x y Hx Hy E. apply (lex_eq term_ok tcnt compare_term) in E; auto.
    - destruct E as [E1 E2]. apply ustrcmp_eq in E2; [auto|apply Hx|apply Hy].
    - intros ? H; apply H. }
  split.
  - intros n. split; [apply order_by_value_preorder|].
    intros x y [Hx _] [Hy _] E. apply values_order_eq; [congruence|exact E].
  - intros n. split; [apply seq_by_count_preorder|]. apply seq_by_count_eq.
Qed.
Print Assumptions C07_report_orders.

(** The direction of the orders: more errors first, then more marked, then by key. *)
Theorem C07_most_frequent_first :
  (forall x y, conf_ok x -> conf_ok y -> cerrors y < cerrors x -> compare_conf x y < 0) /\
  (forall x y, term_ok x -> term_ok y -> tcnt y < tcnt x -> term_by_count x y < 0) /\
  (forall n x y, seq_ok n x -> seq_ok n y -> scount y < scount x -> seq_by_count x y < 0).
Proof.
  split; [|split].
  - intros x y Hx Hy H. unfold compare_conf.
    destruct (Z.eqb_spec (cerrors x) (cerrors y)); [lia|]. cbn [negb].
    rewrite to_int_small; [lia|]. destruct Hx as (_ & Hx & _), Hy as (_ & Hy & _).
    unfold figure in *. lia.
  - intros x y Hx Hy H. unfold term_by_count.
    destruct (Z.eqb_spec (tcnt x) (tcnt y)); [lia|]. cbn [negb].
    rewrite to_int_small; [lia|]. destruct Hx as (_ & Hx), Hy as (_ & Hy).
    unfold figure in *. lia.
  - intros n x y Hx Hy H. unfold seq_by_count.
    destruct (Z.eqb_spec (scount x) (scount y)); [lia|]. cbn [negb].
    rewrite to_int_small; [lia|]. destruct Hx as (_ & Hx & _), Hy as (_ & Hy & _).
    unfold figure in *. lia.
Qed.
Print Assumptions C07_most_frequent_first.

(** C07: hence the row order is determined by the contents: whatever order the entries
    were collected in, sorting gives the same array. *)
Theorem C07_row_order_determined : forall (A : Type) (P : A -> Prop) (cmp : A -> A -> Z) a b,
  preorder_on P cmp -> (forall x, In x a -> P x) ->
  (forall x y, In x a -> In y a -> cmp x y = 0 -> x = y) ->
  Permutation a b -> sort cmp (zlen a) a = sort cmp (zlen b) b.
Proof.
  intros A P cmp a b Pre HP Hinj Pm.
  destruct (sort_spec cmp P a) as (a' & Ea & Pa & Sa).
  destruct (sort_spec cmp P b) as (b' & Eb & Pb & Sb).
  rewrite Ea, Eb. f_equal.
  assert (forall x, In x b -> P x) as HPb.
  { intros x Hx. apply HP. eapply Permutation_in; [apply Permutation_sym; exact Pm|exact Hx]. }
  apply (sorted_unique P cmp); auto.
  - intros x Hx. apply HP. eapply Permutation_in; [apply Permutation_sym; exact Pa|exact Hx].
  - intros x y Hx Hy. apply Hinj; (eapply Permutation_in; [apply Permutation_sym; exact Pa|assumption]).
  - eapply Permutation_trans; [apply Permutation_sym; exact Pa|].
    eapply Permutation_trans; [exact Pm|exact Pb].
Qed.
Print Assumptions C07_row_order_determined.

(** Finding: without the bound on the figures the claim is false.  The difference of the
    counts is a long returned as an int, so a word occurring 2^31 times sorts after a word
    that never occurs, and three such entries are ordered in a cycle. *)
Theorem C07_large_counts_refuted :
  exists x y z, tcnt x < tcnt y /\ term_by_count x y < 0 /\
    term_by_count y z < 0 /\ term_by_count z x < 0.
Proof.
  exists (mkterm [97] 0 0), (mkterm [98] 2147483648 0), (mkterm [99] 1073741824 0).
  vm_compute. auto.
Qed.
Print Assumptions C07_large_counts_refuted.

Example C07_nonvacuous :
  let c1 := mkconf [123] 5 2 in let c2 := mkconf [200; 7] 5 2 in let c3 := mkconf [9] 8 0 in
  conf_ok c1 /\ conf_ok c2 /\ conf_ok c3 /\
  sort compare_conf 3 [c2; c1; c3] = Ok [c3; c1; c2] /\
  sort compare_conf 3 [c1; c3; c2] = Ok [c3; c1; c2].
Proof.
  cbn zeta. repeat split; try (repeat constructor; cbn; lia); cbn; try lia; vm_compute; reflexivity.
Qed.
