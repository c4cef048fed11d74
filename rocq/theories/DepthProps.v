(** C81: how deep the functions that call themselves nest. *)
From Coq Require Import String Permutation.
From Verif Require Import Base SortModel SyncModel HeurProps WordTable WordModel WordProof WordProps DepthModel DepthProof.
Local Open Scope Z_scope.
Local Open Scope list_scope.

(** C81: sorting [n] elements nests at most [n - 1] calls, whatever the comparison routine, and the
    result is that of sort. *)
Theorem C81_sort : forall (A : Type) (cmp : A -> A -> Z) (a : list A),
  exists r d, sort_depth cmp (zlen a) a = Ok (r, d) /\ sort cmp (zlen a) a = Ok r /\
    0 <= d <= Z.max 0 (zlen a - 1).
Proof. intros. apply sort_depth_ok. Qed.
Print Assumptions C81_sort.

(** C81: there is no better bound: elements that are already in order nest [n - 1] calls, for every
    [n] (so the stack that sort needs is proportional to the number of elements). *)
Theorem C81_sorted_input : forall (A : Type) (cmp : A -> A -> Z) (a : list A),
  2 <= zlen a ->
  (forall p q x y, p < q -> znth a p = Some x -> znth a q = Some y -> cmp x y < 0) ->
  sort_depth cmp (zlen a) a = Ok (a, zlen a - 1).
Proof. intros. now apply sort_increasing. Qed.
Print Assumptions C81_sorted_input.

(** C81: the depth of sort is not logarithmic: no bound [b] holds for all arrays. *)
Theorem C81_bounded_stack_refuted : forall b : Z, exists (a : list Z) r d,
  sort_depth Z.sub (zlen a) a = Ok (r, d) /\ b < d.
Proof.
  intros b. set (n := Z.to_nat (Z.max b 0 + 2)).
  assert (zlen (map Z.of_nat (seq 0 n)) = Z.of_nat n) as L by (unfold zlen; now rewrite map_length, seq_length).
  exists (map Z.of_nat (seq 0 n)), (map Z.of_nat (seq 0 n)), (Z.of_nat n - 1). split; [|lia].
  replace (Z.of_nat n - 1) with (zlen (map Z.of_nat (seq 0 n)) - 1) by lia. apply C81_sorted_input; [lia|].
  intros p q x y Hpq Ex Ey.
  assert (forall p x, znth (map Z.of_nat (seq 0 n)) p = Some x -> x = p) as V.
  { intros p' x' E. pose proof (znth_Some_lt _ _ _ E) as B. rewrite <- (Z2Nat.id p') in E by lia.
    rewrite znth_nth, nth_error_map in E. destruct (nth_error (seq 0 n) (Z.to_nat p')) as [v|] eqn:N; [|discriminate E].
    apply (nth_error_nth _ _ 0%nat) in N. rewrite seq_nth in N by lia. cbn in E. injection E as <-. lia. }
  rewrite (V _ _ Ex), (V _ _ Ey). lia.
Qed.
Print Assumptions C81_bounded_stack_refuted.

(** C81: synchronizing texts nests at most one call more than the first text has characters, and the
    result is that of synchronize. *)
Theorem C81_synchronize : forall texts : list (list Z),
  2 <= zlen texts <= 16 ->
  exists l d, synchronize texts = Ok l /\ synchronize_depth texts = Ok (l, d) /\
    0 <= d <= zlen (hd [] texts) + 1.
Proof.
  intros texts H. pose proof (C21_synchronize texts) as K.
  replace ((2 <=? zlen texts) && (zlen texts <=? 16)) with true in K by lia. destruct K as (l & E & _).
  destruct (synchronize_depth_ok texts l E) as (d & Ed & B). exists l, d. auto.
Qed.
Print Assumptions C81_synchronize.

(** C81: looking up the word-break property of a character nests at most 12 calls. *)
Theorem C81_property : forall c, exists p d,
  property c = Ok p /\ property_depth c = Ok (p, d) /\ 1 <= d <= 12.
Proof.
  intros c. destruct (property_ok c) as (p & E & _). destruct (property_depth_ok c p E) as (d & Ed & B). exists p, d. auto.
Qed.
Print Assumptions C81_property.

(** Elements in order and in disorder; texts whose synchronization nests three calls; a character in
    no range, one whose lookup takes all twelve calls. *)
Example C81_ex :
  sort_depth Z.sub 5 [1; 2; 3; 4; 5] = Ok ([1; 2; 3; 4; 5], 4) /\
  sort_depth Z.sub 5 [3; 1; 5; 2; 4] = Ok ([1; 2; 3; 4; 5], 2) /\
  sort_depth Z.sub 5 [7; 7; 7; 7; 7] = Ok ([7; 7; 7; 7; 7], 2) /\
  (exists l, synchronize_depth [[97; 1; 97; 1]; [97; 2; 97; 2]] = Ok (l, 3)) /\
  property_depth 33 = Ok (Other, 11) /\ property_depth 171 = Ok (Other, 12).
Proof. repeat split; try (vm_compute; reflexivity). eexists. vm_compute. reflexivity. Qed.
