(** C91: when editop finds nothing to do, and when it only moves blocks. *)
From Coq Require Import String Permutation.
From Verif Require Import Base CLib SumProof SyncModel SyncSpec TransProps EdoModel EdoSpec EditopModel EditopSpec EditopProof EditopProps EditBagProps BoundProps PerfectProps.
Local Open Scope Z_scope.
Local Open Scope list_scope.

Lemma deletes_nonneg a b n : deletes a b n -> 0 <= n.
Proof. induction 1; lia. Qed.
Lemma deletes_none a b : deletes a b 0 -> a = b.
Proof.
  intros H. remember 0 as n eqn:E. induction H as [|x a b n H IH|x a b n H IH]; [reflexivity|now rewrite IH|]. apply deletes_nonneg in H. lia.
Qed.
Lemma inserts_nonneg a b n : inserts a b n -> 0 <= n.
Proof. induction 1; lia. Qed.
Lemma inserts_none a b : inserts a b 0 -> ~ In tilde b -> a = b.
Proof.
  intros H. remember 0 as n eqn:E. induction H as [|x a b n H IH|x a b n N H IH|a b n H IH]; intros T; [reflexivity| | |].
  - rewrite IH; auto. intros I. apply T. now right.
  - apply inserts_nonneg in H. lia.
  - exfalso. apply T. now left.
Qed.
Lemma moves_perm {A} (wt : A -> Z) s ls s' : moves_to wt s ls s' -> Permutation s s'.
Proof. induction 1 as [|s n s' ls s'' M _ IH]; [reflexivity|]. rewrite <- IH. exact (moved_perm _ _ _ _ M). Qed.

(** C91: for a correct text without '~', editop finds nothing to do exactly if the texts are the
    same, only moves to make exactly if they have the same characters in another order, and in that
    case at least one. *)
Theorem C91_reordered : forall t1 t2, ~ In tilde t1 ->
  exists d, edit_operations t1 t2 = Ok d /\
    (insertions d = 0 /\ deletions d = 0 <-> Permutation t1 t2) /\
    (insertions d = 0 /\ deletions d = 0 /\ total_moves d = 0 <-> t1 = t2) /\
    (Permutation t1 t2 -> t1 <> t2 -> 1 <= total_moves d).
Proof.
  intros t1 t2 N. destruct (C43_script t1 t2) as (d & k2 & ls & k1 & E & D & M & I & R). exists d. split; [exact E|].
  assert (H : insertions d = 0 /\ deletions d = 0 -> k1 = t1 /\ t2 = k2).
  { intros (I0 & D0). rewrite I0 in I. rewrite D0 in D. split; [now apply inserts_none|now apply deletes_none]. }
  assert (Pm : insertions d = 0 /\ deletions d = 0 <-> Permutation t1 t2).
  { split.
    - intros Z0. destruct (H Z0) as (<- & ->). apply Permutation_sym. exact (moves_perm _ _ _ _ M).
    - intros P. destruct (C91_only_moves t1 t2 N P) as (d' & E' & Q). assert (d' = d) by congruence. now subst d'. }
  assert (Eq : insertions d = 0 /\ deletions d = 0 /\ total_moves d = 0 <-> t1 = t2).
  { split.
    - intros (I0 & D0 & M0). destruct (H (conj I0 D0)) as (<- & ->). destruct R as (_ & Tm & _).
      destruct ls as [|n ls]; [now inversion M|]. rewrite zlen_cons in Tm. unfold zlen in Tm. lia.
    - intros <-. destruct (no_operations t1 N) as (d' & E' & Q). assert (d' = d) by congruence. now subst d'. }
  split; [exact Pm|]. split; [exact Eq|]. intros P Ne. apply Pm in P. destruct R as (_ & Tm & _).
  destruct (Z.eq_dec (total_moves d) 0) as [Z0|]; [|unfold zlen in Tm; lia]. exfalso. apply Ne, Eq. tauto.
Qed.
Print Assumptions C91_reordered.

(** A '~' in the correct text makes no difference: nothing to do does not mean the same texts. *)
Theorem C91_reordered_wildcard_refuted : exists d, edit_operations [97; 126] [97] = Ok d /\ insertions d = 0 /\ deletions d = 0 /\ total_moves d = 0.
Proof. eexists. split; [vm_compute; reflexivity|]. repeat split. Qed.
Print Assumptions C91_reordered_wildcard_refuted.

Example C91_reordered_ex :
  ~ In tilde [97; 98; 99] /\ Permutation [97; 98; 99] [98; 99; 97] /\ [97; 98; 99] <> [98; 99; 97] /\
  exists d, edit_operations [97; 98; 99] [98; 99; 97] = Ok d /\ total_moves d = 1.
Proof.
  split; [cbn; intuition lia|]. split; [apply (Permutation_app_comm [97] [98; 99])|]. split; [discriminate|]. eexists. split; [vm_compute; reflexivity|reflexivity].
Qed.
