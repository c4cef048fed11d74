(** C91: the insertions and deletions of editop are determined by the numbers of the characters. *)
From Coq Require Import String Permutation.
From Verif Require Import Base AccSpec SumProof Utf8Model TextModel SyncModel SyncSpec EditProof TraceProps TransProps EdoModel EdoSpec EditopModel EditopSpec EditopProof EditopProps CompareModel AccModel AccProps MetricSpec MetricProof MetricProps.
Local Open Scope Z_scope.
Local Open Scope list_scope.

(** ** Specification *)

(** How often [c] occurs in a text. *)
Definition times (c : Z) (t : list Z) : Z := zlen (filter (Z.eqb c) t).
(** How many more [c] the first text has than the second. *)
Definition surplus (t t' : list Z) (c : Z) : Z := Z.max 0 (times c t - times c t').
(** The different characters of a text other than '~'. *)
Definition kinds (t : list Z) : list Z := nodup Z.eq_dec (filter (fun c => negb (c =? tilde)) t).

(** ** Proof *)
Lemma times_app c t t' : times c (t ++ t') = times c t + times c t'.
Proof. unfold times. rewrite filter_app, zlen_app. reflexivity. Qed.
Lemma times_perm c t t' : Permutation t t' -> times c t = times c t'.
Proof.
  unfold times. intros P. induction P as [|x l l' P IH|x y l|l1 l2 l3 P1 IH1 P2 IH2]; cbn [filter]; [reflexivity|..|congruence].
  - destruct (c =? x); rewrite ?zlen_cons; lia.
  - destruct (c =? x), (c =? y); rewrite ?zlen_cons; lia.
Qed.
Lemma times_zero c t : ~ In c t -> times c t = 0.
Proof.
  unfold times. induction t as [|x t IH]; intros H; [reflexivity|]. cbn [filter]. destruct (Z.eqb_spec c x) as [->|].
  - exfalso. apply H. now left.
  - apply IH. intros Hi. apply H. now right.
Qed.
Lemma times_nonneg c t : 0 <= times c t.
Proof. apply zlen_nonneg. Qed.

(** The length of a text is the sum over its kinds of characters. *)
Lemma sum_times (l : list Z) : forall D, NoDup D -> (forall c, In c l -> In c D) -> zlen l = zsum (map (fun c => times c l) D).
Proof.
  induction l as [|x l IH]; intros D N H.
  - clear. induction D as [|c D IH]; [reflexivity|]. cbn [map]. rewrite zsum_cons, <- IH. reflexivity.
  - rewrite zlen_cons, (IH D N) by (intros c Hc; apply H; now right).
    assert (Hx : In x D) by (apply H; now left). clear H IH. induction N as [|c D Hc N IH]; [destruct Hx|]. cbn [map]. rewrite !zsum_cons.
    unfold times at 3. cbn [filter]. destruct (Z.eqb_spec c x) as [->|Hne].
    + rewrite zlen_cons. fold (times x l). enough (map (fun c => times c (x :: l)) D = map (fun c => times c l) D) as -> by lia.
      apply map_ext_in. intros c Hi. unfold times. cbn [filter]. destruct (Z.eqb_spec c x) as [->|]; [contradiction|reflexivity].
    + fold (times c l). destruct Hx as [->|Hx]; [congruence|]. specialize (IH Hx). lia.
Qed.

Lemma moved_perm {A} (wt : A -> Z) s ls s' : moves_to wt s ls s' -> Permutation s s'.
Proof.
  induction 1 as [s|s n s' ls s'' (p & v & q & p' & q' & -> & -> & E & _) H IH]; [reflexivity|].
  etransitivity; [|exact IH]. clear - E.
  transitivity (v ++ p ++ q); [rewrite !app_assoc; apply Permutation_app_tail, Permutation_app_comm|].
  rewrite E. rewrite !app_assoc. apply Permutation_app_tail, Permutation_app_comm.
Qed.

Lemma parts_perm t l : Permutation (flat_map (piece t) l) (matched_part t l ++ unmatched_part t l).
Proof.
  unfold matched_part, unmatched_part. induction l as [|it l IH]; [reflexivity|]. cbn [flat_map filter].
  destruct (is_match it); cbn [negb flat_map].
  - rewrite <- app_assoc. apply Permutation_app_head. exact IH.
  - rewrite IH. rewrite !app_assoc. apply Permutation_app_tail, Permutation_app_comm.
Qed.

Lemma in_part t l p c pos : 0 <= pos -> chain t pos l -> In c (flat_map (piece t) (filter p l)) ->
  exists it u, In it l /\ p it = true /\ isubs it = [u] /\ occurs t u c /\ In c (slice t (start u) (slen u)).
Proof.
  revert pos. induction l as [|it l IH]; intros pos Hp H Hc; [destruct Hc|]. cbn [chain] in H. destruct H as (u & E & E1 & E2 & E3 & E4 & E5).
  cbn [filter] in Hc. assert (Hl : In c (flat_map (piece t) (filter p l)) -> exists it0 u0, In it0 (it :: l) /\ p it0 = true /\ isubs it0 = [u0] /\ occurs t u0 c /\ In c (slice t (start u0) (slen u0))).
  { intros Hc'. destruct (IH (pos + slen u)) as (it' & u' & I & R); auto; [lia|]. exists it', u'. split; [now right|exact R]. }
  destruct (p it) eqn:Ep; [|now apply Hl]. cbn [flat_map] in Hc. apply in_app_or in Hc as [Hc|Hc]; [|now apply Hl].
  exists it, u. split; [now left|]. split; [exact Ep|]. split; [exact E|]. unfold piece in Hc. rewrite E in Hc. split; [|exact Hc].
  apply In_znth in Hc as (k & Hk & Ek). rewrite zlen_slice in Hk by lia. rewrite znth_slice in Ek by lia.
  exists (start u + k). split; [lia|exact Ek].
Qed.

Lemma bags t1 t2 l1 l2 : transpose_sync t1 t2 = Ok (l1, l2) ->
  (forall c, c <> tilde -> times c (unmatched_part t1 l1) = surplus t1 t2 c /\ times c (unmatched_part t2 l2) = surplus t2 t1 c) /\
  times tilde (unmatched_part t2 l2) = times tilde t2 /\
  (forall c, In c (unmatched_part t1 l1) -> In c t1) /\ (forall c, In c (unmatched_part t2 l2) -> In c t2).
Proof.
  intros E. destruct (edit_operations_ok t1 t2 l1 l2 E) as (d & ls & _ & _ & _ & _ & Mv & _ & _ & _ & C1 & C2 & _).
  pose proof (moved_perm _ _ _ _ Mv) as Pm.
  pose proof (parts_perm t1 l1) as P1. pose proof (parts_perm t2 l2) as P2.
  rewrite (chain_pieces t1 l1 0 ltac:(lia) C1) in P1. rewrite (chain_pieces t2 l2 0 ltac:(lia) C2) in P2. cbn [Z.to_nat skipn] in P1, P2.
  split; [|split; [|split]].
  - intros c Hc.
    assert (D : times c (unmatched_part t1 l1) = 0 \/ times c (unmatched_part t2 l2) = 0).
    { destruct (in_dec Z.eq_dec c (unmatched_part t1 l1)) as [I1|I1]; [|left; now apply times_zero].
      destruct (in_dec Z.eq_dec c (unmatched_part t2 l2)) as [I2|I2]; [|right; now apply times_zero]. exfalso.
      destruct (in_part t1 l1 _ c 0 ltac:(lia) C1 I1) as (i1 & u1 & A1 & B1 & U1 & O1 & _).
      destruct (in_part t2 l2 _ c 0 ltac:(lia) C2 I2) as (i2 & u2 & A2 & B2 & U2 & O2 & _).
      apply negb_true_iff in B1, B2. exact (C24_nothing_left t1 t2 l1 l2 E i1 i2 u1 u2 c A1 A2 B1 B2 U1 U2 Hc (conj O1 O2)). }
    pose proof (times_perm c _ _ P1) as T1. pose proof (times_perm c _ _ P2) as T2. pose proof (times_perm c _ _ Pm) as T3. rewrite times_app in T1, T2.
    pose proof (times_nonneg c (unmatched_part t1 l1)). pose proof (times_nonneg c (unmatched_part t2 l2)). unfold surplus. lia.
  - rewrite (times_perm tilde _ _ P2), times_app.
    enough (times tilde (matched_part t2 l2) = 0) by lia. apply times_zero. intros I.
    destruct (in_part t2 l2 _ tilde 0 ltac:(lia) C2 I) as (i2 & u2 & A2 & B2 & U2 & _ & Hs).
    destruct (C23_transpose t1 t2) as (l1' & l2' & E' & _ & _ & _ & Pn & Same). rewrite E in E'. injection E' as <- <-.
    unfold is_match in B2. destruct (inum i2) as [n|] eqn:En; [|discriminate B2].
    assert (In (Some n) (map inum (filter is_match l1))) as Hn.
    { eapply Permutation_in; [exact Pn|]. apply in_map_iff. exists i2. split; [exact En|]. apply filter_In. split; [exact A2|]. unfold is_match. now rewrite En. }
    apply in_map_iff in Hn as (i1 & En1 & I1). apply filter_In in I1 as [I1 _].
    destruct (Same i1 i2 n I1 A2 En1 En) as (v1 & v2 & x & V1 & V2 & X0 & X1 & X2 & X3 & X4 & X5).
    rewrite V2 in U2. injection U2 as <-. rewrite X5 in Hs. exact (X1 Hs).
  - intros c Hc. eapply Permutation_in; [symmetry; exact P1|]. apply in_or_app. now right.
  - intros c Hc. eapply Permutation_in; [symmetry; exact P2|]. apply in_or_app. now right.
Qed.

Lemma filter_times (p : Z -> bool) c l : times c (filter p l) = if p c then times c l else 0.
Proof.
  unfold times. induction l as [|x l IH]; [now destruct (p c)|]. cbn [filter]. destruct (p x) eqn:Ep; cbn [filter]; (destruct (Z.eqb_spec c x) as [->|]; [rewrite Ep in *|exact IH]).
  - rewrite !zlen_cons. lia.
  - exact IH.
Qed.

(** ** Theorems *)

(** C91: the insertions are the surplus of the correct text over the generated text, character by
    character ('~' apart), the deletions that of the generated text, and its '~'. *)
Theorem C91_bags : forall t1 t2, exists d, edit_operations t1 t2 = Ok d /\
  insertions d = zsum (map (surplus t1 t2) (kinds t1)) /\
  deletions d = times tilde t2 + zsum (map (surplus t2 t1) (kinds t2)).
Proof.
  intros t1 t2. destruct (C23_transpose t1 t2) as (l1 & l2 & E & _).
  destruct (C43_counts t1 t2 l1 l2 E) as (d & Ed & Ei & Ex). exists d. split; [exact Ed|]. rewrite Ei, Ex.
  destruct (bags t1 t2 l1 l2 E) as (B & Bt & B1 & B2).
  set (p := fun c : Z => negb (c =? tilde)) in *.
  assert (K : forall t u s, (forall c, c <> tilde -> times c u = s c) -> (forall c, In c u -> In c t) -> zlen (filter p u) = zsum (map s (kinds t))).
  { intros t u s Hs Hi. rewrite (sum_times (filter p u) (kinds t)).
    - f_equal. apply map_ext_in. intros c Hc. unfold kinds in Hc. apply nodup_In, filter_In in Hc as [_ Hc]. rewrite filter_times. change (p c = true) in Hc. rewrite Hc.
      apply Hs. unfold p in Hc. apply negb_true_iff, Z.eqb_neq in Hc. exact Hc.
    - apply NoDup_nodup.
    - intros c Hc. apply filter_In in Hc as [H1 H2]. apply nodup_In, filter_In. split; [now apply Hi|exact H2]. }
  split; [apply K; [intros c Hc; now apply B|exact B1]|].
  rewrite <- (K t2 (unmatched_part t2 l2)); [|intros c Hc; now apply B|exact B2]. rewrite <- Bt.
  clear. induction (unmatched_part t2 l2) as [|x u IH]; [reflexivity|]. unfold times in *. cbn [filter]. unfold p at 1. rewrite (Z.eqb_sym tilde x).
  destruct (x =? tilde); cbn [negb]; rewrite !zlen_cons, IH; lia.
Qed.
Print Assumptions C91_bags.

Lemma times_surplus t1 t1' t2 t2' c : (forall c, times c t1 = times c t1') -> (forall c, times c t2 = times c t2') -> surplus t1 t2 c = surplus t1' t2' c.
Proof. intros H1 H2. unfold surplus. now rewrite H1, H2. Qed.

Lemma kinds_perm t t' (s : Z -> Z) : Permutation t t' -> zsum (map s (kinds t)) = zsum (map s (kinds t')).
Proof.
  intros P. apply TraceProps.zsum_perm. apply Permutation_map. unfold kinds. apply NoDup_Permutation; [apply NoDup_nodup|apply NoDup_nodup|].
  intros c. rewrite !nodup_In, !filter_In. split; intros [H1 H2]; (split; [|exact H2]); [|symmetry in P]; eapply Permutation_in; [exact P|exact H1|exact P|exact H1].
Qed.

(** C91: the order of the characters of either text does not matter to the insertions and deletions. *)
Theorem C91_any_order : forall t1 t2 t1' t2', Permutation t1 t1' -> Permutation t2 t2' ->
  exists d d', edit_operations t1 t2 = Ok d /\ edit_operations t1' t2' = Ok d' /\ insertions d = insertions d' /\ deletions d = deletions d'.
Proof.
  intros t1 t2 t1' t2' P1 P2. destruct (C91_bags t1 t2) as (d & E & I & D). destruct (C91_bags t1' t2') as (d' & E' & I' & D').
  exists d, d'. split; [exact E|]. split; [exact E'|]. rewrite I, D, I', D'.
  assert (T1 : forall c, times c t1 = times c t1') by (intros; now apply times_perm). assert (T2 : forall c, times c t2 = times c t2') by (intros; now apply times_perm).
  split.
  - rewrite (kinds_perm t1 t1' _ P1). f_equal. apply map_ext. intros c. now apply times_surplus.
  - rewrite T2, (kinds_perm t2 t2' _ P2). do 2 f_equal. apply map_ext. intros c. now apply times_surplus.
Qed.
Print Assumptions C91_any_order.

(** C91: a text made of the same characters in another order needs moves only, if any. *)
Theorem C91_only_moves : forall t1 t2, ~ In tilde t1 -> Permutation t1 t2 ->
  exists d, edit_operations t1 t2 = Ok d /\ insertions d = 0 /\ deletions d = 0.
Proof.
  intros t1 t2 N P. destruct (C91_bags t1 t2) as (d & E & I & D). exists d. split; [exact E|]. rewrite I, D.
  assert (Z0 : forall t t', Permutation t t' -> zsum (map (surplus t t') (kinds t)) = 0).
  { intros t t' Q. rewrite (map_ext _ (fun _ => 0)).
    - clear. induction (kinds t) as [|c l IH]; [reflexivity|]. cbn [map]. rewrite zsum_cons. lia.
    - intros c. unfold surplus. rewrite (times_perm c _ _ Q). lia. }
  split; [now apply Z0|]. rewrite (Z0 t2 t1 (Permutation_sym P)), times_zero; [reflexivity|].
  intros H. apply N. eapply Permutation_in; [symmetry; exact P|exact H].
Qed.
Print Assumptions C91_only_moves.

(** C91: exchanging the texts exchanges insertions and deletions, '~' apart; *)
Theorem C91_exchanged : forall t1 t2, exists d d', edit_operations t1 t2 = Ok d /\ edit_operations t2 t1 = Ok d' /\
  insertions d = deletions d' - times tilde t1 /\ deletions d - times tilde t2 = insertions d'.
Proof.
  intros t1 t2. destruct (C91_bags t1 t2) as (d & E & I & D). destruct (C91_bags t2 t1) as (d' & E' & I' & D').
  exists d, d'. split; [exact E|]. split; [exact E'|]. lia.
Qed.
Print Assumptions C91_exchanged.

(** but the number of moves may differ: "abaa" and "aabba". *)
Theorem C91_moves_exchanged_refuted :
  exists d d', edit_operations [97; 98; 97; 97] [97; 97; 98; 98; 97] = Ok d /\ edit_operations [97; 97; 98; 98; 97] [97; 98; 97; 97] = Ok d' /\
    total_moves d <> total_moves d'.
Proof. do 2 eexists. split; [vm_compute; reflexivity|]. split; [vm_compute; reflexivity|]. cbn. discriminate. Qed.
Print Assumptions C91_moves_exchanged_refuted.

(** The edits between two texts are at least the surplus on either side. *)
Lemma times_cons x c t : times c (x :: t) = (if c =? x then 1 else 0) + times c t.
Proof. unfold times. cbn [filter]. destruct (c =? x); rewrite ?zlen_cons; lia. Qed.
Lemma surplus_change D a b a' b' (x : Z) : NoDup D -> (forall c, surplus a' b' c <= surplus a b c + (if c =? x then 1 else 0)) ->
  zsum (map (surplus a' b') D) <= zsum (map (surplus a b) D) + 1.
Proof.
  intros N H.
  assert (zsum (map (surplus a' b') D) <= zsum (map (surplus a b) D) + (if in_dec Z.eq_dec x D then 1 else 0)); [|destruct (in_dec Z.eq_dec x D); lia].
  induction N as [|c D Hc N IH]; [cbn; lia|]. cbn [map]. rewrite !zsum_cons. specialize (H c).
  destruct (in_dec Z.eq_dec x (c :: D)) as [I|I], (in_dec Z.eq_dec x D) as [J|J]; destruct (Z.eqb_spec c x) as [->|Hne]; try contradiction; try lia.
  all: exfalso; solve [apply I; now right | apply I; now left | destruct I as [I|I]; contradiction].
Qed.
Lemma surplus_less D a b a' b' : (forall c, surplus a' b' c <= surplus a b c) -> zsum (map (surplus a' b') D) <= zsum (map (surplus a b) D).
Proof. intros H. induction D as [|c D IH]; [cbn; lia|]. cbn [map]. rewrite !zsum_cons. specialize (H c). lia. Qed.
Lemma edits_bags a b e : edits a b e -> forall D, NoDup D -> zsum (map (surplus a b) D) <= e /\ zsum (map (surplus b a) D) <= e.
Proof.
  induction 1 as [|x a b e Hx H IH|x y a b e H IH|x a b e H IH|y a b e H IH]; intros D N.
  - clear. induction D as [|c D IH]; [cbn; lia|]. cbn [map]. rewrite !zsum_cons. change (surplus [] [] c) with 0. lia.
  - destruct (IH D N) as [I J]. split; [etransitivity; [|exact I]|etransitivity; [|exact J]]; apply surplus_less; intros c; unfold surplus; rewrite !times_cons; destruct (c =? x); lia.
  - destruct (IH D N) as [I J]. split.
    + etransitivity; [apply (surplus_change D a b _ _ x N)|lia]. intros c. unfold surplus. rewrite !times_cons. destruct (c =? x), (c =? y); lia.
    + etransitivity; [apply (surplus_change D b a _ _ y N)|lia]. intros c. unfold surplus. rewrite !times_cons. destruct (c =? x), (c =? y); lia.
  - destruct (IH D N) as [I J]. split.
    + etransitivity; [apply (surplus_change D a b _ _ x N)|lia]. intros c. unfold surplus. rewrite !times_cons. destruct (c =? x); lia.
    + enough (zsum (map (surplus b (x :: a)) D) <= zsum (map (surplus b a) D)) by lia. apply surplus_less. intros c. unfold surplus. rewrite !times_cons. destruct (c =? x); lia.
  - destruct (IH D N) as [I J]. split.
    + enough (zsum (map (surplus a (y :: b)) D) <= zsum (map (surplus a b) D)) by lia. apply surplus_less. intros c. unfold surplus. rewrite !times_cons. destruct (c =? y); lia.
    + etransitivity; [apply (surplus_change D b a _ _ y N)|lia]. intros c. unfold surplus. rewrite !times_cons. destruct (c =? y); lia.
Qed.

(** C91: editop never reports more insertions, nor more deletions, than accuracy reports errors for the
    same texts (a correct text without '~'). *)
Theorem C91_accuracy : forall uc t0 t1 e, inputs_ok uc t0 t1 -> no_reject t0 -> errors_between uc t0 t1 e ->
  exists d, edit_operations (map value t0) (map value t1) = Ok d /\ insertions d <= e /\ deletions d <= e.
Proof.
  intros uc t0 t1 e I N E. rewrite (between_lev uc t0 t1 e I N E). destruct (C91_bags (map value t0) (map value t1)) as (d & Ed & Ei & Ex).
  exists d. split; [exact Ed|]. rewrite Ei, Ex. pose proof (edits_bags _ _ _ (lev_edits (map value t0) (map value t1))) as B.
  split; [apply B; apply NoDup_nodup|].
  destruct (B (tilde :: kinds (map value t1))) as [_ B2].
  - constructor; [|apply NoDup_nodup]. unfold kinds. rewrite nodup_In, filter_In. intros [_ H]. rewrite Z.eqb_refl in H. discriminate H.
  - cbn [map] in B2. rewrite zsum_cons in B2. unfold surplus at 1 in B2. rewrite (times_zero tilde (map value t0)) in B2 by exact N.
    pose proof (times_nonneg tilde (map value t1)). lia.
Qed.
Print Assumptions C91_accuracy.

(** A case: "banana~" read as "bandana~". *)
Example C91_ex :
  let t1 := [98; 97; 110; 97; 110; 97; 126] in let t2 := [98; 97; 110; 100; 97; 110; 97; 126] in
  exists d, edit_operations t1 t2 = Ok d /\ insertions d = 0 /\ deletions d = 2 /\ kinds t2 = [98; 100; 110; 97] /\ surplus t2 t1 100 = 1 /\ times tilde t2 = 1.
Proof. cbv zeta. eexists. split; [vm_compute; reflexivity|]. repeat split; reflexivity. Qed.

(** Another: "ab" read as "ba" has two errors, but needs one move only. *)
Example C91_accuracy_ex : exists d, edit_operations [97; 98] [98; 97] = Ok d /\ insertions d = 0 /\ deletions d = 0 /\ total_moves d = 1.
Proof. eexists. split; [vm_compute; reflexivity|]. repeat split; reflexivity. Qed.
