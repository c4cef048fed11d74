(** Further facts about the edit distance and subsequences. *)
From Verif Require Import Base SyncModel SyncSpec EditProof FastukkSync LcsSpec LcsTop MetricSpec.
Local Open Scope Z_scope.
Local Open Scope list_scope.

Lemma lev_delete_le x a b : lev (x :: a) b <= 1 + lev a b.
Proof. apply lev_min. rewrite Z.add_comm. apply edits_delete, lev_edits. Qed.
Lemma lev_insert_le y a b : lev a (y :: b) <= 1 + lev a b.
Proof. apply lev_min. rewrite Z.add_comm. apply edits_insert, lev_edits. Qed.
Lemma lev_subst_le x y a b : lev (x :: a) (y :: b) <= 1 + lev a b.
Proof. apply lev_min. rewrite Z.add_comm. apply edits_subst, lev_edits. Qed.

Lemma edits_triangle a b c : edits a b c -> forall e c', edits b e c' -> lev a e <= c + c'.
Proof.
  induction 1 as [|x a b c Hx H IH|x y a b c H IH|x a b c H IH|y a b c H IH]; intros e c' H'.
  - apply lev_min in H'. lia.
  - remember (x :: b) as xb eqn:E. revert E. induction H' as [|z b' e c' Hz H' IH'|z y b' e c' H' IH'|z b' e c' H' IH'|y b' e c' H' IH']; intros E; try discriminate E.
    + injection E as -> ->. rewrite lev_keep by exact Hz. now apply IH.
    + injection E as -> ->. pose proof (lev_subst_le x y a e). specialize (IH _ _ H'). lia.
    + injection E as -> ->. pose proof (lev_delete_le x a e). specialize (IH _ _ H'). lia.
    + specialize (IH' E). pose proof (lev_insert_le y (x :: a) e). lia.
  - remember (y :: b) as yb eqn:E. revert E. induction H' as [|z b' e c' Hz H' IH'|z w b' e c' H' IH'|z b' e c' H' IH'|w b' e c' H' IH']; intros E; try discriminate E.
    + injection E as -> ->. pose proof (lev_subst_le x y a e). specialize (IH _ _ H'). lia.
    + injection E as -> ->. pose proof (lev_subst_le x w a e). specialize (IH _ _ H'). lia.
    + injection E as -> ->. pose proof (lev_delete_le x a e). specialize (IH _ _ H'). lia.
    + specialize (IH' E). pose proof (lev_insert_le w (x :: a) e). lia.
  - specialize (IH _ _ H'). pose proof (lev_delete_le x a e). lia.
  - remember (y :: b) as yb eqn:E. revert E. induction H' as [|z b' e c' Hz H' IH'|z w b' e c' H' IH'|z b' e c' H' IH'|w b' e c' H' IH']; intros E; try discriminate E.
    + injection E as -> ->. pose proof (lev_insert_le y a e). specialize (IH _ _ H'). lia.
    + injection E as -> ->. pose proof (lev_insert_le w a e). specialize (IH _ _ H'). lia.
    + injection E as -> ->. specialize (IH _ _ H'). lia.
    + specialize (IH' E). pose proof (lev_insert_le w a e). lia.
Qed.
Lemma lev_triangle a b e : lev a e <= lev a b + lev b e.
Proof. eapply edits_triangle; apply lev_edits. Qed.

Lemma lev_zero a b : lev a b = 0 -> a = b.
Proof.
  intros E. pose proof (lev_edits a b) as H. rewrite E in H.
  assert (G : forall a b c, edits a b c -> 0 <= c /\ (c = 0 -> a = b)).
  { clear. induction 1; split; try lia; intros; try lia.
    - reflexivity.
    - f_equal. tauto. }
  apply G in H. tauto.
Qed.

(** An edit script split at a place of the second text. *)
Lemma edits_split a b c : edits a b c -> forall u v, b = u ++ v ->
  exists a1 a2 c1 c2, a = a1 ++ a2 /\ c = c1 + c2 /\ edits a1 u c1 /\ edits a2 v c2.
Proof.
  induction 1 as [|x a b c Hx H IH|x y a b c H IH|x a b c H IH|y a b c H IH]; intros u v E.
  - symmetry in E. apply app_eq_nil in E as [-> ->]. exists [], [], 0, 0. repeat split; constructor.
  - destruct u as [|z u]; cbn [app] in E.
    + subst v. exists [], (x :: a), 0, c. split; [reflexivity|]. split; [lia|]. split; constructor; assumption.
    + injection E as <- ->. destruct (IH u v eq_refl) as (a1 & a2 & c1 & c2 & -> & -> & H1 & H2).
      exists (x :: a1), a2, c1, c2. split; [reflexivity|]. split; [lia|]. split; [now constructor|exact H2].
  - destruct u as [|z u]; cbn [app] in E.
    + subst v. exists [], (x :: a), 0, (c + 1). split; [reflexivity|]. split; [lia|]. split; constructor; assumption.
    + injection E as <- ->. destruct (IH u v eq_refl) as (a1 & a2 & c1 & c2 & -> & -> & H1 & H2).
      exists (x :: a1), a2, (c1 + 1), c2. split; [reflexivity|]. split; [lia|]. split; [now constructor|exact H2].
  - destruct (IH u v E) as (a1 & a2 & c1 & c2 & -> & -> & H1 & H2).
    exists (x :: a1), a2, (c1 + 1), c2. split; [reflexivity|]. split; [lia|]. split; [now constructor|exact H2].
  - destruct u as [|z u]; cbn [app] in E.
    + subst v. exists [], a, 0, (c + 1). split; [reflexivity|]. split; [lia|]. split; constructor; assumption.
    + injection E as <- ->. destruct (IH u v eq_refl) as (a1 & a2 & c1 & c2 & -> & -> & H1 & H2).
      exists a1, a2, (c1 + 1), c2. split; [reflexivity|]. split; [lia|]. split; [now constructor|exact H2].
Qed.

Lemma lev_change a u p q v : lev a (u ++ q ++ v) <= lev a (u ++ p ++ v) + lev p q.
Proof.
  destruct (edits_split _ _ _ (lev_edits a (u ++ p ++ v)) u (p ++ v) eq_refl) as (a1 & a2 & c1 & c2 & -> & E & H1 & H2).
  destruct (edits_split _ _ _ H2 p v eq_refl) as (a3 & a4 & c3 & c4 & -> & -> & H3 & H4).
  pose proof (lev_app a1 u (a3 ++ a4) (q ++ v)). pose proof (lev_app a3 q a4 v). pose proof (lev_triangle a3 p q).
  apply lev_min in H1, H3, H4. lia.
Qed.

Lemma lev_one_edit a b b' : one_edit b b' -> lev a b' <= lev a b + 1.
Proof.
  intros H. destruct H as [u x v|u x v|u x y v].
  - apply (lev_change a u [] [x] v).
  - apply (lev_change a u [x] [] v).
  - pose proof (lev_change a u [x] [y] v) as H. assert (lev [x] [y] <= 1) by (cbn; destruct (_ && _); lia). cbn [app] in H. lia.
Qed.
Lemma one_edit_sym {A} (b b' : list A) : one_edit b b' -> one_edit b' b.
Proof. intros []; constructor. Qed.
Lemma one_edit_map {A B} (f : A -> B) b b' : one_edit b b' -> one_edit (map f b) (map f b').
Proof. intros []; rewrite !map_app; constructor. Qed.

Lemma edits_rev a b c : edits a b c -> edits (rev a) (rev b) c.
Proof.
  induction 1 as [|x a b c Hx H IH|x y a b c H IH|x a b c H IH|y a b c H IH]; cbn [rev].
  - constructor.
  - replace c with (c + 0) by lia. apply edits_app; [exact IH|]. constructor; [exact Hx|constructor].
  - apply edits_app; [exact IH|]. change 1 with (0 + 1). constructor. constructor.
  - rewrite <- (app_nil_r (rev b)). apply edits_app; [exact IH|]. change 1 with (0 + 1). constructor. constructor.
  - rewrite <- (app_nil_r (rev a)). apply edits_app; [exact IH|]. change 1 with (0 + 1). constructor. constructor.
Qed.
Lemma lev_rev a b : lev (rev a) (rev b) = lev a b.
Proof.
  apply Z.le_antisymm; apply lev_min; [apply edits_rev, lev_edits|].
  rewrite <- (rev_involutive a), <- (rev_involutive b) at 1. apply edits_rev, lev_edits.
Qed.
Lemma lev_prefix p a b : ~ In 126 p -> lev (p ++ a) (p ++ b) = lev a b.
Proof.
  induction p as [|x p IH]; intros N; [reflexivity|]. cbn [app]. rewrite lev_keep by (intros E; apply N; left; auto).
  apply IH. intros I. apply N. now right.
Qed.
Lemma lev_suffix s a b : ~ In 126 s -> lev (a ++ s) (b ++ s) = lev a b.
Proof.
  intros N. rewrite <- lev_rev, !rev_app_distr, lev_prefix by (rewrite <- in_rev; exact N). apply lev_rev.
Qed.

(** Two subsequences of one list have many elements in common. *)
Lemma subseq_common {T} (l : list T) : forall c d, subseq c l -> subseq d l ->
  exists e, subseq e c /\ subseq e d /\ zlen c + zlen d <= zlen l + zlen e.
Proof.
  induction l as [|x l IH]; intros c d Hc Hd.
  - inversion Hc; subst. inversion Hd; subst. exists []. split; [constructor|]. split; [constructor|]. cbn. lia.
  - inversion Hc as [|? c' ? Hc'|? ? ? Hc']; subst; inversion Hd as [|? d' ? Hd'|? ? ? Hd']; subst;
      destruct (IH _ _ Hc' Hd') as (e & E1 & E2 & L).
    + exists (x :: e). rewrite !zlen_cons. split; [now constructor|]. split; [now constructor|lia].
    + exists e. rewrite !zlen_cons. split; [now constructor|]. split; [assumption|lia].
    + exists e. rewrite !zlen_cons. split; [assumption|]. split; [now constructor|lia].
    + exists e. rewrite !zlen_cons. split; [assumption|]. split; [assumption|lia].
Qed.
Lemma subseq_zlen {T} (c l : list T) : subseq c l -> zlen c <= zlen l.
Proof. induction 1; rewrite ?zlen_cons; lia. Qed.
Lemma subseq_all {T} (c l : list T) : subseq c l -> zlen c = zlen l -> c = l.
Proof.
  induction 1 as [|x c l H IH|x c l H IH]; intros E; [reflexivity|rewrite !zlen_cons in E; f_equal; apply IH; lia|].
  apply subseq_zlen in H. rewrite zlen_cons in E. lia.
Qed.
Lemma subseq_one_edit {T} (b b' : list T) : one_edit b b' -> exists c, subseq c b /\ subseq c b' /\ zlen b <= zlen c + 1.
Proof.
  assert (Hu : forall u v w : list T, subseq v w -> subseq (u ++ v) (u ++ w)).
  { induction u as [|x u IH]; intros v w H; [exact H|]. cbn [app]. constructor. now apply IH. }
  intros [u x v|u x v|u x y v]; exists (u ++ v); rewrite !zlen_app, ?zlen_cons; (split; [|split; [|lia]]); apply Hu; try (constructor; apply subseq_refl); apply subseq_refl.
Qed.
