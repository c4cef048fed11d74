(** C98: the '~' of a correct text. *)
From Coq Require Import String.
From Verif Require Import Base CLib Utf8Model TextModel TextSpec TextProps CharclassModel CompareModel SyncModel SyncSpec EditProof AccModel AccSpec SumProof
  AccProof AccCount AccTop AccProps FastukkSync MetricSpec MetricProof WildSpec.
Local Open Scope Z_scope.
Local Open Scope list_scope.

(** The number of '~'. *)
Definition tildes (a : list Z) : Z := zlen (filter (Z.eqb 126) a).
Lemma tildes_cons x a : tildes (x :: a) = (if 126 =? x then 1 else 0) + tildes a.
Proof. unfold tildes. cbn [filter]. destruct (126 =? x); [rewrite zlen_cons; apply Z.add_comm|symmetry; apply Z.add_0_l]. Qed.
Lemma tildes_plain x a : x <> 126 -> tildes (x :: a) = tildes a.
Proof. intros H. rewrite tildes_cons. destruct (Z.eqb_spec 126 x); [exfalso; congruence|]. apply Z.add_0_l. Qed.
Lemma tildes_tilde a : tildes (126 :: a) = tildes a + 1.
Proof. rewrite tildes_cons. change (126 =? 126) with true. apply Z.add_comm. Qed.
Lemma tildes_app a b : tildes (a ++ b) = tildes a + tildes b.
Proof. unfold tildes. now rewrite filter_app, zlen_app. Qed.
Lemma tildes_none a : ~ In 126 a -> tildes a = 0.
Proof. induction a as [|x a IH]; intros H; [reflexivity|]. rewrite tildes_plain; [apply IH; intros H'; apply H; now right|]. intros ->. apply H. now left. Qed.
Lemma tildes_num t : tildes (map value t) = num is_tilde t.
Proof. induction t as [|c t IH]; [reflexivity|]. cbn [map]. rewrite tildes_cons, num_cons, IH. unfold is_tilde. now rewrite Z.eqb_sym. Qed.

(** A '~' costs one edit if it is a character like the others that matches none. *)
Lemma edits_forgiving a b c : edits a b c -> forgiving a b (c - tildes a).
Proof.
  induction 1 as [|x a b c N E IH|x y a b c E IH|x a b c E IH|y a b c E IH].
  - apply forgiving_nil.
  - rewrite tildes_plain by exact N. now apply forgiving_keep.
  - destruct (Z.eq_dec x 126) as [->|N].
    + rewrite tildes_tilde. replace (c + 1 - (tildes a + 1)) with (c - tildes a) by lia. now apply forgiving_any.
    + rewrite tildes_plain by exact N. replace (c + 1 - tildes a) with (c - tildes a + 1) by lia. now apply forgiving_subst.
  - destruct (Z.eq_dec x 126) as [->|N].
    + rewrite tildes_tilde. replace (c + 1 - (tildes a + 1)) with (c - tildes a) by lia. now apply forgiving_none.
    + rewrite tildes_plain by exact N. replace (c + 1 - tildes a) with (c - tildes a + 1) by lia. now apply forgiving_delete.
  - replace (c + 1 - tildes a) with (c - tildes a + 1) by lia. now apply forgiving_insert.
Qed.

Lemma forgiving_edits a b c : forgiving a b c -> edits a b (c + tildes a).
Proof.
  induction 1 as [|x a b c N E IH|y a b c E IH|a b c E IH|x y a b c N E IH|x a b c N E IH|y a b c E IH].
  - apply edits_nil.
  - rewrite tildes_plain by exact N. now apply edits_keep.
  - rewrite tildes_tilde, Z.add_assoc. now apply edits_subst.
  - rewrite tildes_tilde, Z.add_assoc. now apply edits_delete.
  - rewrite tildes_plain by exact N. replace (c + 1 + tildes a) with (c + tildes a + 1) by lia. now apply edits_subst.
  - rewrite tildes_plain by exact N. replace (c + 1 + tildes a) with (c + tildes a + 1) by lia. now apply edits_delete.
  - replace (c + 1 + tildes a) with (c + tildes a + 1) by lia. now apply edits_insert.
Qed.

Lemma group_saves t0 t1 it : group_errors t0 t1 it = Z.max (zlen (correct t0 it)) (zlen (generated t1 it)) - num is_tilde (correct t0 it).
Proof.
  unfold group_errors, group_chars, group_gen. pose proof (num_split (correct t0 it)). pose proof (num_nonneg plain (correct t0 it)).
  pose proof (num_nonneg is_tilde (correct t0 it)). pose proof (zlen_nonneg (generated t1 it)). lia.
Qed.

(** Errors in terms of the distance. *)
Lemma errors_lev uc t0 t1 d : inputs_ok uc t0 t1 -> accuracy_data uc t0 t1 = Ok d ->
  errors d = lev (map value t0) (map value t1) - tildes (map value t0).
Proof.
  intros (N & T0 & T1 & Tab & L) Hd.
  destruct (accuracy_counted uc t0 t1 N T0 T1 Tab L) as (l & d' & E & Ed & C & F & P0 & P1 & G & D).
  assert (d' = d) by congruence. subst d'. apply distance_lev in D. rewrite <- D, tildes_num, <- P0, num_flat_map.
  rewrite (cn_errors _ _ _ _ _ C), (total_cost_unmatched t0 t1 l F). clear - F G. unfold matches_genuine in G. unfold unmatched_items.
  induction F as [|it l H F IH]; [reflexivity|]. apply Forall_cons_iff in G as [G0 G]. specialize (IH G).
  cbn [filter map]. rewrite zsum_cons. destruct (is_match it) eqn:M; cbn [negb map].
  - destruct (genuine_parts t0 t1 it H (G0 eq_refl)) as [_ Nt]. apply no_tilde in Nt. lia.
  - rewrite !zsum_cons, group_saves. lia.
Qed.

(** C98: the errors that accuracy counts are the least number of edits when each '~' of the
    correct text stands for any one character or for none; that is the distance of the texts
    (where '~' is a character that must be edited) less the number of '~' of the correct text. *)
Theorem C98_errors : forall uc t0 t1, inputs_ok uc t0 t1 ->
  exists d, accuracy_data uc t0 t1 = Ok d /\
    forgiving_distance (map value t0) (map value t1) (errors d) /\
    distance (map value t0) (map value t1) (errors d + num is_tilde t0).
Proof.
  intros uc t0 t1 I. destruct (C25_figures uc t0 t1 I) as (d & Ed & _). exists d. split; [exact Ed|].
  pose proof (errors_lev uc t0 t1 d I Ed) as El. pose proof (lev_distance (map value t0) (map value t1)) as D.
  split.
  - rewrite El. split; [apply edits_forgiving, D|]. intros c Hc. apply forgiving_edits in Hc. apply D in Hc. lia.
  - rewrite El, tildes_num. replace (_ - _ + _) with (lev (map value t0) (map value t1)) by lia. exact D.
Qed.
Print Assumptions C98_errors.

(** C98: in terms of complete texts: for a generated text without '~', the errors are those of
    some text that results from filling in the '~' of the correct text, and no such text has
    fewer. *)
Lemma forgiving_filled a b c : forgiving a b c -> ~ In 126 b -> exists f, filled a f /\ edits f b c.
Proof.
  induction 1 as [|x a b c N E IH|y a b c E IH|a b c E IH|x y a b c N E IH|x a b c N E IH|y a b c E IH]; intros Nb;
    try (destruct IH as (f & F & Ef); [intros H; apply Nb; first [exact H|now right]|]).
  - exists []. split; [apply filled_nil|apply edits_nil].
  - exists (x :: f). split; [now apply filled_keep|now apply edits_keep].
  - exists (y :: f). split; [now apply filled_any|]. apply edits_keep; [intros ->; apply Nb; now left|exact Ef].
  - exists f. split; [now apply filled_none|exact Ef].
  - exists (x :: f). split; [now apply filled_keep|now apply edits_subst].
  - exists (x :: f). split; [now apply filled_keep|now apply edits_delete].
  - exists f. split; [exact F|now apply edits_insert].
Qed.

Lemma filled_forgiving a f : filled a f -> forall b c, edits f b c -> exists c', c' <= c /\ forgiving a b c'.
Proof.
  induction 1 as [|x t f Nx F IH|y t f F IH|t f F IH]; intros b c He.
  - pose proof (edits_forgiving _ _ _ He) as H. exists c. split; [lia|]. rewrite (tildes_none []) in H by (intros []). now rewrite Z.sub_0_r in H.
  - remember (x :: f) as a eqn:Ea. induction He as [|z a b c Nz E _|z y a b c E _|z a b c E _|y a b c E IHe]; try discriminate Ea.
    + injection Ea as -> ->. destruct (IH _ _ E) as (c' & Lc & H). exists c'. split; [exact Lc|now apply forgiving_keep].
    + injection Ea as -> ->. destruct (IH _ _ E) as (c' & Lc & H). exists (c' + 1). split; [lia|now apply forgiving_subst].
    + injection Ea as -> ->. destruct (IH _ _ E) as (c' & Lc & H). exists (c' + 1). split; [lia|now apply forgiving_delete].
    + destruct (IHe Ea) as (c' & Lc & H). exists (c' + 1). split; [lia|now apply forgiving_insert].
  - remember (y :: f) as a eqn:Ea. induction He as [|z a b c Nz E _|z w a b c E _|z a b c E _|w a b c E IHe]; try discriminate Ea.
    + injection Ea as -> ->. destruct (IH _ _ E) as (c' & Lc & H). exists c'. split; [exact Lc|now apply forgiving_any].
    + injection Ea as -> ->. destruct (IH _ _ E) as (c' & Lc & H). exists c'. split; [lia|now apply forgiving_any].
    + injection Ea as -> ->. destruct (IH _ _ E) as (c' & Lc & H). exists c'. split; [lia|now apply forgiving_none].
    + destruct (IHe Ea) as (c' & Lc & H). exists (c' + 1). split; [lia|now apply forgiving_insert].
  - destruct (IH _ _ He) as (c' & Lc & H). exists c'. split; [exact Lc|now apply forgiving_none].
Qed.

Theorem C98_filled : forall uc t0 t1 d, inputs_ok uc t0 t1 -> accuracy_data uc t0 t1 = Ok d -> no_reject t1 ->
  (exists f, filled (map value t0) f /\ distance f (map value t1) (errors d)) /\
  (forall f c, filled (map value t0) f -> edits f (map value t1) c -> errors d <= c).
Proof.
  intros uc t0 t1 d I Ed N. destruct (C98_errors uc t0 t1 I) as (d' & Ed' & (F & M) & _). assert (d' = d) by congruence. subst d'.
  assert (Low : forall f c, filled (map value t0) f -> edits f (map value t1) c -> errors d <= c).
  { intros f c Hf He. destruct (filled_forgiving _ _ Hf _ _ He) as (c' & Lc & H). apply M in H. lia. }
  split; [|exact Low]. destruct (forgiving_filled _ _ _ F N) as (f & Hf & He). exists f. split; [exact Hf|]. split; [exact He|]. intros c Hc. exact (Low f c Hf Hc).
Qed.
Print Assumptions C98_filled.

(** C98: hence the errors change by at most one when a character of the generated text is
    inserted, deleted or replaced, whatever '~' the correct text has; *)
Theorem C98_one_edit : forall uc t0 t1 t1' e e', inputs_ok uc t0 t1 -> inputs_ok uc t0 t1' -> one_edit t1 t1' ->
  errors_between uc t0 t1 e -> errors_between uc t0 t1' e' -> Z.abs (e - e') <= 1.
Proof.
  intros uc t0 t1 t1' e e' I I' O (d & E & <-) (d' & E' & <-). rewrite (errors_lev uc t0 t1 d I E), (errors_lev uc t0 t1' d' I' E').
  pose proof (lev_one_edit (map value t0) _ _ (one_edit_map value _ _ O)).
  pose proof (lev_one_edit (map value t0) _ _ (one_edit_sym _ _ (one_edit_map value _ _ O))). lia.
Qed.
Print Assumptions C98_one_edit.

(** they change by at most the errors of the one generated text with respect to the other; *)
Theorem C98_triangle : forall uc t0 t1 t1' e e' f, inputs_ok uc t0 t1 -> inputs_ok uc t0 t1' -> inputs_ok uc t1 t1' -> no_reject t1 ->
  errors_between uc t0 t1 e -> errors_between uc t0 t1' e' -> errors_between uc t1 t1' f -> e' <= e + f.
Proof.
  intros uc t0 t1 t1' e e' f I I' I2 N (d & E & <-) (d' & E' & <-) (d2 & E2 & <-).
  rewrite (errors_lev uc t0 t1 d I E), (errors_lev uc t0 t1' d' I' E'), (errors_lev uc t1 t1' d2 I2 E2), (tildes_none (map value t1)) by exact N.
  pose proof (lev_triangle (map value t0) (map value t1) (map value t1')). lia.
Qed.
Print Assumptions C98_triangle.

(** putting '~' for a character of the correct text removes one error or none; *)
Lemma lev_mask u x v b : x <> 126 -> lev (u ++ x :: v) b <= lev (u ++ 126 :: v) b <= lev (u ++ x :: v) b + 1.
Proof.
  intros N. split.
  - apply lev_min.
    assert (G : forall a b c, edits a b c -> forall u, a = u ++ 126 :: v -> edits (u ++ x :: v) b c).
    { clear b u. intros a b c H. induction H as [|z a b c Nz E IH|z y a b c E IH|z a b c E IH|y a b c E IH]; intros u Ea.
      - destruct u; discriminate Ea.
      - destruct u as [|w u]; injection Ea as -> Ea; [exfalso; apply Nz; reflexivity|]. cbn [app]. apply edits_keep; auto.
      - destruct u as [|w u]; injection Ea as -> Ea; [subst a; cbn [app]; now apply edits_subst|]. cbn [app]. apply edits_subst; auto.
      - destruct u as [|w u]; injection Ea as -> Ea; [subst a; cbn [app]; now apply edits_delete|]. cbn [app]. apply edits_delete; auto.
      - apply edits_insert; auto. }
    apply (G _ _ _ (lev_edits (u ++ 126 :: v) b) u eq_refl).
  - rewrite !(lev_sym _ b). apply lev_one_edit. apply one_replace.
Qed.

Theorem C98_masked : forall uc u c v t1 e e', inputs_ok uc (u ++ c :: v) t1 -> value c <> 126 ->
  errors_between uc (u ++ c :: v) t1 e -> errors_between uc (u ++ mkchar (suspect c) 126 :: v) t1 e' -> e - 1 <= e' <= e.
Proof.
  intros uc u c v t1 e e' I N (d & E & <-) (d' & E' & <-).
  assert (I' : inputs_ok uc (u ++ mkchar (suspect c) 126 :: v) t1).
  { destruct I as (H1 & H2 & H3 & H4 & H5). unfold text_ok, tabulable in *. apply Forall_app in H2 as [A2 B2]. apply Forall_app in H4 as [A4 B4].
    apply Forall_cons_iff in B2 as [_ B2]. apply Forall_cons_iff in B4 as [_ B4]. rewrite zlen_app, zlen_cons in H5.
    split; [exact H1|]. split; [|split; [exact H3|split]].
    - apply Forall_app. split; [exact A2|]. apply Forall_cons; [cbn [value]; unfold scalar; lia|exact B2].
    - apply Forall_app. split; [exact A4|]. apply Forall_cons; [cbn [value]; lia|exact B4].
    - rewrite zlen_app, zlen_cons. exact H5. }
  rewrite (errors_lev uc _ t1 d I E), (errors_lev uc _ t1 d' I' E'), !map_app. cbn [map value]. rewrite !tildes_app, tildes_tilde, (tildes_plain (value c)) by exact N.
  pose proof (lev_mask (map value u) (value c) (map value v) (map value t1) N). lia.
Qed.
Print Assumptions C98_masked.

(** and each reject of the generated text is an error, unless a '~' of the correct text
    stands for it. *)
Lemma edits_rejects a b c : edits a b c -> tildes b <= c.
Proof.
  induction 1 as [|x a b c N E IH|x y a b c E IH|x a b c E IH|y a b c E IH]; rewrite ?(tildes_plain x) by exact N; rewrite ?(tildes_cons y); try destruct (126 =? y); try lia.
  unfold tildes. cbn. lia.
Qed.

Theorem C98_rejects : forall uc t0 t1 d, inputs_ok uc t0 t1 -> accuracy_data uc t0 t1 = Ok d ->
  rejects d <= errors d + num is_tilde t0.
Proof.
  intros uc t0 t1 d I E. destruct (C27_marks uc t0 t1 d I E) as (l & _ & -> & _). rewrite (errors_lev uc t0 t1 d I E), <- !tildes_num.
  pose proof (edits_rejects _ _ _ (lev_edits (map value t0) (map value t1))). lia.
Qed.
Print Assumptions C98_rejects.

(** C98: accuracy finds no errors exactly in the texts that fill in the '~' of the correct
    text (rejects, too, may be in the place of a '~'). *)
Lemma forgiving_nonneg a b c : forgiving a b c -> 0 <= c.
Proof. induction 1; lia. Qed.

Theorem C98_perfect : forall uc t0 t1 d, inputs_ok uc t0 t1 -> accuracy_data uc t0 t1 = Ok d ->
  (errors d = 0 <-> filled (map value t0) (map value t1)).
Proof.
  intros uc t0 t1 d I Ed. destruct (C98_errors uc t0 t1 I) as (d' & Ed' & (F & M) & _). assert (d' = d) by congruence. subst d'. split.
  - intros E0. rewrite E0 in F. clear - F. remember 0 as c eqn:Ec.
    induction F as [|x a b c N E IH|y a b c E IH|a b c E IH|x y a b c N E IH|x a b c N E IH|y a b c E IH]; try (exfalso; apply forgiving_nonneg in E; lia).
    + apply filled_nil.
    + apply filled_keep; auto.
    + apply filled_any; auto.
    + apply filled_none; auto.
  - intros H. apply Z.le_antisymm; [|exact (forgiving_nonneg _ _ _ F)]. apply M. clear - H.
    induction H; [apply forgiving_nil|now apply forgiving_keep|now apply forgiving_any|now apply forgiving_none].
Qed.
Print Assumptions C98_perfect.

(** C98: the errors of a text are at most those of its parts, and what both texts begin or
    end with ('~' apart) makes no difference. *)
Lemma inputs_parts uc t0 t1 u0 u1 : inputs_ok uc (t0 ++ u0) (t1 ++ u1) -> inputs_ok uc t0 t1 /\ inputs_ok uc u0 u1.
Proof.
  intros (Nu & T0 & T1 & Tb & L). unfold text_ok, tabulable in *. apply Forall_app in T0 as [? ?], T1 as [? ?], Tb as [? ?]. rewrite zlen_app in L.
  pose proof (zlen_nonneg t0). pose proof (zlen_nonneg u0). split; (split; [exact Nu|]; split; [assumption|]; split; [assumption|]; split; [assumption|lia]).
Qed.

Theorem C98_parts : forall uc t0 t1 u0 u1 e e' f, inputs_ok uc (t0 ++ u0) (t1 ++ u1) ->
  errors_between uc t0 t1 e -> errors_between uc u0 u1 e' -> errors_between uc (t0 ++ u0) (t1 ++ u1) f -> f <= e + e'.
Proof.
  intros uc t0 t1 u0 u1 e e' f I (d & E & <-) (d' & E' & <-) (d2 & E2 & <-). destruct (inputs_parts uc t0 t1 u0 u1 I) as [I1 I2].
  rewrite (errors_lev uc _ _ d I1 E), (errors_lev uc _ _ d' I2 E'), (errors_lev uc _ _ d2 I E2), !map_app, tildes_app.
  pose proof (FastukkSync.lev_app (map value t0) (map value t1) (map value u0) (map value u1)). lia.
Qed.
Print Assumptions C98_parts.

Theorem C98_common : forall uc p s t0 t1 e f, inputs_ok uc (p ++ t0 ++ s) (p ++ t1 ++ s) -> no_reject p -> no_reject s ->
  errors_between uc t0 t1 e -> errors_between uc (p ++ t0 ++ s) (p ++ t1 ++ s) f -> f = e.
Proof.
  intros uc p s t0 t1 e f I Np Ns (d & E & <-) (d' & E' & <-). destruct (inputs_parts uc p p _ _ I) as [_ I1]. destruct (inputs_parts uc t0 t1 s s I1) as [I2 _].
  rewrite (errors_lev uc _ _ d I2 E), (errors_lev uc _ _ d' I E'), !map_app, !tildes_app.
  rewrite (tildes_none (map value p)), (tildes_none (map value s)) by assumption. rewrite lev_prefix, lev_suffix by assumption. lia.
Qed.
Print Assumptions C98_common.

(** A case: "a~c~" read as "xc" has one error, "abc" for example is a correct text. *)
Example C98_ex :
  let t0 := map (mkchar false) (bytes "a~c~") in let t1 := map (mkchar false) (bytes "xc") in
  inputs_ok sample_uc t0 t1 /\ no_reject t1 /\ errors_between sample_uc t0 t1 1 /\
  filled (bytes "a~c~") (bytes "ac") /\ distance (bytes "a~c~") (bytes "xc") 3.
Proof.
  cbv zeta. split; [|split; [|split; [|split]]].
  - repeat apply conj; [reflexivity| | | |vm_compute; discriminate];
      unfold text_ok, tabulable, scalar; rewrite ?Forall_forall; intros c Hc; vm_compute in Hc; intuition (subst; cbn [value] in *; lia).
  - intros H. vm_compute in H. intuition discriminate.
  - unfold errors_between. destruct (accuracy_data sample_uc _ _) as [d| | |] eqn:E; [|exfalso; vm_compute in E; discriminate E..].
    exists d. split; [reflexivity|]. pose proof (f_equal (fun o => match o with Ok d => errors d | _ => -1 end) E) as H. cbv beta iota in H. rewrite <- H. vm_compute. reflexivity.
  - apply filled_keep; [discriminate|]. apply filled_none, filled_keep; [discriminate|]. apply filled_none, filled_nil.
  - change 3 with (lev (bytes "a~c~") (bytes "xc")). apply lev_distance.
Qed.
