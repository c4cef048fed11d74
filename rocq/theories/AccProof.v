(** Proofs about accuracy's accounting. *)
From Coq Require Import String.
From Verif Require Import Base CLib Utf8Model TextModel TextSpec Utf8Proof TextProof CLibProof TextIO
  CharclassModel CharclassProof CharclassProps CompareModel SyncModel SyncSpec AccModel AccSpec
  SumProof.
Local Open Scope Z_scope.
Local Open Scope list_scope.

(** *** Classes *)
Definition class_of (v : Z) : Z :=
  match charclass v with Ok k => k | _ => -1 end.

Lemma charclass_class v : 0 <= v < 1114111 -> charclass v = Ok (class_of v) /\ 0 <= class_of v < 256.
Proof.
  intros H. destruct (C32_class_name v H) as (c & _ & E & B & _).
  unfold class_of. rewrite E. auto.
Qed.
Lemma in_class_of j v : 0 <= v < 1114111 -> in_class j v = (class_of v =? j).
Proof. intros H. unfold in_class. destruct (charclass_class v H) as [-> _]. reflexivity. Qed.
#[global] Opaque class_of charclass in_class.

Definition add_class_pure (d : accdata) (v c m : Z) : accdata :=
  mkacc (characters d) (errors d) (rejects d) (suspects d) (false_marks d)
        (marked_ops d) (unmarked_ops d) (total_ops d)
        (upd (large d) (class_of v) (update_class (large d (class_of v)) c m))
        (update_class (total_class d) c m) (conftable d)
        (upd (small d) v (update_class (small d v) c m)).

Lemma add_class_ok d v c m : 0 <= v < 1114111 -> add_class d v c m = Ok (add_class_pure d v c m).
Proof.
  intros H. unfold add_class. destruct (charclass_class v H) as [-> _]. cbn [obind].
  unfold NUM_CHARVALUES. replace ((0 <=? v) && (v <? 1114111)) with true by lia. reflexivity.
Qed.

Lemma upd_count (f : Z -> accclass) i c m x :
  ccount (upd f i (update_class (f i) c m) x) = ccount (f x) + (if x =? i then c else 0).
Proof. unfold upd. destruct (Z.eqb_spec x i); [subst; reflexivity|lia]. Qed.
Lemma upd_missed (f : Z -> accclass) i c m x :
  cmissed (upd f i (update_class (f i) c m) x) = cmissed (f x) + (if x =? i then m else 0).
Proof. unfold upd. destruct (Z.eqb_spec x i); [subst; reflexivity|lia]. Qed.

Lemma add_class_consistent d v c m :
  0 <= v < 1114111 -> 0 <= m <= c -> tables_consistent d ->
  tables_consistent (add_class_pure d v c m).
Proof.
  intros Hv Hm [R M LC LM TC TM UC UM]. destruct (charclass_class v Hv) as [_ B].
  constructor; cbn [small large total_class add_class_pure].
  - intros w Hw. unfold upd. destruct (Z.eqb_spec w v); [lia|auto].
  - intros w. rewrite upd_count, upd_missed. specialize (M w). destruct (w =? v); lia.
  - intros j Hj. rewrite upd_count, LC by exact Hj.
    destruct (Z.eqb_spec j (class_of v)) as [E|E].
    + rewrite <- (sum_to_add_at 1114111 _ v c) by exact Hv. apply sum_to_ext; [lia|].
      intros x Hx. rewrite upd_count. destruct (Z.eqb_spec x v) as [->|E'].
      * rewrite in_class_of by lia. replace (class_of v =? j) with true by lia. reflexivity.
      * destruct (in_class j x); lia.
    + rewrite Z.add_0_r. apply sum_to_ext; [lia|]. intros x Hx. rewrite upd_count.
      destruct (Z.eqb_spec x v) as [->|E']; [|now rewrite Z.add_0_r].
      rewrite in_class_of by lia. replace (class_of v =? j) with false by lia. reflexivity.
  - intros j Hj. rewrite upd_missed, LM by exact Hj.
    destruct (Z.eqb_spec j (class_of v)) as [E|E].
    + rewrite <- (sum_to_add_at 1114111 _ v m) by exact Hv. apply sum_to_ext; [lia|].
      intros x Hx. rewrite upd_missed. destruct (Z.eqb_spec x v) as [->|E'].
      * rewrite in_class_of by lia. replace (class_of v =? j) with true by lia. reflexivity.
      * destruct (in_class j x); lia.
    + rewrite Z.add_0_r. apply sum_to_ext; [lia|]. intros x Hx. rewrite upd_missed.
      destruct (Z.eqb_spec x v) as [->|E']; [|now rewrite Z.add_0_r].
      rewrite in_class_of by lia. replace (class_of v =? j) with false by lia. reflexivity.
  - cbn [update_class ccount]. rewrite TC, <- (sum_to_add_at 1114111 _ v c) by exact Hv.
    apply sum_to_ext; [lia|]. intros. now rewrite upd_count.
  - cbn [update_class cmissed]. rewrite TM, <- (sum_to_add_at 1114111 _ v m) by exact Hv.
    apply sum_to_ext; [lia|]. intros. now rewrite upd_missed.
  - cbn [update_class ccount]. rewrite UC, <- (sum_to_add_at 256 _ (class_of v) c) by exact B.
    apply sum_to_ext; [lia|]. intros. now rewrite upd_count.
  - cbn [update_class cmissed]. rewrite UM, <- (sum_to_add_at 256 _ (class_of v) m) by exact B.
    apply sum_to_ext; [lia|]. intros. now rewrite upd_missed.
Qed.

(** *** The confusion table *)
Lemma conf_add_errors l k e m k' :
  conf_errors (conf_add l k e m) k' =
  conf_errors l k' + (if list_eq_dec Z.eq_dec k k' then e else 0).
Proof.
  unfold conf_errors. induction l as [|c l IH]; cbn [conf_add map].
  - rewrite zsum_cons. cbn [ckey cerrors]. cbn. lia.
  - destruct (streq (ckey c) k) eqn:E; cbn [map]; rewrite !zsum_cons; [|lia].
    apply streq_spec in E. subst k. cbn [ckey cerrors].
    destruct (list_eq_dec Z.eq_dec (ckey c) k'); lia.
Qed.
Lemma conf_add_marked l k e m k' :
  conf_marked (conf_add l k e m) k' =
  conf_marked l k' + (if list_eq_dec Z.eq_dec k k' then m else 0).
Proof.
  unfold conf_marked. induction l as [|c l IH]; cbn [conf_add map].
  - rewrite zsum_cons. cbn [ckey cmarked]. cbn. lia.
  - destruct (streq (ckey c) k) eqn:E; cbn [map]; rewrite !zsum_cons; [|lia].
    apply streq_spec in E. subst k. cbn [ckey cmarked].
    destruct (list_eq_dec Z.eq_dec (ckey c) k'); lia.
Qed.
Lemma conf_add_sum l k e m :
  zsum (map cerrors (conf_add l k e m)) = zsum (map cerrors l) + e /\
  zsum (map cmarked (conf_add l k e m)) = zsum (map cmarked l) + m.
Proof.
  induction l as [|c l [IH1 IH2]]; cbn [conf_add map].
  - cbn. lia.
  - destruct (streq (ckey c) k); cbn [map]; rewrite !zsum_cons; cbn [cerrors cmarked]; lia.
Qed.
Lemma conf_add_keys l k e m x :
  In x (map ckey (conf_add l k e m)) <-> In x (map ckey l) \/ x = k.
Proof.
  induction l as [|c l IH]; cbn [conf_add map In ckey].
  - intuition.
  - destruct (streq (ckey c) k) eqn:E; cbn [map In ckey].
    + apply streq_spec in E. subst k. intuition.
    + rewrite IH. intuition.
Qed.
Lemma conf_add_consistent l k e m :
  0 < e -> 0 <= m <= e -> confs_consistent l -> confs_consistent (conf_add l k e m).
Proof.
  intros He Hm [ND F]. induction l as [|c l IH]; cbn [conf_add].
  - split; cbn; [repeat constructor; easy|]. constructor; [cbn; lia|constructor].
  - cbn [map] in ND. apply NoDup_cons_iff in ND as [Hn ND].
    apply Forall_cons_iff in F as [Hc F]. destruct (streq (ckey c) k) eqn:E.
    + apply streq_spec in E. subst k. split; cbn [map ckey].
      * now constructor.
      * constructor; [cbn [cerrors cmarked]; lia|exact F].
    + destruct (IH ND F) as [ND' F']. split; cbn [map].
      * constructor; [|exact ND']. rewrite conf_add_keys. intros [H|H]; [auto|].
        rewrite H in E. assert (streq k k = true) by now apply streq_spec. congruence.
      * now constructor.
Qed.

(** *** Keys *)
Section Unicode.
Variable uc : unicode_data.

Lemma hex_bytes v w : 0 <= v <= 1114111 -> (w = 2 \/ w = 4)%nat ->
  zlen (hexpad w v) <= 6 /\ Forall (fun b => b <> 0 /\ b <> 10 /\ b <> 125 /\ b <> 123) (hexpad w v).
Proof.
  intros Hv Hw. split.
  - apply (hexpad_len w v 5); [change (16 ^ Z.of_nat 6) with 16777216|]; lia.
  - unfold hexpad, pad. apply Forall_app. split.
    + apply Forall_forall. intros x Hx. apply repeat_spec in Hx. lia.
    + apply Forall_map. eapply Forall_impl; [|apply (digits_range 16 v); lia].
      intros a Ha. cbn beta in *. unfold hex_digit. destruct (a <? 10); lia.
Qed.

Lemma utf8_bytes c : 0 <= c <= 1114111 -> c <> 10 -> ~ In 10 (utf8 c).
Proof.
  intros H Hc. unfold utf8. pose proof (Z.mod_pos_bound c 64).
  pose proof (Z.mod_pos_bound (c / 64) 64). pose proof (Z.mod_pos_bound (c / 4096) 64).
  assert (0 <= c / 64 /\ 0 <= c / 4096 /\ 0 <= c / 262144).
  { repeat split; apply Z.div_pos; lia. }
  repeat (match goal with |- context [if ?b then _ else _] => destruct b eqn:? end);
    cbn [In]; lia.
Qed.

Lemma display_ok v : scalar v -> 1 <= zlen (display uc v) <= 8 /\ ~ In 10 (display uc v).
Proof.
  intros S. assert (0 <= v <= 1114111) as R by (unfold scalar in S; lia).
  unfold display. destruct (Z.eqb_spec v 10) as [->|N10].
  - split; [cbn; lia|]. cbn. intuition lia.
  - destruct (is_graphic uc v).
    + pose proof (utf8_length v S). pose proof (utf8_bytes v R N10).
      destruct (is_combining uc v).
      * split; [rewrite zlen_app; change (zlen (utf8 9676)) with 3; lia|].
        intros Hin. apply in_app_or in Hin as [Hin|Hin]; [|auto]. revert Hin. cbn. intuition lia.
      * cbn [app]. split; [lia|auto].
    + destruct (hex_bytes v (if v <? 256 then 2 else 4) R) as [L F].
      { destruct (v <? 256); auto. }
      rewrite !zlen_app. change (zlen (bytes "<")) with 1. change (zlen (bytes ">")) with 1.
      pose proof (zlen_nonneg (hexpad (if v <? 256 then 2 else 4) v)).
      split; [lia|]. rewrite !in_app_iff. rewrite Forall_forall in F.
      intros [Hin|[Hin|Hin]]; [revert Hin; cbn; lia| |revert Hin; cbn; lia].
      apply F in Hin. lia.
Qed.

Lemma char_to_string_display v :
  scalar v -> char_to_string uc false v true = Ok (display uc v).
Proof.
  intros S. assert (0 <= v <= 1114111) as R by (unfold scalar in S; lia).
  unfold char_to_string, display, NEWLINE. cbn [obind].
  destruct (Z.eqb_spec v 10) as [->|N10]; [reflexivity|].
  destruct (is_graphic uc v).
  - rewrite (encode_or_die_ok v R). destruct (is_combining uc v); cbn [obind app].
    + rewrite (encode_or_die_ok DOTTED_CIRCLE) by (unfold DOTTED_CIRCLE; lia). reflexivity.
    + reflexivity.
  - destruct (v <? 256); reflexivity.
Qed.

Lemma display_no_nul v : nul_hidden uc -> scalar v -> ~ In 0 (display uc v).
Proof.
  intros N S. assert (0 <= v <= 1114111) as R by (unfold scalar in S; lia).
  unfold display. destruct (Z.eqb_spec v 10) as [->|N10].
  - cbn. lia.
  - destruct (is_graphic uc v) eqn:G.
    + assert (0 < v). { destruct (Z.eq_dec v 0) as [->|]; [unfold nul_hidden in N; congruence|lia]. }
      pose proof (utf8_no_nul v ltac:(lia)).
      rewrite in_app_iff. intros [Hin|Hin]; [|auto]. destruct (is_combining uc v); [|easy].
      revert Hin. cbn. lia.
    + destruct (hex_bytes v (if v <? 256 then 2 else 4) R) as [_ F].
      { destruct (v <? 256); auto. }
      rewrite Forall_forall in F. rewrite !in_app_iff.
      intros [Hin|[Hin|Hin]]; [revert Hin; cbn; lia| |revert Hin; cbn; lia].
      apply F in Hin. lia.
Qed.

Lemma char_string_ok v : nul_hidden uc -> scalar v -> char_string uc v = Ok (display uc v).
Proof.
  intros N S. unfold char_string. rewrite char_to_string_display by exact S. cbn [obind].
  destruct (display_ok v S) as [L _]. unfold STRING_SIZE.
  replace (zlen (display uc v) + 1 <=? 9) with true by lia.
  rewrite cstr0, upto_nul_spec, cutnul_id by (apply display_no_nul; auto). reflexivity.
Qed.

Lemma key_side_ok vs : nul_hidden uc -> Forall scalar vs ->
  forall pre buffer, buffer = flat_map (display uc) pre -> zlen buffer <= 24 ->
  exists s, key_side uc buffer vs = Ok s /\ shown uc (pre ++ vs) s.
Proof.
  intros N F. induction F as [|v vs S F IH]; intros pre buffer -> L; cbn [key_side].
  - exists (flat_map (display uc) pre). split; [reflexivity|]. rewrite app_nil_r.
    now constructor.
  - rewrite char_string_ok by auto. cbn [obind]. unfold append, MAX_DISPLAY in *.
    destruct (Z.ltb_spec 24 (zlen (flat_map (display uc) pre) + zlen (display uc v))) as [H|H].
    + change (zlen (bytes "...")) with 3.
      replace (_ + 3 + 1 <=? 24 + 4) with true by lia. eexists. split; [reflexivity|].
      apply shown_cut; auto.
    + replace (zlen (flat_map (display uc) pre) + zlen (display uc v) + 1 <=? 24 + 4)
        with true by lia. cbn [obind].
      destruct (IH (pre ++ [v]) (flat_map (display uc) pre ++ display uc v)) as (s & E & Sh).
      * rewrite flat_map_app. cbn [flat_map]. now rewrite app_nil_r.
      * rewrite zlen_app. lia.
      * exists s. split; [exact E|]. now rewrite <- app_assoc in Sh.
Qed.

Lemma shown_bytes vs s : nul_hidden uc -> Forall scalar vs -> shown uc vs s ->
  zlen s <= 27 /\ ~ In 10 s /\ ~ In 0 s.
Proof.
  intros N F Sh.
  assert (forall l, Forall scalar l -> ~ In 10 (flat_map (display uc) l) /\
                                       ~ In 0 (flat_map (display uc) l)) as H.
  { intros l Fl. rewrite Forall_forall in Fl. split; intros Hin;
      apply in_flat_map in Hin as (x & Hx & Hin); revert Hin.
    - apply display_ok. auto.
    - apply display_no_nul; auto. }
  destruct Sh as [vs L|vs v rest L1 L2].
  - split; [lia|]. now apply H.
  - apply Forall_app in F as [F _]. destruct (H vs F) as [H1 H2].
    rewrite zlen_app. change (zlen (bytes "...")) with 3. split; [lia|].
    rewrite !in_app_iff. split; (intros [Hin|Hin]; [auto|]; revert Hin; cbn; lia).
Qed.

Lemma shown_fun vs s s' : shown uc vs s -> shown uc vs s' -> s = s'.
Proof.
  assert (forall p1 v1 r1 p2 r2, p1 ++ v1 :: r1 = p2 ++ r2 ->
            zlen (flat_map (display uc) p2) <= 24 ->
            24 < zlen (flat_map (display uc) p1) + zlen (display uc v1) ->
            exists q, p1 = p2 ++ q) as H.
  { intros p1 v1 r1 p2. revert p1. induction p2 as [|y p2 IH] using rev_ind; intros p1 r2 E L1 L2.
    - exists p1. reflexivity.
    - rewrite <- app_assoc in E. cbn [app] in E.
      rewrite flat_map_app, zlen_app in L1. cbn [flat_map] in L1. rewrite app_nil_r in L1.
      destruct (IH p1 (y :: r2) E) as [q ->].
      { pose proof (zlen_nonneg (display uc y)). lia. }
      { exact L2. }
      rewrite <- app_assoc in E. apply app_inv_head in E. destruct q as [|z q].
      + injection E as -> _. rewrite app_nil_r in L2. lia.
      + injection E as -> _. exists q. now rewrite <- app_assoc. }
  intros S S'. destruct S as [vs L|p v r L1 L2].
  - inversion S' as [vs' L' E|p' v' r' L1' L2' E]; subst; [reflexivity|].
    rewrite flat_map_app, zlen_app in L. cbn [flat_map] in L. rewrite zlen_app in L.
    pose proof (zlen_nonneg (flat_map (display uc) r')). lia.
  - inversion S' as [vs' L' E|p' v' r' L1' L2' E]; subst.
    + rewrite flat_map_app, zlen_app in L'. cbn [flat_map] in L'. rewrite zlen_app in L'.
      pose proof (zlen_nonneg (flat_map (display uc) r)). lia.
    + destruct (H p v r p' (v' :: r')) as [q Eq]; auto.
      destruct (H p' v' r' p (v :: r)) as [q' Eq']; auto.
      assert (q = []) as ->.
      { rewrite Eq in Eq'. rewrite <- app_assoc in Eq'.
        rewrite <- (app_nil_r p') in Eq' at 1. apply app_inv_head in Eq'.
        now destruct q. }
      rewrite app_nil_r in Eq. subst p'. reflexivity.
Qed.

Lemma is_key_fun vs0 vs1 k k' : is_key uc vs0 vs1 k -> is_key uc vs0 vs1 k' -> k = k'.
Proof.
  intros (s0 & s1 & A & B & ->) (s0' & s1' & A' & B' & ->).
  now rewrite (shown_fun _ _ _ A A'), (shown_fun _ _ _ B B').
Qed.

Lemma make_key_ok vs0 vs1 : nul_hidden uc -> Forall scalar vs0 -> Forall scalar vs1 ->
  exists key, make_key uc vs0 vs1 = Ok key /\ is_key uc vs0 vs1 key /\ zlen key <= 60.
Proof.
  intros N F0 F1. unfold make_key.
  destruct (key_side_ok vs0 N F0 [] [] eq_refl ltac:(cbn; lia)) as (s0 & -> & S0).
  destruct (key_side_ok vs1 N F1 [] [] eq_refl ltac:(cbn; lia)) as (s1 & -> & S1).
  cbn [obind]. set (key := _ ++ s0 ++ _).
  assert (zlen key <= 60) as L.
  { subst key. rewrite !zlen_app. destruct (shown_bytes _ _ N F0 S0) as [L0 _].
    destruct (shown_bytes _ _ N F1 S1) as [L1 _].
    change (zlen (bytes "{")) with 1. change (zlen (bytes "}")) with 1.
    change (zlen (bytes "}-{")) with 3. change (zlen [10]) with 1. lia. }
  replace (zlen key + 1 <=? 100) with true by lia.
  exists key. split; [reflexivity|]. split; [|exact L]. exists s0, s1. auto.
Qed.
End Unicode.
