(** The data computed by accuracy can be written and read back. *)
From Coq Require Import String Permutation.
From Verif Require Import Base CLib CLibProof Utf8Model Utf8Proof TextModel TextSpec CharclassModel CharclassSpec
  CharclassProps CompareModel SyncModel SyncSpec EditProof TextIO AccModel AccSpec SumProof AccProof AccCount AccTop
  AccProps AccrptModel AccrptSpec AccrptChar AccrptFig.
Local Open Scope Z_scope.
Local Open Scope list_scope.
#[local] Opaque sum_to.

Definition byte (b : Z) : Prop := 0 < b < 256.

Lemma bytes_range s : forallb (fun b => (0 <? b) && (b <? 256)) s = true -> Forall byte s.
Proof. rewrite forallb_forall. intros H. apply Forall_forall. intros b B. specialize (H b B). unfold byte. lia. Qed.

Lemma byte_intro l : Forall is_byte l -> ~ In 0 l -> Forall byte l.
Proof.
  intros F N. rewrite Forall_forall in *. intros b B. specialize (F b B). unfold is_byte in F.
  assert (b <> 0) by (intros ->; auto). unfold byte. lia.
Qed.

Lemma display_bytes uc v : nul_hidden uc -> scalar v -> Forall byte (display uc v).
Proof.
  intros N S. apply byte_intro; [|now apply display_no_nul].
  assert (0 <= v <= 1114111) as R by (unfold scalar in S; lia).
  unfold display. destruct (v =? 10); [apply Forall_forall; cbn; unfold is_byte; intuition lia|].
  destruct (is_graphic uc v).
  - apply Forall_app. split; [|apply (iterate_complete v [] S)].
    destruct (is_combining uc v); [|constructor]. apply (iterate_complete 9676 []). unfold scalar. lia.
  - destruct (hexpad_str (if v <? 256 then 2 else 4) v ltac:(lia)) as (_ & F & _).
    apply Forall_app. split; [repeat constructor; unfold is_byte; lia|].
    apply Forall_app. split; [|repeat constructor; unfold is_byte; lia].
    eapply Forall_impl; [|exact F]. cbn. unfold is_byte. lia.
Qed.

Lemma shown_byte uc vs s : nul_hidden uc -> Forall scalar vs -> shown uc vs s -> Forall byte s.
Proof.
  intros N F Sh.
  assert (forall l, Forall scalar l -> Forall byte (flat_map (display uc) l)) as H.
  { intros l Fl. apply Forall_flat_map. eapply Forall_impl; [|exact Fl]. intros. now apply display_bytes. }
  destruct Sh as [vs L|vs v rest L1 L2]; [now apply H|].
  apply Forall_app in F as [F _]. apply Forall_app. split; [now apply H|]. apply bytes_range. reflexivity.
Qed.

Lemma key_byte uc vs0 vs1 key : nul_hidden uc -> Forall scalar vs0 -> Forall scalar vs1 ->
  is_key uc vs0 vs1 key -> Forall byte key.
Proof.
  intros N F0 F1 (s0 & s1 & S0 & S1 & ->).
  pose proof (shown_byte uc vs0 s0 N F0 S0). pose proof (shown_byte uc vs1 s1 N F1 S1).
  repeat (first [assumption | apply bytes_range; reflexivity | apply Forall_app; split]).
Qed.

Lemma edits_all a : forall b, edits a b (zlen a + zlen b).
Proof.
  induction a as [|x a IH]; intros b.
  - induction b as [|y b IHb]; [constructor|]. rewrite zlen_cons.
    replace (zlen (@nil Z) + (zlen b + 1)) with ((zlen (@nil Z) + zlen b) + 1) by lia. now constructor.
  - rewrite zlen_cons. replace (zlen a + 1 + zlen b) with ((zlen a + zlen b) + 1) by lia. now apply edits_delete.
Qed.

Lemma conf_errors_le l k : Forall (fun c => 0 < cerrors c /\ 0 <= cmarked c <= cerrors c) l ->
  0 <= conf_errors l k <= zsum (map cerrors l) /\ 0 <= conf_marked l k <= zsum (map cerrors l).
Proof.
  unfold conf_errors, conf_marked. induction 1 as [|c l [E M] F IH]; [cbn; lia|]. cbn [map].
  rewrite !zsum_cons. destruct (list_eq_dec _ _ _); lia.
Qed.

Lemma table_bounds d : tables_consistent d ->
  (forall v, 0 <= cmissed (small d v) <= ccount (small d v) /\
             ccount (small d v) <= ccount (total_class d)) /\
  (forall j, 0 <= j < 256 -> 0 <= cmissed (large d j) <= ccount (large d j) /\
             ccount (large d j) <= ccount (total_class d)) /\
  0 <= cmissed (total_class d) <= ccount (total_class d).
Proof.
  intros T. pose proof (tc_missed d T) as M. split; [|split].
  - intros v. split; [apply M|]. rewrite (tc_total_small_count d T).
    destruct (Z_lt_dec v 0) as [H|H]; [|destruct (Z_lt_dec v 1114111)].
    + rewrite (tc_range d T v) by lia. apply sum_to_nonneg; [lia|]. intros i _. specialize (M i). lia.
    + apply (sum_to_term_le 1114111 (fun v => ccount (small d v)) v); [|lia]. intros i _. specialize (M i). lia.
    + rewrite (tc_range d T v) by lia. apply sum_to_nonneg; [lia|]. intros i _. specialize (M i). lia.
  - intros j J.
    assert (forall j, 0 <= j < 256 -> 0 <= cmissed (large d j) <= ccount (large d j)) as LM.
    { intros k K. rewrite (tc_large_count d T), (tc_large_missed d T) by exact K. split.
      - apply sum_to_nonneg; [lia|]. intros i _. specialize (M i). destruct (in_class k i); lia.
      - apply sum_to_le; [lia|]. intros i _. specialize (M i). destruct (in_class k i); lia. }
    split; [now apply LM|]. rewrite (tc_total_large_count d T).
    apply (sum_to_term_le 256 (fun j => ccount (large d j)) j); [|exact J]. intros i I. specialize (LM i I). lia.
  - rewrite (tc_total_small_count d T), (tc_total_small_missed d T). split.
    + apply sum_to_nonneg; [lia|]. intros i _. specialize (M i). lia.
    + apply sum_to_le; [lia|]. intros i _. specialize (M i). lia.
Qed.

Lemma accuracy_reportable uc t0 t1 d : inputs_ok uc t0 t1 -> accuracy_data uc t0 t1 = Ok d ->
  reportable d /\ below (zlen t0 + zlen t1 + 1) d.
Proof.
  intros I A. pose proof (C26_consistent uc t0 t1 d I A) as C.
  destruct (C26_character_table uc t0 t1 d I A) as (l & _ & CT).
  destruct (C27_marks uc t0 t1 d I A) as (l' & _ & Rj & Su & _).
  destruct (C25_figures uc t0 t1 I) as (d' & A' & Ch & En & De). assert (d' = d) as -> by congruence.
  pose proof (table_bounds d (co_tables d C)) as (TB1 & TB2 & TB3).
  pose proof (conf_errors_le (conftable d)) as CE.
  destruct (co_confs d C) as [ND CF].
  assert (errors d <= zlen t0 + zlen t1) as EB.
  { destruct (De _ (lev_distance _ _)) as [H _]. pose proof (lev_min _ _ _ (edits_all (map value t0) (map value t1))) as L.
    unfold zlen in *. rewrite !map_length in L. lia. }
  pose proof (num_nonneg plain t0). pose proof (num_len plain t0).
  pose proof (num_nonneg is_tilde t1). pose proof (num_len is_tilde t1).
  pose proof (num_nonneg plain_suspect t1). pose proof (num_len plain_suspect t1).
  pose proof (zlen_nonneg t0). pose proof (zlen_nonneg t1).
  pose proof (co_characters d C) as CC. pose proof (co_conf_errors d C) as CEs.
  pose proof (co_false d C). pose proof (co_errors d C) as Ce. pose proof (co_total d C) as Ct.
  destruct (co_marked d C) as (M1 & M2 & M3 & M4). destruct (co_unmarked d C) as (U1 & U2 & U3 & U4).
  assert (forall x, 0 <= fig x d < zlen t0 + zlen t1 + 1) as B.
  { intros x. destruct x; cbn [fig]; try lia.
    - rewrite Ct in Ce. cbn [errs] in Ce. destruct r; cbn [ops_of]; try rewrite Ct;
        destruct c; cbn [column ins subst del errs]; lia.
    - destruct (Z.leb_spec 0 class); cbn [andb]; [|lia]. destruct (Z.ltb_spec class 256); [|lia].
      specialize (TB2 class ltac:(lia)). unfold cell. destruct missed; lia.
    - unfold cell. destruct missed; lia.
    - specialize (TB1 v). unfold cell. destruct missed; lia.
    - specialize (CE key CF). destruct marked; lia. }
  split; [|intros x; apply B].
  constructor; auto.
  - apply (co_tables d C).
  - split; assumption.
  - apply Forall_forall. intros c Hc.
    destruct I as (N & T0 & T1 & Tab & L).
    destruct (accuracy_counted uc t0 t1 N T0 T1 Tab L) as (l2 & d2 & _ & Ed & Cn & _).
    assert (d2 = d) as -> by congruence. destruct Cn.
    rewrite Forall_forall in cn_keys. destruct (cn_keys c Hc) as (Lc & it & Hit & K).
    assert (Forall scalar (map value (correct t0 it)) /\ Forall scalar (map value (generated t1 it))) as [S0 S1].
    { unfold correct, generated, nth_part. split; apply Forall_map.
      - destruct (znth (isubs it) 0); [|constructor]. now apply (part_Forall (fun c => scalar (value c))).
      - destruct (znth (isubs it) 1); [|constructor]. now apply (part_Forall (fun c => scalar (value c))). }
    pose proof (key_byte uc _ _ _ N S0 S1 K) as KB.
    destruct (C28_key uc _ _ N S0 S1) as (key & line & _ & K' & E1 & E2 & E3 & E4).
    assert (ckey c = key) as Ek by (eapply is_key_fun; eauto). rewrite Ek in *.
    exists line. split; [exact E1|]. split; [exact E2|]. split; [|lia].
    rewrite E1 in KB. apply Forall_app in KB. apply KB.
  - intros v V. destruct (CT v) as [E _]. rewrite E in V.
    destruct I as (N & T0 & _). unfold num in V.
    destruct (filter (plain_value v) t0) as [|c r] eqn:F; [easy|].
    assert (In c (filter (plain_value v) t0)) as Ic by (rewrite F; now left).
    apply filter_In in Ic as [Ic P]. unfold text_ok in T0. rewrite Forall_forall in T0.
    unfold plain_value in P. apply andb_true_iff in P as [_ P]. apply Z.eqb_eq in P. rewrite <- P. auto.
  - intros x. apply B.
Qed.
