(** The checked reading of reports: the report of [d] is read into [D] without overflow. *)
From Coq Require Import String Permutation.
From Verif Require Import Base CLib CLibProof Utf8Model TextModel TextSpec CharclassModel CharclassSpec
  CharclassProps CompareModel CompareProof SortModel SortProps TextIO AccModel AccSpec SumProof AccProof
  ReportModel ReportSpec ReportProof AccrptModel AccrptSpec AccrptChar AccrptFig AccrptProof AccrptTop
  WideModel WideProof.
Local Open Scope Z_scope.
Local Open Scope list_scope.
#[local] Opaque all_values sum_to.

Definition all_upto n (d : accdata) : Prop := figs_upto n n n n n n d.

Lemma agree_Ok {A} (P : A -> Prop) x y : agree P x (Ok y) -> x = Ok y /\ P y.
Proof. intros [-> H]. split; [reflexivity|auto]. Qed.

(** Rows of confusions. *)
Lemma add_confs_upto p t a : Forall (fun c => 0 <= cmarked c <= cerrors c) a -> forall q D, 0 <= q ->
  figs_upto p p p p t q D -> q + zsum (map cerrors a) <= TOP ->
  figs_upto p p p p t (q + zsum (map cerrors a)) (add_confs a D).
Proof.
  induction 1 as [|c a C F IH]; intros q D Q H M.
  - cbn. rewrite Z.add_0_r. exact H.
  - cbn [map] in *. rewrite zsum_cons in *.
    assert (0 <= zsum (map cerrors a)).
    { apply zsum_nonneg, Forall_map. eapply Forall_impl; [|exact F]. cbn. lia. }
    destruct (agree_Ok _ _ _ (add_conf_agree p p p p t q (cerrors c) D (ckey c) (cerrors c) (cmarked c) H
      ltac:(unfold upto; lia) ltac:(unfold upto; lia) Q ltac:(lia))) as [_ H'].
    change (add_confs (c :: a) D) with (add_confs a (add_conf D (ckey c) (cerrors c) (cmarked c))).
    replace (q + (cerrors c + zsum (map cerrors a))) with (q + cerrors c + zsum (map cerrors a)) by lia.
    apply IH; [lia|exact H'|lia].
Qed.

(** Rows of characters. *)
Lemma add_rows_upto p q d vs : tables_consistent d -> forall t D, 0 <= t ->
  (forall v, In v vs -> 0 <= v < 1114111) ->
  figs_upto p p p p t q D -> t + zsum (map (fun v => ccount (small d v)) vs) <= TOP ->
  figs_upto p p p p (t + zsum (map (fun v => ccount (small d v)) vs)) q (add_rows d vs D).
Proof.
  intros T. induction vs as [|v vs IH]; intros t D Ht V H M.
  - cbn. rewrite Z.add_0_r. exact H.
  - cbn [map] in *. rewrite zsum_cons in *. pose proof (tc_missed d T v) as Mv.
    assert (0 <= zsum (map (fun v => ccount (small d v)) vs)).
    { apply zsum_nonneg, Forall_map, Forall_forall. intros w _. pose proof (tc_missed d T w). lia. }
    change (add_rows d (v :: vs) D) with (add_rows d vs (add_row d D v)).
    replace (t + (ccount (small d v) + zsum (map (fun v => ccount (small d v)) vs)))
      with (t + ccount (small d v) + zsum (map (fun v => ccount (small d v)) vs)) by lia.
    apply IH; [lia|intros w W; apply V; now right| |lia].
    pose proof (add_class_agree p p p p t q (ccount (small d v)) D v (ccount (small d v)) (cmissed (small d v)) H
      ltac:(unfold upto; lia) ltac:(unfold upto; lia) ltac:(lia)) as A.
    rewrite add_class_ok in A by (apply V; now left). destruct (agree_Ok _ _ _ A) as [_ A'].
    unfold add_row. destruct (0 <? ccount (small d v)) eqn:E; [exact A'|].
    replace (ccount (small d v)) with 0 by lia. rewrite Z.add_0_r. exact H.
Qed.

(** The figures in the heading. *)
Lemma heading_agree D d n : reportable d -> below 100000000 d -> all_upto n D -> 0 <= n -> n + 100000000 <= TOP ->
  exists D0,
    add_counts64 D (characters d) (errors d) (rejects d) (suspects d) (false_marks d) = Ok D0 /\
    with_ops64 D0 (marked_ops d) (unmarked_ops d) (total_ops d)
      = Ok (with_ops (add_counts D (characters d) (errors d) (rejects d) (suspects d) (false_marks d))
              (marked_ops d) (unmarked_ops d) (total_ops d)) /\
    let m := n + 100000000 in
    figs_upto m m m m n n
      (with_ops (add_counts D (characters d) (errors d) (rejects d) (suspects d) (false_marks d))
              (marked_ops d) (unmarked_ops d) (total_ops d)).
Proof.
  intros R Bl A Hn Hm. set (k := 100000000) in *.
  assert (FB : forall x, upto k (fig x d)).
  { intros x. pose proof (rp_nonneg d R x). pose proof (Bl x). unfold upto. lia. }
  destruct (agree_Ok _ _ _ (add_counts_agree n n n n n n k k k D (characters d) (errors d) (rejects d) (suspects d)
    (false_marks d) A (FB FCharacters) (FB FErrors) (FB FRejects) (FB FSuspects) (FB FFalseMarks) Hm Hm Hm)) as [E1 F1].
  assert (O : forall r, ops_upto k (ops_of d r)).
  { intros r. repeat split; try apply (FB (FOps r CIns)); try apply (FB (FOps r CSubst)); try apply (FB (FOps r CDel));
      apply (FB (FOps r CErrors)). }
  destruct (agree_Ok _ _ _ (with_ops_agree _ _ _ n n n k _ _ _ _ F1 (O RMarked) (O RUnmarked) (O RTotal) Hm)) as [E2 F2].
  eexists. split; [exact E1|]. split; [exact E2|exact F2].
Qed.

Lemma conf_rows64_end fuel b D tail : line_buffer b -> (tail = [] \/ exists t, tail = [10] ++ t) ->
  exists b', line_buffer b' /\ conf_rows64 fuel D (b, tail) = Ok (D, (b', tl tail)).
Proof.
  intros B [->|(t & ->)].
  - exists b. split; [exact B|]. now destruct fuel.
  - destruct (read_scan_ok scan_two b [10] t B blank_line) as (b' & E & Hb).
    exists b'. split; [apply Hb|]. destruct fuel; cbn [conf_rows64]; rewrite E; reflexivity.
Qed.

Lemma conf_rows64_ok p t0 tail a : Forall conf_row_ok a -> Forall (fun c => 0 <= cmarked c <= cerrors c) a ->
  (tail = [] \/ exists t, tail = [10] ++ t) ->
  forall fuel b D q, line_buffer b -> (List.length (flat_map write_conf a ++ tail) <= fuel)%nat ->
  0 <= q -> figs_upto p p p p t0 q D -> q + zsum (map cerrors a) <= TOP ->
  exists b', line_buffer b' /\
    conf_rows64 fuel D (b, flat_map write_conf a ++ tail) = Ok (add_confs a D, (b', tl tail)).
Proof.
  intros F G T. revert G. induction F as [|c a C F IH]; intros G fuel b D q B L Q H M.
  - now apply conf_rows64_end.
  - apply Forall_cons_iff in G as [Gc G]. cbn [map] in M. rewrite zsum_cons in M.
    assert (0 <= zsum (map cerrors a)).
    { apply zsum_nonneg, Forall_map. eapply Forall_impl; [|exact G]. cbn. lia. }
    destruct (agree_Ok _ _ _ (add_conf_agree p p p p t0 q (cerrors c) D (ckey c) (cerrors c) (cmarked c) H
      ltac:(unfold upto; lia) ltac:(unfold upto; lia) Q ltac:(lia))) as [Ea H'].
    cbn [flat_map] in L |- *. rewrite <- app_assoc in *.
    destruct (conf_line c C) as (R & S & pre & Lp & Ew & N0).
    pose proof (line_pos _ R) as P. rewrite app_length in L. destruct fuel as [|fuel]; [lia|].
    destruct (read_scan_ok scan_two b _ (flat_map write_conf a ++ tail) B R) as (b' & E & Hb).
    destruct (IH G fuel b' (add_conf D (ckey c) (cerrors c) (cmarked c)) (q + cerrors c)) as (b'' & B' & E');
      [apply Hb|lia|lia|exact H'|lia|].
    exists b''. split; [exact B'|]. cbn [conf_rows64]. rewrite E. cbn [obind]. rewrite S. cbn [fst].
    rewrite Ew in Hb. unfold CONF_OFFSET. rewrite <- Lp.
    rewrite (cstr_holds b' pre (ckey c) Hb N0). cbn [obind]. rewrite Ea. cbn [obind]. exact E'.
Qed.

Section Report.
Variable uc : unicode_data.
Variable fmt : Z -> Z -> list Z.
Hypothesis NUL : nul_hidden uc.
Hypothesis WIDE : marks_wide uc.
Hypothesis FMT : pct_ok fmt.
Local Ltac cb := apply clean_bytes; reflexivity.

Lemma class_rows64_ok p q d vs : tables_consistent d ->
  (forall v, ccount (small d v) <> 0 -> scalar v) -> (forall v, ccount (small d v) < 100000000) ->
  forall fuel b D t, line_buffer b -> (List.length (flat_map (small_row uc fmt d) vs) <= fuel)%nat ->
  0 <= t -> figs_upto p p p p t q D -> t + zsum (map (fun v => ccount (small d v)) vs) <= TOP ->
  exists b', line_buffer b' /\
    class_rows64 fuel D (b, flat_map (small_row uc fmt d) vs) = Ok (add_rows d vs D, (b', [])).
Proof.
  intros T Sc Lim. induction vs as [|v vs IH]; intros fuel b D t B L Ht H Mt.
  - exists b. split; [exact B|]. now destruct fuel.
  - cbn [map] in Mt. rewrite zsum_cons in Mt. pose proof (tc_missed d T v) as M.
    assert (0 <= zsum (map (fun v => ccount (small d v)) vs)).
    { apply zsum_nonneg, Forall_map, Forall_forall. intros w _. pose proof (tc_missed d T w). lia. }
    change (add_rows d (v :: vs) D) with (add_rows d vs (add_row d D v)).
    cbn [flat_map] in L |- *. unfold add_row. unfold small_row at 1 in L. unfold small_row at 1.
    destruct (Z.ltb_spec 0 (ccount (small d v))) as [C|C]; [|apply IH with (t := t); auto; lia].
    assert (scalar v) as S by (apply Sc; lia).
    assert (0 <= v < 1114111) as V.
    { destruct (Z_lt_dec v 1114111); [unfold scalar in S; lia|].
      rewrite (tc_range d T v) in C by lia. cbn in C. lia. }
    pose proof (add_class_agree p p p p t q (ccount (small d v)) D v (ccount (small d v)) (cmissed (small d v)) H
      ltac:(unfold upto; lia) ltac:(unfold upto; lia) ltac:(lia)) as A.
    rewrite add_class_ok in A by exact V. destruct (agree_Ok _ _ _ A) as [A1 A2].
    pose proof (Lim v) as Lv.
    destruct (display_clean uc NUL v S) as [Cl Ld].
    destruct (class_line fmt FMT (small d v) _ M Lv Cl Ld) as (R & _ & Sn & pre & Lp & Ew).
    set (row := write_class fmt (small d v) (bytes "{" ++ display uc v ++ bytes "}")) in *.
    pose proof (line_pos _ R) as P. rewrite app_length in L. destruct fuel as [|fuel]; [lia|].
    destruct (read_scan_ok scan_two b _ (flat_map (small_row uc fmt d) vs) B R) as (b' & E & Hb).
    destruct (IH fuel b' (add_class_pure D v (ccount (small d v)) (cmissed (small d v))) (t + ccount (small d v)))
      as (b'' & B' & E'); [apply Hb|lia|lia|exact A2|lia|].
    exists b''. split; [exact B'|]. cbn [class_rows64]. rewrite E. cbn [obind]. rewrite Sn. cbn [fst].
    destruct Hb as [_ (tl & Eb)]. rewrite Ew in Eb. rewrite <- !app_assoc in Eb.
    unfold CLASS_OFFSET. rewrite <- Lp, Eb.
    rewrite (read_char_display uc v pre ([10] ++ 0 :: tl) [10]); auto.
    cbn [obind]. unfold INVALID_CHARVALUE. replace (v =? 4294967295) with false by lia.
    rewrite A1. cbn [obind]. rewrite <- Eb. exact E'.
Qed.

Lemma read_report64 b D d a n : line_buffer b -> reportable d -> below 100000000 d ->
  Permutation a (conftable d) -> all_upto n D -> 0 <= n -> n + 100000000 <= TOP ->
  exists b', line_buffer b' /\
    read_accrpt64 b D (report_text uc fmt d a) = Ok (merged D d a, b') /\
    all_upto (n + 100000000) (merged D d a).
Proof.
  intros B0 R Bl Pa AD Hn Hm.
  pose proof (fun x => fig_bounds d x R Bl) as FB.
  pose proof (FB FCharacters) as Bch. pose proof (FB FErrors) as Ber. pose proof (FB FRejects) as Bre.
  pose proof (FB FSuspects) as Bsu. pose proof (FB FFalseMarks) as Bfm.
  pose proof (FB (FOps RUnmarked CErrors)) as Bun. cbn [fig ops_of column] in *.
  assert (forall r c, 0 <= column (ops_of d r) c < 100000000) as BO by (intros r c; exact (FB (FOps r c))).
  set (f := report_text uc fmt d a). set (fuel := List.length f).
  assert (exists tail1, f = tail1 /\ (List.length tail1 <= fuel)%nat) as _ by (exists f; auto).
  destruct (pct_clean fmt FMT (characters d - errors d) (characters d)) as (P1 & P2 & _); try lia.
  destruct (pct_clean fmt FMT (rejects d + suspects d) (characters d)) as (Q1 & Q2 & _); try lia.
  destruct (pct_clean fmt FMT (characters d - errs (unmarked_ops d)) (characters d)) as (S1 & S2 & _); try lia.
  unfold read_accrpt64. fold fuel.
  assert (List.length f <= fuel)%nat as Lf by (unfold fuel; lia). clearbody fuel.
  unfold f in *. clear f. unfold report_text in *.
  (* title, divider *)
  match goal with |- context [need_title ACC_TITLE (b, ACC_TITLE ++ ?r)] =>
    destruct (need_title_ok b ACC_TITLE r B0 acc_title_line) as (b1 & E1 & B1) end.
  rewrite E1. cbn [obind]. clear E1.
  match goal with |- context [need_divider ACC_DIVIDER (b1, ACC_DIVIDER ++ ?r)] =>
    destruct (need_divider_ok b1 ACC_DIVIDER r B1 acc_divider_line) as (b2 & E2 & B2) end.
  rewrite E2. cbn [obind]. clear E2.
  (* characters, errors *)
  destruct (value_line (characters d) (bytes "Characters")) as (R3 & T3); [lia|cb|cbn; lia|].
  match goal with |- context [need_scan scan_one (b2, ?l ++ ?r)] =>
    destruct (need_scan_ok scan_one (characters d) b2 l r B2 R3 T3) as (b3 & E3 & B3) end.
  rewrite E3. cbn [obind]. clear E3.
  destruct (value_line (errors d) (bytes "Errors")) as (R4 & T4); [lia|cb|cbn; lia|].
  match goal with |- context [need_scan scan_one (b3, ?l ++ ?r)] =>
    destruct (need_scan_ok scan_one (errors d) b3 l r B3 R4 T4) as (b4 & E4 & B4) end.
  rewrite E4. cbn [obind]. clear E4.
  (* accuracy, blank *)
  match goal with |- context [need_line (b4, ?l ++ ?r)] =>
    destruct (need_line_ok b4 l r B4) as (b5 & E5 & B5);
    [apply line_intro; [apply clean_app; [exact P1|cb]|rewrite zlen_app; cbn; unfold zlen in *; lia]|] end.
  rewrite E5. cbn [obind]. clear E5.
  match goal with |- context [need_line (b5, [10] ++ ?r)] =>
    destruct (need_line_ok b5 [10] r B5 blank_line) as (b6 & E6 & B6) end.
  rewrite E6. cbn [obind]. clear E6.
  (* rejects, suspects, false marks *)
  destruct (value_line (rejects d) (bytes "Reject Characters")) as (R7 & T7); [lia|cb|cbn; lia|].
  match goal with |- context [need_scan scan_one (b6, ?l ++ ?r)] =>
    destruct (need_scan_ok scan_one (rejects d) b6 l r B6 R7 T7) as (b7 & E7 & B7) end.
  rewrite E7. cbn [obind]. clear E7.
  destruct (value_line (suspects d) (bytes "Suspect Markers")) as (R8 & T8); [lia|cb|cbn; lia|].
  match goal with |- context [need_scan scan_one (b7, ?l ++ ?r)] =>
    destruct (need_scan_ok scan_one (suspects d) b7 l r B7 R8 T8) as (b8 & E8 & B8) end.
  rewrite E8. cbn [obind]. clear E8.
  destruct (value_line (false_marks d) (bytes "False Marks")) as (R9 & T9); [lia|cb|cbn; lia|].
  match goal with |- context [need_scan scan_one (b8, ?l ++ ?r)] =>
    destruct (need_scan_ok scan_one (false_marks d) b8 l r B8 R9 T9) as (b9 & E9 & B9) end.
  rewrite E9. cbn [obind]. clear E9.
  (* two percentages, blank, heading *)
  match goal with |- context [need_line (b9, ?l ++ ?r)] =>
    destruct (need_line_ok b9 l r B9) as (b10 & E10 & B10);
    [apply line_intro; [apply clean_app; [exact Q1|cb]|rewrite zlen_app; cbn; unfold zlen in *; lia]|] end.
  rewrite E10. cbn [obind]. clear E10.
  match goal with |- context [need_line (b10, ?l ++ ?r)] =>
    destruct (need_line_ok b10 l r B10) as (b11 & E11 & B11);
    [apply line_intro; [apply clean_app; [exact S1|cb]|rewrite zlen_app; cbn; unfold zlen in *; lia]|] end.
  rewrite E11. cbn [obind]. clear E11.
  match goal with |- context [need_line (b11, [10] ++ ?r)] =>
    destruct (need_line_ok b11 [10] r B11 blank_line) as (b12 & E12 & B12) end.
  rewrite E12. cbn [obind]. clear E12.
  match goal with |- context [need_line (b12, ?l ++ ?r)] =>
    destruct (need_line_ok b12 l r B12) as (b13 & E13 & B13); [apply line_intro; [cb|cbn; lia]|] end.
  rewrite E13. cbn [obind]. clear E13.
  (* operations *)
  destruct (ops_line (marked_ops d) (bytes "Marked")) as (R14 & T14); [exact (BO RMarked)|cb|cbn; lia|].
  match goal with |- context [need_scan scan_four (b13, ?l ++ ?r)] =>
    destruct (need_scan_ok scan_four _ b13 l r B13 R14 T14) as (b14 & E14 & B14) end.
  rewrite E14. cbn [obind]. clear E14.
  destruct (ops_line (unmarked_ops d) (bytes "Unmarked")) as (R15 & T15); [exact (BO RUnmarked)|cb|cbn; lia|].
  match goal with |- context [need_scan scan_four (b14, ?l ++ ?r)] =>
    destruct (need_scan_ok scan_four _ b14 l r B14 R15 T15) as (b15 & E15 & B15) end.
  rewrite E15. cbn [obind]. clear E15.
  destruct (ops_line (total_ops d) (bytes "Total")) as (R16 & T16); [exact (BO RTotal)|cb|cbn; lia|].
  match goal with |- context [need_scan scan_four (b15, ?l ++ ?r)] =>
    destruct (need_scan_ok scan_four _ b15 l r B15 R16 T16) as (b16 & E16 & B16) end.
  rewrite E16. cbn [obind]. clear E16. rewrite !four_ops_eta.
  match goal with |- context [need_line (b16, [10] ++ ?r)] =>
    destruct (need_line_ok b16 [10] r B16 blank_line) as (b17 & E17 & B17) end.
  rewrite E17. cbn [obind]. clear E17.
  unfold merged in *. set (D1 := with_ops _ _ _ _) in *.
  destruct (heading_agree D d n R Bl AD Hn ltac:(lia)) as (D0 & H1 & H2 & AD1). rewrite H1. cbn [obind].
  rewrite H2. cbn [obind]. fold D1 in AD1 |- *.
  (* class rows *)
  repeat rewrite app_length in Lf.
  match goal with |- context [skip_to_blank fuel (b17, concat ?rows ++ ?t)] =>
    destruct (skip_rows t rows (class_rows_lines fmt FMT d R Bl) fuel b17 B17) as (f1 & b18 & L18 & B18 & ->);
    [rewrite !app_length; lia|]; set (tail := t) in * end.
  assert (List.length tail <= fuel)%nat as Lt by (unfold tail; rewrite app_length; lia).
  assert (exists b19, line_buffer b19 /\ skip_to_blank f1 (b18, tail) = Ok (b19, tl tail)) as (b19 & B19 & ->).
  { assert (tail = [] \/ exists t, tail = [10] ++ t) as [E|(t & E)].
    { unfold tail. destruct (0 <? errors d); [right; rewrite <- app_assoc; eexists; reflexivity|].
      destruct (0 <? characters d); [right; eexists; reflexivity|now left]. }
    - rewrite E. exists b18. split; [exact B18|apply skip_eof].
    - rewrite E. destruct (skip_blank f1 b18 t B18) as (b19 & ? & ?). eauto. }
  cbn [obind].
  assert (errors d <= 0 -> a = []) as Ea.
  { intros H. assert (conftable d = []) as Ec.
    { pose proof (rp_errors d R) as E. pose proof (rp_confs d R) as [_ F].
      destruct (conftable d) as [|c l]; [reflexivity|]. apply Forall_cons_iff in F as [[F1 _] F].
      cbn [map] in E. rewrite zsum_cons in E.
      assert (0 <= zsum (map cerrors l)).
      { apply zsum_nonneg, Forall_map. eapply Forall_impl; [|exact F]. cbn. lia. }
      lia. }
    rewrite Ec in Pa. now apply Permutation_sym, Permutation_nil in Pa. }
  assert (Ga : Forall (fun c => 0 <= cmarked c <= cerrors c) a).
  { eapply Permutation_Forall; [apply Permutation_sym, Pa|]. eapply Forall_impl; [|apply (rp_confs d R)].
    intros c [_ Hc]. exact Hc. }
  assert (Sa : zsum (map cerrors a) = errors d).
  { rewrite (rp_errors d R). apply zsum_perm. now apply Permutation_map. }
  assert (Sv : zsum (map (fun v => ccount (small d v)) all_values) = characters d).
  { rewrite (rp_chars d R), (tc_total_small_count d (rp_tables d R)). reflexivity. }
  pose proof (add_confs_upto _ _ a Ga n D1 Hn AD1 ltac:(lia)) as AD2. rewrite Sa in AD2.
  pose proof (add_rows_upto _ _ d all_values (rp_tables d R) n _ Hn In_all_values AD2 ltac:(lia)) as AD3.
  rewrite Sv in AD3.
  set (chars := if 0 <? characters d then _ else _) in tail.
  assert (chars = [] \/ exists t, chars = [10] ++ t) as Hch.
  { unfold chars. destruct (0 <? characters d); [right; eexists; reflexivity|now left]. }
  match goal with |- context [obind (if 0 <? errors d then ?X else ?Y) _] =>
    assert (exists b20, line_buffer b20 /\
      (if 0 <? errors d then X else Y) = Ok (add_confs a D1, (b20, tl chars))) as (b20 & B20 & ->) end.
  { unfold tail in *. destruct (Z.ltb_spec 0 (errors d)) as [He|He].
    - rewrite <- app_assoc. cbn [app tl]. rewrite <- app_assoc.
      match goal with |- context [read_line (b19, ?l ++ ?r)] =>
        destruct (read_line_ok b19 l r B19) as (b' & E' & H'); [apply line_intro; [cb|cbn; lia]|] end.
      rewrite E'. cbn [obind].
      refine (conf_rows64_ok _ _ chars a (conf_rows_good d a R Bl Pa) Ga Hch fuel b' D1 n _ _ Hn AD1 _); [apply H'| |lia].
      replace (0 <? errors d) with true in Lt by lia. rewrite !app_length in Lt. rewrite app_length. lia.
    - rewrite (Ea He). cbn [app]. exists b19. split; [exact B19|reflexivity]. }
  cbn [obind].
  match goal with |- context [obind (if 0 <? characters d then ?X else ?Y) _] =>
    assert (exists b21, line_buffer b21 /\
      (if 0 <? characters d then X else Y)
      = Ok (add_rows d all_values (add_confs a D1), (b21, []))) as (b21 & B21 & ->) end.
  { unfold tail in Lt. rewrite app_length in Lt. unfold chars in *.
    destruct (Z.ltb_spec 0 (characters d)) as [Hc|Hc].
    - cbn [app tl]. match goal with |- context [read_line (b20, ?l ++ ?r)] =>
        destruct (read_line_ok b20 l r B20) as (b' & E' & H'); [apply line_intro; [cb|cbn; lia]|] end.
      rewrite E'. cbn [obind].
      eapply class_rows64_ok with (t := n); [apply (rp_tables d R)|apply (rp_values d R)| |apply H'| |exact Hn|exact AD2|lia].
      + intros v. pose proof (FB (FCharacter false v)). cbn [fig cell] in *. lia.
      + replace (0 <? characters d) with true in Lt by lia. rewrite !app_length in Lt. lia.
    - exists b20. split; [exact B20|]. rewrite add_rows_zero; [reflexivity|].
      intros v. pose proof (rp_chars d R) as E. rewrite (tc_total_small_count d (rp_tables d R)) in E.
      destruct (Z.eq_dec (ccount (small d v)) 0); [lia|].
      pose proof (class_values d v R n0) as V.
      pose proof (sum_to_term_le 1114111 (fun v => ccount (small d v)) v) as TL. cbv beta in TL.
      assert (ccount (small d v) <= sum_to 1114111 (fun v => ccount (small d v))); [|lia].
      apply TL; [|exact V]. intros i _. pose proof (tc_missed d (rp_tables d R) i). lia. }
  cbn [obind fst]. exists b21. split; [exact B21|]. split; [reflexivity|].
  eapply figs_le; [exact AD3|lia..].
Qed.
End Report.
