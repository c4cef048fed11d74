(** Writing a report and reading it back. *)
From Coq Require Import String Permutation.
From Verif Require Import Base CLib CLibProof Utf8Model TextModel TextSpec CharclassModel CharclassSpec
  CharclassProps CompareModel CompareProof SortModel SortProps TextIO AccModel AccSpec SumProof AccProof
  ReportModel ReportSpec ReportProof AccrptModel AccrptSpec AccrptChar AccrptFig.
Local Open Scope Z_scope.
Local Open Scope list_scope.

Local Ltac zl := repeat rewrite zlen_app; repeat rewrite zlen_cons; rewrite ?zlen_nil.

(** ** Class names *)
Lemma range_names : Forall (fun r : Z * Z * list Z => clean (snd r) /\ zlen (snd r) <= 40) range.
Proof.
  assert (forallb (fun r : Z * Z * list Z =>
            forallb (fun c => negb (c =? 10) && negb (c =? 0)) (snd r) && (zlen (snd r) <=? 40)) range = true) as H
    by (vm_compute; reflexivity).
  rewrite forallb_forall in H. apply Forall_forall. intros r Hr. specialize (H r Hr).
  apply andb_true_iff in H as [H1 H2]. split; [now apply clean_check|lia].
Qed.

Definition class_name (j : Z) : list Z := match charclass_name j with Ok n => n | _ => [] end.

Lemma class_name_ok v : 0 <= v < 1114111 ->
  charclass_name (class_of v) = Ok (class_name (class_of v)) /\
  clean (class_name (class_of v)) /\ zlen (class_name (class_of v)) <= 40.
Proof.
  intros H. destruct (C32_class_name v H) as (c & n & E & _ & N & S).
  destruct (charclass_class v H) as [E' _]. assert (c = class_of v) as -> by congruence.
  unfold class_name. rewrite N. split; [reflexivity|].
  destruct S as [(before & s & e & after & R & _)|[_ ->]].
  - pose proof range_names as F. rewrite R in F. apply Forall_app in F as [_ F].
    apply Forall_cons_iff in F as [F _]. exact F.
  - split; [apply clean_check; reflexivity|]. cbn. lia.
Qed.
#[global] Opaque class_name charclass_name.

Lemma class_members d j : tables_consistent d -> 0 <= j < 256 -> 0 < ccount (large d j) ->
  exists v, 0 <= v < 1114111 /\ class_of v = j.
Proof.
  intros T J C.
  destruct (in_dec Z.eq_dec j (map class_of (zrange 0 (Z.to_nat 1114111)))) as [I|I].
  - apply in_map_iff in I as (v & E & I). apply In_upto in I; [|lia]. eauto.
  - rewrite (tc_large_count d T) in C by lia. rewrite sum_to_zero in C; [lia|lia|].
    intros v V. rewrite in_class_of by lia. destruct (Z.eqb_spec (class_of v) j) as [E|]; [|reflexivity].
    exfalso. apply I. rewrite <- E. apply in_map. apply In_upto; lia.
Qed.

Section Report.
Variable uc : unicode_data.
Variable fmt : Z -> Z -> list Z.
Hypothesis NUL : nul_hidden uc.
Hypothesis WIDE : marks_wide uc.
Hypothesis FMT : pct_ok fmt.

Definition large_row (d : accdata) (j : Z) : list Z :=
  if 0 <? ccount (large d j) then write_class fmt (large d j) (class_name j) else [].
Definition small_row (d : accdata) (v : Z) : list Z :=
  if 0 <? ccount (small d v)
  then write_class fmt (small d v) (bytes "{" ++ display uc v ++ bytes "}") else [].

(** ** Lines *)
Lemma clean_bytes s : forallb (fun c => negb (c =? 10) && negb (c =? 0)) (bytes s) = true -> clean (bytes s).
Proof. apply clean_check. Qed.
Local Ltac cb := apply clean_bytes; reflexivity.
Local Ltac cl := repeat (first [assumption | apply clean_dec8; lia | cb | apply clean_app]).

Lemma pct_clean n d : 0 <= d < 100000000 -> - 100000000 < n < 200000000 ->
  clean (write_pct fmt n d) /\ zlen (write_pct fmt n d) <= 40 /\
  (0 <= n <= d -> zlen (write_pct fmt n d) = 8).
Proof.
  intros D N. unfold write_pct. destruct (Z.eqb_spec d 0).
  - split; [cb|]. split; [cbn; lia|reflexivity].
  - destruct (FMT n d) as (A & B & C & E); try lia. repeat split; auto.
Qed.

Lemma value_line v s : 0 <= v < 100000000 -> clean s -> zlen s <= 40 ->
  report_line (write_value v s) /\ scan_one (write_value v s) = Some v.
Proof.
  intros V C L. unfold write_value. split.
  - rewrite !app_assoc. apply line_intro.
    + cl.
    + zl. rewrite dec8_len by lia. change (zlen (bytes "   ")) with 3. lia.
  - apply scan_one_dec8; [unfold LONG_MAX; lia|reflexivity].
Qed.

Lemma ops_line o s : (forall c, 0 <= column o c < 100000000) -> clean s -> zlen s <= 40 ->
  report_line (write_ops o s) /\ scan_four (write_ops o s) = Some (ins o, subst o, del o, errs o).
Proof.
  intros V C L. pose proof (V CIns). pose proof (V CSubst). pose proof (V CDel). pose proof (V CErrors).
  cbn [column] in *. unfold write_ops. split.
  - rewrite !app_assoc. apply line_intro.
    + cl.
    + zl. rewrite !dec8_len by lia. change (zlen (bytes "   ")) with 3. change (zlen (bytes " ")) with 1. lia.
  - unfold LONG_MAX. apply scan_four_dec8; try (unfold LONG_MAX; lia). reflexivity.
Qed.

Lemma class_line c s : 0 <= cmissed c <= ccount c -> ccount c < 100000000 -> clean s -> zlen s <= 60 ->
  report_line (write_class fmt c s) /\ hd 0 (write_class fmt c s) <> 10 /\
  scan_two (write_class fmt c s) = Some (ccount c, cmissed c) /\
  exists pre, zlen pre = 29 /\ write_class fmt c s = pre ++ s ++ [10].
Proof.
  intros M C Cl L. destruct (pct_clean (ccount c - cmissed c) (ccount c)) as (P1 & P2 & P3); try lia.
  unfold write_class. split; [|split; [|split]].
  - rewrite !app_assoc. apply line_intro.
    + cl.
    + zl. rewrite !dec8_len by lia. rewrite P3 by lia.
      change (zlen (bytes "   ")) with 3. change (zlen (bytes " ")) with 1. lia.
  - destruct (clean_dec8 (ccount c) ltac:(lia)) as [N _]. pose proof (dec8_len (ccount c) ltac:(lia)) as E.
    destruct (dec8 (ccount c)) as [|x l]; [discriminate E|]. cbn [app hd]. intros ->. apply N. now left.
  - apply scan_two_dec8; try (unfold LONG_MAX; lia). reflexivity.
  - exists (dec8 (ccount c) ++ bytes " " ++ dec8 (cmissed c) ++ bytes " " ++
            write_pct fmt (ccount c - cmissed c) (ccount c) ++ bytes "   ").
    split; [|now rewrite <- !app_assoc].
    zl. rewrite !dec8_len, P3 by lia. reflexivity.
Qed.

Definition conf_row_ok (c : conf) : Prop :=
  report_key (ckey c) /\ 0 <= cerrors c < 100000000 /\ 0 <= cmarked c < 100000000.

Lemma conf_line c : conf_row_ok c ->
  report_line (write_conf c) /\ scan_two (write_conf c) = Some (cerrors c, cmarked c) /\
  exists pre, zlen pre = 20 /\ write_conf c = pre ++ ckey c /\ ~ In 0 (ckey c).
Proof.
  intros ((body & Ek & N10 & B & Lk) & E & M). unfold write_conf. split; [|split].
  - rewrite Ek, !app_assoc. apply line_intro.
    + cl. split; [exact N10|].
      intros I. rewrite Forall_forall in B. specialize (B 0 I). lia.
    + rewrite Ek, zlen_app, zlen_cons, zlen_nil in Lk. zl. rewrite !dec8_len by lia.
      change (zlen (bytes "   ")) with 3. change (zlen (bytes " ")) with 1. lia.
  - apply scan_two_dec8; try (unfold LONG_MAX; lia). reflexivity.
  - exists (dec8 (cerrors c) ++ bytes " " ++ dec8 (cmarked c) ++ bytes "   ").
    split; [|split; [now rewrite <- !app_assoc|]].
    + zl. rewrite !dec8_len by lia. reflexivity.
    + rewrite Ek. intros I. apply in_app_iff in I as [I|[I|[]]]; [|discriminate I].
      rewrite Forall_forall in B. specialize (B 0 I). lia.
Qed.

(** ** Loops *)
Lemma line_pos l : report_line l -> (0 < List.length l)%nat.
Proof. intros (body & -> & _). rewrite app_length. cbn. lia. Qed.

Lemma blank_line : report_line [10].
Proof. exists []. cbn. repeat split; auto; lia. Qed.

Lemma skip_rows tail rows : Forall (fun r => r = [] \/ (report_line r /\ hd 0 r <> 10)) rows ->
  forall fuel b, line_buffer b -> (List.length (concat rows ++ tail) <= fuel)%nat ->
  exists fuel' b', (List.length tail <= fuel')%nat /\ line_buffer b' /\
    skip_to_blank fuel (b, concat rows ++ tail) = skip_to_blank fuel' (b', tail).
Proof.
  induction 1 as [|r rows [->|[R H]] F IH]; intros fuel b B L.
  - exists fuel, b. cbn in L. auto.
  - apply IH; auto.
  - cbn [concat] in L |- *. rewrite <- app_assoc in *. pose proof (line_pos r R) as P.
    rewrite app_length in L. destruct fuel as [|fuel]; [lia|].
    destruct (read_line_ok b r (concat rows ++ tail) B R) as (b' & E & Hb).
    destruct (IH fuel b') as (f' & b'' & L' & B' & E'); [apply Hb|lia|].
    exists f', b''. split; [exact L'|]. split; [exact B'|]. rewrite <- E'.
    cbn [skip_to_blank]. rewrite E. cbn [obind fst].
    destruct Hb as [_ (tl & ->)]. destruct r as [|x r]; [cbn in P; lia|]. cbn [app hd] in *.
    change (rd "line" (x :: r ++ 0 :: tl) 0) with (Ok x). cbn [obind].
    unfold NEWLINE. replace (x =? 10) with false by lia. reflexivity.
Qed.

Lemma skip_blank fuel b tail : line_buffer b ->
  exists b', line_buffer b' /\ skip_to_blank fuel (b, [10] ++ tail) = Ok (b', tail).
Proof.
  intros B. destruct (read_line_ok b [10] tail B blank_line) as (b' & E & Hb).
  exists b'. split; [apply Hb|]. destruct Hb as [_ (tl & ->)].
  destruct fuel; cbn [skip_to_blank]; rewrite E; reflexivity.
Qed.

Lemma skip_eof fuel b : skip_to_blank fuel (b, []) = Ok (b, []).
Proof. now destruct fuel. Qed.

Lemma conf_rows_end fuel b D tail : line_buffer b -> (tail = [] \/ exists t, tail = [10] ++ t) ->
  exists b', line_buffer b' /\ conf_rows fuel D (b, tail) = Ok (D, (b', tl tail)).
Proof.
  intros B [->|(t & ->)].
  - exists b. split; [exact B|]. now destruct fuel.
  - destruct (read_scan_ok scan_two b [10] t B blank_line) as (b' & E & Hb).
    exists b'. split; [apply Hb|]. destruct fuel; cbn [conf_rows]; rewrite E; reflexivity.
Qed.

Lemma conf_rows_ok tail a : Forall conf_row_ok a -> (tail = [] \/ exists t, tail = [10] ++ t) ->
  forall fuel b D, line_buffer b -> (List.length (flat_map write_conf a ++ tail) <= fuel)%nat ->
  exists b', line_buffer b' /\
    conf_rows fuel D (b, flat_map write_conf a ++ tail) = Ok (add_confs a D, (b', tl tail)).
Proof.
  intros F T. induction F as [|c a C F IH]; intros fuel b D B L.
  - now apply conf_rows_end.
  - cbn [flat_map] in L |- *. rewrite <- app_assoc in *.
    destruct (conf_line c C) as (R & S & pre & Lp & Ew & N0).
    pose proof (line_pos _ R) as P. rewrite app_length in L. destruct fuel as [|fuel]; [lia|].
    destruct (read_scan_ok scan_two b _ (flat_map write_conf a ++ tail) B R) as (b' & E & Hb).
    destruct (IH fuel b' (add_conf D (ckey c) (cerrors c) (cmarked c))) as (b'' & B' & E'); [apply Hb|lia|].
    exists b''. split; [exact B'|]. cbn [conf_rows]. rewrite E. cbn [obind]. rewrite S. cbn [fst].
    rewrite Ew in Hb. unfold CONF_OFFSET. rewrite <- Lp.
    rewrite (cstr_holds b' pre (ckey c) Hb N0). cbn [obind]. exact E'.
Qed.

Lemma display_clean v : scalar v -> clean (bytes "{" ++ display uc v ++ bytes "}") /\
  zlen (bytes "{" ++ display uc v ++ bytes "}") <= 60.
Proof.
  intros S. destruct (display_ok uc v S) as [L N]. pose proof (display_no_nul uc v NUL S) as N0.
  split.
  - apply clean_app; [cb|]. apply clean_app; [now split|cb].
  - zl. change (zlen (bytes "{")) with 1. change (zlen (bytes "}")) with 1. lia.
Qed.

Lemma class_rows_ok d vs : tables_consistent d ->
  (forall v, ccount (small d v) <> 0 -> scalar v) -> (forall v, ccount (small d v) < 100000000) ->
  forall fuel b D, line_buffer b -> (List.length (flat_map (small_row d) vs) <= fuel)%nat ->
  exists b', line_buffer b' /\
    class_rows fuel D (b, flat_map (small_row d) vs) = Ok (add_rows d vs D, (b', [])).
Proof.
  intros T Sc Lim. induction vs as [|v vs IH]; intros fuel b D B L.
  - exists b. split; [exact B|]. now destruct fuel.
  - change (add_rows d (v :: vs) D) with (add_rows d vs (add_row d D v)).
    cbn [flat_map] in L |- *. unfold add_row. unfold small_row at 1 in L. unfold small_row at 1.
    destruct (Z.ltb_spec 0 (ccount (small d v))) as [C|C]; [|now apply IH].
    assert (scalar v) as S by (apply Sc; lia).
    assert (0 <= v < 1114111) as V.
    { destruct (Z_lt_dec v 1114111); [unfold scalar in S; lia|].
      rewrite (tc_range d T v) in C by lia. cbn in C. lia. }
    pose proof (tc_missed d T v) as M. pose proof (Lim v) as Lv.
    destruct (display_clean v S) as [Cl Ld].
    destruct (class_line (small d v) _ M Lv Cl Ld) as (R & _ & Sn & pre & Lp & Ew).
    set (row := write_class fmt (small d v) (bytes "{" ++ display uc v ++ bytes "}")) in *.
    pose proof (line_pos _ R) as P. rewrite app_length in L. destruct fuel as [|fuel]; [lia|].
    destruct (read_scan_ok scan_two b _ (flat_map (small_row d) vs) B R) as (b' & E & Hb).
    destruct (IH fuel b' (add_class_pure D v (ccount (small d v)) (cmissed (small d v))))
      as (b'' & B' & E'); [apply Hb|lia|].
    exists b''. split; [exact B'|]. cbn [class_rows]. rewrite E. cbn [obind]. rewrite Sn. cbn [fst].
    destruct Hb as [_ (tl & Eb)]. rewrite Ew in Eb. rewrite <- !app_assoc in Eb.
    unfold CLASS_OFFSET. rewrite <- Lp, Eb.
    rewrite (read_char_display uc v pre ([10] ++ 0 :: tl) [10]); auto.
    cbn [obind]. unfold INVALID_CHARVALUE. replace (v =? 4294967295) with false by lia.
    rewrite add_class_ok by exact V. cbn [obind]. rewrite <- Eb. exact E'.
Qed.

(** ** The whole report *)
Definition report_text (d : accdata) (a : list conf) : list Z :=
  ACC_TITLE ++ ACC_DIVIDER ++
  write_value (characters d) (bytes "Characters") ++
  write_value (errors d) (bytes "Errors") ++
  ((write_pct fmt (characters d - errors d) (characters d) ++ bytes "%  Accuracy") ++ [10]) ++
  [10] ++
  write_value (rejects d) (bytes "Reject Characters") ++
  write_value (suspects d) (bytes "Suspect Markers") ++
  write_value (false_marks d) (bytes "False Marks") ++
  ((write_pct fmt (rejects d + suspects d) (characters d) ++ bytes "%  Characters Marked") ++ [10]) ++
  ((write_pct fmt (characters d - errs (unmarked_ops d)) (characters d) ++
    bytes "%  Accuracy After Correction") ++ [10]) ++
  [10] ++
  (bytes "     Ins    Subst      Del   Errors" ++ [10]) ++
  write_ops (marked_ops d) (bytes "Marked") ++
  write_ops (unmarked_ops d) (bytes "Unmarked") ++
  write_ops (total_ops d) (bytes "Total") ++
  [10] ++
  concat ((bytes "   Count   Missed   %Right" ++ [10]) ::
          map (large_row d) (zrange 0 (Z.to_nat MAX_CHARCLASSES)) ++
          [write_class fmt (total_class d) (bytes "Total")]) ++
  (if 0 <? errors d then
     [10] ++ (bytes "  Errors   Marked   Correct-Generated" ++ [10]) ++ flat_map write_conf a else []) ++
  (if 0 <? characters d then
     [10] ++ (bytes "   Count   Missed   %Right" ++ [10]) ++ flat_map (small_row d) all_values else []).

Lemma class_values d v : reportable d -> ccount (small d v) <> 0 -> 0 <= v < 1114111.
Proof.
  intros R C. destruct (Z_lt_dec v 1114111) as [L|L]; [|].
  - destruct (Z_le_dec 0 v); [lia|]. destruct C. rewrite (tc_range d (rp_tables d R) v) by lia. reflexivity.
  - destruct C. rewrite (tc_range d (rp_tables d R) v) by lia. reflexivity.
Qed.

Lemma write_accrpt_text order d :
  reportable d -> (forall l, Permutation (order l) l) ->
  exists a, Permutation a (conftable d) /\ write_accrpt uc fmt order d = Ok (report_text d a) /\
    (sort compare_conf (zlen (order (conftable d))) (order (conftable d)) = Ok a).
Proof.
  intros R O. destruct (C06_sort _ compare_conf (order (conftable d))) as (a & Es & Pm & _).
  exists a. split; [|split; [|exact Es]].
  { eapply Permutation_trans; [apply Permutation_sym; exact Pm|apply O]. }
  unfold write_accrpt.
  rewrite (oconcat_ok (write_large fmt d) (large_row d)).
  2:{ intros j J. unfold MAX_CHARCLASSES in J. apply In_upto in J; [|lia]. unfold write_large, large_row.
      destruct (Z.ltb_spec 0 (ccount (large d j))) as [C|C]; [|reflexivity].
      destruct (class_members d j (rp_tables d R) J C) as (v & V & <-).
      destruct (class_name_ok v V) as [-> _]. reflexivity. }
  cbn [obind].
  assert (forall X : list Z -> outcome (list Z),
    obind (if 0 <? errors d
           then obind (sort compare_conf (zlen (order (conftable d))) (order (conftable d)))
                 (fun a => Ok ([10] ++ bytes "  Errors   Marked   Correct-Generated" ++ [10] ++ flat_map write_conf a))
           else Ok []) X =
    X (if 0 <? errors d then
        [10] ++ (bytes "  Errors   Marked   Correct-Generated" ++ [10]) ++ flat_map write_conf a else [])) as ->.
  { intros X. rewrite Es. destruct (0 <? errors d); cbn [obind]; [|reflexivity].
    now rewrite <- app_assoc. }
  rewrite (oconcat_ok (write_small uc fmt d) (small_row d)).
  2:{ intros v V. unfold write_small, small_row. destruct (Z.ltb_spec 0 (ccount (small d v))) as [C|C]; [|reflexivity].
      rewrite (char_string_ok uc v NUL) by (apply (rp_values d R); lia). reflexivity. }
  cbn [obind].
  assert (forall X : list Z -> outcome (list Z),
    obind (if 0 <? characters d then
             Ok ([10] ++ bytes "   Count   Missed   %Right" ++ [10] ++ flat_map (small_row d) (zrange 0 (Z.to_nat NUM_CHARVALUES)))
           else Ok []) X =
    X (if 0 <? characters d then
     [10] ++ (bytes "   Count   Missed   %Right" ++ [10]) ++ flat_map (small_row d) all_values else [])) as ->.
  { intros X. fold all_values. destruct (0 <? characters d); cbn [obind]; [|reflexivity].
    now rewrite <- app_assoc. }
  f_equal. unfold report_text.
  rewrite concat_cons, concat_app, <- flat_map_concat_map.
  change (concat [write_class fmt (total_class d) (bytes "Total")])
    with (write_class fmt (total_class d) (bytes "Total") ++ []). rewrite app_nil_r.
  rewrite <- !app_assoc. reflexivity.
Qed.

(** What reading the report of [d] into [D] gives. *)
Definition merged (D d : accdata) (a : list conf) : accdata :=
  add_rows d all_values (add_confs a
    (with_ops (add_counts D (characters d) (errors d) (rejects d) (suspects d) (false_marks d))
       (marked_ops d) (unmarked_ops d) (total_ops d))).

Lemma add_rows_zero d vs : (forall v, ccount (small d v) <= 0) -> forall D, add_rows d vs D = D.
Proof.
  intros H. induction vs as [|v vs IH]; intros D; [reflexivity|].
  change (add_rows d (v :: vs) D) with (add_rows d vs (add_row d D v)). rewrite IH.
  unfold add_row. replace (0 <? ccount (small d v)) with false by (specialize (H v); lia). reflexivity.
Qed.

Lemma four_ops_eta o : four_ops (ins o, subst o, del o, errs o) = o.
Proof. now destruct o. Qed.

Lemma fig_bounds d x : reportable d -> below 100000000 d -> 0 <= fig x d < 100000000.
Proof. intros R B. split; [apply (rp_nonneg d R)|apply B]. Qed.

Lemma acc_title_line : report_line ACC_TITLE.
Proof. apply line_intro; [cb|]. cbn. lia. Qed.
Lemma acc_divider_line : report_line ACC_DIVIDER.
Proof. apply line_intro; [cb|]. cbn. lia. Qed.

Lemma class_rows_lines d : reportable d -> below 100000000 d ->
  Forall (fun r => r = [] \/ (report_line r /\ hd 0 r <> 10))
    ((bytes "   Count   Missed   %Right" ++ [10]) ::
          map (large_row d) (zrange 0 (Z.to_nat MAX_CHARCLASSES)) ++
          [write_class fmt (total_class d) (bytes "Total")]).
Proof.
  intros R B. apply Forall_cons; [|apply Forall_app; split].
  - right. split; [|discriminate]. apply line_intro; [cb|]. cbn. lia.
  - apply Forall_map, Forall_forall. intros j J. unfold MAX_CHARCLASSES in J.
    apply In_upto in J; [|lia]. unfold large_row.
    destruct (Z.ltb_spec 0 (ccount (large d j))) as [C|C]; [|now left]. right.
    destruct (class_members d j (rp_tables d R) J C) as (v & V & Ev).
    destruct (class_name_ok v V) as (_ & Cl & L). rewrite Ev in *.
    assert (cmissed (large d j) <= ccount (large d j)).
    { rewrite (tc_large_count d (rp_tables d R)), (tc_large_missed d (rp_tables d R)) by exact J.
      apply sum_to_le; [lia|]. intros w _. pose proof (tc_missed d (rp_tables d R) w).
      destruct (in_class j w); lia. }
    pose proof (fig_bounds d (FClass true j) R B) as F1. pose proof (fig_bounds d (FClass false j) R B) as F2.
    cbn [fig cell] in F1, F2. replace ((0 <=? j) && (j <? 256)) with true in F1, F2 by lia.
    destruct (class_line (large d j) (class_name j)) as (Rl & Hl & _); auto; try lia.
  - apply Forall_cons; [|apply Forall_nil]. right.
    pose proof (fig_bounds d (FAllClasses true) R B) as F1.
    pose proof (fig_bounds d (FAllClasses false) R B) as F2. cbn [fig cell] in F1, F2.
    assert (cmissed (total_class d) <= ccount (total_class d)).
    { rewrite (tc_total_small_count d (rp_tables d R)), (tc_total_small_missed d (rp_tables d R)).
      apply sum_to_le; [lia|]. intros w _. apply (tc_missed d (rp_tables d R)). }
    destruct (class_line (total_class d) (bytes "Total")) as (Rl & Hl & _); auto; try lia.
    + cb.
    + cbn. lia.
Qed.

Lemma conf_rows_good d a : reportable d -> below 100000000 d -> Permutation a (conftable d) ->
  Forall conf_row_ok a.
Proof.
  intros R B P. apply Forall_forall. intros c C. eapply Permutation_in in C; [|exact P].
  pose proof (rp_keys d R) as K. rewrite Forall_forall in K.
  destruct (conf_errors_in _ c (rp_confs d R) C) as [E M].
  pose proof (fig_bounds d (FConfusion true (ckey c)) R B) as F1.
  pose proof (fig_bounds d (FConfusion false (ckey c)) R B) as F2. cbn [fig] in F1, F2.
  split; [auto|]. lia.
Qed.

Lemma read_report b D d a : line_buffer b -> reportable d -> below 100000000 d ->
  Permutation a (conftable d) ->
  exists b', line_buffer b' /\ read_accrpt b D (report_text d a) = Ok (merged D d a, b').
Proof.
  intros B0 R Bl Pa.
  pose proof (fun x => fig_bounds d x R Bl) as FB.
  pose proof (FB FCharacters) as Bch. pose proof (FB FErrors) as Ber. pose proof (FB FRejects) as Bre.
  pose proof (FB FSuspects) as Bsu. pose proof (FB FFalseMarks) as Bfm.
  pose proof (FB (FOps RUnmarked CErrors)) as Bun. cbn [fig ops_of column] in *.
  assert (forall r c, 0 <= column (ops_of d r) c < 100000000) as BO by (intros r c; exact (FB (FOps r c))).
  set (f := report_text d a). set (fuel := List.length f).
  assert (exists tail1, f = tail1 /\ (List.length tail1 <= fuel)%nat) as _ by (exists f; auto).
  destruct (pct_clean (characters d - errors d) (characters d)) as (P1 & P2 & _); try lia.
  destruct (pct_clean (rejects d + suspects d) (characters d)) as (Q1 & Q2 & _); try lia.
  destruct (pct_clean (characters d - errs (unmarked_ops d)) (characters d)) as (S1 & S2 & _); try lia.
  unfold read_accrpt. fold fuel.
  assert (List.length f <= fuel)%nat as Lf by (unfold fuel; lia). clearbody fuel.
  unfold f in *. clear f. unfold report_text in *.
  (* title, divider *)
  match goal with |- context [need_title ACC_TITLE (b, ACC_TITLE ++ ?r)] =>
    destruct (need_title_ok b ACC_TITLE r B0 acc_title_line) as (b1 & E1 & B1) end.
  rewrite E1. cbn [obind]. clear E1.
  match goal with |- context [need_divider ACC_DIVIDER (b1, ACC_DIVIDER ++ ?r)] =>
    destruct (need_divider_ok b1 ACC_DIVIDER r B1 acc_divider_line) as (b2 & E2 & B2) end.
  rewrite E2. cbn [obind]. clear E2.
  (* characters, errors *)
  destruct (value_line (characters d) (bytes "Characters")) as (R3 & T3); [lia|cb|cbn; lia|].
  match goal with |- context [need_scan scan_one (b2, ?l ++ ?r)] =>
    destruct (need_scan_ok scan_one (characters d) b2 l r B2 R3 T3) as (b3 & E3 & B3) end.
  rewrite E3. cbn [obind]. clear E3.
  destruct (value_line (errors d) (bytes "Errors")) as (R4 & T4); [lia|cb|cbn; lia|].
  match goal with |- context [need_scan scan_one (b3, ?l ++ ?r)] =>
    destruct (need_scan_ok scan_one (errors d) b3 l r B3 R4 T4) as (b4 & E4 & B4) end.
  rewrite E4. cbn [obind]. clear E4.
  (* accuracy, blank *)
  match goal with |- context [need_line (b4, ?l ++ ?r)] =>
    destruct (need_line_ok b4 l r B4) as (b5 & E5 & B5);
    [apply line_intro; [apply clean_app; [exact P1|cb]|rewrite zlen_app; cbn; unfold zlen in *; lia]|] end.
  rewrite E5. cbn [obind]. clear E5.
  match goal with |- context [need_line (b5, [10] ++ ?r)] =>
    destruct (need_line_ok b5 [10] r B5 blank_line) as (b6 & E6 & B6) end.
  rewrite E6. cbn [obind]. clear E6.
  (* rejects, suspects, false marks *)
  destruct (value_line (rejects d) (bytes "Reject Characters")) as (R7 & T7); [lia|cb|cbn; lia|].
  match goal with |- context [need_scan scan_one (b6, ?l ++ ?r)] =>
    destruct (need_scan_ok scan_one (rejects d) b6 l r B6 R7 T7) as (b7 & E7 & B7) end.
  rewrite E7. cbn [obind]. clear E7.
  destruct (value_line (suspects d) (bytes "Suspect Markers")) as (R8 & T8); [lia|cb|cbn; lia|].
  match goal with |- context [need_scan scan_one (b7, ?l ++ ?r)] =>
    destruct (need_scan_ok scan_one (suspects d) b7 l r B7 R8 T8) as (b8 & E8 & B8) end.
  rewrite E8. cbn [obind]. clear E8.
  destruct (value_line (false_marks d) (bytes "False Marks")) as (R9 & T9); [lia|cb|cbn; lia|].
  match goal with |- context [need_scan scan_one (b8, ?l ++ ?r)] =>
    destruct (need_scan_ok scan_one (false_marks d) b8 l r B8 R9 T9) as (b9 & E9 & B9) end.
  rewrite E9. cbn [obind]. clear E9.
  (* two percentages, blank, heading *)
  match goal with |- context [need_line (b9, ?l ++ ?r)] =>
    destruct (need_line_ok b9 l r B9) as (b10 & E10 & B10);
    [apply line_intro; [apply clean_app; [exact Q1|cb]|rewrite zlen_app; cbn; unfold zlen in *; lia]|] end.
  rewrite E10. cbn [obind]. clear E10.
  match goal with |- context [need_line (b10, ?l ++ ?r)] =>
    destruct (need_line_ok b10 l r B10) as (b11 & E11 & B11);
    [apply line_intro; [apply clean_app; [exact S1|cb]|rewrite zlen_app; cbn; unfold zlen in *; lia]|] end.
  rewrite E11. cbn [obind]. clear E11.
  match goal with |- context [need_line (b11, [10] ++ ?r)] =>
    destruct (need_line_ok b11 [10] r B11 blank_line) as (b12 & E12 & B12) end.
  rewrite E12. cbn [obind]. clear E12.
  match goal with |- context [need_line (b12, ?l ++ ?r)] =>
    destruct (need_line_ok b12 l r B12) as (b13 & E13 & B13); [apply line_intro; [cb|cbn; lia]|] end.
  rewrite E13. cbn [obind]. clear E13.
  (* operations *)
  destruct (ops_line (marked_ops d) (bytes "Marked")) as (R14 & T14); [exact (BO RMarked)|cb|cbn; lia|].
  match goal with |- context [need_scan scan_four (b13, ?l ++ ?r)] =>
    destruct (need_scan_ok scan_four _ b13 l r B13 R14 T14) as (b14 & E14 & B14) end.
  rewrite E14. cbn [obind]. clear E14.
  destruct (ops_line (unmarked_ops d) (bytes "Unmarked")) as (R15 & T15); [exact (BO RUnmarked)|cb|cbn; lia|].
  match goal with |- context [need_scan scan_four (b14, ?l ++ ?r)] =>
    destruct (need_scan_ok scan_four _ b14 l r B14 R15 T15) as (b15 & E15 & B15) end.
  rewrite E15. cbn [obind]. clear E15.
  destruct (ops_line (total_ops d) (bytes "Total")) as (R16 & T16); [exact (BO RTotal)|cb|cbn; lia|].
  match goal with |- context [need_scan scan_four (b15, ?l ++ ?r)] =>
    destruct (need_scan_ok scan_four _ b15 l r B15 R16 T16) as (b16 & E16 & B16) end.
  rewrite E16. cbn [obind]. clear E16. rewrite !four_ops_eta.
  match goal with |- context [need_line (b16, [10] ++ ?r)] =>
    destruct (need_line_ok b16 [10] r B16 blank_line) as (b17 & E17 & B17) end.
  rewrite E17. cbn [obind]. clear E17.
  unfold merged. set (D1 := with_ops _ _ _ _).
  (* class rows *)
  repeat rewrite app_length in Lf.
  match goal with |- context [skip_to_blank fuel (b17, concat ?rows ++ ?t)] =>
    destruct (skip_rows t rows (class_rows_lines d R Bl) fuel b17 B17) as (f1 & b18 & L18 & B18 & ->);
    [rewrite !app_length; lia|]; set (tail := t) in * end.
  assert (List.length tail <= fuel)%nat as Lt by (unfold tail; rewrite app_length; lia).
  assert (exists b19, line_buffer b19 /\ skip_to_blank f1 (b18, tail) = Ok (b19, tl tail)) as (b19 & B19 & ->).
  { assert (tail = [] \/ exists t, tail = [10] ++ t) as [E|(t & E)].
    { unfold tail. destruct (0 <? errors d); [right; rewrite <- app_assoc; eexists; reflexivity|].
      destruct (0 <? characters d); [right; eexists; reflexivity|now left]. }
    - rewrite E. exists b18. split; [exact B18|apply skip_eof].
    - rewrite E. destruct (skip_blank f1 b18 t B18) as (b19 & ? & ?). eauto. }
  cbn [obind].
  assert (errors d <= 0 -> a = []) as Ea.
  { intros H. assert (conftable d = []) as Ec.
    { pose proof (rp_errors d R) as E. pose proof (rp_confs d R) as [_ F].
      destruct (conftable d) as [|c l]; [reflexivity|]. apply Forall_cons_iff in F as [[F1 _] F].
      cbn [map] in E. rewrite zsum_cons in E.
      assert (0 <= zsum (map cerrors l)).
      { apply zsum_nonneg, Forall_map. eapply Forall_impl; [|exact F]. cbn. lia. }
      lia. }
    rewrite Ec in Pa. now apply Permutation_sym, Permutation_nil in Pa. }
  set (chars := if 0 <? characters d then _ else _) in tail.
  assert (chars = [] \/ exists t, chars = [10] ++ t) as Hch.
  { unfold chars. destruct (0 <? characters d); [right; eexists; reflexivity|now left]. }
  match goal with |- context [obind (if 0 <? errors d then ?X else ?Y) _] =>
    assert (exists b20, line_buffer b20 /\
      (if 0 <? errors d then X else Y) = Ok (add_confs a D1, (b20, tl chars))) as (b20 & B20 & ->) end.
  { unfold tail in *. destruct (Z.ltb_spec 0 (errors d)) as [He|He].
    - rewrite <- app_assoc. cbn [app tl]. rewrite <- app_assoc.
      match goal with |- context [read_line (b19, ?l ++ ?r)] =>
        destruct (read_line_ok b19 l r B19) as (b' & E' & H'); [apply line_intro; [cb|cbn; lia]|] end.
      rewrite E'. cbn [obind].
      apply (conf_rows_ok chars a (conf_rows_good d a R Bl Pa) Hch fuel b' D1); [apply H'|].
      replace (0 <? errors d) with true in Lt by lia. rewrite !app_length in Lt. rewrite app_length. lia.
    - rewrite (Ea He). cbn [app]. exists b19. split; [exact B19|reflexivity]. }
  cbn [obind].
  match goal with |- context [obind (if 0 <? characters d then ?X else ?Y) _] =>
    assert (exists b21, line_buffer b21 /\
      (if 0 <? characters d then X else Y)
      = Ok (add_rows d all_values (add_confs a D1), (b21, []))) as (b21 & B21 & ->) end.
  { unfold tail in Lt. rewrite app_length in Lt. unfold chars in *.
    destruct (Z.ltb_spec 0 (characters d)) as [Hc|Hc].
    - cbn [app tl]. match goal with |- context [read_line (b20, ?l ++ ?r)] =>
        destruct (read_line_ok b20 l r B20) as (b' & E' & H'); [apply line_intro; [cb|cbn; lia]|] end.
      rewrite E'. cbn [obind].
      apply class_rows_ok; [apply (rp_tables d R)|apply (rp_values d R)| |apply H'|].
      + intros v. pose proof (FB (FCharacter false v)). cbn [fig cell] in *. lia.
      + replace (0 <? characters d) with true in Lt by lia. rewrite !app_length in Lt. lia.
    - exists b20. split; [exact B20|]. rewrite add_rows_zero; [reflexivity|].
      intros v. pose proof (rp_chars d R) as E. rewrite (tc_total_small_count d (rp_tables d R)) in E.
      destruct (Z.eq_dec (ccount (small d v)) 0); [lia|].
      pose proof (class_values d v R n) as V.
      pose proof (sum_to_term_le 1114111 (fun v => ccount (small d v)) v) as TL. cbv beta in TL.
      assert (ccount (small d v) <= sum_to 1114111 (fun v => ccount (small d v))); [|lia].
      apply TL; [|exact V]. intros i _. pose proof (tc_missed d (rp_tables d R) i). lia. }
  cbn [obind fst]. exists b21. split; [exact B21|reflexivity].
Qed.
End Report.
