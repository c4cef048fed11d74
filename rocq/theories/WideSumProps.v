(** C84, continued: the programs that read reports. *)
From Coq Require Import String Permutation.
From Verif Require Import Base CLib Utf8Model TextModel CharclassModel AccModel AccSpec SumProof ReportModel ReportSpec
  AccrptModel AccrptSpec AccrptFig AccrptProof AccrptTop WacModel WacrptModel WacrptSpec WacrptTop DoubleModel DistModel CiModel
  GroupModel WordModel StopModel NonstopModel WideModel WideProof WideRead WideWord WideSumModel WideSumProof WideProg AccrptProps WacrptProps.
Local Open Scope Z_scope.
Local Open Scope list_scope.
#[local] Opaque all_values sum_to.

Lemma reports_of {A} (R : A -> list Z -> Prop) ds fs : Forall2 R ds fs -> Forall (fun f => exists d, R d f) fs.
Proof. induction 1; constructor; eauto. Qed.

(** wordaccsum: fewer than 92233720368 reports. *)
Theorem C84_wordaccsum : forall fmt order b ds fs,
  pct_ok fmt -> line_buffer b -> Forall2 (wreport_of fmt) ds fs ->
  100000000 * zlen fs <= 9223372036854775807 ->
  wordaccsum64 fmt order b fs = wordaccsum fmt order b fs.
Proof.
  intros fmt order b ds fs F B H L. unfold wordaccsum64, wordaccsum. destruct (zlen fs <? 2); [reflexivity|].
  assert (G : forall ds fs, Forall2 (wreport_of fmt) ds fs -> forall b D n, line_buffer b -> wreportable D ->
    (forall x, wfig x D <= n) -> n + 100000000 * zlen fs <= TOP ->
    ofold (fun (st : wacdata * list Z) f => read_wacrpt64 (snd st) (fst st) f) fs (D, b) =
    ofold (fun (st : wacdata * list Z) f => read_wacrpt (snd st) (fst st) f) fs (D, b)).
  { clear - F. induction 1 as [|d f ds fs Hd H IH]; intros b D n B R U L; [reflexivity|].
    rewrite zlen_cons in L. pose proof (zlen_nonneg fs). cbn [ofold fst snd].
    destruct (wread_one64 fmt b D d f n F B Hd R U ltac:(lia)) as (D' & b' & E64 & E & B' & R' & _ & U').
    rewrite E64, E. cbn [obind]. apply (IH b' D' (n + 100000000)); auto. lia. }
  rewrite (G ds fs H b wac_empty 0 B wac_empty_reportable); [reflexivity| |unfold TOP; lia].
  intros x. rewrite wac_empty_fig. lia.
Qed.
Print Assumptions C84_wordaccsum.

(** accdist and wordaccdist *)
Theorem C84_accdist : forall uc fmt fmt6 b ds fs,
  nul_hidden uc -> marks_wide uc -> pct_ok fmt -> line_buffer b -> Forall2 (report_of uc fmt) ds fs ->
  100000000 * zlen fs <= 9223372036854775807 ->
  accdist64 fmt6 b fs = accdist fmt6 b fs.
Proof.
  intros uc fmt fmt6 b ds fs N W F B H L. unfold accdist64, accdist.
  change acc_page64 with (page64 read_accrpt64 characters errors). change acc_page with (page0 read_accrpt characters errors).
  rewrite (pages_agree read_accrpt64 read_accrpt characters errors
    (fun n D b => line_buffer b /\ reportable D /\ all_upto n D) (fun f => exists d, report_of uc fmt d f)
    (acc_step uc fmt N W F) acc_bounds fs (reports_of _ ds fs H) 0); [reflexivity| | |lia|unfold TOP; lia].
  - split; [exact B|exact acc_start].
  - split; [|cbn; unfold upto; lia]. intros j x E. apply znth_In in E. apply repeat_spec in E. subst. unfold upto. lia.
Qed.
Print Assumptions C84_accdist.

Theorem C84_wordaccdist : forall fmt fmt6 b ds fs,
  pct_ok fmt -> line_buffer b -> Forall2 (wreport_of fmt) ds fs ->
  100000000 * zlen fs <= 9223372036854775807 ->
  wordaccdist64 fmt6 b fs = wordaccdist fmt6 b fs.
Proof.
  intros fmt fmt6 b ds fs F B H L. unfold wordaccdist64, wordaccdist.
  change wac_page64 with (page64 read_wacrpt64 (fun d => wcount (wtotal d)) (fun d => wmissed (wtotal d))).
  change wac_page with (page0 read_wacrpt (fun d => wcount (wtotal d)) (fun d => wmissed (wtotal d))).
  rewrite (pages_agree read_wacrpt64 read_wacrpt (fun d => wcount (wtotal d)) (fun d => wmissed (wtotal d))
    (fun n D b => line_buffer b /\ wreportable D /\ forall x, wfig x D <= n) (fun f => exists d, wreport_of fmt d f)
    (wac_step fmt F) wac_bounds fs (reports_of _ ds fs H) 0); [reflexivity| | |lia|unfold TOP; lia].
  - split; [exact B|]. split; [exact wac_empty_reportable|]. intros x. rewrite wac_empty_fig. lia.
  - split; [|cbn; unfold upto; lia]. intros j x E. apply znth_In in E. apply repeat_spec in E. subst. unfold upto. lia.
Qed.
Print Assumptions C84_wordaccdist.

(** accci and wordaccci *)
Lemma no_obs : obs_state ([], 0, 0) [] 0.
Proof. split; [reflexivity|]. split; [constructor|]. cbn. unfold upto. lia. Qed.

Theorem C84_accci : forall uc fmt fmt14 fmtd b ds fs,
  nul_hidden uc -> marks_wide uc -> pct_ok fmt -> line_buffer b -> Forall2 (report_of uc fmt) ds fs ->
  100000000 * zlen fs <= 9223372036854775807 ->
  accci64 fmt14 fmtd b fs = accci fmt14 fmtd b fs.
Proof.
  intros uc fmt fmt14 fmtd b ds fs N W F B H L. unfold accci64, accci. destruct (zlen fs <? 2); [reflexivity|].
  change acc_obs64 with (obs64 read_accrpt64 characters errors). change acc_obs with (obs0 read_accrpt characters errors).
  destruct (obs_agree read_accrpt64 read_accrpt characters errors
    (fun n D b => line_buffer b /\ reportable D /\ all_upto n D) (fun f => exists d, report_of uc fmt d f)
    (acc_step uc fmt N W F) acc_bounds fs (reports_of _ ds fs H) 0 acc_empty b ([], 0, 0) [])
    as (n & D & b' & st & l & -> & -> & S & I & Ln); [|exact no_obs|lia|unfold TOP; lia|].
  - split; [exact B|exact acc_start].
  - cbn [obind fst]. destruct (acc_bounds _ _ _ I) as [C M]. now apply (ci_results64_ok _ _ _ _ st l n).
Qed.
Print Assumptions C84_accci.

Theorem C84_wordaccci : forall fmt fmt14 fmtd b ds fs,
  pct_ok fmt -> line_buffer b -> Forall2 (wreport_of fmt) ds fs ->
  100000000 * zlen fs <= 9223372036854775807 ->
  wordaccci64 fmt14 fmtd b fs = wordaccci fmt14 fmtd b fs.
Proof.
  intros fmt fmt14 fmtd b ds fs F B H L. unfold wordaccci64, wordaccci. destruct (zlen fs <? 2); [reflexivity|].
  change wac_obs64 with (obs64 read_wacrpt64 (fun d => wcount (wtotal d)) (fun d => wmissed (wtotal d))).
  change wac_obs with (obs0 read_wacrpt (fun d => wcount (wtotal d)) (fun d => wmissed (wtotal d))).
  destruct (obs_agree read_wacrpt64 read_wacrpt (fun d => wcount (wtotal d)) (fun d => wmissed (wtotal d))
    (fun n D b => line_buffer b /\ wreportable D /\ forall x, wfig x D <= n) (fun f => exists d, wreport_of fmt d f)
    (wac_step fmt F) wac_bounds fs (reports_of _ ds fs H) 0 wac_empty b ([], 0, 0) [])
    as (n & D & b' & st & l & -> & -> & S & I & Ln); [|exact no_obs|lia|unfold TOP; lia|].
  - split; [exact B|]. split; [exact wac_empty_reportable|]. intros x. rewrite wac_empty_fig. lia.
  - cbn [obind fst]. destruct (wac_bounds _ _ _ I) as [C M]. now apply (ci_results64_ok _ _ _ _ st l n).
Qed.
Print Assumptions C84_wordaccci.

(** groupacc, for a group of fewer than 92233720368 characters (repeated ones count again). *)
Theorem C84_groupacc : forall uc fmt junk junk4 fmt8 b d groupfile text found report others,
  nul_hidden uc -> marks_wide uc -> pct_ok fmt -> line_buffer b -> report_of uc fmt d report ->
  read_text uc junk junk4 group_opt [] groupfile = Ok (text, found) ->
  100000000 * zlen text <= 9223372036854775807 ->
  groupacc64 uc junk junk4 fmt8 b (groupfile :: report :: others) =
  groupacc uc junk junk4 fmt8 b (groupfile :: report :: others).
Proof.
  intros uc fmt junk junk4 fmt8 b d gf text found report others N W F B H E L. unfold groupacc64, groupacc.
  destruct (_ || _); [reflexivity|]. cbn [nth]. rewrite E. cbn [obind].
  destruct (acc_step uc fmt N W F 0 b acc_empty report (ex_intro _ d H) (conj B acc_start) ltac:(lia) ltac:(unfold TOP; lia))
    as (D & b' & -> & -> & (_ & RD & UD) & _). cbn [obind].
  unfold write_report64, write_report.
  assert (U : forall v, upto (0 + 100000000) (ccount (small D v)) /\ upto (0 + 100000000) (cmissed (small D v))).
  { intros v. destruct UD as (_ & (_ & _ & T3) & _). destruct (T3 v). auto. }
  destruct (write_chars64_agree uc fmt8 D 100000000 (map value text) U ltac:(lia) 0 0 ltac:(lia) ltac:(lia)) as [-> P].
  { unfold zlen in *. rewrite map_length. unfold TOP. lia. }
  { unfold zlen in *. rewrite map_length. unfold TOP. lia. }
  destruct (write_chars uc fmt8 D (map value text) 0 0) as [[out [tc tm]]|e|e|]; cbn [obind fst snd]; [|reflexivity..].
  specialize (P _ eq_refl). cbn [fst snd] in P. unfold write_line64.
  rewrite (diff64_ok tc tm TOP) by (try apply P; lia). reflexivity.
Qed.
Print Assumptions C84_groupacc.

(** nonstopacc, for a list of fewer than 46116860183 words (repeated ones count again). *)
Theorem C84_nonstopacc : forall fmt fmt6 uc NFC junk junk4 b d stopfile text found words report,
  pct_ok fmt -> line_buffer b -> wreport_of fmt d report ->
  read_text uc junk junk4 nonstop_opt [] stopfile = Ok (text, found) ->
  find_words uc NFC [] (map value text) = Ok words ->
  200000000 * (zlen words + 1) <= 9223372036854775807 ->
  nonstopacc64 fmt6 uc NFC junk junk4 b [stopfile; report] = nonstopacc fmt6 uc NFC junk junk4 b [stopfile; report].
Proof.
  intros fmt fmt6 uc NFC junk junk4 b d sf text found words report F B H E Ew L. unfold nonstopacc64, nonstopacc.
  rewrite E. cbn [obind]. rewrite Ew. cbn [obind].
  destruct (wac_step fmt F 0 b wac_empty report (ex_intro _ d H)) as (D & b' & -> & -> & I & _);
    [|lia|unfold TOP; lia|].
  { split; [exact B|]. split; [exact wac_empty_reportable|]. intros x. rewrite wac_empty_fig. lia. }
  cbn [obind]. destruct (wac_bounds _ _ _ I) as [C M]. destruct I as (_ & R & U).
  destruct (wupto_figures _ D R U) as (_ & _ & _ & _ & _ & T1 & T2). change (0 + 100000000) with 100000000 in *.
  unfold stop_results64, NonstopModel.write_results. cbn [fst]. destruct (wcount (wtotal D) =? 0); [reflexivity|].
  unfold upto in *. pose proof (zlen_nonneg words) as Z0. unfold stop_line64, diff64. cbn [fst snd].
  rewrite is_long_true by lia. cbn [long obind].
  rewrite (stop_words64_ok fmt6 D words T1 T2 1 _ 0); [reflexivity|cbn [fst snd]; unfold TOP; lia..].
Qed.
Print Assumptions C84_nonstopacc.

(** Word accuracy reports of any contents: the figures are those of the unbounded model, or a
    counter overflows. *)
Theorem C84_word_reports : forall b d f,
  read_wacrpt64 b d f = read_wacrpt b d f \/ read_wacrpt64 b d f = UB "signed overflow".
Proof. exact so_read_wacrpt. Qed.
Print Assumptions C84_word_reports.

(** Two reports with 2^63 - 1 words and with 1 word: the unbounded model adds
    them up; a counter overflows. *)
Definition long_header (n : list Z) : list Z :=
  WAC_TITLE ++ WAC_DIVIDER ++ n ++ bytes "   Words" ++ [10] ++ bytes "       0   Misrecognized" ++ [10] ++
  bytes "  100.00%  Accuracy" ++ [10] ++ [10].
Theorem C84_word_overflow_refuted : exists f f2 d d2 b b2,
  read_wacrpt64 (repeat 0 100) wac_empty f = Ok (d, b) /\
  wcount (wtotal d) = 9223372036854775807 /\
  read_wacrpt b d f2 = Ok (d2, b2) /\ wcount (wtotal d2) = 9223372036854775808 /\
  read_wacrpt64 b d f2 = UB "signed overflow".
Proof.
  exists (long_header (bytes "9223372036854775807")), (long_header (bytes "       1")).
  do 4 eexists. split; [vm_compute; reflexivity|]. split; [reflexivity|]. split; [vm_compute; reflexivity|].
  split; [reflexivity|]. vm_compute. reflexivity.
Qed.
Print Assumptions C84_word_overflow_refuted.

(** The hypotheses hold of the report of the example of C41, three times. *)
Example C84_word_ex : exists d f, wreport_of sample_fmt d f /\ wfig (WStopword true (bytes "the")) d = 1 /\
  forall b, line_buffer b -> wordaccsum64 sample_fmt (@rev term) b [f; f; f] = wordaccsum sample_fmt (@rev term) b [f; f; f].
Proof.
  destruct C41_nonvacuous as (F & _ & _ & d & f & _ & H & _ & E). exists d, f. split; [exact H|]. split; [exact E|].
  intros b B. apply (C84_wordaccsum sample_fmt (@rev term) b [d; d; d]); auto. vm_compute. discriminate.
Qed.
