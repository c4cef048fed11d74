(** Properties of accuracy reports: C16, C28 (rows), C29, C30, C31 (accuracy reports).

    Hypotheses used below, all defined in AccrptSpec.v, ReportSpec.v, AccrptTop.v:
    - [nul_hidden uc], [marks_wide uc]: NUL is a control character, and no ASCII character is a
      combining mark, both true in Unicode;
    - [pct_ok fmt]: printf("%8.2f") of a percentage between 0 and 100 takes 8 columns;
    - [permutes order]: the confusion table is listed in some order (C05);
    - [line_buffer b]: [b] is the static buffer of the reader, with arbitrary contents but for
      its last byte, which is never written and therefore 0. *)
From Coq Require Import String.
From Verif Require Import Base CLib Utf8Model TextModel TextSpec TextProps CharclassModel CompareModel
  SortModel AccModel AccSpec SumProof AccProof AccTop AccProps ReportModel ReportSpec ReportProof ReportSafe
  AccrptModel AccrptSpec AccrptChar AccrptFig AccrptProof AccrptTop AccrptAcc AccrptSafe.
From Coq Require Import Permutation.
Local Open Scope Z_scope.
Local Open Scope list_scope.

(** C16: the bracketed form of any character, wherever it stands in a line, is read back as
    that character. *)
Theorem C16_read_char : forall uc v pre rest,
  nul_hidden uc -> marks_wide uc -> scalar v -> In 0 rest ->
  exists s, char_string uc v = Ok s /\
    read_char (pre ++ bytes "{" ++ s ++ bytes "}" ++ rest) (zlen pre) = Ok v.
Proof.
  intros uc v pre rest N W S R. exists (display uc v). split; [now apply char_string_ok|].
  destruct (in_split _ _ R) as (a & r & ->).
  eapply read_char_display; [exact S|exact W|apply TextIO.upto_nul_spec].
Qed.
Print Assumptions C16_read_char.

(** If an ASCII character were a combining mark, it would be rejected. *)
Theorem C16_ascii_mark_refuted :
  exists uc v s, scalar v /\ nul_hidden uc /\ char_string uc v = Ok s /\
    read_char (repeat 32 29 ++ bytes "{" ++ s ++ bytes "}" ++ repeat 0 40) 29 = Ok INVALID_CHARVALUE.
Proof.
  exists (mkuc (fun c => if c =? 0 then CC else MN) (fun c => c)), 97, ([226; 151; 140; 97]).
  split; [unfold scalar; lia|]. split; [reflexivity|]. split; vm_compute; reflexivity.
Qed.
Print Assumptions C16_ascii_mark_refuted.

Example C16_nonvacuous :
  nul_hidden sample_uc /\ marks_wide sample_uc /\
  map (char_string sample_uc) [97; 60; 123; 125; 10; 0; 9676; 769; 1114111] =
  [Ok (bytes "a"); Ok (bytes "<"); Ok (bytes "{"); Ok (bytes "}"); Ok (bytes "<\n>"); Ok (bytes "<00>");
   Ok [226; 151; 140]; Ok [226; 151; 140; 204; 129]; Ok (bytes "<10FFFF>")].
Proof.
  split; [reflexivity|]. split; [|vm_compute; reflexivity].
  intros v V. unfold is_combining, sample_uc. cbn [cat].
  repeat match goal with |- context [if ?c then _ else _] => destruct c eqn:?; try reflexivity end; lia.
Qed.

(** C28: the row of any confusion is one line of a report, within what the reader takes at a
    time, and its fields are found where the reader looks for them. *)
Theorem C28_row : forall uc t0 t1 d c,
  inputs_ok uc t0 t1 -> accuracy_data uc t0 t1 = Ok d -> In c (conftable d) ->
  zlen t0 + zlen t1 < 100000000 ->
  report_line (write_conf c) /\ scan_two (write_conf c) = Some (cerrors c, cmarked c) /\
  exists columns, zlen columns = 20 /\ write_conf c = columns ++ ckey c.
Proof.
  intros uc t0 t1 d c I A Hc L. destruct (accuracy_reportable uc t0 t1 d I A) as [R B].
  pose proof (rp_keys d R) as K. rewrite Forall_forall in K.
  destruct (conf_errors_in _ c (rp_confs d R) Hc) as [Ee Em].
  assert (conf_row_ok c) as H.
  { pose proof (B (FConfusion false (ckey c))) as B1. pose proof (B (FConfusion true (ckey c))) as B2.
    pose proof (rp_nonneg d R (FConfusion false (ckey c))) as N1.
    pose proof (rp_nonneg d R (FConfusion true (ckey c))) as N2. cbn [fig] in *.
    split; [now apply K|]. lia. }
  destruct (conf_line c H) as (L1 & L2 & pre & P & E & _). split; [exact L1|]. split; [exact L2|].
  exists pre. auto.
Qed.
Print Assumptions C28_row.

(** C29: reading back a report into fresh data gives all of its figures. *)
Theorem C29_round_trip : forall uc fmt order b d,
  nul_hidden uc -> marks_wide uc -> pct_ok fmt -> permutes order -> line_buffer b ->
  reportable d -> below 100000000 d ->
  exists f d' b', write_accrpt uc fmt order d = Ok f /\
    read_accrpt b acc_empty f = Ok (d', b') /\
    same_figures d d' /\ Permutation (conftable d) (conftable d').
Proof.
  intros uc fmt order b d N W F O B R Bl.
  destruct (write_accrpt_text uc fmt N order d R O) as (a & P & E & _).
  destruct (read_one uc fmt N W F b acc_empty d (report_text uc fmt d a) B) as (d' & b' & Er & _ & R' & G).
  - split; [exact R|]. split; [exact Bl|]. exists order. auto.
  - exact acc_empty_reportable.
  - exists (report_text uc fmt d a), d', b'. split; [exact E|]. split; [exact Er|].
    assert (same_figures d d') as S by (intros x; rewrite G, acc_empty_fig; lia).
    split; [exact S|]. now apply same_conf_perm.
Qed.
Print Assumptions C29_round_trip.

(** C29: and, into data already holding figures, adds them. *)
Theorem C29_read_adds : forall uc fmt b D d f,
  nul_hidden uc -> marks_wide uc -> pct_ok fmt -> line_buffer b ->
  report_of uc fmt d f -> reportable D ->
  exists D' b', read_accrpt b D f = Ok (D', b') /\ forall x, fig x D' = fig x D + fig x d.
Proof.
  intros uc fmt b D d f N W F B H R. destruct (read_one uc fmt N W F b D d f B H R) as (D' & b' & E & _ & _ & G).
  exists D', b'. auto.
Qed.
Print Assumptions C29_read_adds.

(** C29: in particular the report that accuracy writes for two texts can be read back. *)
Theorem C29_accuracy : forall uc fmt order b t0 t1 d,
  nul_hidden uc -> marks_wide uc -> pct_ok fmt -> permutes order -> line_buffer b ->
  inputs_ok uc t0 t1 -> zlen t0 + zlen t1 < 100000000 -> accuracy_data uc t0 t1 = Ok d ->
  exists f d' b', write_accrpt uc fmt order d = Ok f /\
    read_accrpt b acc_empty f = Ok (d', b') /\
    same_figures d d' /\ Permutation (conftable d) (conftable d').
Proof.
  intros uc fmt order b t0 t1 d N W F O B I L A. destruct (accuracy_reportable uc t0 t1 d I A) as [R Bl].
  apply C29_round_trip; auto. intros x. specialize (Bl x). lia.
Qed.
Print Assumptions C29_accuracy.

Definition wide_data : accdata :=
  mkacc 0 100000000 0 0 0 no_ops no_ops no_ops (fun _ => no_class) no_class
        [mkconf (bytes "{}-{x}" ++ [10]) 100000000 0] (fun _ => no_class).

(** C29: with a figure of nine digits the columns shift and the confusion is read back under
    another name. *)
Theorem C29_wide_figures_refuted :
  reportable wide_data /\
  exists f d' b', write_accrpt sample_uc (fun _ _ => []) (fun l => l) wide_data = Ok f /\
    read_accrpt (repeat 0 100) acc_empty f = Ok (d', b') /\
    conftable d' = [mkconf (bytes " {}-{x}" ++ [10]) 100000000 0].
Proof.
  split.
  - pose proof acc_empty_reportable as [T _ _ _ _ _ _].
    constructor; try reflexivity.
    + apply (tables_same acc_empty); [reflexivity..|exact T].
    + split; [repeat constructor; cbn; tauto|]. repeat constructor; cbn; lia.
    + constructor; [|constructor]. exists (bytes "{}-{x}"). split; [reflexivity|].
      split; [vm_compute; intuition discriminate|]. split; [|vm_compute; discriminate].
      repeat constructor.
    + intros v H. now destruct H.
    + intros x. pose proof (rp_nonneg acc_empty acc_empty_reportable x) as H.
      destruct x; try exact H; cbn [fig wide_data errors]; try lia.
      unfold conf_marked, conf_errors. cbn [conftable wide_data map ckey cerrors cmarked].
      destruct marked, (list_eq_dec Z.eq_dec _ key); vm_compute; discriminate.
  - eexists _, _, _. split; [vm_compute; reflexivity|]. split; vm_compute; reflexivity.
Qed.
Print Assumptions C29_wide_figures_refuted.

(** C30: the sum of reports is the report of data whose every figure is the sum of the figures
    of the arguments, and there is only one such report. *)
Theorem C30_total : forall uc fmt order b ds fs,
  nul_hidden uc -> marks_wide uc -> pct_ok fmt -> permutes order -> line_buffer b ->
  Forall2 (report_of uc fmt) ds fs -> 2 <= zlen fs ->
  exists d f, reportable d /\ total_of ds d /\ accsum uc fmt order b fs = Ok f /\
    write_accrpt uc fmt order d = Ok f /\
    (below 2147483648 d -> forall order' d', permutes order' -> reportable d' -> total_of ds d' ->
       write_accrpt uc fmt order' d' = Ok f).
Proof.
  intros uc fmt order b ds fs N W F O B H L.
  destruct (accsum_total uc fmt N W F order b ds fs B H L) as (d & R & T & E).
  destruct (write_accrpt_text uc fmt N order d R O) as (a & _ & Ew & _).
  exists d, (report_text uc fmt d a). split; [exact R|]. split; [exact T|]. split; [congruence|].
  split; [exact Ew|]. intros Bl order' d' O' R' T'. rewrite <- Ew. symmetry.
  apply (write_same uc fmt N); auto. now apply (total_same ds ds).
Qed.
Print Assumptions C30_total.

(** The sums of the figures of some data stay below a bound. *)
Definition sums_below (n : Z) (ds : list accdata) : Prop := forall x, zsum (map (fig x) ds) < n.

(** C30: the order of the arguments does not matter. *)
Theorem C30_order : forall uc fmt order order' b b' ds fs fs',
  nul_hidden uc -> marks_wide uc -> pct_ok fmt -> permutes order -> permutes order' ->
  line_buffer b -> line_buffer b' ->
  Forall2 (report_of uc fmt) ds fs -> 2 <= zlen fs -> sums_below 2147483648 ds ->
  Permutation fs fs' ->
  accsum uc fmt order b fs = accsum uc fmt order' b' fs'.
Proof.
  intros uc fmt order order' b b' ds fs fs' N W F O O' B B' H L S P.
  assert (exists ds', Permutation ds ds' /\ Forall2 (report_of uc fmt) ds' fs') as (ds' & Pd & H').
  { clear L S. revert ds H. induction P as [|f fs fs' P IH|f g fs|fs fs2 fs' P1 IH1 P2 IH2]; intros ds H.
    - exists ds. split; [apply Permutation_refl|exact H].
    - inversion H as [|d ? ds0 ? Hd H0]; subst. destruct (IH ds0 H0) as (ds' & Pd & H').
      exists (d :: ds'). split; [now constructor|now constructor].
    - inversion H as [|d ? ds0 ? Hd H0]; subst. inversion H0 as [|e ? ds1 ? He H1]; subst.
      exists (e :: d :: ds1). split; [apply perm_swap|]. constructor; [exact He|]. constructor; [exact Hd|exact H1].
    - destruct (IH1 ds H) as (ds2 & Pa & Ha). destruct (IH2 ds2 Ha) as (ds' & Pb & Hb).
      exists ds'. split; [now transitivity ds2|exact Hb]. }
  assert (2 <= zlen fs') as L' by (unfold zlen in *; rewrite <- (Permutation_length P); exact L).
  destruct (accsum_total uc fmt N W F order b ds fs B H L) as (d & R & T & ->).
  destruct (accsum_total uc fmt N W F order' b' ds' fs' B' H' L') as (d' & R' & T' & ->).
  apply (write_same uc fmt N); auto.
  - apply (total_same ds ds'); auto. intros x. apply zsum_perm. now apply Permutation_map.
  - intros x. rewrite T. apply S.
Qed.
Print Assumptions C30_order.

(** C30: nor does summing some of them first.  Each argument of the second level is either one
    of the reports or the output of accsum on a group of them. *)
Theorem C30_grouping : forall uc fmt order b (groups : list (list accdata * list (list Z))) rs,
  nul_hidden uc -> marks_wide uc -> pct_ok fmt -> permutes order -> line_buffer b ->
  Forall2 (fun g r =>
      Forall2 (report_of uc fmt) (fst g) (snd g) /\
      (snd g = [r] \/
       2 <= zlen (snd g) /\ accsum uc fmt order b (snd g) = Ok r /\ sums_below 100000000 (fst g)))
    groups rs ->
  2 <= zlen rs -> sums_below 2147483648 (List.concat (map fst groups)) ->
  accsum uc fmt order b rs = accsum uc fmt order b (List.concat (map snd groups)).
Proof.
  intros uc fmt order b groups rs N W F O B H L S.
  assert (exists ds, Forall2 (report_of uc fmt) ds rs /\
            (forall x, zsum (map (fig x) ds) = zsum (map (fig x) (List.concat (map fst groups)))) /\
            Forall2 (report_of uc fmt) (List.concat (map fst groups)) (List.concat (map snd groups)) /\
            zlen rs <= zlen (List.concat (map snd groups))) as (ds & Hd & E & Hc & Lc).
  { clear L S. induction H as [|[gd gf] r groups rs [Hg Hr] _ (ds & Hd & E & Hc & Lc)].
    - exists []. split; [constructor|]. split; [reflexivity|]. split; [constructor|apply Z.le_refl].
    - cbn [fst snd] in *.
      assert (exists d, report_of uc fmt d r /\ (forall x, fig x d = zsum (map (fig x) gd)) /\ 1 <= zlen gf)
        as (d & Rd & Ed & Lg).
      { destruct Hr as [->|(Lg & Ea & Sb)].
        - inversion Hg as [|d ? ds' ? Hd1 Hn]; subst. inversion Hn; subst. exists d. split; [exact Hd1|].
          split; [|cbn; lia]. intros x. cbn [map]. rewrite zsum_cons. change (zsum []) with 0. lia.
        - destruct (accsum_total uc fmt N W F order b gd gf B Hg Lg) as (d & R & T & Ew).
          exists d. split; [|split; [exact T|lia]]. split; [exact R|]. split; [intros x; rewrite T; apply Sb|].
          exists order. split; [exact O|]. congruence. }
      exists (d :: ds). split; [constructor; auto|]. cbn [map List.concat]. split.
      + intros x. cbn [map]. rewrite zsum_cons, map_app, zsum_app, Ed, E. reflexivity.
      + split; [now apply Forall2_app|]. cbn [snd]. rewrite zlen_cons, zlen_app. lia. }
  destruct (accsum_total uc fmt N W F order b ds rs B Hd L) as (d & R & T & ->).
  destruct (accsum_total uc fmt N W F order b _ _ B Hc ltac:(lia)) as (d' & R' & T' & ->).
  apply (write_same uc fmt N); auto.
  - eapply total_same; eauto.
  - intros x. rewrite T, E. apply S.
Qed.
Print Assumptions C30_grouping.

(** C31, accuracy reports: on any file whatsoever, and whatever the buffer holds, reading
    ends; it fails with "invalid format in" exactly when the file does not start with the
    lines of a report, and otherwise succeeds, reports an invalid character, or accesses the
    class table outside its bounds.  Missing for C31: the last case is possible (see below). *)
Theorem C31_accuracy_partial : forall b D f, line_buffer b ->
  (~ shaped accuracy_header f /\ read_accrpt b D f = Fail "invalid format in") \/
  (shaped accuracy_header f /\
   ((exists D' b', read_accrpt b D f = Ok (D', b')) \/
    read_accrpt b D f = Fail "invalid character in" \/
    read_accrpt b D f = UB "class[value]")).
Proof.
  intros b D f B. destruct (read_accrpt_any b D f B) as [H|[H [[[D' b'] E]|[E|E]]]].
  - left. exact H.
  - right. split; [exact H|]. left. eauto.
  - right. auto.
  - right. auto.
Qed.
Print Assumptions C31_accuracy_partial.

Definition nl : list Z := [10].
Definition sample_header : list Z :=
  ACC_TITLE ++ ACC_DIVIDER ++ bytes " 1" ++ nl ++ bytes " 0" ++ nl ++ nl ++ nl ++ bytes "0" ++ nl ++ bytes "0" ++ nl ++
  bytes "0" ++ nl ++ nl ++ nl ++ nl ++ nl ++ bytes "0 0 0 0" ++ nl ++ bytes "0 0 0 0" ++ nl ++ bytes "0 0 0 0" ++ nl ++
  nl ++ nl ++ nl.

(** C31 refuted for a report that names the last code point: the class table is read outside
    its bounds. *)
Theorem C31_class_table_refuted : exists f,
  read_accrpt (repeat 0 100) acc_empty f = UB "class[value]".
Proof.
  exists (sample_header ++ bytes "       1        0   100.00   {<10FFFF>}" ++ nl).
  vm_compute. reflexivity.
Qed.
Print Assumptions C31_class_table_refuted.

Example C31_nonvacuous :
  line_buffer (repeat 0 100) /\
  read_accrpt (repeat 0 100) acc_empty (bytes "not a report" ++ nl) = Fail "invalid format in" /\
  read_accrpt (repeat 0 100) acc_empty
    (sample_header ++ bytes "       1        0   100.00   {<x>}" ++ nl) = Fail "invalid character in" /\
  match read_accrpt (repeat 0 100) acc_empty
          (sample_header ++ bytes "       1        0   100.00   {a}" ++ nl) with
  | Ok (d, _) => characters d = 1 /\ ccount (small d 97) = 1 | _ => False end.
Proof. split; [split; reflexivity|]. split; [|split]; vm_compute; auto. Qed.

(** A concrete percentage format: two decimals, cut. *)
Definition sample_fmt (n d : Z) : list Z :=
  if (0 <=? n) && (n <=? d) && (0 <? d) then
    let v := 10000 * n / d in
    let digit k := 48 + (v / k) mod 10 in
    bytes "  " ++ [if v <? 10000 then 32 else 49; if v <? 1000 then 32 else digit 1000; digit 100; 46; digit 10; digit 1]
  else bytes "  -99.99".

(** The hypotheses of C28, C29 and C30 hold of two reports written by accuracy, which can
    be summed. *)
Local Notation sample_data :=
  (accuracy_data sample_uc (sample_text "the qu~ck brown fox") sample_generated).
Lemma sample_fmt_ok : pct_ok sample_fmt.
Proof.
  intros n d D Nn. unfold sample_fmt. destruct (Z.leb_spec 0 n), (Z.leb_spec n d), (Z.ltb_spec 0 d); try lia; cbn [andb].
    2-3: vm_compute; intuition (try discriminate; try lia).
    set (v := 10000 * n / d). assert (0 <= v) by (apply Z.div_pos; lia).
    assert (forall k, 48 <= 48 + (v / k) mod 10) as K.
    { intros k. pose proof (Z.mod_pos_bound (v / k) 10). lia. }
    pose proof (K 1000). pose proof (K 100). pose proof (K 10). pose proof (K 1).
    assert (forall c, c = 10 \/ c = 0 -> ~ In c (bytes "  " ++ [if v <? 10000 then 32 else 49; if v <? 1000 then 32 else 48 + (v / 1000) mod 10; 48 + (v / 100) mod 10; 46; 48 + (v / 10) mod 10; 48 + (v / 1) mod 10])) as In0.
    { intros c Hc I. change (bytes "  ") with [32; 32] in I. cbn [app In] in I.
      repeat (destruct I as [I|I]; [try destruct (v <? 10000); try destruct (v <? 1000); lia|]). exact I. }
    split; [apply In0; auto|]. split; [apply In0; auto|]. split; [vm_compute; discriminate|reflexivity].
Qed.
Lemma sample_small : zlen (sample_text "the qu~ck brown fox") + zlen sample_generated + 1 < 1000.
Proof. vm_compute. reflexivity. Qed.

Example C29_nonvacuous :
  nul_hidden sample_uc /\ marks_wide sample_uc /\ pct_ok sample_fmt /\ permutes (fun l => l) /\
  line_buffer (repeat 0 100) /\
  exists d f, sample_data = Ok d /\ characters d = 18 /\ zlen (conftable d) = 6 /\
    report_of sample_uc sample_fmt d f /\ sums_below 100000000 [d; d].
Proof.
  split; [reflexivity|].
  split; [exact (proj1 (proj2 C16_nonvacuous))|]. split; [exact sample_fmt_ok|].
  split; [intros l; apply Permutation_refl|]. split; [split; reflexivity|].
  destruct C25_nonvacuous as [I H].
  destruct sample_data as [d| | |] eqn:A; try contradiction H.
  destruct (accuracy_reportable _ _ _ _ I A) as [R B]. pose proof sample_small as S.
  destruct (write_accrpt_text sample_uc sample_fmt eq_refl (fun l => l) d R (fun l => Permutation_refl l))
    as (a & _ & W & _).
  exists d, (report_text sample_uc sample_fmt d a). split; [reflexivity|].
  split; [apply H|]. split; [apply H|]. split.
  - split; [exact R|]. split.
    + intros x. specialize (B x). lia.
    + exists (fun l => l). split; [intros l; apply Permutation_refl|exact W].
  - intros x. specialize (B x). cbn [map]. rewrite !zsum_cons. change (zsum []) with 0. lia.
Qed.
