(** C67: the percentages that are printed. *)
From Coq Require Import String ZArith Reals Permutation.
From Verif Require Import Base CLib CLibProof Utf8Model TextModel TextSpec TextIO TextProps ReadProof SyncModel SyncSpec FastukkProps
  CompareModel AccModel AccSpec AccProof AccProps ReportModel ReportSpec AccrptModel AccrptSpec AccrptFig AccrptChar AccrptProof AccrptTop AccrptAcc AccrptProps
  WacModel WacrptModel UtilModel ArgsProps MainModel MainSpec MainProof MainProps DoubleModel DoubleProof PctModel PctSpec PctProof.
#[local] Opaque all_values.
Local Open Scope Z_scope.
Local Open Scope list_scope.

(** C67: 100.0 * n / d printed with two decimals is the percentage to the nearest hundredth (of two
    equally near ones, either). *)
Theorem C67_nearest : forall n d, Z.abs n < 2 ^ 38 -> 0 < d <= 2 ^ 53 ->
  shows_percentage 8 n d (pct8 n d) /\ shows_percentage 6 n d (pct6 n d) /\ shows_percentage 14 n d (pct14 n d).
Proof.
  intros n d Hn Hd.
  assert (forall w, shows_percentage w n d (print_fixed w 2 (percentage n d))) as H; [|repeat split; apply H].
  intros w. destruct (percentage_prints w n d Hn Hd) as (K & N & E). exists (hundredths (percentage n d)). auto.
Qed.
Print Assumptions C67_nearest.

(** C67: a larger share never shows_percentage a smaller percentage. *)
Theorem C67_monotone : forall w n1 d1 n2 d2,
  0 <= n1 < 2 ^ 38 -> 0 <= n2 < 2 ^ 38 -> 0 < d1 <= 2 ^ 53 -> 0 < d2 <= 2 ^ 53 -> n1 * d2 <= n2 * d1 ->
  exists k1 k2, 0 <= k1 <= k2 /\
    print_fixed w 2 (percentage n1 d1) = pad 32 w (two_decimals k1) /\
    print_fixed w 2 (percentage n2 d2) = pad 32 w (two_decimals k2).
Proof.
  intros w n1 d1 n2 d2 N1 N2 D1 D2 L.
  destruct (percentage_prints w n1 d1) as (K1 & _ & E1); [lia|lia|]. destruct (percentage_prints w n2 d2) as (_ & _ & E2); [lia|lia|].
  destruct (Z.ltb_spec n1 0); [lia|]. destruct (Z.ltb_spec n2 0); [lia|].
  exists (hundredths (percentage n1 d1)), (hundredths (percentage n2 d2)).
  split; [split; [exact K1|now apply percentage_le]|]. auto.
Qed.
Print Assumptions C67_monotone.

(** C67: without errors 100.00 is shown, and with more than one error in 20000 at most 99.99. *)
Theorem C67_perfect : forall d, 0 < d < 2 ^ 38 -> pct8 d d = bytes "  100.00".
Proof.
  intros d Hd. destruct (C67_nearest d d) as ((k & K & N & ->) & _); [lia|lia|].
  unfold nearest in N. rewrite (Z.abs_eq d) in N by lia. assert (k = 10000) as -> by nia.
  destruct (Z.ltb_spec d 0); [lia|]. reflexivity.
Qed.
Print Assumptions C67_perfect.

Theorem C67_imperfect : forall n d, 0 <= n -> 0 < d < 2 ^ 38 -> d < 20000 * (d - n) ->
  exists k, 0 <= k <= 9999 /\ pct8 n d = pad 32 8 (two_decimals k).
Proof.
  intros n d Hn Hd L. destruct (C67_nearest n d) as ((k & K & N & ->) & _); [lia|lia|].
  unfold nearest in N. rewrite (Z.abs_eq n) in N by lia. exists k. split; [nia|].
  now destruct (Z.ltb_spec n 0); [lia|].
Qed.
Print Assumptions C67_imperfect.

(** C67: up to one error in 20000 is not seen: here one in 20001 *)
Theorem C67_invisible_error : pct8 20000 20001 = bytes "  100.00".
Proof.
  destruct (C67_nearest 20000 20001) as ((k & K & N & ->) & _); [lia|lia|]. unfold nearest in N.
  assert (k = 10000) as -> by lia. reflexivity.
Qed.

(** C67: the bounds of a confidence interval, and any other double that is not negative, are
    printed to the nearest hundredth. *)
Theorem C67_double : forall x r, dval x r -> (0 <= r)%R ->
  exists k s, 0 <= k /\ (Rabs (IZR k / 100 - r) <= 1 / 200)%R /\ (s = [] \/ s = [45]) /\ limit6 x = pad 32 6 (s ++ two_decimals k).
Proof.
  intros x r V P. destruct (print_value 6 x r V) as (K & E & X & _). exists (hundredths x), (if BinarySingleNaN.Bsign x then [45] else []).
  split; [exact K|]. rewrite (Rabs_pos_eq r) in E by exact P. split.
  - replace (IZR (hundredths x) / 100 - r)%R with ((IZR (hundredths x) - 100 * r) * / 100)%R by (unfold Rdiv; ring_simplify; f_equal; field).
    rewrite Rabs_mult, (Rabs_pos_eq (/ 100)) by (apply Rlt_le, Rinv_0_lt_compat; apply IZR_lt; lia).
    unfold Rdiv. replace (1 * / 200)%R with (/ 2 * / 100)%R by field. apply Rmult_le_compat_r; [|exact E].
    apply Rlt_le, Rinv_0_lt_compat; apply IZR_lt; lia.
  - split; [now destruct (BinarySingleNaN.Bsign x); auto|exact X].
Qed.
Print Assumptions C67_double.

(** C67: the percentages have the form that the theorems on reports ask for. *)
Theorem C67_columns : pct_ok pct8.
Proof.
  intros n d Hd Hn. destruct (C67_nearest n d) as ((k & K & N & ->) & _); [lia|lia|]. unfold nearest in N.
  set (t := (if n <? 0 then [45] else []) ++ two_decimals k).
  assert (forall c, In c (pad 32 8 t) -> 32 <= c) as C.
  { intros c I. apply pad_In in I as [->|I]; [lia|]. apply in_app_iff in I as [I|I].
    - destruct (n <? 0); [|destruct I]. destruct I as [<-|[]]. lia.
    - apply two_decimals_In in I; lia. }
  assert (k < 100 * 10 ^ Z.of_nat 12) as B by (change (100 * 10 ^ Z.of_nat 12) with 100000000000000; nia).
  split; [intros I; apply C in I; lia|]. split; [intros I; apply C in I; lia|]. split.
  - pose proof (two_decimals_len k 11 ltac:(lia)) as L. pose proof (pad_zlen_le 8 t) as M.
    assert (zlen t <= zlen (two_decimals k) + 1) by (unfold t; rewrite zlen_app; destruct (n <? 0); [change (zlen [45]) with 1|change (zlen []) with 0]; lia). lia.
  - intros R. apply pad_zlen. unfold t. destruct (Z.ltb_spec n 0); [lia|]. cbn [app].
    pose proof (two_decimals_len k 2) as L. change (100 * 10 ^ Z.of_nat 3) with 100000 in L. specialize (L ltac:(nia)). lia.
Qed.
Print Assumptions C67_columns.

(** C67: the third line of figures in the report of accuracy shows_percentage the percentage of the characters
    that is left after subtracting the errors. *)
Theorem C67_accuracy : forall uc order d f,
  write_accrpt uc pct8 order d = Ok f -> 0 <= characters d < 2 ^ 37 -> 0 <= errors d < 2 ^ 37 ->
  exists accuracy rest,
    f = bytes "ocreval Accuracy Report Version 7.0" ++ [10] ++
        bytes "-----------------------------------" ++ [10] ++
        dec8 (characters d) ++ bytes "   Characters" ++ [10] ++
        dec8 (errors d) ++ bytes "   Errors" ++ [10] ++
        accuracy ++ bytes "%  Accuracy" ++ [10] ++ rest /\
    if characters d =? 0 then accuracy = bytes "  ------" else shows_percentage 8 (characters d - errors d) (characters d) accuracy.
Proof.
  intros uc order d f E Hc He. unfold write_accrpt in E.
  destruct (oconcat (write_large pct8 d) _) as [classes| | |]; cbn [obind] in E; try discriminate E.
  destruct (if 0 <? errors d then _ else _) as [confs| | |]; cbn [obind] in E; try discriminate E.
  destruct (if 0 <? characters d then _ else _) as [chars| | |]; cbn [obind] in E; try discriminate E.
  injection E as <-. unfold ACC_TITLE, ACC_DIVIDER, write_value, write_pct. rewrite <- !app_assoc.
  exists (if characters d =? 0 then bytes "  ------" else pct8 (characters d - errors d) (characters d)).
  eexists. split; [reflexivity|]. destruct (Z.eqb_spec (characters d) 0); [reflexivity|]. apply C67_nearest; lia.
Qed.
Print Assumptions C67_accuracy.

(** C67: and likewise the report of wordacc. *)
Theorem C67_wordacc : forall order d f,
  write_wacrpt pct8 order d = Ok f -> 0 <= wcount (wtotal d) < 2 ^ 37 -> 0 <= wmissed (wtotal d) < 2 ^ 37 ->
  exists accuracy rest,
    f = bytes "ocreval Word Accuracy Report Version 7.0" ++ [10] ++
        bytes "----------------------------------------" ++ [10] ++
        dec8 (wcount (wtotal d)) ++ bytes "   Words" ++ [10] ++
        dec8 (wmissed (wtotal d)) ++ bytes "   Misrecognized" ++ [10] ++
        accuracy ++ bytes "%  Accuracy" ++ [10] ++ rest /\
    if wcount (wtotal d) =? 0 then accuracy = bytes "  ------"
    else shows_percentage 8 (wcount (wtotal d) - wmissed (wtotal d)) (wcount (wtotal d)) accuracy.
Proof.
  intros order d f E Hc He. unfold write_wacrpt in E.
  destruct (write_numbers pct8 (stopword d) _ _ _ _) as [sw| | |]; cbn [obind] in E; try discriminate E.
  destruct (write_numbers pct8 (non_stopword d) _ _ _ _) as [nsw| | |]; cbn [obind] in E; try discriminate E.
  destruct (write_numbers pct8 (distinct d) _ _ _ _) as [dn| | |]; cbn [obind] in E; try discriminate E.
  destruct (write_words pct8 order d) as [words| | |]; cbn [obind] in E; try discriminate E.
  injection E as <-. unfold WAC_TITLE, WAC_DIVIDER, write_value, wac_pct, write_pct. rewrite <- !app_assoc.
  exists (if wcount (wtotal d) =? 0 then bytes "  ------" else pct8 (wcount (wtotal d) - wmissed (wtotal d)) (wcount (wtotal d))).
  eexists. split; [reflexivity|]. destruct (Z.eqb_spec (wcount (wtotal d)) 0); [reflexivity|]. apply C67_nearest; lia.
Qed.
Print Assumptions C67_wordacc.

(** C67: the program accuracy, from the command line and the files to the percentage (as C62): with
    a distance of e from a correct text of n characters the fifth line of the report shows the
    percentage of n - e in n. *)
Theorem C67_program : forall sys uc line buf order items argv n0 n1 dest f0 f1 t0 t1 h e,
  nul_hidden uc -> marks_wide uc -> permutes order -> junk_ok line buf ->
  command_line [] items argv -> plain_args items = with_third [n0; n1] dest ->
  has_file sys n0 f0 -> has_file sys n1 f1 -> Forall is_byte f0 -> Forall is_byte f1 ->
  file_text uc false f0 false t0 -> file_text uc false f1 h t1 ->
  ~ In 1114111 (map value t0) -> zlen t0 <= MAX_F -> zlen t0 + zlen t1 < 100000000 ->
  can_deliver sys dest ->
  t0 <> [] -> ~ In 126 (map value t0) -> distance (map value t0) (map value t1) e ->
  exists r report accuracy, accuracy_main sys uc line buf order pct8 argv = Ok (Done r) /\
    delivered sys dest [] report r /\
    shows_percentage 8 (zlen t0 - e) (zlen t0) accuracy /\
    line_of report 4 (accuracy ++ bytes "%  Accuracy").
Proof.
  intros sys uc line buf order items argv n0 n1 dest f0 f1 t0 t1 h e N W O J CL PA F0 F1 B0 B1 T0 T1 Tab Lm Ls D Ne Nr Hd.
  destruct (C62_accuracy sys uc line buf order pct8 items argv n0 n1 dest f0 f1 t0 t1 h N W C67_columns O J CL PA F0 F1 B0 B1 T0 T1 Tab Lm Ls D)
    as (r & report & d & Er & Dl & Ed & (Rp & Bl & order' & _ & Ew) & _).
  pose proof (read_file_text uc line buf false f0 false t0 J B0 T0) as R0.
  pose proof (read_file_text uc line buf false f1 h t1 J B1 T1) as R1.
  assert (I : inputs_ok uc t0 t1).
  { split; [exact N|]. split; [eapply (read_text_scalar uc line buf (mkopt true true 0 true false)); [exact J|exact B0|discriminate|exact R0]|].
    split; [eapply (read_text_scalar uc line buf (mkopt true true 0 true false)); [exact J|exact B1|discriminate|exact R1]|].
    split; [|exact Lm]. unfold tabulable. rewrite Forall_forall. intros c Hc E. apply Tab. rewrite <- E. now apply in_map. }
  destruct (C25_figures uc t0 t1 I) as (d' & Ed' & Ec & _ & Edist). assert (d' = d) as -> by congruence.
  destruct (Edist e Hd) as [_ Ee]. specialize (Ee Nr).
  assert (characters d = zlen t0) as Ec'.
  { rewrite Ec. unfold num. clear -Nr. f_equal. induction t0 as [|c l IH]; [reflexivity|]. cbn [filter map] in *. unfold plain at 1, is_tilde.
    destruct (Z.eqb_spec (value c) 126) as [E|E]; [exfalso; apply Nr; now left|]. cbn [negb]. f_equal. apply IH. intros H. apply Nr. now right. }
  assert (0 < zlen t0) as P0 by (destruct t0; [contradiction|rewrite zlen_cons; pose proof (zlen_nonneg t0); lia]).
  pose proof (rp_nonneg d Rp) as Nn.
  pose proof (Nn FCharacters) as Nc. pose proof (Nn FErrors) as Nr'. pose proof (Bl FCharacters) as Bc. pose proof (Bl FErrors) as Be.
  cbn [fig] in Nc, Nr', Bc, Be.
  destruct (C67_accuracy uc order' d report Ew) as (accuracy & rest & Ef & Sh); [lia|lia|].
  destruct (Z.eqb_spec (characters d) 0) as [|_]; [lia|].
  exists r, report, accuracy. split; [exact Er|]. split; [exact Dl|].
  assert (forall n, 0 <= n -> ~ In 10 (dec8 n)) as Dn.
  { intros n Hn I'. apply pad_In in I' as [I'|I']; [lia|]. apply dec_In in I'; lia. }
  assert (~ In 10 accuracy) as An.
  { destruct Sh as (k & K & _ & ->). intros I'. apply pad_In in I' as [I'|I']; [lia|]. apply in_app_iff in I' as [I'|I'].
    - destruct (_ <? 0); [destruct I' as [I'|[]]; lia|destruct I'].
    - apply two_decimals_In in I'; lia. }
  split; [rewrite Ec', Ee in Sh; exact Sh|].
  exists [bytes "ocreval Accuracy Report Version 7.0"; bytes "-----------------------------------";
          dec8 (characters d) ++ bytes "   Characters"; dec8 (errors d) ++ bytes "   Errors"], rest.
  split; [|split; [reflexivity|]].
  - rewrite Ef. cbn [map concat]. rewrite <- !app_assoc. reflexivity.
  - repeat apply Forall_cons; try apply Forall_nil; try (rewrite in_app_iff; intros [I'|I']); try (now apply Dn in I'); try (now apply An in I');
      try (cbn in I'; lia); cbn; lia.
Qed.
Print Assumptions C67_program.

(** Non-vacuity; C62_ex shows that a run meets the hypotheses of C67_program. *)
Example C67_ex : pct8 2 3 = bytes "   66.67" /\ pct6 (-1) 8 = bytes "-12.50".
Proof.
  split.
  - destruct (C67_nearest 2 3) as ((k & K & N & ->) & _); [lia|lia|]. unfold nearest in N. assert (k = 6667) as -> by lia. reflexivity.
  - destruct (C67_nearest (-1) 8) as (_ & (k & K & N & ->) & _); [lia|lia|]. unfold nearest in N. assert (k = 1250) as -> by lia. reflexivity.
Qed.
