(** Sums of reports. *)
From Coq Require Import String Permutation.
From Verif Require Import Base CLib CLibProof Utf8Model Utf8Proof TextModel TextSpec CharclassModel CharclassSpec
  CharclassProps CompareModel CompareProof SortModel SortProps TextIO AccModel AccSpec SumProof AccProof
  ReportModel ReportSpec ReportProof AccrptModel AccrptSpec AccrptChar AccrptFig AccrptProof.
Local Open Scope Z_scope.
Local Open Scope list_scope.
#[local] Opaque all_values sum_to.

Lemma merged_fig D d a x : reportable d -> Permutation a (conftable d) ->
  fig x (merged D d a) = fig x D + fig x d.
Proof.
  intros R P. unfold merged. rewrite (fig_add_rows x d all_values (rp_tables d R)), fig_add_confs.
  rewrite (all_rows x d (rp_tables d R)), (conf_fig_sum x a d P).
  set (D1 := with_ops _ _ _ _).
  destruct x; cbn [class_fig conf_fig];
    try (assert (fig _ D1 = fig _ D) as -> by reflexivity; cbn [fig]; lia);
    try (change (fig _ D1) with (characters D + characters d) || idtac); cbn [fig];
    unfold D1; cbn [characters errors rejects suspects false_marks with_ops add_counts]; try lia.
  - destruct r; cbn [ops_of marked_ops unmarked_ops total_ops add_ops with_ops add_counts];
      destruct c; cbn [column ins subst del errs add_ops]; lia.
  - cbn [large with_ops add_counts]. destruct (_ && _); lia.
  - cbn [total_class with_ops add_counts]. lia.
  - cbn [small with_ops add_counts]. lia.
  - cbn [conftable with_ops add_counts]. destruct marked; lia.
Qed.

Lemma zsum_perm l l' : Permutation l l' -> zsum l = zsum l'.
Proof. induction 1; rewrite ?zsum_cons; lia. Qed.

Lemma merged_reportable D d a : reportable D -> reportable d -> Permutation a (conftable d) ->
  reportable (merged D d a).
Proof.
  intros RD R P.
  assert (Forall (fun c => 0 < cerrors c /\ 0 <= cmarked c <= cerrors c) a /\
          Forall (fun c => report_key (ckey c)) a) as [Fa Ka].
  { split; eapply Permutation_Forall; [apply Permutation_sym, P|apply (rp_confs d R)|
      apply Permutation_sym, P|apply (rp_keys d R)]. }
  pose proof (fun x => merged_fig D d a x R P) as FG.
  set (D1 := with_ops (add_counts D (characters d) (errors d) (rejects d) (suspects d) (false_marks d))
       (marked_ops d) (unmarked_ops d) (total_ops d)).
  destruct (add_confs_consistent a Fa D1) as [C1 C2]; [exact (rp_confs D RD)|].
  destruct (add_rows_other d all_values (add_confs a D1)) as (O1 & O2 & O3).
  destruct (add_confs_other a D1) as (Q1 & Q2 & Q3 & Q4 & Q5).
  constructor.
  - unfold merged. fold D1. apply add_rows_tables; [apply (rp_tables d R)| |].
    + apply In_all_values.
    + apply (tables_same D1); auto. apply (tables_same D); auto. apply (rp_tables D RD).
  - pose proof (FG FCharacters) as E1. pose proof (FG (FAllClasses false)) as E2. cbn [fig cell] in E1, E2.
    rewrite E1, E2, (rp_chars D RD), (rp_chars d R). reflexivity.
  - pose proof (FG FErrors) as E1. cbn [fig] in E1. rewrite E1. unfold merged. fold D1. rewrite O1, C2.
    change (conftable D1) with (conftable D). rewrite (rp_errors D RD), (rp_errors d R).
    rewrite (zsum_perm (map cerrors a) (map cerrors (conftable d))); [reflexivity|]. now apply Permutation_map.
  - unfold merged. fold D1. rewrite O1. exact C1.
  - unfold merged. fold D1. rewrite O1. apply add_confs_keys; [exact Ka|]. exact (rp_keys D RD).
  - intros v V. pose proof (FG (FCharacter false v)) as E. cbn [fig cell] in E. rewrite E in V.
    destruct (Z.eq_dec (ccount (small D v)) 0) as [Z0|Z0].
    + apply (rp_values d R). lia.
    + now apply (rp_values D RD).
  - intros x. rewrite FG. pose proof (rp_nonneg D RD x). pose proof (rp_nonneg d R x). lia.
Qed.

Lemma acc_empty_fig x : fig x acc_empty = 0.
Proof.
  destruct x; try reflexivity.
  - now destruct r, c.
  - cbn [fig]. destruct (_ && _); [|reflexivity]. now destruct missed.
  - now destruct missed.
  - now destruct missed.
  - now destruct marked.
Qed.

Lemma acc_empty_reportable : reportable acc_empty.
Proof.
  constructor.
  - constructor; intros; try reflexivity; try (cbn; lia);
      symmetry; apply sum_to_zero; try lia; intros; try destruct (in_class _ _); reflexivity.
  - reflexivity.
  - reflexivity.
  - split; constructor.
  - constructor.
  - intros v []. reflexivity.
  - intros x. now rewrite acc_empty_fig.
Qed.

(** ** Equal figures, equal reports *)
Lemma class_eq c c' : (forall m, cell m c = cell m c') -> c = c'.
Proof. intros H. pose proof (H true). pose proof (H false). destruct c, c'. cbn in *. congruence. Qed.
Lemma ops_eq o o' : (forall c, column o c = column o' c) -> o = o'.
Proof.
  intros H. pose proof (H CIns). pose proof (H CSubst). pose proof (H CDel). pose proof (H CErrors).
  destruct o, o'. cbn in *. congruence.
Qed.

Lemma same_conf_perm a b : reportable a -> reportable b -> same_figures a b ->
  Permutation (conftable a) (conftable b).
Proof.
  intros Ra Rb S. apply conf_perm; [apply (rp_confs a Ra)|apply (rp_confs b Rb)| |].
  - intros k. exact (S (FConfusion false k)).
  - intros k. exact (S (FConfusion true k)).
Qed.

Lemma report_text_same uc fmt d d' a : same_figures d d' -> report_text uc fmt d a = report_text uc fmt d' a.
Proof.
  intros S. unfold report_text.
  pose proof (S FCharacters) as E1. pose proof (S FErrors) as E2. pose proof (S FRejects) as E3.
  pose proof (S FSuspects) as E4. pose proof (S FFalseMarks) as E5. cbn [fig] in *.
  pose proof (ops_eq (marked_ops d) (marked_ops d') (fun c => S (FOps RMarked c))) as E6.
  pose proof (ops_eq (unmarked_ops d) (unmarked_ops d') (fun c => S (FOps RUnmarked c))) as E7.
  pose proof (ops_eq (total_ops d) (total_ops d') (fun c => S (FOps RTotal c))) as E8.
  pose proof (class_eq (total_class d) (total_class d') (fun m => S (FAllClasses m))) as E9.
  rewrite E1, E2, E3, E4, E5, E6, E7, E8, E9.
  assert (map (large_row fmt d) (zrange 0 (Z.to_nat MAX_CHARCLASSES))
          = map (large_row fmt d') (zrange 0 (Z.to_nat MAX_CHARCLASSES))) as ->.
  { apply map_ext_in. intros j J. unfold MAX_CHARCLASSES in J. apply In_upto in J; [|lia].
    unfold large_row. rewrite (class_eq (large d j) (large d' j)); [reflexivity|].
    intros m. pose proof (S (FClass m j)) as E. cbn [fig] in E.
    now replace ((0 <=? j) && (j <? 256)) with true in E by lia. }
  assert (flat_map (small_row uc fmt d) all_values = flat_map (small_row uc fmt d') all_values) as ->.
  { apply flat_map_ext. intros v. unfold small_row.
    now rewrite (class_eq (small d v) (small d' v) (fun m => S (FCharacter m v))). }
  reflexivity.
Qed.

Section Report.
Variable uc : unicode_data.
Variable fmt : Z -> Z -> list Z.
Hypothesis NUL : nul_hidden uc.
Hypothesis WIDE : marks_wide uc.
Hypothesis FMT : pct_ok fmt.

Definition permutes (order : list conf -> list conf) : Prop := forall l, Permutation (order l) l.

Lemma table_conf_ok d : reportable d -> below 2147483648 d ->
  forall c, In c (conftable d) -> conf_ok c.
Proof.
  intros R B c C. pose proof (rp_keys d R) as K. rewrite Forall_forall in K.
  destruct (K c C) as (body & E & _ & F & _).
  destruct (conf_errors_in _ c (rp_confs d R) C) as [Ee Em].
  pose proof (B (FConfusion false (ckey c))) as B1. pose proof (B (FConfusion true (ckey c))) as B2.
  pose proof (rp_nonneg d R (FConfusion false (ckey c))) as N1.
  pose proof (rp_nonneg d R (FConfusion true (ckey c))) as N2. cbn [fig] in *.
  split; [|unfold CompareProof.figure; lia].
  rewrite E. apply Forall_app. split; [exact F|]. repeat constructor.
Qed.

Lemma write_same order order' d d' : permutes order -> permutes order' ->
  reportable d -> reportable d' -> same_figures d d' -> below 2147483648 d ->
  write_accrpt uc fmt order d = write_accrpt uc fmt order' d'.
Proof.
  intros O O' R R' S B.
  destruct (write_accrpt_text uc fmt NUL order d R O) as (a & P & -> & Es).
  destruct (write_accrpt_text uc fmt NUL order' d' R' O') as (a' & P' & -> & Es').
  assert (a = a') as <-; [|f_equal; now apply report_text_same].
  assert (Permutation (order (conftable d)) (order' (conftable d'))) as Pm.
  { eapply Permutation_trans; [apply O|]. eapply Permutation_trans; [exact (same_conf_perm d d' R R' S)|].
    apply Permutation_sym, O'. }
  assert (forall c, In c (order (conftable d)) -> conf_ok c) as CO.
  { intros c C. apply (table_conf_ok d R B). eapply Permutation_in; [apply O|exact C]. }
  pose proof C07_report_orders as ((Pre & Inj) & _).
  pose proof (C07_row_order_determined conf conf_ok compare_conf _ _ Pre CO
    (fun x y Hx Hy E => Inj x y (CO x Hx) (CO y Hy) E) Pm) as Q.
  rewrite Es, Es' in Q. congruence.
Qed.

(** ** Summing *)
Definition report_of (d : accdata) (f : list Z) : Prop :=
  reportable d /\ below 100000000 d /\
  exists order, permutes order /\ write_accrpt uc fmt order d = Ok f.

Lemma read_one b D d f : line_buffer b -> report_of d f -> reportable D ->
  exists D' b', read_accrpt b D f = Ok (D', b') /\ line_buffer b' /\ reportable D' /\
    forall x, fig x D' = fig x D + fig x d.
Proof.
  intros B (R & Bl & order & O & W) RD.
  destruct (write_accrpt_text uc fmt NUL order d R O) as (a & P & W' & _).
  assert (f = report_text uc fmt d a) as -> by congruence.
  destruct (read_report uc fmt NUL WIDE FMT b D d a B R Bl P) as (b' & B' & E).
  exists (merged D d a), b'. split; [exact E|]. split; [exact B'|]. split.
  - now apply merged_reportable.
  - intros x. now apply merged_fig.
Qed.

Lemma read_all ds fs : Forall2 report_of ds fs -> forall b D, line_buffer b -> reportable D ->
  exists D' b', ofold (fun (st : accdata * list Z) f => read_accrpt (snd st) (fst st) f) fs (D, b)
      = Ok (D', b') /\ line_buffer b' /\ reportable D' /\
    forall x, fig x D' = fig x D + zsum (map (fig x) ds).
Proof.
  induction 1 as [|d f ds fs Hd F IH]; intros b D B RD.
  - exists D, b. split; [reflexivity|]. split; [exact B|]. split; [exact RD|]. intros x. cbn. lia.
  - destruct (read_one b D d f B Hd RD) as (D1 & b1 & E1 & B1 & R1 & F1).
    destruct (IH b1 D1 B1 R1) as (D2 & b2 & E2 & B2 & R2 & F2).
    exists D2, b2. cbn [ofold fst snd]. rewrite E1. cbn [obind]. split; [exact E2|].
    split; [exact B2|]. split; [exact R2|]. intros x. cbn [map]. rewrite F2, F1, zsum_cons. lia.
Qed.

Lemma accsum_total order b ds fs : line_buffer b -> Forall2 report_of ds fs -> 2 <= zlen fs ->
  exists D, reportable D /\ total_of ds D /\ accsum uc fmt order b fs = write_accrpt uc fmt order D.
Proof.
  intros B F L. destruct (read_all ds fs F b acc_empty B acc_empty_reportable) as (D & b' & E & _ & R & G).
  exists D. split; [exact R|]. split.
  - intros x. rewrite G, acc_empty_fig. lia.
  - unfold accsum. replace (zlen fs <? 2) with false by lia. rewrite E. reflexivity.
Qed.

Lemma total_same ds ds' D D' : (forall x, zsum (map (fig x) ds) = zsum (map (fig x) ds')) ->
  total_of ds D -> total_of ds' D' -> same_figures D D'.
Proof. intros E T T' x. now rewrite T, T', E. Qed.
End Report.
