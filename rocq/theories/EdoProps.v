(** Edit operation reports and costs: C45, C46, C31 (edit operation reports).

    [ereportable d] (EdoSpec.v): [d] is the data of a report, whose moves have lengths from 1 to
    100; [ereport_of d f]: [f] is the report of such data, all of whose figures are longs;
    [line_buffer b]: the static buffer of the reader, with arbitrary contents but for its last
    byte. *)
From Coq Require Import String Permutation.
From Verif Require Import Base CLib AccSpec SumProof AccrptTop ReportModel ReportSpec ReportProof AccrptModel EdoModel EdoSpec EdoProof.
Local Open Scope Z_scope.
Local Open Scope list_scope.

(** C45: reading back a report into fresh data gives the data. *)
Theorem C45_round_trip : forall b d,
  line_buffer b -> ereportable d -> ebelow 9223372036854775808 d ->
  exists f b', write_edorpt d = Ok f /\ read_edorpt b edo_empty f = Ok (d, b').
Proof.
  intros b d B R Bl. exists (edo_text d). pose proof (write_edorpt_text d (er_size d R)) as W.
  destruct (eread_one b edo_empty d (edo_text d) B) as (D & b' & E & _ & R' & F).
  - split; [exact R|]. split; [exact Bl|exact W].
  - exact edo_empty_reportable.
  - exists b'. split; [exact W|]. rewrite E. f_equal. f_equal. apply esame_eq; [exact R'|exact R|].
    intros x. rewrite F, edo_empty_fig. lia.
Qed.
Print Assumptions C45_round_trip.

(** C45: and, into data already holding figures, adds them. *)
Theorem C45_read_adds : forall b D d f,
  line_buffer b -> ereport_of d f -> ereportable D ->
  exists D' b', read_edorpt b D f = Ok (D', b') /\ forall x, efig x D' = efig x D + efig x d.
Proof.
  intros b D d f B H R. destruct (eread_one b D d f B H R) as (D' & b' & E & _ & _ & F). exists D', b'. auto.
Qed.
Print Assumptions C45_read_adds.

(** C45: the sum of reports is the report of the data whose every figure is the sum of the
    figures of the arguments. *)
Theorem C45_total : forall b ds fs,
  line_buffer b -> Forall2 ereport_of ds fs -> 2 <= zlen fs ->
  exists d f, ereportable d /\ etotal_of ds d /\ editopsum b fs = Ok f /\ write_edorpt d = Ok f /\
    (forall d', ereportable d' -> etotal_of ds d' -> d' = d).
Proof.
  intros b ds fs B H L. destruct (editopsum_total b ds fs B H L) as (d & R & T & E).
  pose proof (write_edorpt_text d (er_size d R)) as W.
  exists d, (edo_text d). split; [exact R|]. split; [exact T|]. split; [congruence|]. split; [exact W|].
  intros d' R' T'. apply esame_eq; [exact R'|exact R|]. intros x. now rewrite T, T'.
Qed.
Print Assumptions C45_total.

(** C45: the order of the arguments does not matter. *)
Theorem C45_order : forall b b' ds fs fs',
  line_buffer b -> line_buffer b' -> Forall2 ereport_of ds fs -> 2 <= zlen fs -> Permutation fs fs' ->
  editopsum b fs = editopsum b' fs'.
Proof.
  intros b b' ds fs fs' B B' H L P.
  assert (exists ds', Permutation ds ds' /\ Forall2 ereport_of ds' fs') as (ds' & Pd & H').
  { clear L. revert ds H. induction P as [|f fs fs' P IH|f g fs|fs fs2 fs' P1 IH1 P2 IH2]; intros ds H.
    - exists ds. split; [apply Permutation_refl|exact H].
    - inversion H as [|d ? ds0 ? Hd H0]; subst. destruct (IH ds0 H0) as (ds' & Pd & H').
      exists (d :: ds'). split; [now constructor|now constructor].
    - inversion H as [|d ? ds0 ? Hd H0]; subst. inversion H0 as [|e ? ds1 ? He H1]; subst.
      exists (e :: d :: ds1). split; [apply perm_swap|]. constructor; [exact He|]. constructor; [exact Hd|exact H1].
    - destruct (IH1 ds H) as (ds2 & Pa & Ha). destruct (IH2 ds2 Ha) as (ds' & Pb & Hb).
      exists ds'. split; [now transitivity ds2|exact Hb]. }
  assert (2 <= zlen fs') as L' by (unfold zlen in *; rewrite <- (Permutation_length P); exact L).
  destruct (editopsum_total b ds fs B H L) as (d & R & T & ->).
  destruct (editopsum_total b' ds' fs' B' H' L') as (d' & R' & T' & ->).
  f_equal. apply esame_eq; auto. intros x. rewrite T, T'. apply zsum_perm. now apply Permutation_map.
Qed.
Print Assumptions C45_order.

(** C45: nor does summing some of them first, provided the partial sums are longs.  Each
    argument of the second level is either one of the reports or the output of editopsum on a
    group of them. *)
Definition esums_below (n : Z) (ds : list edodata) : Prop := forall x, zsum (map (efig x) ds) < n.
Theorem C45_grouping : forall b (groups : list (list edodata * list (list Z))) rs,
  line_buffer b ->
  Forall2 (fun g r =>
      Forall2 ereport_of (fst g) (snd g) /\
      (snd g = [r] \/
       2 <= zlen (snd g) /\ editopsum b (snd g) = Ok r /\ esums_below 9223372036854775808 (fst g)))
    groups rs ->
  2 <= zlen rs ->
  editopsum b rs = editopsum b (List.concat (map snd groups)).
Proof.
  intros b groups rs B H L.
  assert (exists ds, Forall2 ereport_of ds rs /\
            (forall x, zsum (map (efig x) ds) = zsum (map (efig x) (List.concat (map fst groups)))) /\
            Forall2 ereport_of (List.concat (map fst groups)) (List.concat (map snd groups)) /\
            zlen rs <= zlen (List.concat (map snd groups))) as (ds & Hd & E & Hc & Lc).
  { clear L. induction H as [|[gd gf] r groups rs [Hg Hr] _ (ds & Hd & E & Hc & Lc)].
    - exists []. split; [constructor|]. split; [reflexivity|]. split; [constructor|apply Z.le_refl].
    - cbn [fst snd] in *.
      assert (exists d, ereport_of d r /\ (forall x, efig x d = zsum (map (efig x) gd)) /\ 1 <= zlen gf)
        as (d & Rd & Ed & Lg).
      { destruct Hr as [->|(Lg & Ea & Sb)].
        - inversion Hg as [|d ? ds' ? Hd1 Hn]; subst. inversion Hn; subst. exists d. split; [exact Hd1|].
          split; [|cbn; lia]. intros x. cbn [map]. rewrite zsum_cons. change (zsum []) with 0. lia.
        - destruct (editopsum_total b gd gf B Hg Lg) as (d & R & T & Ew).
          exists d. split; [|split; [exact T|lia]]. split; [exact R|]. split; [intros x; rewrite T; apply Sb|]. congruence. }
      exists (d :: ds). split; [constructor; auto|]. cbn [map List.concat]. split.
      + intros x. cbn [map]. rewrite zsum_cons, map_app, zsum_app, Ed, E. reflexivity.
      + split; [now apply Forall2_app|]. cbn [snd]. rewrite zlen_cons, zlen_app. lia. }
  destruct (editopsum_total b ds rs B Hd L) as (d & R & T & ->).
  destruct (editopsum_total b _ _ B Hc ltac:(lia)) as (d' & R' & T' & ->).
  f_equal. apply esame_eq; auto. intros x. now rewrite T, T'.
Qed.
Print Assumptions C45_grouping.

(** C46: for each threshold, the line gives the cost of the edit whose insertions and moves
    the report records, a move costing its length but at most the threshold. *)
Theorem C46_cost : forall b d f ls,
  line_buffer b -> ereport_of d f -> records ls d ->
  editopcost b [f] = Ok (flat_map (fun t => cost_shown t (edit_cost t (insertions d) ls)) (zrange 0 101)).
Proof.
  intros b d f ls B H Rc. destruct H as (R & Bl & W).
  destruct (C45_round_trip b d B R Bl) as (f' & b' & W' & E). assert (f' = f) as -> by congruence.
  unfold editopcost. rewrite E. cbn [obind].
  rewrite (write_results_ok d (er_size d R) (er_sum d R) (er_zero d R)). f_equal.
  rewrite !flat_map_concat_map. f_equal. apply map_ext_in. intros t T. apply In_zrange in T.
  unfold cost_line, cost_shown. rewrite (recorded_cost t d ls Rc); [reflexivity|lia].
Qed.
Print Assumptions C46_cost.

(** C46: with two reports, the differences of the costs. *)
Theorem C46_difference : forall b d f ls d2 f2 ls2,
  line_buffer b -> ereport_of d f -> records ls d -> ereport_of d2 f2 -> records ls2 d2 ->
  editopcost b [f; f2] =
    Ok (flat_map (fun t => cost_shown t (edit_cost t (insertions d) ls - edit_cost t (insertions d2) ls2)) (zrange 0 101)).
Proof.
  intros b d f ls d2 f2 ls2 B H Rc H2 Rc2.
  destruct (eread_one b edo_empty d f B H edo_empty_reportable) as (D & b1 & E1 & B1 & R1 & F1).
  destruct (eread_one b1 edo_empty d2 f2 B1 H2 edo_empty_reportable) as (D2 & b2 & E2 & _ & R2 & F2).
  destruct H as (R & _). destruct H2 as (R' & _).
  assert (D = d) as -> by (apply esame_eq; auto; intros x; rewrite F1, edo_empty_fig; lia).
  assert (D2 = d2) as -> by (apply esame_eq; auto; intros x; rewrite F2, edo_empty_fig; lia).
  unfold editopcost. rewrite E1. cbn [obind]. rewrite E2. cbn [obind].
  destruct (decrement_ok d d2 (er_size d R) (er_size d2 R') (er_zero d2 R')) as (D & -> & LD & FD). cbn [obind].
  pose proof (FD EMoves) as M. pose proof (fun i => FD (EMove i)) as Fm. cbn [efig] in M, Fm.
  rewrite (write_results_ok D LD).
  - f_equal. rewrite !flat_map_concat_map. f_equal. apply map_ext_in. intros t T. apply In_zrange in T.
    unfold cost_line, cost_shown. rewrite (table_cost_sub D d d2 t FD), (recorded_cost t d ls Rc), (recorded_cost t d2 ls2 Rc2) by lia. reflexivity.
  - rewrite M, (er_sum d R), (er_sum d2 R'), (zsum_entries _ LD), (zsum_entries _ (er_size d R)), (zsum_entries _ (er_size d2 R')).
    rewrite Fm. rewrite (zsum_map_ext (entry (moves d)) (fun i => entry (moves D) i + entry (moves d2) i)).
    + rewrite zsum_map_add. lia.
    + intros i _. rewrite Fm. lia.
  - rewrite Fm, (er_zero d R), (er_zero d2 R'). reflexivity.
Qed.
Print Assumptions C46_difference.

(** C46: every list of moves is recorded by some data, so C46_cost covers every edit. *)
Theorem C46_recorded : forall ins del ls,
  0 <= ins -> 0 <= del -> Forall (fun n => 1 <= n) ls ->
  exists d, insertions d = ins /\ deletions d = del /\ ereportable d /\ records ls d.
Proof.
  intros ins del ls I D F.
  set (ms := map (fun i => zlen (filter (fun n => Z.min n 100 =? i) ls)) (zrange 0 101)).
  assert (zlen ms = 101) as Lm by (unfold ms, zlen; rewrite map_length, zrange_length; reflexivity).
  assert (forall i, 0 <= i <= 100 -> entry ms i = zlen (filter (fun n => Z.min n 100 =? i) ls)) as E.
  { intros i Ii. apply entry_Some. unfold ms. rewrite znth_map, znth_zrange by lia. reflexivity. }
  assert (entry ms 0 = 0) as E0.
  { rewrite E by lia. clear -F. induction F as [|n ls N F IH]; [reflexivity|]. cbn [filter].
    replace (Z.min n 100 =? 0) with false by lia. exact IH. }
  assert (zlen ls = zsum ms) as S.
  { rewrite (zsum_entries ms Lm), E0.
    rewrite (zsum_map_ext (entry ms) (fun i => zlen (filter (fun n => Z.min n 100 =? i) ls)))
      by (intros i Ii; apply In_zrange in Ii; apply E; lia).
    pose proof (recorded_cost 1 (mkedo 0 0 (zlen ls) ms) ls) as H. unfold table_cost, edit_cost in H. cbn [insertions moves] in H.
    rewrite (zsum_map_ext (fun len => Z.min 1 len * entry ms len) (fun i => zlen (filter (fun n => Z.min n 100 =? i) ls))) in H.
    - rewrite H; [|repeat split; auto|lia]. clear -F. cbn [moves]. 
      assert (zsum (map (Z.min 1) ls) = zlen ls); [|lia].
      induction F as [|n ls N F IH]; [reflexivity|]. cbn [map]. rewrite zsum_cons, zlen_cons, IH. cbv beta in N. lia.
    - intros i Ii. apply In_zrange in Ii. rewrite E by lia. replace (Z.min 1 i) with 1 by lia. lia. }
  exists (mkedo ins del (zlen ls) ms). split; [reflexivity|]. split; [reflexivity|]. split.
  - constructor; cbn [moves total_moves]; auto. intros x. destruct x as [| | |i]; cbn [efig insertions deletions total_moves moves]; auto.
    + apply zlen_nonneg.
    + assert (0 <= i <= 100 \/ ~ (0 <= i < zlen ms)) as [Ii|Ii] by lia; [rewrite E by lia; apply zlen_nonneg|].
      rewrite (entry_out _ _ Ii). lia.
  - repeat split; auto.
Qed.
Print Assumptions C46_recorded.

(** C31, edit operation reports: on any file whatsoever, and whatever the buffer holds, reading
    ends; it fails with "invalid format in" exactly when the file does not start with the
    lines of a report, and otherwise succeeds or writes outside its table.
    Missing for C31: the last case is possible (see below). *)
Theorem C31_editop_partial : forall b D f, line_buffer b ->
  (~ shaped edit_header f /\ read_edorpt b D f = Fail "invalid format in") \/
  (shaped edit_header f /\
   ((exists D' b', read_edorpt b D f = Ok (D', b')) \/ read_edorpt b D f = UB "moves[value2]")).
Proof.
  intros b D f B. destruct (read_edorpt_any b D f B) as [H|[H [[[D' b'] E]|E]]].
  - left. exact H.
  - right. split; [exact H|]. left. eauto.
  - right. auto.
Qed.
Print Assumptions C31_editop_partial.

Definition edo_sample_head : list Z :=
  EDO_TITLE ++ EDO_DIVIDER ++ bytes "0" ++ [10] ++ bytes "0" ++ [10] ++ bytes "1" ++ [10; 10] ++ bytes "Moves" ++ [10; 10].

(** C31 refuted for a report with a move of 101 characters. *)
Theorem C31_move_length_refuted : exists f,
  read_edorpt (repeat 0 100) edo_empty f = UB "moves[value2]".
Proof. exists (edo_sample_head ++ bytes "1 101" ++ [10]). vm_compute. reflexivity. Qed.
Print Assumptions C31_move_length_refuted.

(** Non-vacuity: two insertions, one deletion, moves of 3, 250 and 3 characters. *)
Definition edo_sample : edodata :=
  mkedo 2 1 3 (repeat 0 3 ++ [2] ++ repeat 0 96 ++ [1]).
Example C45_nonvacuous :
  line_buffer (repeat 0 100) /\ records [3; 250; 3] edo_sample /\ exists f, ereport_of edo_sample f /\
  (exists out, editopsum (repeat 0 100) [f; f] = Ok out).
Proof.
  assert (forall i, 0 <= i <= 100 -> entry (moves edo_sample) i = zlen (filter (fun n => Z.min n 100 =? i) [3; 250; 3])) as E.
  { intros i I. assert (forallb (fun i => entry (moves edo_sample) i =? zlen (filter (fun n => Z.min n 100 =? i) [3; 250; 3])) (zrange 0 101) = true) as H
      by (vm_compute; reflexivity).
    rewrite forallb_forall in H. specialize (H i). rewrite In_zrange in H. specialize (H ltac:(lia)). lia. }
  assert (line_buffer (repeat 0 100)) as B by (split; reflexivity).
  split; [exact B|]. split.
  - split; [repeat constructor; lia|]. split; [reflexivity|]. split; [reflexivity|exact E].
  - assert (forall i, 0 <= entry (moves edo_sample) i <= 3) as Be.
    { intros i. assert (0 <= i <= 100 \/ ~ (0 <= i < zlen (moves edo_sample))) as [I|I] by (change (zlen (moves edo_sample)) with 101; lia).
      - rewrite E by exact I. cbn [filter]. destruct (_ =? _), (_ =? _); cbn; lia.
      - rewrite (entry_out _ _ I). lia. }
    assert (ereport_of edo_sample (edo_text edo_sample)) as R.
    { split; [|split].
      - constructor; try reflexivity. intros x. destruct x; cbn [efig edo_sample insertions deletions total_moves]; try lia; try apply Be.
      - intros x. destruct x as [| | |i]; cbn [efig edo_sample insertions deletions total_moves]; try lia; try (specialize (Be i); cbn [edo_sample moves] in Be; lia).
      - apply write_edorpt_text. reflexivity. }
    exists (edo_text edo_sample). split; [exact R|].
    destruct (C45_total (repeat 0 100) [edo_sample; edo_sample] [edo_text edo_sample; edo_text edo_sample]) as (d & f & _ & _ & E1 & _).
    + exact B.
    + constructor; [exact R|]. constructor; [exact R|constructor].
    + reflexivity || (unfold zlen; cbn; lia).
    + eauto.
Qed.
Example C46_example : edit_cost 5 2 [3; 250; 3] = 13.
Proof. reflexivity. Qed.
