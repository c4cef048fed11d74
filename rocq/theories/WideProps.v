(** C84: the counters stay within the range of the type long. *)
From Coq Require Import String Permutation.
From Verif Require Import Base CLib Utf8Model TextModel TextSpec CharclassModel CharclassSpec CharclassProps CompareModel SortModel SyncModel SyncSpec
  FastukkSync AccModel AccSpec SumProof AccTop ReportModel ReportSpec AccrptModel AccrptSpec AccrptFig AccrptProof AccrptTop WordModel
  StopModel WacModel FreqModel NgramModel EdoModel EdoSpec EdoProof EdoProps EditopModel CrashProof TextProps AccProps
  WideModel WideProof WideRead WideWord WideEdit.
Local Open Scope Z_scope.
Local Open Scope list_scope.
#[local] Opaque all_values sum_to.

(** Texts of which twice the number of characters is a long (every Char takes more than two
    bytes): the figures that accuracy counts are those of the model with unbounded counters,
    the differences and sums it prints are longs too, and no figure exceeds the number of
    characters of the two texts. *)
Theorem C84_accuracy : forall uc t0 t1,
  2 * (zlen t0 + zlen t1) <= 9223372036854775807 ->
  accuracy_data64 uc t0 t1 = accuracy_data uc t0 t1 /\
  forall d, accuracy_data uc t0 t1 = Ok d -> pct_long d /\
    0 <= characters d <= zlen t0 + zlen t1 /\ 0 <= errors d <= zlen t0 + zlen t1 /\
    0 <= rejects d <= zlen t0 + zlen t1 /\ 0 <= suspects d <= zlen t0 + zlen t1 /\
    0 <= false_marks d <= zlen t0 + zlen t1 /\
    (forall v, 0 <= cmissed (small d v) <= zlen t0 + zlen t1 /\ 0 <= ccount (small d v) <= zlen t0 + zlen t1) /\
    forall c, In c (conftable d) -> 0 <= cerrors c <= zlen t0 + zlen t1 /\ 0 <= cmarked c <= zlen t0 + zlen t1.
Proof.
  intros uc t0 t1 L. pose proof (zlen_nonneg t0) as N0. pose proof (zlen_nonneg t1) as N1.
  destruct (fastukk_ok (map TextModel.value t0) (map TextModel.value t1)) as (l & E & P & _).
  { rewrite map_len. unfold MAX_F. lia. }
  destruct (partition_parts t0 t1 l P) as (F & E0 & E1).
  pose proof (items_chars t0 t1 l F) as S. rewrite E0, E1 in S.
  destruct (process_items_agree uc t0 t1 l F ltac:(unfold TOP; lia)) as [A B]. rewrite S in B.
  unfold accuracy_data64, accuracy_data. rewrite E. cbn [obind]. split; [exact A|].
  intros d Ed. specialize (B d Ed). cbv zeta in B.
  destruct B as ((B1 & B2 & B3 & B4 & B5 & B6 & B7 & B8) & (T1 & T2 & T3) & C).
  unfold upto in *. split.
  - unfold pct_long. rewrite !is_long_true by (destruct T2, B7 as (? & ? & ? & ?); unfold upto in *; lia).
    repeat split; intros; apply is_long_true.
    + destruct (T1 k). unfold upto in *. lia.
    + destruct (T3 v). unfold upto in *. lia.
  - do 5 (split; [assumption|]). split.
    + intros v. destruct (T3 v). auto.
    + intros c Hc. unfold conf_upto in C. rewrite Forall_forall in C. exact (C c Hc).
Qed.
Print Assumptions C84_accuracy.

(** The tables of wordacc for words of which eight times the number is a long. *)
Theorem C84_wordacc : forall stop order words marks,
  (forall l, Permutation (order l) l) -> 8 * zlen marks <= 9223372036854775807 ->
  determine_wacdata64 stop order words marks = determine_wacdata stop order words marks.
Proof. exact determine_agree. Qed.
Print Assumptions C84_wordacc.

(** wordfreq, for files with [wss] as their words. *)
Theorem C84_wordfreq : forall order uc NFC junk junk4 files wss,
  (forall l, Permutation (order l) l) ->
  Forall2 (fun f ws => words_in uc NFC junk junk4 wordfreq_opt f = Ok ws) files wss ->
  zlen (List.concat wss) <= 9223372036854775807 ->
  wordfreq64 order uc NFC junk junk4 files = wordfreq order uc NFC junk junk4 files.
Proof.
  intros order uc NFC junk junk4 files wss O F L. unfold wordfreq64, wordfreq.
  destruct (zlen files =? 0); [reflexivity|].
  assert (G : forall fs wss, Forall2 (fun f ws => words_in uc NFC junk junk4 wordfreq_opt f = Ok ws) fs wss ->
    forall tab n, counts n tab -> n + zlen (List.concat wss) <= TOP -> exists tab',
    ofold (fun tab f => let! words := words_in uc NFC junk junk4 wordfreq_opt f in count_words64 tab words) fs tab = Ok tab' /\
    ofold (fun tab f => let! words := words_in uc NFC junk junk4 wordfreq_opt f in Ok (count_words tab words)) fs tab = Ok tab' /\
    counts (n + zlen (List.concat wss)) tab').
  { clear. induction 1 as [|f ws fs wss E F IH]; intros tab n C L.
    - exists tab. change (zlen (List.concat (@nil (list (list Z))))) with 0. rewrite Z.add_0_r. auto.
    - cbn [List.concat] in *. rewrite zlen_app in *. pose proof (zlen_nonneg (List.concat wss)). cbn [ofold]. rewrite E. cbn [obind].
      destruct (count_words_agree ws tab n C ltac:(lia)) as [E1 C1]. rewrite E1. cbn [obind].
      destruct (IH _ _ C1 ltac:(lia)) as (tab' & E2 & E3 & C2). exists tab'. split; [exact E2|]. split; [exact E3|].
      now rewrite Z.add_assoc. }
  destruct (G files wss F [] 0) as (tab & -> & -> & C).
  { split; [constructor|reflexivity]. }
  { unfold TOP. lia. }
  cbn [obind]. unfold FreqModel.write_report. apply (counts_order _ _ _) with (2 := O tab) in C.
  assert (T : forall a n, counts n a -> n <= TOP -> write_array64 a = Ok (FreqModel.write_array a)).
  { intros a n Ca La. unfold write_array64, FreqModel.write_array. rewrite (total_agree a n Ca La). reflexivity. }
  destruct (sort_perm order_by_key (order tab)) as (a1 & -> & P1). apply Permutation_sym in P1. cbn [obind].
  pose proof (counts_order _ _ _ C P1) as C1. rewrite (T a1 _ C1) by (unfold TOP; lia). cbn [obind].
  destruct (sort_perm order_by_count a1) as (a2 & -> & P2). apply Permutation_sym in P2. cbn [obind].
  rewrite (T a2 _ (counts_order _ _ _ C1 P2)) by (unfold TOP; lia). reflexivity.
Qed.
Print Assumptions C84_wordfreq.

(** ngram, for files with [texts] as their characters. *)
Theorem C84_ngram : forall uc order junk junk4 n files texts,
  Forall2 (fun f t => exists r, read_text uc junk junk4 ngram_opt [] f = Ok (t, r)) files texts ->
  zlen (List.concat texts) <= 9223372036854775807 ->
  ngram64 uc order junk junk4 n files = ngram uc order junk junk4 n files.
Proof.
  intros uc order junk junk4 n files texts F L. unfold ngram64, ngram.
  destruct (zlen files =? 0); [reflexivity|]. destruct (get_n n) as [k|e|e|]; cbn [obind]; [|reflexivity..].
  assert (G : forall fs ts, Forall2 (fun f t => exists r, read_text uc junk junk4 ngram_opt [] f = Ok (t, r)) fs ts ->
    forall m t, seqs_upto m t -> 0 <= m -> m + zlen (List.concat ts) <= TOP ->
    ofold (fun t f => let! (text, _) := read_text uc junk junk4 ngram_opt [] f in process_text64 uc (Z.to_nat k) t text) fs t =
    ofold (fun t f => let! (text, _) := read_text uc junk junk4 ngram_opt [] f in process_text uc (Z.to_nat k) t text) fs t).
  { clear. induction 1 as [|f t fs ts (r & E) F IH]; intros m tb S M L; [reflexivity|].
    cbn [List.concat] in L. rewrite zlen_app in L. pose proof (zlen_nonneg (List.concat ts)). pose proof (zlen_nonneg t).
    cbn [ofold]. rewrite E. cbn [obind].
    destruct (process_text_agree uc (Z.to_nat k) t m tb S M ltac:(lia)) as [E1 S1]. rewrite E1.
    destruct (process_text uc (Z.to_nat k) tb t) as [tb'|e|e|]; cbn [obind]; [|reflexivity..].
    apply (IH (m + zlen t)); [apply S1; reflexivity|lia|lia]. }
  rewrite (G files texts F 0); [reflexivity| |lia|unfold TOP; lia].
  split; [constructor|]. split; cbn; unfold upto; lia.
Qed.
Print Assumptions C84_ngram.

(** editop *)
Theorem C84_editop : forall t1 t2,
  zlen t1 <= 9223372036854775807 -> zlen t2 <= 9223372036854775807 ->
  edit_operations64 t1 t2 = edit_operations t1 t2.
Proof. exact edit_operations_agree. Qed.
Print Assumptions C84_editop.

(** accsum: fewer than 92233720368 reports. *)
Theorem C84_accsum : forall uc fmt order b ds fs,
  nul_hidden uc -> marks_wide uc -> pct_ok fmt -> line_buffer b ->
  Forall2 (report_of uc fmt) ds fs -> 100000000 * zlen fs <= 9223372036854775807 ->
  accsum64 uc fmt order b fs = accsum uc fmt order b fs.
Proof.
  intros uc fmt order b ds fs N W F B H L. unfold accsum64, accsum. destruct (zlen fs <? 2); [reflexivity|].
  assert (G : forall ds fs, Forall2 (report_of uc fmt) ds fs -> forall b D n, line_buffer b -> reportable D -> all_upto n D ->
    0 <= n -> n + 100000000 * zlen fs <= TOP ->
    ofold (fun (st : accdata * list Z) f => read_accrpt64 (snd st) (fst st) f) fs (D, b) =
    ofold (fun (st : accdata * list Z) f => read_accrpt (snd st) (fst st) f) fs (D, b)).
  { clear - N W F. induction 1 as [|d f ds fs Hd H IH]; intros b D n B R U Hn L; [reflexivity|].
    rewrite zlen_cons in L. pose proof (zlen_nonneg fs). cbn [ofold fst snd].
    destruct (read_one uc fmt N W F b D d f B Hd R) as (D' & b' & E & B' & R' & _).
    destruct Hd as (Rd & Bd & order & O & Wd).
    destruct (write_accrpt_text uc fmt N order d Rd O) as (a & P & Wt & _).
    assert (f = report_text uc fmt d a) as -> by congruence.
    destruct (read_report64 uc fmt N W F b D d a n B Rd Bd P U Hn ltac:(lia)) as (b2 & B2 & E2 & U2).
    destruct (read_report uc fmt N W F b D d a B Rd Bd P) as (b3 & _ & E3).
    assert (same : read_accrpt64 b D (report_text uc fmt d a) = read_accrpt b D (report_text uc fmt d a)).
    { destruct (so_read_accrpt b D (report_text uc fmt d a)) as [X|X]; [exact X|]. rewrite E2 in X. discriminate X. }
    rewrite same, E. cbn [obind].
    assert (D' = merged D d a) as -> by congruence.
    apply (IH b' (merged D d a) (n + 100000000)); auto; lia. }
  rewrite (G ds fs H b acc_empty 0 B acc_empty_reportable); [reflexivity| |lia|unfold TOP; lia].
  split; [|split]; [repeat split; cbn; lia|repeat split; cbn; lia|constructor].
Qed.
Print Assumptions C84_accsum.

(** editopsum: reports the figures of which have longs as sums. *)
Theorem C84_editopsum : forall b ds fs,
  line_buffer b -> Forall2 ereport_of ds fs ->
  (forall x, zsum (map (efig x) ds) <= 9223372036854775807) ->
  editopsum64 b fs = editopsum b fs.
Proof.
  intros b ds fs B H L. unfold editopsum64, editopsum. destruct (zlen fs <? 2); [reflexivity|].
  rewrite (eread_all64 ds fs H b edo_empty B edo_empty_reportable); [reflexivity|].
  intros x. rewrite edo_empty_fig. apply L.
Qed.
Print Assumptions C84_editopsum.

(** editopcost, with one report and with two. *)
Theorem C84_editopcost : forall b d f,
  line_buffer b -> ereport_of d f -> insertions d + 100 * total_moves d <= 9223372036854775807 ->
  editopcost64 b [f] = editopcost b [f] /\
  forall d2 f2, ereport_of d2 f2 -> insertions d2 + 100 * total_moves d2 <= 9223372036854775807 ->
    editopcost64 b [f; f2] = editopcost b [f; f2].
Proof.
  intros b d f B H L.
  assert (One : forall b d f, line_buffer b -> ereport_of d f ->
    exists b', line_buffer b' /\ read_edorpt64 b edo_empty f = Ok (d, b') /\ read_edorpt b edo_empty f = Ok (d, b')).
  { clear. intros b d f B (R & Bl & W). destruct (C45_round_trip b d B R Bl) as (f' & b' & W' & E).
    assert (f' = f) as -> by congruence.
    destruct (eread_one b edo_empty d f B (conj R (conj Bl W)) edo_empty_reportable) as (D & b2 & E2 & B2 & _).
    exists b'. split; [congruence|]. split; [|exact E].
    rewrite (write_edorpt_text d (er_size d R)) in W. assert (f = edo_text d) as -> by congruence.
    rewrite read_edo64; auto; try reflexivity.
    - intros x. rewrite edo_empty_fig. pose proof (er_nonneg d R x). pose proof (Bl x). unfold upto, TOP. lia.
    - intros x. rewrite edo_empty_fig. lia. }
  assert (Lg : forall d f, ereport_of d f -> forall x, upto TOP (efig x d)).
  { clear. intros d f (R & Bl & _) x. pose proof (er_nonneg d R x). pose proof (Bl x). unfold upto, TOP. lia. }
  destruct (One b d f B H) as (b1 & B1 & E1 & E2). pose proof (proj1 H) as R. unfold editopcost64, editopcost. split.
  - rewrite E1, E2. cbn [obind]. apply results_report; [exact R|exact L].
  - intros d2 f2 H2 L2. destruct (One b1 d2 f2 B1 H2) as (b2 & B2 & E3 & E4). pose proof (proj1 H2) as R2.
    rewrite E1, E2. cbn [obind]. rewrite E3, E4. cbn [obind].
    rewrite decrement_agree; [|apply (er_size d R)|apply (er_size d2 R2)|apply (Lg d f H)|apply (Lg d2 f2 H2)].
    destruct (decrement_ok d d2 (er_size d R) (er_size d2 R2) (er_zero d2 R2)) as (D & -> & LD & FD). cbn [obind].
    assert (S : forall d, ereportable d -> total_moves d = zsum (map (entry (moves d)) (zrange 0 101))).
    { clear. intros d R. rewrite (er_sum d R) at 1. rewrite (zsum_entries _ (er_size d R)).
      change (zrange 0 101) with (0 :: zrange 1 100). cbn [map]. rewrite zsum_cons. lia. }
    apply (results_agree D (entry (moves d)) (entry (moves d2)) (insertions d) (insertions d2)).
    + exact LD.
    + intros i. apply (er_nonneg d R (EMove i)).
    + intros i. apply (er_nonneg d2 R2 (EMove i)).
    + apply (er_nonneg d R EInsertions).
    + apply (er_nonneg d2 R2 EInsertions).
    + intros i. apply (FD (EMove i)).
    + apply (FD EInsertions).
    + rewrite <- (S d R), <- (S d2 R2). apply (FD EMoves).
    + rewrite <- (S d R). exact L.
    + rewrite <- (S d2 R2). exact L2.
Qed.
Print Assumptions C84_editopcost.

(** Reports of any contents: the figures are those of the unbounded model, or a counter
    overflows. *)
Theorem C84_reports : forall b f,
  (forall d, read_accrpt64 b d f = read_accrpt b d f \/ read_accrpt64 b d f = UB "signed overflow") /\
  (forall d, read_edorpt64 b d f = read_edorpt b d f \/ read_edorpt64 b d f = UB "signed overflow").
Proof. intros b f. split; intros d; [apply so_read_accrpt|apply so_read_edorpt]. Qed.
Print Assumptions C84_reports.

(** A report that editop could have written. *)
Definition wide_edits (n : Z) : edodata := mkedo n 0 0 (repeat 0 101).
Lemma wide_reportable n : 0 <= n <= 9223372036854775807 ->
  ereportable (wide_edits n) /\ ereport_of (wide_edits n) (edo_text (wide_edits n)).
Proof.
  intros H.
  assert (E : forall i, entry (repeat 0 101) i = 0).
  { intros i. pose proof (edo_empty_fig (EMove i)) as X. exact X. }
  assert (R : ereportable (wide_edits n)).
  { constructor; [reflexivity|reflexivity| |reflexivity].
    intros [| | |i]; cbn [efig wide_edits insertions deletions total_moves moves]; rewrite ?E; lia. }
  split; [exact R|]. split; [exact R|]. split; [|apply write_edorpt_text; reflexivity].
  intros [| | |i]; cbn [efig wide_edits insertions deletions total_moves moves]; rewrite ?E; lia.
Qed.

(** Without the bounds on the sums, the counters do overflow: two reports of 2^63 - 1 and 1
    insertions. *)
Theorem C84_overflow_refuted : exists f f2 b,
  line_buffer b /\ (exists d, ereport_of d f) /\ (exists d, ereport_of d f2) /\
  editopsum64 b [f; f2] = UB "signed overflow" /\
  exists o, editopsum b [f; f2] = Ok o.
Proof.
  exists (edo_text (wide_edits 9223372036854775807)), (edo_text (wide_edits 1)), (repeat 0 100).
  assert (B : line_buffer (repeat 0 100)) by (split; reflexivity).
  split; [exact B|]. split; [eexists; apply wide_reportable; lia|]. split; [eexists; apply wide_reportable; lia|].
  split; [vm_compute; reflexivity|]. eexists. vm_compute. reflexivity.
Qed.
Print Assumptions C84_overflow_refuted.

Example two_texts : exists d,
  accuracy_data64 sample_uc (sample_text "cat") (sample_text "cut") = Ok d /\ errors d = 1.
Proof. eexists. split; vm_compute; reflexivity. Qed.
Example moved_words : edit_operations64 [97; 98; 99; 100] [99; 100; 97; 98] = edit_operations [97; 98; 99; 100] [99; 100; 97; 98].
Proof. apply C84_editop; vm_compute; discriminate. Qed.
Example summed : exists o, editopsum64 (repeat 0 100) [edo_text (wide_edits 2); edo_text (wide_edits 3)] = Ok o.
Proof. eexists. vm_compute. reflexivity. Qed.
