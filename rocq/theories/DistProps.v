(** C52: the distribution of accuracies. *)
From Coq Require Import String.
From Verif Require Import Base CLib CLibProof SumProof Utf8Model AccModel AccSpec ReportModel ReportSpec ReportProof
  AccrptModel AccrptSpec AccrptTop WacModel WacrptModel WacrptSpec WacrptTop DoubleModel DoubleProof DistModel DistSpec.
Local Open Scope Z_scope.
Local Open Scope list_scope.

Definition page_ok (p : page) : Prop := 0 <= fst p <= 2 ^ 46 /\ 0 <= snd p < 2 ^ 63.

(** The distribution of some pages. *)
Definition dist_of (pages : list page) (d : dist) : Prop :=
  zlen (counts d) = 101 /\ total_count d = all_count pages /\
  forall i, 0 <= i <= 100 -> znth (counts d) i = Some (dist_at pages i).

Lemma add_counts_ok accuracy count K : (forall i, 0 <= i <= 101 -> fle (of_int i) accuracy = (i <=? K)) -> -1 <= K <= 100 ->
  forall fuel i a, 0 <= i <= K + 1 -> zlen a = 101 -> 101 < Z.of_nat fuel + i ->
  exists a', add_counts fuel i accuracy count a = Ok a' /\ zlen a' = 101 /\
    forall j, 0 <= j <= 100 ->
      znth a' j = match znth a j with Some x => Some (x + if (i <=? j) && (j <=? K) then count else 0) | None => None end.
Proof.
  intros HK BK. induction fuel as [|fuel IH]; intros i a Hi La Hf; [lia|]. cbn [add_counts].
  rewrite HK by lia. destruct (Z.leb_spec i K) as [H|H].
  - destruct (znth_lt_Some a i) as (x & Ex); [lia|]. unfold rd. rewrite Ex. cbn [obind].
    destruct (zset_lt_Some a i (x + count)) as (a1 & E1); [lia|]. unfold wr. rewrite E1. cbn [obind].
    destruct (IH (i + 1) a1) as (a' & E & L & Z); [lia|rewrite (zset_zlen _ _ _ _ E1); exact La|lia|].
    exists a'. split; [exact E|]. split; [exact L|]. intros j Hj. rewrite (Z j Hj), (zset_znth _ _ _ _ E1).
    destruct (Z.eqb_spec j i) as [->|N].
    + rewrite Ex. replace (i + 1 <=? i) with false by lia. replace (i <=? i) with true by lia.
      replace (i <=? K) with true by lia. cbn [andb]. f_equal. lia.
    + destruct (znth a j) as [y|]; [|reflexivity]. f_equal. f_equal.
      replace (i + 1 <=? j) with (i <=? j) by lia. reflexivity.
  - exists a. split; [reflexivity|]. split; [exact La|]. intros j Hj.
    destruct (znth a j) as [y|]; [|reflexivity]. f_equal.
    replace ((i <=? j) && (j <=? K)) with false by lia. lia.
Qed.

Lemma update_ok pages d p : page_ok p -> dist_of pages d ->
  exists d', update_dist d (fst p) (snd p) = Ok d' /\ dist_of (pages ++ [p]) d'.
Proof.
  intros [Hc Hm] (L & T & Z). unfold update_dist.
  assert (Snoc : forall i, dist_at (pages ++ [p]) i = dist_at pages i + if at_least i p then fst p else 0).
  { intros i. unfold dist_at. rewrite filter_app, map_app, zsum_app. cbn [filter].
    destruct (at_least i p); cbn [map]; rewrite ?zsum_cons; change (zsum []) with 0; rewrite ?Z.add_0_r; reflexivity. }
  assert (SnocA : all_count (pages ++ [p]) = all_count pages + fst p).
  { unfold all_count. rewrite map_app, zsum_app. cbn [map]. rewrite zsum_cons. change (zsum []) with 0. rewrite Z.add_0_r. reflexivity. }
  destruct (Z.eqb_spec (fst p) 0) as [E0|N0].
  - exists d. split; [reflexivity|]. split; [exact L|]. split; [rewrite SnocA, T; lia|].
    intros i Hi. rewrite Snoc, (Z i Hi), E0. f_equal. destruct (at_least i p); lia.
  - set (n := fst p - snd p). set (K := if n <? 0 then -1 else Z.div (100 * n) (fst p)).
    assert (HK : forall i, 0 <= i <= 101 -> fle (of_int i) (percentage n (fst p)) = (i <=? K)).
    { intros i Hi. rewrite percentage_ge by lia. subst K. destruct (Z.ltb_spec n 0).
      - replace (i <=? -1) with false by lia. apply Z.leb_gt. nia.
      - apply Bool.eq_iff_eq_true. rewrite !Z.leb_le. split; intros H1.
        + apply Z.div_le_lower_bound; lia.
        + apply Z.le_trans with (fst p * (100 * n / fst p)); [nia|]. apply Z.mul_div_le. lia. }
    assert (BK : -1 <= K <= 100).
    { subst K. destruct (Z.ltb_spec n 0); [lia|]. split.
      - pose proof (Z.div_pos (100 * n) (fst p)). lia.
      - apply Z.div_le_upper_bound; lia. }
    destruct (add_counts_ok _ (fst p) K HK BK (Datatypes.S (List.length (counts d))) 0 (counts d)) as (a & E & La & Za);
      [lia|exact L|unfold zlen in L; lia|].
    cbv zeta. fold n. rewrite E. cbn [obind]. eexists. split; [reflexivity|].
    split; [exact La|]. split; [cbn [total_count]; rewrite SnocA, T; reflexivity|].
    intros i Hi. cbn [counts]. rewrite (Za i Hi), (Z i Hi), Snoc. do 3 f_equal.
    assert (at_least i p = (i <=? K)) as ->.
    { unfold at_least. fold n. rewrite <- percentage_ge by lia. apply HK. lia. }
    destruct (Z.leb_spec i K); [replace (0 <=? i) with true by lia; reflexivity|].
    now destruct (0 <=? i).
Qed.

Lemma empty_dist : dist_of [] dist_empty.
Proof.
  split; [reflexivity|]. split; [reflexivity|]. intros i Hi.
  change (dist_at [] i) with 0. unfold znth, dist_empty. cbn [counts]. replace (i <? 0) with false by lia.
  rewrite nth_error_repeat; [reflexivity|lia].
Qed.

Lemma update_all pages : forall before d, Forall page_ok pages -> dist_of before d ->
  exists d', ofold (fun d (p : page) => update_dist d (fst p) (snd p)) pages d = Ok d' /\ dist_of (before ++ pages) d'.
Proof.
  induction pages as [|p pages IH]; intros before d F D.
  - exists d. rewrite app_nil_r. auto.
  - apply Forall_cons_iff in F as [Fp F]. destruct (update_ok before d p Fp D) as (d1 & E1 & D1).
    destruct (IH _ d1 F D1) as (d2 & E2 & D2). exists d2. cbn [ofold]. rewrite E1. cbn [obind].
    rewrite <- app_assoc in D2. auto.
Qed.

(** C52: entry i of the distribution of any pages is, exactly, the number of characters on the
    pages with an accuracy of at least i percent. *)
Theorem C52_exact : forall pages,
  (forall count missed, In (count, missed) pages -> 0 <= count <= 2 ^ 46 /\ 0 <= missed < 2 ^ 63) ->
  exists d, ofold (fun d (p : page) => update_dist d (fst p) (snd p)) pages dist_empty = Ok d /\
    zlen (counts d) = 101 /\ total_count d = all_count pages /\
    forall i, 0 <= i <= 100 -> znth (counts d) i = Some (dist_at pages i).
Proof.
  intros pages H. destruct (update_all pages [] dist_empty) as (d & E & D).
  - apply Forall_forall. intros [c m] Hp. exact (H c m Hp).
  - exact empty_dist.
  - exists d. split; [exact E|]. exact D.
Qed.
Print Assumptions C52_exact.

(** C52: the entries do not increase; the first is at most the total, and is the total if no
    page has more errors than characters. *)
Theorem C52_decreasing : forall pages,
  (forall count missed, In (count, missed) pages -> 0 <= count) ->
  (forall i j, i <= j -> dist_at pages j <= dist_at pages i) /\
  (forall i, 0 <= dist_at pages i <= all_count pages) /\
  ((forall count missed, In (count, missed) pages -> missed <= count) -> dist_at pages 0 = all_count pages).
Proof.
  intros pages H.
  assert (F : Forall (fun p : page => 0 <= fst p) pages).
  { apply Forall_forall. intros [c m] Hp. exact (H c m Hp). }
  clear H. unfold dist_at, all_count. induction F as [|p pages Hp F (I1 & I2 & I3)].
  { split; [intros; cbn; lia|]. split; [intros; cbn; lia|]. reflexivity. }
  split; [|split].
  - intros i j Hij. cbn [filter]. specialize (I1 i j Hij).
    destruct (at_least j p) eqn:Ej, (at_least i p) eqn:Ei; cbn [map]; rewrite ?zsum_cons; try lia.
    unfold at_least in *. nia.
  - intros i. cbn [filter map]. specialize (I2 i). destruct (at_least i p); cbn [map]; rewrite ?zsum_cons; lia.
  - intros H. cbn [filter map]. assert (at_least 0 p = true) as ->.
    { unfold at_least. destruct p as [c m]. specialize (H c m (or_introl eq_refl)). cbn [fst snd] in *. lia. }
    cbn [map]. rewrite !zsum_cons, I3; [reflexivity|]. intros c m Hc. apply H. now right.
Qed.
Print Assumptions C52_decreasing.

Lemma write_dist_ok fmt6 pages d : dist_of pages d -> write_dist fmt6 d = Ok (dist_listing fmt6 pages).
Proof.
  intros (L & T & Z). unfold write_dist, dist_listing. rewrite T. destruct (all_count pages =? 0); [reflexivity|].
  apply oconcat_ok. intros i Hi. apply In_zrange in Hi. unfold rd. rewrite (Z i) by lia. reflexivity.
Qed.

(** The pages of accuracy and word accuracy reports. *)
Definition char_page (d : accdata) : page := (characters d, errors d).
Definition word_page (d : wacdata) : page := (wcount (wtotal d), wmissed (wtotal d)).

(** C52: accdist writes the distribution of the accuracies of the reports. *)
Theorem C52_accdist : forall uc fmt fmt6 b ds fs,
  nul_hidden uc -> marks_wide uc -> pct_ok fmt -> line_buffer b ->
  Forall2 (report_of uc fmt) ds fs ->
  accdist fmt6 b fs = Ok (dist_listing fmt6 (map char_page ds)).
Proof.
  intros uc fmt fmt6 b ds fs N W F B H.
  assert (G : forall before D b t, line_buffer b -> reportable D -> dist_of before t ->
    exists D' t', ofold acc_page fs ((D, b), t) = Ok (D', t') /\ dist_of (before ++ map char_page ds) t').
  { clear b B. induction H as [|d f ds fs Hd H IH]; intros before D b t B R T.
    - exists (D, b), t. cbn [map]. rewrite app_nil_r. auto.
    - destruct (read_one uc fmt N W F b D d f B Hd R) as (D1 & b1 & E1 & B1 & R1 & F1).
      pose proof (F1 FCharacters) as Fc. pose proof (F1 FErrors) as Fe. cbn [fig] in Fc, Fe.
      destruct Hd as (Rd & Bl & _).
      pose proof (rp_nonneg d Rd FCharacters) as Nc. pose proof (rp_nonneg d Rd FErrors) as Ne.
      pose proof (Bl FCharacters) as Uc. pose proof (Bl FErrors) as Ue. cbn [fig] in Nc, Ne, Uc, Ue.
      destruct (update_ok before t (char_page d)) as (t1 & E2 & T1);
        [split; cbn [char_page fst snd]; lia|exact T|].
      cbn [ofold acc_page]. rewrite E1. cbn [obind].
      replace (characters D1 - characters D) with (fst (char_page d)) by (cbn [char_page fst]; lia).
      replace (errors D1 - errors D) with (snd (char_page d)) by (cbn [char_page snd]; lia).
      rewrite E2. cbn [obind]. destruct (IH _ D1 b1 t1 B1 R1 T1) as (D2 & t2 & E3 & T2).
      exists D2, t2. split; [exact E3|]. cbn [map]. rewrite <- app_assoc in T2. exact T2. }
  destruct (G [] acc_empty b dist_empty B acc_empty_reportable empty_dist) as (D & t & E & T).
  unfold accdist. rewrite E. cbn [obind]. now apply write_dist_ok.
Qed.
Print Assumptions C52_accdist.

(** C52: wordaccdist likewise. *)
Theorem C52_wordaccdist : forall fmt fmt6 b ds fs,
  pct_ok fmt -> line_buffer b ->
  Forall2 (wreport_of fmt) ds fs ->
  wordaccdist fmt6 b fs = Ok (dist_listing fmt6 (map word_page ds)).
Proof.
  intros fmt fmt6 b ds fs F B H.
  assert (G : forall before D b t, line_buffer b -> wreportable D -> dist_of before t ->
    exists D' t', ofold wac_page fs ((D, b), t) = Ok (D', t') /\ dist_of (before ++ map word_page ds) t').
  { clear b B. induction H as [|d f ds fs Hd H IH]; intros before D b t B R T.
    - exists (D, b), t. cbn [map]. rewrite app_nil_r. auto.
    - destruct (wread_one fmt F b D d f B Hd R) as (D1 & b1 & E1 & B1 & R1 & F1).
      pose proof (F1 (WWords false)) as Fc. pose proof (F1 (WWords true)) as Fe. cbn [wfig wcell] in Fc, Fe.
      destruct Hd as (Rd & Bl & _).
      pose proof (wr_total d Rd) as Nc. unfold sane in Nc.
      pose proof (Bl (WWords false)) as Uc. pose proof (Bl (WWords true)) as Ue. cbn [wfig wcell] in Uc, Ue.
      destruct (update_ok before t (word_page d)) as (t1 & E2 & T1);
        [split; cbn [word_page fst snd]; lia|exact T|].
      cbn [ofold wac_page]. rewrite E1. cbn [obind].
      replace (wcount (wtotal D1) - wcount (wtotal D)) with (fst (word_page d)) by (cbn [word_page fst]; lia).
      replace (wmissed (wtotal D1) - wmissed (wtotal D)) with (snd (word_page d)) by (cbn [word_page snd]; lia).
      rewrite E2. cbn [obind]. destruct (IH _ D1 b1 t1 B1 R1 T1) as (D2 & t2 & E3 & T2).
      exists D2, t2. split; [exact E3|]. cbn [map]. rewrite <- app_assoc in T2. exact T2. }
  destruct (G [] wac_empty b dist_empty B wac_empty_reportable empty_dist) as (D & t & E & T).
  unfold wordaccdist. rewrite E. cbn [obind]. now apply write_dist_ok.
Qed.
Print Assumptions C52_wordaccdist.

(** Finding: with a negative number of errors (which a hand-edited report can give) the loop
    leaves the array. *)
Theorem C52_negative_missed_refuted : forall d, zlen (counts d) = 101 ->
  update_dist d 1 (-1) = UB "dist->count[i]".
Proof.
  intros [a t] L. cbn [counts] in L. unfold update_dist. cbn [counts]. change (1 =? 0) with false. cbv iota zeta.
  change (1 - -1) with 2.
  assert (G : forall fuel i a, 0 <= i <= 101 -> zlen a = 101 -> 102 <= Z.of_nat fuel + i ->
    add_counts fuel i (percentage 2 1) 1 a = UB "dist->count[i]").
  { clear. induction fuel as [|fuel IH]; intros i a Hi La Hf; [lia|]. cbn [add_counts].
    rewrite percentage_ge by lia. replace (i * 1 <=? 100 * 2) with true by lia.
    destruct (Z.eq_dec i 101) as [->|N].
    - unfold rd. destruct (znth a 101) as [x|] eqn:E; [|reflexivity]. apply znth_Some_lt in E. lia.
    - destruct (znth_lt_Some a i) as (x & Ex); [lia|]. unfold rd. rewrite Ex. cbn [obind].
      destruct (zset_lt_Some a i (x + 1)) as (a1 & E1); [lia|]. unfold wr. rewrite E1. cbn [obind].
      apply IH; [lia| |lia]. now rewrite (zset_zlen _ _ _ _ E1). }
  rewrite G; [reflexivity|lia|exact L|unfold zlen in L; lia].
Qed.
Print Assumptions C52_negative_missed_refuted.

(** With counts beyond the bound the rounded accuracy can reach a percentage that the exact one
    does not: here 100 n = 99 d - 1. *)
Theorem C52_large_counts_refuted : let d := 140737488355399 in let n := (99 * d - 1) / 100 in
  100 * n = 99 * d - 1 /\ fle (of_int 99) (percentage n d) = true.
Proof. vm_compute. auto. Qed.
Print Assumptions C52_large_counts_refuted.

(** Three pages: 9 of 10, 1 of 3 characters right, none on the last one. *)
Example C52_ex : exists d,
  ofold (fun d (p : page) => update_dist d (fst p) (snd p)) [(10, 1); (3, 2); (0, 0)] dist_empty = Ok d /\
  map (fun i => znth (counts d) i) [0; 33; 34; 90; 91; 100] = [Some 13; Some 13; Some 10; Some 10; Some 0; Some 0] /\
  total_count d = 13.
Proof.
  destruct (C52_exact [(10, 1); (3, 2); (0, 0)]) as (d & E & _ & T & Z).
  { intros c m [[= <- <-]|[[= <- <-]|[[= <- <-]|[]]]]; lia. }
  exists d. split; [exact E|]. split; [|rewrite T; reflexivity]. cbn [map]. rewrite !Z by lia. reflexivity.
Qed.
