(** C52: what distributions of accuracies do not depend on, and what their entries add up to. *)
From Coq Require Import String Permutation.
From Verif Require Import Base CLib Utf8Model TextModel TextSpec AccModel AccSpec SumProof ReportModel ReportSpec ReportProof AccrptModel AccrptSpec AccrptTop
  WacModel WacrptModel WacrptSpec WacrptTop DistModel DistSpec DistProps.
Local Open Scope Z_scope.
Local Open Scope list_scope.

Lemma reports_permuted {A B} (R : A -> B -> Prop) fs fs' : Permutation fs fs' -> forall ds, Forall2 R ds fs ->
  exists ds', Permutation ds ds' /\ Forall2 R ds' fs'.
Proof.
  induction 1 as [|f fs fs' P IH|f g fs|fs fs2 fs' P1 IH1 P2 IH2]; intros ds H.
  - exists ds. split; [apply Permutation_refl|exact H].
  - inversion H as [|d ? ds0 ? Hd H0]; subst. destruct (IH ds0 H0) as (ds' & Pd & H'). exists (d :: ds'). split; now constructor.
  - inversion H as [|d ? ds0 ? Hd H0]; subst. inversion H0 as [|e ? ds1 ? He H1]; subst.
    exists (e :: d :: ds1). split; [apply perm_swap|]. constructor; [exact He|]. constructor; [exact Hd|exact H1].
  - destruct (IH1 ds H) as (ds2 & Pa & Ha). destruct (IH2 ds2 Ha) as (ds' & Pb & Hb). exists ds'. split; [now transitivity ds2|exact Hb].
Qed.

Lemma filter_permuted {A} (p : A -> bool) l l' : Permutation l l' -> Permutation (filter p l) (filter p l').
Proof.
  induction 1 as [|x l l' P IH|x y l|l l2 l' P1 IH1 P2 IH2]; [constructor| | |now transitivity (filter p l2)].
  - cbn [filter]. destruct (p x); [now constructor|exact IH].
  - cbn [filter]. destruct (p x), (p y); try apply Permutation_refl. apply perm_swap.
Qed.

Lemma listing_permuted fmt6 ps ps' : Permutation ps ps' -> dist_listing fmt6 ps = dist_listing fmt6 ps'.
Proof.
  intros P. assert (A : all_count ps = all_count ps') by (apply zsum_perm; now apply Permutation_map).
  unfold dist_listing. rewrite A. destruct (all_count ps' =? 0); [reflexivity|]. rewrite !flat_map_concat_map. f_equal. apply map_ext. intros i.
  do 2 f_equal. assert (dist_at ps i = dist_at ps' i) as ->; [|reflexivity]. apply zsum_perm. apply Permutation_map. now apply filter_permuted.
Qed.

(** C52: the order of the reports does not matter to accdist and wordaccdist. *)
Theorem C52_order : forall uc fmt fmt6 b b' ds fs fs' wds wfs wfs',
  nul_hidden uc -> marks_wide uc -> pct_ok fmt -> line_buffer b -> line_buffer b' ->
  Forall2 (report_of uc fmt) ds fs -> Permutation fs fs' ->
  Forall2 (wreport_of fmt) wds wfs -> Permutation wfs wfs' ->
  accdist fmt6 b fs = accdist fmt6 b' fs' /\ wordaccdist fmt6 b wfs = wordaccdist fmt6 b' wfs'.
Proof.
  intros uc fmt fmt6 b b' ds fs fs' wds wfs wfs' N W F B B' H P Hw Pw.
  destruct (reports_permuted _ _ _ P ds H) as (ds' & Pd & H'). destruct (reports_permuted _ _ _ Pw wds Hw) as (wds' & Pwd & Hw').
  split.
  - rewrite (C52_accdist uc fmt fmt6 b ds fs N W F B H), (C52_accdist uc fmt fmt6 b' ds' fs' N W F B' H'). f_equal.
    apply listing_permuted. now apply Permutation_map.
  - rewrite (C52_wordaccdist fmt fmt6 b wds wfs F B Hw), (C52_wordaccdist fmt fmt6 b' wds' wfs' F B' Hw'). f_equal.
    apply listing_permuted. now apply Permutation_map.
Qed.
Print Assumptions C52_order.

(** C52: the report of an empty page changes nothing. *)
Theorem C52_empty_page : forall uc fmt fmt6 b ds1 fs1 d f ds2 fs2,
  nul_hidden uc -> marks_wide uc -> pct_ok fmt -> line_buffer b ->
  Forall2 (report_of uc fmt) ds1 fs1 -> report_of uc fmt d f -> Forall2 (report_of uc fmt) ds2 fs2 -> characters d = 0 ->
  accdist fmt6 b (fs1 ++ f :: fs2) = accdist fmt6 b (fs1 ++ fs2).
Proof.
  intros uc fmt fmt6 b ds1 fs1 d f ds2 fs2 N W F B H1 Hd H2 Z.
  rewrite (C52_accdist uc fmt fmt6 b (ds1 ++ d :: ds2)); auto; [|apply Forall2_app; [exact H1|now constructor]].
  rewrite (C52_accdist uc fmt fmt6 b (ds1 ++ ds2)); auto; [|now apply Forall2_app]. f_equal. rewrite !map_app. cbn [map]. unfold char_page at 2. rewrite Z.
  assert (A : forall i p q e, dist_at (p ++ (0, e) :: q) i = dist_at (p ++ q) i).
  { intros i p q e. unfold dist_at. rewrite !filter_app. cbn [filter]. destruct (at_least i (0, e)); [|reflexivity]. rewrite !map_app, !zsum_app. cbn [map fst]. rewrite zsum_cons. lia. }
  assert (T : forall p q e, all_count (p ++ (0, e) :: q) = all_count (p ++ q)).
  { intros p q e. unfold all_count. rewrite !map_app, !zsum_app. cbn [map fst]. rewrite zsum_cons. lia. }
  unfold dist_listing. rewrite T. destruct (_ =? 0); [reflexivity|]. rewrite !flat_map_concat_map. f_equal. apply map_ext. intros i. now rewrite A.
Qed.
Print Assumptions C52_empty_page.

(** The sum of the entries from 1 to 100. *)
Definition area (pages : list page) : Z := zsum (map (dist_at pages) (zrange 1 100)).

Lemma area_page c m : 0 < c -> 0 <= m <= c -> forall k lo, 0 <= lo ->
  zsum (map (dist_at [(c, m)]) (zrange (lo + 1) k)) = c * Z.max 0 (Z.min (Z.of_nat k) (100 * (c - m) / c - lo)).
Proof.
  intros Hc Hm. induction k as [|k IH]; intros lo Hl; [cbn [zrange map]; change (zsum []) with 0; lia|].
  cbn [zrange map]. rewrite zsum_cons. replace (lo + 1 + 1) with ((lo + 1) + 1) by lia. rewrite IH by lia.
  unfold dist_at. cbn [filter]. unfold at_least. cbn [fst snd]. destruct (Z.leb_spec ((lo + 1) * c) (100 * (c - m))) as [A|A]; cbn [map fst].
  - rewrite zsum_cons. change (zsum []) with 0. assert (lo + 1 <= 100 * (c - m) / c) by (apply Z.div_le_lower_bound; lia). nia.
  - change (zsum []) with 0. assert (100 * (c - m) / c < lo + 1) by (apply Z.div_lt_upper_bound; lia).
    rewrite !Z.max_l by lia. lia.
Qed.

Lemma area_cons p pages : area (p :: pages) = area [p] + area pages.
Proof.
  unfold area. induction (zrange 1 100) as [|i l IH]; [reflexivity|]. cbn [map]. rewrite !zsum_cons, IH.
  assert (dist_at (p :: pages) i = dist_at [p] i + dist_at pages i) as ->; [|lia]. unfold dist_at. cbn [filter]. destruct (at_least i p); cbn [map]; rewrite ?zsum_cons; change (zsum []) with 0; lia.
Qed.

(** C52: the area under the curve is the accuracy of all pages together: the mean of the entries
    from 1 to 100 is at most the number of correct characters, and smaller by less than one
    hundredth of all the characters. *)
Theorem C52_area : forall pages : list page,
  (forall count missed, In (count, missed) pages -> 0 <= missed <= count) ->
  area pages <= 100 * zsum (map (fun p => fst p - snd p) pages) /\
  100 * zsum (map (fun p => fst p - snd p) pages) <= area pages + all_count pages /\
  (0 < all_count pages -> 100 * zsum (map (fun p => fst p - snd p) pages) < area pages + all_count pages).
Proof.
  induction pages as [|[c m] pages IH]; intros H.
  { assert (area [] = 0) as -> by reflexivity. cbn [map]. change (zsum []) with 0. change (all_count []) with 0. lia. }
  destruct IH as (A & B & C); [intros; apply H; now right|]. specialize (H c m (or_introl eq_refl)).
  rewrite area_cons. unfold all_count in *. cbn [map fst snd]. rewrite !zsum_cons.
  destruct (Z.eq_dec c 0) as [->|N].
  - assert (area [((0, m) : page)] = 0) as ->; [|lia]. unfold area. induction (zrange 1 100) as [|i l I]; [reflexivity|]. cbn [map]. rewrite zsum_cons, I.
    unfold dist_at. cbn [filter]. destruct (at_least i (0, m)); reflexivity.
  - pose proof (area_page c m ltac:(lia) H 100 0 ltac:(lia)) as E. change (0 + 1) with 1 in E.
    assert (Ea : area [((c, m) : page)] = c * (100 * (c - m) / c)).
    { etransitivity; [exact E|]. f_equal. assert (0 <= 100 * (c - m) / c) by (apply Z.div_pos; lia).
      assert (100 * (c - m) / c <= 100) by (apply Z.div_le_upper_bound; lia). lia. }
    rewrite Ea. pose proof (Z.div_mod (100 * (c - m)) c ltac:(lia)) as D. pose proof (Z.mod_pos_bound (100 * (c - m)) c ltac:(lia)). lia.
Qed.
Print Assumptions C52_area.

(** For example: a page of 100 characters with 5 errors and one of 300 with 100. *)
Example C52_area_ex : let pages := [(100, 5); (300, 100)] in
  (forall count missed, In (count, missed) pages -> 0 <= missed <= count) /\ area pages = 95 * 100 + 66 * 300 /\
  100 * zsum (map (fun p => fst p - snd p) pages) = 29500.
Proof.
  cbv zeta. split; [|split; reflexivity]. intros c m [H|[H|[]]]; injection H as <- <-; lia.
Qed.
