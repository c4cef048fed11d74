(** C74: from the pages to the statistics. *)
From Flocq Require Import Core IEEE754.BinarySingleNaN.
From Coq Require Import Reals Lra.
From Coq Require Import String.
From Verif Require Import Base CLib CLibProof SumProof Utf8Model TextModel TextSpec TextIO TextProps ReadProof SyncSpec AccModel AccSpec AccProps
  ReportSpec AccrptModel AccrptSpec AccrptTop LcsSpec WordModel WordSpec StopModel WacModel WacSpec WacProof WacrptModel WacrptSpec WacrptProof
  DoubleModel DistSpec DistModel DistProps CiModel CiSpec CiProps GroupModel GroupProps NonstopModel NonstopProps
  UtilModel ArgsProps MainModel MainSpec MainProof MainProps MainWacProps MainProgProps MainPipeProps PipeSpec PipeProof.
Local Open Scope Z_scope.
Local Open Scope list_scope.

(** What the pages are worth: their characters and edit distances, or their words and the words not
    recognized. *)
Definition char_figures (texts : list (list char * list char)) (dists : list Z) : list (Z * Z) :=
  combine (map (fun t => zlen (fst t)) texts) dists.
Definition distances (texts : list (list char * list char)) (dists : list Z) : Prop :=
  Forall2 (fun t dist => distance (map value (fst t)) (map value (snd t)) dist /\ ~ In 126 (map value (fst t))) texts dists.
Definition word_figures (words : list (list (list Z) * list (list Z))) (lcs : list Z) : list (Z * Z) :=
  map (fun wn => (zlen (fst (fst wn)), zlen (fst (fst wn)) - snd wn)) (combine words lcs).
Definition in_commons (words : list (list (list Z) * list (list Z))) (lcs : list Z) : Prop :=
  Forall2 (fun w n => in_common (fst w) (snd w) n) words lcs.

Lemma runs_writable program name sys pages sys' : runs program name sys pages sys' -> writable sys' = writable sys.
Proof. induction 1 as [|sys p r pages sys' E R IH]; [reflexivity|exact IH]. Qed.
Lemma deliver_same sys sys' dest : writable sys' = writable sys -> can_deliver sys dest -> can_deliver sys' dest.
Proof. intros E. destruct dest; cbn; [now rewrite E|auto]. Qed.

Lemma Forall2_lengths {A B} (R : A -> B -> Prop) l l' : Forall2 R l l' -> zlen l = zlen l'.
Proof. intros F. unfold zlen. f_equal. induction F; cbn [List.length]; congruence. Qed.

(** ** Distributions *)

(** C74: accuracy on page after page, then accdist on the reports: the distribution of the pages,
    each counted with the characters of its correct text and its edit distance. *)
Theorem C74_accdist : forall sys uc line buf b order fmt fmt6 pages texts dists name argv,
  nul_hidden uc -> marks_wide uc -> pct_ok fmt -> permutes order -> junk_ok line buf -> line_buffer b ->
  pages_ready sys pages ->
  (forall p, In p pages -> command_line [] (map Plain (page_args p)) (name :: page_args p)) ->
  command_line [] (map Plain (map report_name pages)) argv ->
  Forall2 (fun p t => page_texts uc p (fst t) (snd t) /\ accuracy_sized (fst t) (snd t)) pages texts ->
  distances texts dists ->
  exists sys' r,
    runs (fun sys => accuracy_main sys uc line buf order fmt) name sys pages sys' /\
    accdist_main sys' b fmt6 argv = Ok (Done r) /\
    standard_output r = dist_listing fmt6 (char_figures texts dists) /\
    (forall n, ~ In n (map report_name pages) -> files_after r n = contents sys n).
Proof.
  intros sys uc line buf b order fmt fmt6 pages texts dists name argv N W P O J B Rd Cp Ca Tx Ds.
  destruct (accuracy_pages sys uc line buf order fmt pages texts name N W P O J Rd Cp Tx) as (sys' & reports & ds & Rn & Fr & Ro & Td & Un).
  pose proof (C64_accdist sys' b fmt6 _ argv reports Ca) as A. rewrite plain_args_plain in A. specialize (A Fr).
  rewrite (C52_accdist uc fmt fmt6 b ds reports N W P B Ro) in A. cbn [prints] in A. destruct A as (r & Er & So & Fa).
  exists sys', r. split; [exact Rn|]. split; [exact Er|]. split.
  - cbn [app] in So. rewrite So. f_equal. exact (accuracy_figures uc texts ds dists Td Ds).
  - intros n Hn. rewrite Fa. now apply Un.
Qed.
Print Assumptions C74_accdist.

(** C74: wordacc, then wordaccdist. *)
Theorem C74_wordaccdist : forall sys uc NFC line buf b order fmt fmt6 pages words lcs name argv,
  pct_ok fmt -> permutes_terms order -> junk_ok line buf -> line_buffer b -> (forall c, scalar c -> scalar (tolower uc c)) ->
  pages_ready sys pages ->
  (forall p, In p pages -> command_line [string_option 83] (map Plain (page_args p)) (name :: page_args p)) ->
  command_line [] (map Plain (map report_name pages)) argv ->
  Forall2 (fun p w => page_words uc NFC p (fst w) (snd w) /\ wordacc_sized (fst w) (snd w)) pages words ->
  in_commons words lcs ->
  exists sys' r,
    runs (fun sys => wordacc_main sys uc NFC line buf order fmt) name sys pages sys' /\
    wordaccdist_main sys' b fmt6 argv = Ok (Done r) /\
    standard_output r = dist_listing fmt6 (word_figures words lcs) /\
    (forall n, ~ In n (map report_name pages) -> files_after r n = contents sys n).
Proof.
  intros sys uc NFC line buf b order fmt fmt6 pages words lcs name argv P O J B Low Rd Cp Ca Tx Ds.
  destruct (wordacc_pages sys uc NFC line buf order fmt pages words name P O J Low Rd Cp Tx) as (sys' & reports & ds & Rn & Fr & Ro & Td & Un).
  pose proof (C64_wordaccdist sys' b fmt6 _ argv reports Ca) as A. rewrite plain_args_plain in A. specialize (A Fr).
  rewrite (C52_wordaccdist fmt fmt6 b ds reports P B Ro) in A. cbn [prints] in A. destruct A as (r & Er & So & Fa).
  exists sys', r. split; [exact Rn|]. split; [exact Er|]. split.
  - cbn [app] in So. rewrite So. f_equal. exact (words_figures words ds lcs Td Ds).
  - intros n Hn. rewrite Fa. now apply Un.
Qed.
Print Assumptions C74_wordaccdist.

(** ** Confidence intervals *)

(** C74: accuracy on page after page, then accci on the reports: the totals, and ends of the interval
    within 1/1000 of those of the jackknife estimate (C53) from the characters and edit distances of
    the pages. *)
Theorem C74_accci : forall sys uc line buf b order fmt fmt14 fmtd pages texts dists name argv,
  nul_hidden uc -> marks_wide uc -> pct_ok fmt -> permutes order -> junk_ok line buf -> line_buffer b ->
  pages_ready sys pages ->
  (forall p, In p pages -> command_line [] (map Plain (page_args p)) (name :: page_args p)) ->
  command_line [] (map Plain (map report_name pages)) argv ->
  Forall2 (fun p t => page_texts uc p (fst t) (snd t) /\ accuracy_sized (fst t) (snd t)) pages texts ->
  distances texts dists ->
  Forall2 (fun t dist => 0 <= dist <= 2 * zlen (fst t)) texts dists ->
  zsum (map (fun t => zlen (fst t)) texts) <= 2 ^ 53 -> zlen pages <= 10000 ->
  2 <= zlen (filter (fun t => 0 <? zlen (fst t)) texts) ->
  exists sys' r lower upper,
    runs (fun sys => accuracy_main sys uc line buf order fmt) name sys pages sys' /\
    accci_main sys' b fmt14 fmtd argv = Ok (Done r) /\
    standard_output r = ci_report fmt14 fmtd (bytes "Characters") (bytes "Errors") (char_figures texts dists) lower upper /\
    (Rabs (B2R lower - exact_lower (char_figures texts dists)) <= 1 / 1000)%R /\
    (Rabs (B2R upper - exact_upper (char_figures texts dists)) <= 1 / 1000)%R /\
    (forall n, ~ In n (map report_name pages) -> files_after r n = contents sys n).
Proof.
  intros sys uc line buf b order fmt fmt14 fmtd pages texts dists name argv N W P O J B Rd Cp Ca Tx Ds Bd Sm Np Ne.
  destruct (accuracy_pages sys uc line buf order fmt pages texts name N W P O J Rd Cp Tx) as (sys' & reports & ds & Rn & Fr & Ro & Td & Un).
  pose proof (C64_accci sys' b fmt14 fmtd _ argv reports Ca) as A. rewrite plain_args_plain in A. specialize (A Fr).
  set (l := char_figures texts dists).
  assert (Lf : zlen texts = zlen dists) by exact (Forall2_lengths _ _ _ Bd).
  assert (Lp : zlen pages = zlen texts) by exact (Forall2_lengths _ _ _ Tx).
  assert (F1 : map fst l = map (fun t => zlen (fst t)) texts).
  { unfold l, char_figures. apply map_fst_combine. rewrite <- Lf. unfold zlen. now rewrite map_length. }
  assert (Ll : zlen l = zlen pages).
  { unfold l, char_figures. rewrite zlen_combine; [|unfold zlen in *; rewrite map_length; lia]. unfold zlen in *. rewrite map_length. lia. }
  assert (El : map (fun d => (characters d, errors d)) ds = l) by exact (accuracy_figures uc texts ds dists Td Ds).
  assert (Nl : nonempty_obs l = zlen (filter (fun t : list char * list char => 0 <? zlen (fst t)) texts)).
  { unfold nonempty_obs, count_if, l, char_figures. clear - Lf. revert dists Lf. induction texts as [|t texts IH]; intros [|x xs] L; try reflexivity.
    - rewrite zlen_cons in L. pose proof (zlen_nonneg texts). change (zlen (@nil Z)) with 0 in L. lia.
    - rewrite !zlen_cons in L. specialize (IH xs ltac:(lia)). cbn [map combine filter fst]. destruct (0 <? zlen (fst t)); rewrite ?zlen_cons, IH; reflexivity. }
  destruct (C53_accurate l) as (lower & upper & Ec & _ & Al & _ & Au).
  { unfold l, char_figures. clear - Bd. induction Bd as [|t x texts xs H F IH]; intros c m I; [destruct I|]. cbn [map combine In] in I.
    destruct I as [[= <- <-]|I]; [|now apply IH]. pose proof (zlen_nonneg (fst t)). lia. }
  { rewrite F1. exact Sm. }
  { lia. }
  { lia. }
  destruct (C53_accci uc fmt fmt14 fmtd b ds reports N W P B Ro) as [_ Ac].
  assert (Lr : zlen reports = zlen pages) by (rewrite <- (MainProgProps.Forall2_zlen sys' _ _ Fr); unfold zlen; now rewrite map_length).
  assert (L2 : 2 <= zlen pages).
  { rewrite <- Ll. assert (nonempty_obs l <= zlen l); [|lia]. clear. unfold nonempty_obs. induction l as [|o l IH]; [reflexivity|].
    rewrite count_if_cons, zlen_cons. destruct (0 <? fst o); lia. }
  rewrite Ac in A by lia. rewrite El, Ec in A. cbn [obind prints] in A. destruct A as (r & Er & So & Fa).
  exists sys', r, lower, upper. split; [exact Rn|]. split; [exact Er|]. split; [exact So|]. split; [exact Al|]. split; [exact Au|].
  intros n Hn. rewrite Fa. now apply Un.
Qed.
Print Assumptions C74_accci.

(** C74: wordacc, then wordaccci. *)
Theorem C74_wordaccci : forall sys uc NFC line buf b order fmt fmt14 fmtd pages words lcs name argv,
  pct_ok fmt -> permutes_terms order -> junk_ok line buf -> line_buffer b -> (forall c, scalar c -> scalar (tolower uc c)) ->
  pages_ready sys pages ->
  (forall p, In p pages -> command_line [string_option 83] (map Plain (page_args p)) (name :: page_args p)) ->
  command_line [] (map Plain (map report_name pages)) argv ->
  Forall2 (fun p w => page_words uc NFC p (fst w) (snd w) /\ wordacc_sized (fst w) (snd w)) pages words ->
  in_commons words lcs ->
  zsum (map (fun w => zlen (fst w)) words) <= 2 ^ 53 -> zlen pages <= 10000 ->
  2 <= zlen (filter (fun w => 0 <? zlen (fst w)) words) ->
  exists sys' r lower upper,
    runs (fun sys => wordacc_main sys uc NFC line buf order fmt) name sys pages sys' /\
    wordaccci_main sys' b fmt14 fmtd argv = Ok (Done r) /\
    standard_output r = ci_report fmt14 fmtd (bytes "Words") (bytes "Misrecognized") (word_figures words lcs) lower upper /\
    (Rabs (B2R lower - exact_lower (word_figures words lcs)) <= 1 / 1000)%R /\
    (Rabs (B2R upper - exact_upper (word_figures words lcs)) <= 1 / 1000)%R /\
    (forall n, ~ In n (map report_name pages) -> files_after r n = contents sys n).
Proof.
  intros sys uc NFC line buf b order fmt fmt14 fmtd pages words lcs name argv P O J B Low Rd Cp Ca Tx Ds Sm Np Ne.
  destruct (wordacc_pages sys uc NFC line buf order fmt pages words name P O J Low Rd Cp Tx) as (sys' & reports & ds & Rn & Fr & Ro & Td & Un).
  pose proof (C64_wordaccci sys' b fmt14 fmtd _ argv reports Ca) as A. rewrite plain_args_plain in A. specialize (A Fr).
  set (l := word_figures words lcs).
  assert (El : map (fun d => (wcount (wtotal d), wmissed (wtotal d))) ds = l) by exact (words_figures words ds lcs Td Ds).
  assert (Lf : zlen words = zlen lcs) by exact (Forall2_lengths _ _ _ Ds).
  assert (Lp : zlen pages = zlen words) by exact (Forall2_lengths _ _ _ Tx).
  assert (F1 : map fst l = map (fun t => zlen (fst t)) words).
  { unfold l, word_figures. rewrite map_map. cbn [fst]. rewrite <- (map_fst_combine words lcs Lf) at 2. now rewrite map_map. }
  assert (Ll : zlen l = zlen pages).
  { unfold l, word_figures, zlen. rewrite map_length. fold (zlen (combine words lcs)). rewrite (zlen_combine _ _ Lf). now symmetry. }
  assert (Nl : nonempty_obs l = zlen (filter (fun t : list (list Z) * list (list Z) => 0 <? zlen (fst t)) words)).
  { unfold nonempty_obs, count_if, l, word_figures. clear - Lf. revert lcs Lf. induction words as [|t words IH]; intros [|x xs] L; try reflexivity.
    - rewrite zlen_cons in L. pose proof (zlen_nonneg words). change (zlen (@nil Z)) with 0 in L. lia.
    - rewrite !zlen_cons in L. specialize (IH xs ltac:(lia)). cbn [map combine filter fst]. destruct (0 <? zlen (fst t)); rewrite ?zlen_cons, IH; reflexivity. }
  destruct (C53_accurate l) as (lower & upper & Ec & _ & Al & _ & Au).
  { unfold l, word_figures. clear - Ds. unfold in_commons in Ds. induction Ds as [|t x words xs H F IH]; intros c m I; [destruct I|]. cbn [map combine In fst snd] in I.
    destruct I as [[= <- <-]|I]; [|now apply IH]. pose proof (zlen_nonneg (fst t)). destruct H as ((cm & S0 & _ & Lc) & _).
    pose proof (zlen_nonneg cm). assert (zlen cm <= zlen (fst t)); [|lia].
    clear - S0. unfold zlen. induction S0; cbn [List.length]; lia. }
  { rewrite F1. exact Sm. }
  { lia. }
  { lia. }
  destruct (C53_wordaccci fmt fmt14 fmtd b ds reports P B Ro) as [_ Ac].
  assert (Lr : zlen reports = zlen pages) by (rewrite <- (MainProgProps.Forall2_zlen sys' _ _ Fr); unfold zlen; now rewrite map_length).
  assert (L2 : 2 <= zlen pages).
  { rewrite <- Ll. assert (nonempty_obs l <= zlen l); [|lia]. clear. unfold nonempty_obs. induction l as [|o l IH]; [reflexivity|].
    rewrite count_if_cons, zlen_cons. destruct (0 <? fst o); lia. }
  rewrite Ac in A by lia. rewrite El, Ec in A. cbn [obind prints] in A. destruct A as (r & Er & So & Fa).
  exists sys', r, lower, upper. split; [exact Rn|]. split; [exact Er|]. split; [exact So|]. split; [exact Al|]. split; [exact Au|].
  intros n Hn. rewrite Fa. now apply Un.
Qed.
Print Assumptions C74_wordaccci.

(** ** One page in detail *)

Lemma Forall2_pick {P T R D} (Q : P -> T -> Prop) (H : P -> R -> Prop) (O : D -> R -> Prop) (I : T -> D -> Prop) :
  forall pages texts reports ds, Forall2 Q pages texts -> Forall2 H pages reports -> Forall2 O ds reports -> Forall2 I texts ds ->
  forall p t, In (p, t) (combine pages texts) -> exists report d, H p report /\ O d report /\ I t d.
Proof.
  intros pages texts reports ds F. revert reports ds. induction F as [|p t pages texts Q1 F IH]; intros reports ds F1 F2 F3 p' t' In'; [destruct In'|].
  inversion F1 as [|? r ? rs H1 H2]; subst. inversion F2 as [|d ? ds' ? O1 O2]; subst. inversion F3 as [|? ? ? ? I1 I2]; subst.
  cbn [combine In] in In'. destruct In' as [[= <- <-]|In']; [exists r, d; auto|]. exact (IH rs ds' H2 O2 I2 p' t' In').
Qed.
Lemma Forall2_names (sys' : system) pages reports : Forall2 (has_file sys') (map report_name pages) reports ->
  Forall2 (fun p => has_file sys' (report_name p)) pages reports.
Proof. revert reports. induction pages as [|p pages IH]; intros reports F; inversion F; subst; constructor; auto. Qed.

(** C74: accuracy, then groupacc on the report of a page: for each character of the group the
    occurrences in the correct text of the page, and those outside the recognized parts of an
    alignment of the two texts. *)
Theorem C74_groupacc : forall sys uc line buf b order fmt fmt8 pages texts name,
  nul_hidden uc -> marks_wide uc -> pct_ok fmt -> permutes order -> junk_ok line buf -> line_buffer b ->
  pages_ready sys pages ->
  (forall p, In p pages -> command_line [] (map Plain (page_args p)) (name :: page_args p)) ->
  Forall2 (fun p t => page_texts uc p (fst t) (snd t) /\ accuracy_sized (fst t) (snd t)) pages texts ->
  exists sys',
    runs (fun sys => accuracy_main sys uc line buf order fmt) name sys pages sys' /\
    forall p t0 t1 items argv group groupfile vs dest,
      In (p, (t0, t1)) (combine pages texts) ->
      command_line [] items argv -> plain_args items = with_third [group; report_name p] dest -> can_deliver sys dest ->
      has_file sys group groupfile -> ~ In group (map report_name pages) -> Forall is_byte groupfile ->
      stands_for uc false groupfile vs -> ~ In 1114111 (map value vs) ->
      exists r gs, groupacc_main sys' uc line buf b fmt8 argv = Ok (Done r) /\ aligned t0 t1 gs /\
        delivered sys' dest []
          (group_table uc fmt8 (fun v => num (plain_value v) t0) (fun v => num (plain_value v) (lost gs)) (map value vs)) r.
Proof.
  intros sys uc line buf b order fmt fmt8 pages texts name N W P O J B Rd Cp Tx.
  destruct (accuracy_pages sys uc line buf order fmt pages texts name N W P O J Rd Cp Tx) as (sys' & reports & ds & Rn & Fr & Ro & Td & Un).
  exists sys'. split; [exact Rn|].
  intros p t0 t1 items argv group groupfile vs dest Ip CL PA D Fg Ng Bg Sf Nv.
  destruct (Forall2_pick _ _ _ _ _ _ _ _ Tx (Forall2_names _ _ _ Fr) Ro Td p (t0, t1) Ip) as (report & d & Hr & Od & Io & Ed). cbn [fst snd] in *.
  destruct (items_aligned uc t0 t1 d Io Ed) as (gs & Al & Fs).
  pose proof (read_stands_for uc line buf false groupfile vs J Sf) as R.
  assert (Ok' : Forall (fun c => 0 <= value c < 1114111) vs).
  { assert (T : text_ok vs) by (eapply (read_text_scalar uc line buf (mkopt false true 0 true false)); [exact J|exact Bg|discriminate|exact R]).
    unfold text_ok in T. rewrite Forall_forall in *. intros c Hc. pose proof (T c Hc) as S. unfold scalar in S.
    assert (value c <> 1114111) by (intros E; apply Nv; rewrite <- E; now apply in_map). lia. }
  destruct (C55_program uc line buf fmt fmt8 b groupfile vs false d report N W P B Od R Ok') as (G & _).
  assert (Fg' : has_file sys' group groupfile) by (unfold has_file; rewrite (Un _ Ng); exact Fg).
  pose proof (C64_groupacc sys' uc line buf b fmt8 items argv group (report_name p) dest groupfile report CL PA Fg' Hr
                (deliver_same _ _ _ (runs_writable _ _ _ _ _ Rn) D)) as A.
  rewrite G in A. cbn [obind ends_with] in A. destruct A as (r & Er & Dl).
  exists r, gs. split; [exact Er|]. split; [exact Al|].
  rewrite <- (listing_table uc fmt8 d _ _ (map value vs) Fs). exact Dl.
Qed.
Print Assumptions C74_groupacc.

(** C74: wordacc, then nonstopacc on the report of a page: the accuracy of the words of the page
    other than the first 0, 1, 2, ... words of the given file (all different). *)
Theorem C74_nonstopacc : forall sys uc NFC line buf b order fmt fmt6 pages words name,
  pct_ok fmt -> permutes_terms order -> junk_ok line buf -> line_buffer b -> (forall c, scalar c -> scalar (tolower uc c)) ->
  pages_ready sys pages ->
  (forall p, In p pages -> command_line [string_option 83] (map Plain (page_args p)) (name :: page_args p)) ->
  Forall2 (fun p w => page_words uc NFC p (fst w) (snd w) /\ wordacc_sized (fst w) (snd w)) pages words ->
  exists sys',
    runs (fun sys => wordacc_main sys uc NFC line buf order fmt) name sys pages sys' /\
    forall p w0 w1 argv stop stopfile ws,
      In (p, (w0, w1)) (combine pages words) ->
      command_line [] (map Plain [stop; report_name p]) argv ->
      has_file sys stop stopfile -> ~ In stop (map report_name pages) -> stop_file_words uc NFC stopfile ws -> NoDup ws ->
      exists r marks, nonstopacc_main sys' uc NFC line buf b fmt6 argv = Ok (Done r) /\ lcs_marks marks w0 w1 /\
        word_curve fmt6 ws w0 marks (standard_output r) /\ (forall n, files_after r n = contents sys' n).
Proof.
  intros sys uc NFC line buf b order fmt fmt6 pages words name P O J B Low Rd Cp Tx.
  destruct (wordacc_pages sys uc NFC line buf order fmt pages words name P O J Low Rd Cp Tx) as (sys' & reports & ds & Rn & Fr & Ro & Td & Un).
  exists sys'. split; [exact Rn|].
  intros p w0 w1 argv stop stopfile ws Ip CL Fg Ng Sf Nv.
  destruct (Forall2_pick _ _ _ _ _ _ _ _ Tx (Forall2_names _ _ _ Fr) Ro Td p (w0, w1) Ip) as (report & d & Hr & Od & marks & st & Lm & Fd). cbn [fst snd] in *.
  assert (Fg' : has_file sys' stop stopfile) by (unfold has_file; rewrite (Un _ Ng); exact Fg).
  pose proof (read_stop_file uc NFC line buf stopfile ws J Low Sf) as R. unfold words_in in R.
  destruct (read_text uc line buf (mkopt false false 0 true true) [] stopfile) as [[t h]| | |] eqn:Et; cbn [obind] in R; try discriminate R.
  destruct (C54_program uc NFC line buf fmt fmt6 b stopfile t h ws d report P B Od Et R) as ((out & Eo & Cv) & _).
  pose proof (C64_nonstopacc sys' uc NFC line buf b fmt6 (map Plain [stop; report_name p]) argv [stopfile; report] CL) as A.
  rewrite plain_args_plain in A. specialize (A ltac:(auto)). rewrite Eo in A. cbn [prints] in A. destruct A as (r & Er & So & Fa).
  exists r, marks. split; [exact Er|]. split; [exact Lm|]. split; [|exact Fa]. cbn [app] in So. rewrite So.
  apply (curve_words fmt6 st w0 marks d ws out); auto. apply Lm.
Qed.
Print Assumptions C74_nonstopacc.

(** A case: the two pages of C65. *)
Example C74_ex :
  distances pipe_texts [1; 2] /\ in_commons pipe_words [0; 1] /\
  char_figures pipe_texts [1; 2] = [(3, 1); (5, 2)] /\ word_figures pipe_words [0; 1] = [(1, 1); (2, 1)] /\
  Forall2 (fun t dist => 0 <= dist <= 2 * zlen (fst t)) pipe_texts [1; 2] /\
  zlen (filter (fun t => 0 <? zlen (fst t)) pipe_texts) = 2 /\
  zlen (filter (fun w => 0 <? zlen (fst w)) pipe_words) = 2 /\
  pages_ready pipe_system pipe_pages /\
  aligned (pipe_text "cat") (pipe_text "cut")
    [mksection true (pipe_text "c") (pipe_text "c"); mksection false (pipe_text "a") (pipe_text "u"); mksection true (pipe_text "t") (pipe_text "t")] /\
  lcs_marks [true; false] [bytes "a"; bytes "hat"] [bytes "a"; bytes "t"] /\
  stop_file_words main_uc (fun s => s) (bytes "Sat") [bytes "sat"].
Proof.
  destruct C65_ex as (X1 & _ & _ & _ & _ & _ & X2).
  assert (D : forall a b d, EditProof.lev (map value (pipe_text a)) (map value (pipe_text b)) = d -> distance (map value (pipe_text a)) (map value (pipe_text b)) d).
  { intros a b d <-. apply EditProof.lev_distance. }
  split; [|split; [exact X2|]].
  { constructor; [|constructor; [|constructor]]; (split; [apply D; vm_compute; reflexivity|cbn; intuition discriminate]). }
  split; [reflexivity|]. split; [reflexivity|]. split; [repeat constructor; cbn; lia|].
  split; [reflexivity|]. split; [reflexivity|]. split; [exact X1|]. split; [|split].
  - split; [reflexivity|]. split; [reflexivity|]. split; [repeat constructor; cbn; congruence|]. apply D. vm_compute. reflexivity.
  - split; [reflexivity|]. split; [repeat constructor|]. intros c S0 S1. inversion X2 as [|? ? ? ? _ X3]; subst. inversion X3 as [|? ? ? ? [_ M] _]; subst.
    exact (M c S0 S1).
  - destruct C63_ex as (_ & _ & _ & (f & Hf & Sf) & _). replace (bytes "Sat") with f; [exact Sf|]. unfold has_file in Hf.
    change (contents main_system (bytes "stop")) with (Some (bytes "Sat")) in Hf. congruence.
Qed.
