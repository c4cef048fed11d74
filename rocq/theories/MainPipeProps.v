(** C65: page after page, and the reports summed up. *)
From Coq Require Import String Permutation.
From Verif Require Import Base CLib CLibProof Utf8Model TextModel TextSpec TextIO TextProps ReadProof SyncModel SyncSpec FastukkProps
  CompareModel AccModel AccSpec AccProof AccProps SumProof ReportSpec AccrptModel AccrptSpec AccrptFig AccrptChar AccrptProof AccrptTop AccrptAcc AccrptProps
  LcsSpec LcsTop WordTable WordModel WordSpec StopModel WacModel WacSpec WacProof WacProps WacrptModel WacrptSpec WacrptProof WacrptTop WacrptProps
  UtilModel ArgsProps MainModel MainSpec MainProof MainProps MainWacProps MainProgProps.
Local Open Scope Z_scope.
Local Open Scope list_scope.
#[local] Opaque all_values.

(** ** A program on all pages *)
Section Runs.
Variable program : system -> list (list Z) -> outcome ended.
Variable name : list Z.
Variable good : page -> list Z -> Prop.

Lemma runs_pages pages : forall sys, pages_ready sys pages ->
  (forall sys p, In p pages -> pages_ready sys [p] -> exists r report, program sys (name :: page_args p) = Ok (Done r) /\
     delivered sys (Some (report_name p)) [] report r /\ good p report) ->
  exists sys' reports, runs program name sys pages sys' /\ Forall2 good pages reports /\
    Forall2 (has_file sys') (map report_name pages) reports /\
    forall n, ~ In n (map report_name pages) -> contents sys' n = contents sys n.
Proof.
  induction pages as [|p pages IH]; intros sys (Hf & Nd & Hn) Step.
  - exists sys, []. split; [constructor|]. split; [constructor|]. split; [constructor|]. reflexivity.
  - assert (R1 : pages_ready sys [p]).
    { split; [|split].
      - intros q [<-|[]]. apply Hf. left. reflexivity.
      - constructor; [intros []|constructor].
      - intros q q' [<-|[]] [<-|[]]. apply Hn; left; reflexivity. }
    destruct (Step sys p (or_introl eq_refl) R1) as (r & report & E & (_ & Dr & Dn) & G).
    set (sys1 := mksys (files_after r) (writable sys)).
    inversion Nd as [|? ? Np Nd']; subst.
    assert (R2 : pages_ready sys1 pages).
    { split; [|split; [exact Nd'|]].
      - intros q Hq. destruct (Hf q (or_intror Hq)) as (H0 & H1 & H2). destruct (Hn p q (or_introl eq_refl) (or_intror Hq)) as [N0 N1].
        unfold has_file, sys1 in *. cbn [contents writable]. rewrite !Dn; auto.
      - intros q q' Hq Hq'. apply Hn; right; assumption. }
    destruct (IH sys1 R2) as (sys' & reports & Rn & Gs & Fs & Un). { intros s q Hq. apply Step. right. exact Hq. }
    exists sys', (report :: reports). split; [econstructor; [exact E|exact Rn]|]. split; [now constructor|]. split.
    + cbn [map]. constructor; [|exact Fs]. unfold has_file. rewrite (Un _ Np). exact Dr.
    + intros n Nn. cbn [map In] in Nn. rewrite Un by tauto. unfold sys1. cbn [contents]. apply Dn. intros ->. apply Nn. left. reflexivity.
Qed.
End Runs.

Lemma plain_args_plain ns : plain_args (map Plain ns) = ns.
Proof. induction ns as [|n ns IH]; [reflexivity|]. cbn [map plain_args flat_map app] in *. f_equal. exact IH. Qed.
Lemma Forall2_in_l {A B} (P : A -> B -> Prop) l l' : Forall2 P l l' -> forall x, In x l -> exists y, P x y.
Proof. induction 1 as [|x y l l' H F IH]; intros z Iz; [destruct Iz|]. destruct Iz as [<-|I]; [eauto|auto]. Qed.

(** ** accuracy and accsum *)

(** The two files of a page in UTF-8 stand for these texts. *)
Definition page_texts (uc : unicode_data) (p : page) (t0 t1 : list char) : Prop :=
  Forall is_byte (correct_file p) /\ Forall is_byte (generated_file p) /\
  file_text uc false (correct_file p) false t0 /\ exists h, file_text uc false (generated_file p) h t1.
(** The program accuracy can handle the texts. *)
Definition accuracy_sized (t0 t1 : list char) : Prop :=
  ~ In 1114111 (map value t0) /\ zlen t0 <= MAX_F /\ zlen t0 + zlen t1 < 100000000.

(** C65: run accuracy on page after page, then accsum on the reports: the characters are those of
    all correct texts together, and the errors are the sum of the edit distances of the pages if no
    correct text has a '~'. *)
Theorem C65_accuracy_accsum : forall sys uc line buf b order fmt pages texts name argv,
  nul_hidden uc -> marks_wide uc -> pct_ok fmt -> permutes order -> junk_ok line buf -> line_buffer b ->
  pages_ready sys pages -> 2 <= zlen pages ->
  (forall p, In p pages -> command_line [] (map Plain (page_args p)) (name :: page_args p)) ->
  command_line [] (map Plain (map report_name pages)) argv ->
  Forall2 (fun p t => page_texts uc p (fst t) (snd t) /\ accuracy_sized (fst t) (snd t)) pages texts ->
  zsum (map (fun t => zlen (fst t) + zlen (snd t)) texts) < 100000000 ->
  exists sys' r e,
    runs (fun sys => accuracy_main sys uc line buf order fmt) name sys pages sys' /\
    accsum_main sys' uc b order fmt argv = Ok (Done r) /\
    shows (standard_output r) 2 (bytes "Characters") (zsum (map (fun t => zlen (filter (fun c => negb (value c =? 126)) (fst t))) texts)) /\
    shows (standard_output r) 3 (bytes "Errors") e /\
    (forall dists, Forall2 (fun t dist => distance (map value (fst t)) (map value (snd t)) dist /\ ~ In 126 (map value (fst t))) texts dists ->
       e = zsum dists) /\
    (forall n, ~ In n (map report_name pages) -> files_after r n = contents sys n).
Proof.
  intros sys uc line buf b order fmt pages texts name argv N W P O J B Rd L2 Cp Ca Tx Bd.
  set (good := fun p report => forall t0 t1, page_texts uc p t0 t1 -> accuracy_sized t0 t1 ->
    exists d, accuracy_data uc t0 t1 = Ok d /\ report_of uc fmt d report /\ characters d = zlen (filter (fun c => negb (value c =? 126)) t0) /\
      0 <= errors d <= zlen t0 + zlen t1 /\
      forall dist, distance (map value t0) (map value t1) dist -> ~ In 126 (map value t0) -> errors d = dist).
  destruct (runs_pages (fun sys => accuracy_main sys uc line buf order fmt) name good pages sys Rd) as (sys' & reports & Rn & G & Fr & Un).
  { intros s p Ip (Hf & _ & _). destruct (Hf p (or_introl eq_refl)) as (F0 & F1 & Wr). clear Hf.
    assert (Run : forall t0 t1, page_texts uc p t0 t1 -> accuracy_sized t0 t1 ->
      exists r report d, accuracy_main s uc line buf order fmt (name :: page_args p) = Ok (Done r) /\
        delivered s (Some (report_name p)) [] report r /\ accuracy_data uc t0 t1 = Ok d /\ report_of uc fmt d report).
    { intros t0 t1 (B0 & B1 & T0 & h & T1) (Tab & Lm & Ls).
      destruct (C62_accuracy s uc line buf order fmt (map Plain (page_args p)) (name :: page_args p) (correct_name p) (generated_name p)
                  (Some (report_name p)) (correct_file p) (generated_file p) t0 t1 h) as (r & report & d & E & D & Ed & Ro & _); auto.
      exists r, report, d. auto. }
    destruct (Forall2_in_l _ _ _ Tx p Ip) as ([t0 t1] & Pt & Sz).
    destruct (Run t0 t1 Pt Sz) as (r & report & _ & E & D & _). exists r, report. split; [exact E|]. split; [exact D|].
    intros u0 u1 Pu Su. destruct (Run u0 u1 Pu Su) as (r' & report' & d & E' & D' & Ed & Ro).
    replace r' with r in D' by congruence. destruct D as (_ & D & _). destruct D' as (_ & D' & _).
    replace report' with report in Ro by congruence. exists d. split; [exact Ed|]. split; [exact Ro|].
    destruct Pu as (B0 & B1 & T0 & h & T1). destruct Su as (Tab & Lm & Ls).
    pose proof (read_file_text uc line buf false _ false u0 J B0 T0) as R0.
    pose proof (read_file_text uc line buf false _ h u1 J B1 T1) as R1.
    assert (I : inputs_ok uc u0 u1).
    { split; [exact N|]. split; [eapply (read_text_scalar uc line buf (mkopt true true 0 true false)); [exact J|exact B0|discriminate|exact R0]|].
      split; [eapply (read_text_scalar uc line buf (mkopt true true 0 true false)); [exact J|exact B1|discriminate|exact R1]|].
      split; [|exact Lm]. unfold tabulable. rewrite Forall_forall. intros c Hc Ev. apply Tab. rewrite <- Ev. now apply in_map. }
    destruct (C25_figures uc u0 u1 I) as (d' & Ed' & Ec & Ee & Edist). replace d' with d in * by congruence.
    split; [exact Ec|]. split; [split; [exact Ee|]|intros dist Dd; apply (Edist dist Dd)].
    destruct (accuracy_reportable uc u0 u1 d I Ed) as [_ Bl]. specialize (Bl FErrors). cbn [fig] in Bl. lia. }
  assert (Ds : exists ds, Forall2 (report_of uc fmt) ds reports /\
             Forall2 (fun t d => characters d = zlen (filter (fun c => negb (value c =? 126)) (fst t)) /\
               0 <= errors d <= zlen (fst t) + zlen (snd t) /\
               forall dist, distance (map value (fst t)) (map value (snd t)) dist -> ~ In 126 (map value (fst t)) -> errors d = dist) texts ds).
  { clear - Tx G. revert texts Tx. induction G as [|p report pages reports Gp G IH]; intros texts Tx; inversion Tx as [|? [t0 t1] ? texts' [Pt Sz] Tx']; subst.
    - exists []. split; constructor.
    - destruct (IH _ Tx') as (ds & H1 & H2). destruct (Gp _ _ Pt Sz) as (d & _ & Ro & Hd). exists (d :: ds). split; constructor; auto. }
  destruct Ds as (ds & Ro & Td).
  assert (Lr : zlen reports = zlen pages) by (rewrite <- (Forall2_zlen sys' _ _ Fr); unfold zlen; now rewrite map_length).
  destruct (C30_total uc fmt order b ds reports N W P O B Ro ltac:(lia)) as (d & f & Rp & T & Es & Ew & _).
  pose proof (C64_accsum sys' uc b order fmt _ argv reports Ca) as A. rewrite plain_args_plain in A. specialize (A Fr).
  rewrite Es in A. destruct A as (r & Er & So & Fa).
  assert (Sc : characters d = zsum (map (fun t => zlen (filter (fun c => negb (value c =? 126)) (fst t))) texts)).
  { change (characters d) with (fig FCharacters d). rewrite T. clear - Td. induction Td as [|t d texts ds (H & _) F IH]; [reflexivity|].
    unfold zsum in *. cbn [map fold_right]. change (fig FCharacters d) with (characters d). rewrite H. f_equal. exact IH. }
  assert (Se : errors d = zsum (map errors ds)). { change (errors d) with (fig FErrors d). rewrite T. reflexivity. }
  assert (Bs : 0 <= characters d < 100000000 /\ 0 <= errors d < 100000000).
  { rewrite Sc, Se. clear - Td Bd. 
    assert (H : 0 <= zsum (map (fun t => zlen (filter (fun c => negb (value c =? 126)) (fst t))) texts) <= zsum (map (fun t : list char * list char => zlen (fst t) + zlen (snd t)) texts) /\
                0 <= zsum (map errors ds) <= zsum (map (fun t : list char * list char => zlen (fst t) + zlen (snd t)) texts)).
    { clear Bd. induction Td as [|t d texts ds (Hc & He & _) F IH]; [cbn; lia|]. unfold zsum in *. cbn [map fold_right].
      pose proof (zlen_nonneg (filter (fun c => negb (value c =? 126)) (fst t))). pose proof (zlen_nonneg (snd t)).
      assert (zlen (filter (fun c => negb (value c =? 126)) (fst t)) <= zlen (fst t)).
      { clear. induction (fst t) as [|c l IH]; [reflexivity|]. cbn [filter]. destruct (negb _); rewrite ?zlen_cons; lia. }
      lia. }
    lia. }
  destruct (write_accrpt_text uc fmt N order d Rp O) as (a & _ & Ew' & _).
  assert (Ef : f = report_text uc fmt d a) by congruence.
  pose proof (rp_nonneg d Rp) as Nn.
  destruct (report_head uc fmt d a P (proj1 Bs) (proj2 Bs) (Nn FRejects) (Nn FSuspects) (Nn FFalseMarks)) as (S2 & S3 & _).
  rewrite <- Ef in S2, S3.
  exists sys', r, (errors d). split; [exact Rn|]. split; [exact Er|]. cbn [app] in So. rewrite So. split; [rewrite <- Sc; exact S2|].
  split; [exact S3|]. split.
  - intros dists Dd. rewrite Se. clear - Td Dd. revert dists Dd. induction Td as [|t d texts ds (_ & _ & H) F IH]; intros dists Dd; inversion Dd as [|? x ? xs [D1 D2] Dr]; subst; [reflexivity|].
    unfold zsum in *. cbn [map fold_right]. rewrite (IH _ Dr), (H x D1 D2). reflexivity.
  - intros n Hn. rewrite Fa. apply Un. exact Hn.
Qed.
Print Assumptions C65_accuracy_accsum.

(** ** wordacc and wordaccsum *)

Definition page_words (uc : unicode_data) (NFC : list Z -> list Z) (p : page) (w0 w1 : list (list Z)) : Prop :=
  Forall is_byte (correct_file p) /\ Forall is_byte (generated_file p) /\
  file_words uc NFC (correct_file p) false w0 /\ exists h, file_words uc NFC (generated_file p) h w1.
Definition wordacc_sized (w0 w1 : list (list Z)) : Prop :=
  zlen (shared w0 w1) <= 65535 /\ zlen w0 < 99999999 /\
  forall w, In w w0 -> 1 <= zlen w <= 50 /\ ~ In 10 w /\ Forall (fun c => 0 < c < 256) w.
(** The greatest length of a common subsequence *)
Definition in_common (w0 w1 : list (list Z)) (n : Z) : Prop :=
  (exists c, subseq c w0 /\ subseq c w1 /\ zlen c = n) /\ forall c, subseq c w0 -> subseq c w1 -> zlen c <= n.

(** C65: run wordacc on page after page, then wordaccsum on the reports: the words are those of all
    correct texts together, and the misrecognized words the sum of those of the pages. *)
Theorem C65_wordacc_wordaccsum : forall sys uc NFC line buf b order fmt pages words lcs name argv,
  pct_ok fmt -> permutes_terms order -> junk_ok line buf -> line_buffer b -> (forall c, scalar c -> scalar (tolower uc c)) ->
  pages_ready sys pages -> 2 <= zlen pages ->
  (forall p, In p pages -> command_line [string_option 83] (map Plain (page_args p)) (name :: page_args p)) ->
  command_line [] (map Plain (map report_name pages)) argv ->
  Forall2 (fun p w => page_words uc NFC p (fst w) (snd w) /\ wordacc_sized (fst w) (snd w)) pages words ->
  Forall2 (fun w n => in_common (fst w) (snd w) n) words lcs ->
  zsum (map (fun w => zlen (fst w)) words) < 100000000 ->
  exists sys' r,
    runs (fun sys => wordacc_main sys uc NFC line buf order fmt) name sys pages sys' /\
    wordaccsum_main sys' b order fmt argv = Ok (Done r) /\
    shows (standard_output r) 2 (bytes "Words") (zsum (map (fun w => zlen (fst w)) words)) /\
    shows (standard_output r) 3 (bytes "Misrecognized") (zsum (map (fun w => zlen (fst w)) words) - zsum lcs) /\
    (forall n, ~ In n (map report_name pages) -> files_after r n = contents sys n).
Proof.
  intros sys uc NFC line buf b order fmt pages words lcs name argv P O J B Low Rd L2 Cp Ca Tx Lc Bd.
  set (good := fun p report => forall w0 w1, page_words uc NFC p w0 w1 -> wordacc_sized w0 w1 ->
    exists d, wreport_of fmt d report /\ wcount (wtotal d) = zlen w0 /\
      forall n, in_common w0 w1 n -> wmissed (wtotal d) = zlen w0 - n).
  destruct (runs_pages (fun sys => wordacc_main sys uc NFC line buf order fmt) name good pages sys Rd) as (sys' & reports & Rn & G & Fr & Un).
  { intros s p Ip (Hf & _ & _). destruct (Hf p (or_introl eq_refl)) as (F0 & F1 & Wr). clear Hf.
    assert (Run : forall w0 w1, page_words uc NFC p w0 w1 -> wordacc_sized w0 w1 ->
      exists r report, wordacc_main s uc NFC line buf order fmt (name :: page_args p) = Ok (Done r) /\
        delivered s (Some (report_name p)) [] report r /\
        exists d, wreport_of fmt d report /\ wcount (wtotal d) = zlen w0 /\
           forall n, in_common w0 w1 n -> wmissed (wtotal d) = zlen w0 - n).
    { intros w0 w1 (B0 & B1 & T0 & h & T1) (Sh & Lw & Hw).
      destruct (C63_wordacc s uc NFC line buf order fmt (map Plain (page_args p)) (name :: page_args p) (correct_name p) (generated_name p)
                  (Some (report_name p)) (correct_file p) (generated_file p) h w0 w1 None default_stopword)
        as (r & report & marks & d & stop & E & D & Ro & _ & (Lm & Sm & Mx) & Fg & _); auto.
      { intros v. split; [discriminate|]. intros [I|I]; apply in_map_iff in I as (x & X & _); discriminate X. }
      { reflexivity. }
      exists r, report. split; [exact E|]. split; [exact D|]. exists d. split; [exact Ro|].
      split; [apply (fg_words _ _ _ _ Fg)|]. intros n ((c & C0 & C1 & Lc') & Mn).
      rewrite (fg_missed _ _ _ _ Fg). pose proof (Mx c C0 C1). pose proof (Mn _ (LcsTop.subseq_select marks w0) Sm). lia. }
    destruct (Forall2_in_l _ _ _ Tx p Ip) as ([t0 t1] & Pt & Sz).
    destruct (Run t0 t1 Pt Sz) as (r & report & E & D & _). exists r, report. split; [exact E|]. split; [exact D|].
    intros u0 u1 Pu Su. destruct (Run u0 u1 Pu Su) as (r' & report' & E' & D' & d & Ro & H).
    replace r' with r in D' by congruence. destruct D as (_ & D & _). destruct D' as (_ & D' & _).
    replace report' with report in Ro by congruence. exists d. auto. }
  assert (Ds : exists ds, Forall2 (wreport_of fmt) ds reports /\
             Forall2 (fun w d => wcount (wtotal d) = zlen (fst w) /\
               forall n, in_common (fst w) (snd w) n -> wmissed (wtotal d) = zlen (fst w) - n) words ds).
  { clear - Tx G. revert words Tx. induction G as [|p report pages reports Gp G IH]; intros texts Tx; inversion Tx as [|? [t0 t1] ? texts' [Pt Sz] Tx']; subst.
    - exists []. split; constructor.
    - destruct (IH _ Tx') as (ds & H1 & H2). destruct (Gp _ _ Pt Sz) as (d & Ro & Hd). exists (d :: ds). split; constructor; auto. }
  destruct Ds as (ds & Ro & Td).
  assert (Lr : zlen reports = zlen pages) by (rewrite <- (Forall2_zlen sys' _ _ Fr); unfold zlen; now rewrite map_length).
  destruct (C41_total fmt order b ds reports P O B Ro ltac:(lia)) as (d & f & Rp & T & Es & Ew & _).
  pose proof (C64_wordaccsum sys' b order fmt _ argv reports Ca) as A. rewrite plain_args_plain in A. specialize (A Fr).
  rewrite Es in A. destruct A as (r & Er & So & Fa).
  assert (Sc : wcount (wtotal d) = zsum (map (fun w => zlen (fst w)) words)).
  { change (wcount (wtotal d)) with (wfig (WWords false) d). rewrite T. clear - Td. induction Td as [|t d words ds (H & _) F IH]; [reflexivity|].
    unfold zsum in *. cbn [map fold_right]. change (wfig (WWords false) d) with (wcount (wtotal d)). rewrite H. f_equal. exact IH. }
  assert (Se : wmissed (wtotal d) = zsum (map (fun w => zlen (fst w)) words) - zsum lcs).
  { change (wmissed (wtotal d)) with (wfig (WWords true) d). rewrite T. clear - Td Lc. revert lcs Lc.
    induction Td as [|t d words ds (_ & H) F IH]; intros lcs Lc; inversion Lc as [|? n ? ns Hn Lc']; subst; [reflexivity|].
    specialize (IH _ Lc'). unfold zsum in *. cbn [map fold_right]. change (wfig (WWords true) d) with (wmissed (wtotal d)). rewrite (H n Hn). lia. }
  destruct (write_wacrpt_text fmt order d Rp O) as (sa & na & _ & _ & Ew' & _).
  assert (Ef : f = report_wtext fmt d sa na) by congruence.
  destruct (wac_head fmt d sa na P (wr_total d Rp)) as [S2 S3]; [lia|].
  rewrite <- Ef in S2, S3.
  exists sys', r. split; [exact Rn|]. split; [exact Er|]. cbn [app] in So. rewrite So. rewrite Sc in S2. rewrite Se in S3.
  split; [exact S2|]. split; [exact S3|]. intros n Hn. rewrite Fa. apply Un. exact Hn.
Qed.
Print Assumptions C65_wordacc_wordaccsum.

Lemma subseq_In {A} (c l : list A) x : subseq c l -> In x c -> In x l.
Proof. induction 1 as [|y c l S IH|y c l S IH]; cbn; intuition. Qed.

(** A case: two pages. *)
Definition pipe_system : system :=
  mksys (fun n => if list_eq_dec Z.eq_dec n (bytes "c1") then Some (bytes "cat")
                  else if list_eq_dec Z.eq_dec n (bytes "g1") then Some (bytes "cut")
                  else if list_eq_dec Z.eq_dec n (bytes "c2") then Some (bytes "a hat")
                  else if list_eq_dec Z.eq_dec n (bytes "g2") then Some (bytes "a t")
                  else None)
        (fun n => if list_eq_dec Z.eq_dec n (bytes "r1") then true else if list_eq_dec Z.eq_dec n (bytes "r2") then true else false).
Definition pipe_pages : list page :=
  [mkpage (bytes "c1") (bytes "g1") (bytes "r1") (bytes "cat") (bytes "cut");
   mkpage (bytes "c2") (bytes "g2") (bytes "r2") (bytes "a hat") (bytes "a t")].
Definition pipe_text (s : string) : list char := map (mkchar false) (bytes s).
Definition pipe_texts : list (list char * list char) :=
  [(pipe_text "cat", pipe_text "cut"); (pipe_text "a hat", pipe_text "a t")].
Definition pipe_words : list (list (list Z) * list (list Z)) :=
  [([bytes "cat"], [bytes "cut"]); ([bytes "a"; bytes "hat"], [bytes "a"; bytes "t"])].

Example C65_ex :
  pages_ready pipe_system pipe_pages /\
  (forall p, In p pipe_pages -> command_line [] (map Plain (page_args p)) (bytes "program" :: page_args p)) /\
  command_line [] (map Plain (map report_name pipe_pages)) (bytes "program" :: map report_name pipe_pages) /\
  Forall2 (fun p t => page_texts main_uc p (fst t) (snd t) /\ accuracy_sized (fst t) (snd t)) pipe_pages pipe_texts /\
  zsum (map (fun t => zlen (fst t) + zlen (snd t)) pipe_texts) = 14 /\
  Forall2 (fun p w => page_words main_uc (fun s => s) p (fst w) (snd w) /\ wordacc_sized (fst w) (snd w)) pipe_pages pipe_words /\
  Forall2 (fun w n => in_common (fst w) (snd w) n) pipe_words [0; 1].
Proof.
  assert (J : junk_ok sample_line sample_buf).
  { split; [reflexivity|]. split; [reflexivity|]. repeat constructor; unfold is_byte; lia. }
  assert (B : forall s, forallb (fun b => (0 <=? b) && (b <? 256)) s = true -> Forall is_byte s).
  { intros s H. rewrite Forall_forall. intros c Hc. rewrite forallb_forall in H. specialize (H c Hc). unfold is_byte. lia. }
  assert (TO : forall t, forallb (fun c => (0 <=? value c) && (value c <? 1000)) t = true -> text_ok t).
  { intros t H. unfold text_ok. rewrite Forall_forall. intros c Hc. rewrite forallb_forall in H. specialize (H c Hc). unfold scalar. lia. }
  split; [|split; [|split; [|split; [|split; [|split]]]]].
  - split; [|split].
    + intros p [<-|[<-|[]]]; split; try split; reflexivity.
    + constructor; [intros [X|[]]; discriminate X|]. constructor; [intros []|constructor].
    + intros p q [<-|[<-|[]]] [<-|[<-|[]]]; split; intros X; discriminate X.
  - intros p [<-|[<-|[]]]; apply plain_command; try (cbn; lia); repeat constructor.
  - apply plain_command; [cbn; lia|]. repeat constructor.
  - assert (T : forall c g t0 t1 n0 n1 n2, read_text main_uc sample_line sample_buf (mkopt true true 0 true false) [] c = Ok (t0, false) ->
       read_text main_uc sample_line sample_buf (mkopt true true 0 true false) [] g = Ok (t1, false) ->
       forallb (fun b => (0 <=? b) && (b <? 256)) c = true -> forallb (fun b => (0 <=? b) && (b <? 256)) g = true ->
       page_texts main_uc (mkpage n0 n1 n2 c g) t0 t1).
    { intros c g t0 t1 n0 n1 n2 R0 R1 H0 H1. split; [now apply B|]. split; [now apply B|]. cbn [correct_file generated_file].
      split; [apply (read_without_header main_uc sample_line sample_buf); auto|]. exists false.
      apply (read_without_header main_uc sample_line sample_buf); auto. }
    constructor; [|constructor; [|constructor]]; (split; [apply T; vm_compute; reflexivity|]);
      (split; [cbn; intuition discriminate|]); vm_compute; intuition discriminate.
  - reflexivity.
  - assert (T : forall c g t0 t1 n0 n1 n2 w0 w1, read_text main_uc sample_line sample_buf (mkopt true true 0 true true) [] c = Ok (t0, false) ->
       read_text main_uc sample_line sample_buf (mkopt true true 0 true true) [] g = Ok (t1, false) ->
       forallb (fun b => (0 <=? b) && (b <? 256)) c = true -> forallb (fun b => (0 <=? b) && (b <? 256)) g = true ->
       text_words main_uc (fun s => s) t0 w0 -> text_words main_uc (fun s => s) t1 w1 ->
       page_words main_uc (fun s => s) (mkpage n0 n1 n2 c g) w0 w1).
    { intros c g t0 t1 n0 n1 n2 w0 w1 R0 R1 H0 H1 W0 W1. split; [now apply B|]. split; [now apply B|]. cbn [correct_file generated_file].
      split; [exists t0; split; [apply (read_without_header main_uc sample_line sample_buf); auto|exact W0]|]. exists false.
      exists t1. split; [apply (read_without_header main_uc sample_line sample_buf); auto|exact W1]. }
    assert (F : forall s w, find_words main_uc (fun s => s) [] (map value (pipe_text s)) = Ok w ->
      forallb (fun c => (0 <=? value c) && (value c <? 1000)) (pipe_text s) = true ->
      forallb (fun c => match property c with Ok Extend | Ok Format => false | Ok _ => true | _ => false end) (map value (pipe_text s)) = true ->
      text_words main_uc (fun s => s) (pipe_text s) w).
    { intros s w E H X. apply found_words; auto. }
    constructor; [|constructor; [|constructor]].
    + split.
      * apply (T _ _ (pipe_text "cat") (pipe_text "cut")); [vm_compute; reflexivity|vm_compute; reflexivity|vm_compute; reflexivity|vm_compute; reflexivity|apply F; vm_compute; reflexivity|apply F; vm_compute; reflexivity].
      * split; [vm_compute; discriminate|]. split; [reflexivity|]. intros w [<-|[]].
        split; [vm_compute; split; discriminate|]. split; [cbn; intuition discriminate|]. repeat constructor.
    + split.
      * apply (T _ _ (pipe_text "a hat") (pipe_text "a t")); [vm_compute; reflexivity|vm_compute; reflexivity|vm_compute; reflexivity|vm_compute; reflexivity|apply F; vm_compute; reflexivity|apply F; vm_compute; reflexivity].
      * split; [vm_compute; discriminate|]. split; [reflexivity|]. intros w [<-|[<-|[]]];
        (split; [vm_compute; split; discriminate|]; split; [cbn; intuition discriminate|]; repeat constructor).
  - constructor; [|constructor; [|constructor]].
    + split.
      * exists []. split; [repeat constructor|]. split; [repeat constructor|reflexivity].
      * intros c S0 S1. destruct c as [|x c]; [cbn; lia|]. exfalso.
        assert (In x [bytes "cat"] /\ In x [bytes "cut"]) as [[<-|[]] [X|[]]].
        { split; eapply subseq_In; try eassumption; left; reflexivity. }
        discriminate X.
    + split.
      * exists [bytes "a"]. split; [repeat constructor|]. split; [repeat constructor|reflexivity].
      * intros c S0 S1.
        assert (Q : forall x, In x c -> x = bytes "a").
        { intros x I. pose proof (subseq_In _ _ _ S0 I) as [<-|[<-|[]]]; [reflexivity|].
          pose proof (subseq_In _ _ _ S1 I) as [X|[X|[]]]; discriminate X. }
        inversion S0 as [|x c' l X|x c' l X]; subst.
        -- inversion X as [|y c2 l2 Y|y c2 l2 Y]; subst.
           ++ specialize (Q (bytes "hat") (or_intror (or_introl eq_refl))). discriminate Q.
           ++ inversion Y. subst. reflexivity.
        -- inversion X as [|y c2 l2 Y|y c2 l2 Y]; subst.
           ++ specialize (Q (bytes "hat") (or_introl eq_refl)). discriminate Q.
           ++ inversion Y. subst. cbn. lia.
Qed.
