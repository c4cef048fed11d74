(** C64: the other programs, from their command lines and files. *)
From Coq Require Import String.
From Verif Require Import Base CLib Utf8Model TextModel TextSpec TextProps CompareModel SyncModel DoubleModel WordModel UtilModel ArgsProps
  AccModel AccrptModel StopModel WacModel WacrptModel EdoModel EditopModel EditopSpec EditopDebugModel TraceSpec TraceProps SyncSpec TransProps FreqModel NgramModel SynctextModel SynctextProof GroupModel
  NonstopModel DistModel CiModel VoteModel VoteSelModel MainModel MainSpec MainProof MainProps.
Local Open Scope Z_scope.
Local Open Scope list_scope.

Lemma prints_content sys content : prints sys content (let! r := print sys content in Ok (Done r)).
Proof.
  destruct content as [c| | |]; try reflexivity. cbn. eexists. split; [reflexivity|]. split; [reflexivity|]. reflexivity.
Qed.
Lemma prints_bind {A} sys (x : outcome A) (k : A -> outcome (list Z)) :
  prints sys (let! a := x in k a) (let! r := (let! a := x in print sys (k a)) in Ok (Done r)).
Proof. destruct x; try reflexivity. cbn [obind]. apply prints_content. Qed.
Lemma prints_bind2 {A B} sys (x : outcome (A * B)) (k : A -> B -> outcome (list Z)) :
  prints sys (let! (a, b) := x in k a b) (let! r := (let! (a, b) := x in print sys (k a b)) in Ok (Done r)).
Proof. destruct x as [[a b]| | |]; try reflexivity. cbn [obind]. apply prints_content. Qed.

Lemma Forall2_zlen sys names files : Forall2 (has_file sys) names files -> zlen names = zlen files.
Proof. induction 1; [reflexivity|]. rewrite !zlen_cons. lia. Qed.

(** The programs without options that read the reports or texts they are given. *)
Theorem C64_accsum : forall sys uc line order fmt items argv files,
  command_line [] items argv -> Forall2 (has_file sys) (plain_args items) files ->
  prints sys (accsum uc fmt order line files) (accsum_main sys uc line order fmt argv).
Proof.
  intros sys uc line order fmt items argv files CL F. unfold accsum_main. enter no_options CL vars V.
  unfold accsum. rewrite (Forall2_zlen sys _ _ F). destruct (zlen files <? 2); [reflexivity|].
  rewrite (reading_all sys _ _ _ F). apply prints_bind2.
Qed.
Print Assumptions C64_accsum.

Theorem C64_accdist : forall sys line fmt6 items argv files,
  command_line [] items argv -> Forall2 (has_file sys) (plain_args items) files ->
  prints sys (accdist fmt6 line files) (accdist_main sys line fmt6 argv).
Proof.
  intros sys line fmt6 items argv files CL F. unfold accdist_main. enter no_options CL vars V.
  unfold accdist. rewrite (reading_all sys _ _ _ F). apply (prints_bind2 sys _ (fun _ t => write_dist fmt6 t)).
Qed.
Print Assumptions C64_accdist.

Theorem C64_accci : forall sys line fmt14 fmtd items argv files,
  command_line [] items argv -> Forall2 (has_file sys) (plain_args items) files ->
  prints sys (accci fmt14 fmtd line files) (accci_main sys line fmt14 fmtd argv).
Proof.
  intros sys line fmt14 fmtd items argv files CL F. unfold accci_main. enter no_options CL vars V.
  unfold accci. rewrite (Forall2_zlen sys _ _ F). destruct (zlen files <? 2); [reflexivity|].
  rewrite (reading_all sys _ _ _ F). apply prints_bind2.
Qed.
Print Assumptions C64_accci.

Theorem C64_wordaccsum : forall sys line order fmt items argv files,
  command_line [] items argv -> Forall2 (has_file sys) (plain_args items) files ->
  prints sys (wordaccsum fmt order line files) (wordaccsum_main sys line order fmt argv).
Proof.
  intros sys line order fmt items argv files CL F. unfold wordaccsum_main. enter no_options CL vars V.
  unfold wordaccsum. rewrite (Forall2_zlen sys _ _ F). destruct (zlen files <? 2); [reflexivity|].
  rewrite (reading_all sys _ _ _ F). apply prints_bind2.
Qed.
Print Assumptions C64_wordaccsum.

Theorem C64_wordaccdist : forall sys line fmt6 items argv files,
  command_line [] items argv -> Forall2 (has_file sys) (plain_args items) files ->
  prints sys (wordaccdist fmt6 line files) (wordaccdist_main sys line fmt6 argv).
Proof.
  intros sys line fmt6 items argv files CL F. unfold wordaccdist_main. enter no_options CL vars V.
  unfold wordaccdist. rewrite (reading_all sys _ _ _ F). apply (prints_bind2 sys _ (fun _ t => write_dist fmt6 t)).
Qed.
Print Assumptions C64_wordaccdist.

Theorem C64_wordaccci : forall sys line fmt14 fmtd items argv files,
  command_line [] items argv -> Forall2 (has_file sys) (plain_args items) files ->
  prints sys (wordaccci fmt14 fmtd line files) (wordaccci_main sys line fmt14 fmtd argv).
Proof.
  intros sys line fmt14 fmtd items argv files CL F. unfold wordaccci_main. enter no_options CL vars V.
  unfold wordaccci. rewrite (Forall2_zlen sys _ _ F). destruct (zlen files <? 2); [reflexivity|].
  rewrite (reading_all sys _ _ _ F). apply prints_bind2.
Qed.
Print Assumptions C64_wordaccci.

Theorem C64_nonstopacc : forall sys uc NFC junk junk4 line fmt6 items argv files,
  command_line [] items argv -> Forall2 (has_file sys) (plain_args items) files ->
  prints sys (nonstopacc fmt6 uc NFC junk junk4 line files) (nonstopacc_main sys uc NFC junk junk4 line fmt6 argv).
Proof.
  intros sys uc NFC junk junk4 line fmt6 items argv files CL F. unfold nonstopacc_main. enter no_options CL vars V.
  unfold nonstopacc. rewrite (Forall2_zlen sys _ _ F). set (args := plain_args items) in *. clearbody args.
  destruct F as [|n0 f0 names files F0 F]; [reflexivity|]. destruct F as [|n1 f1 names files F1 F]; [reflexivity|].
  destruct F as [|n2 f2 names files F2 F].
  - change (negb (zlen [f0; f1] =? 2)) with false. cbv iota.
    change (rd "argv[0]" [n0; n1] 0) with (Ok n0). cbn [obind]. rewrite (open_file sys n0 f0 F0). cbn [obind].
    change (rd "argv[1]" [n0; n1] 1) with (Ok n1). cbn [obind]. rewrite (open_file sys n1 f1 F1). cbn [obind].
    unfold words_in. destruct (read_text _ _ _ _ _ _) as [[t h]| | |]; try reflexivity. cbn [obind].
    destruct (find_words _ _ _ _) as [ws| | |]; try reflexivity. cbn [obind].
    apply (prints_bind2 sys _ (fun d _ => Ok (NonstopModel.write_results fmt6 d ws))).
  - rewrite !zlen_cons. pose proof (zlen_nonneg files). replace (zlen files + 1 + 1 + 1 =? 2) with false by lia. reflexivity.
Qed.
Print Assumptions C64_nonstopacc.

Theorem C64_wordfreq : forall sys uc NFC junk junk4 order items argv files,
  command_line [] items argv -> Forall2 (has_file sys) (plain_args items) files ->
  prints sys (wordfreq order uc NFC junk junk4 files) (wordfreq_main sys uc NFC junk junk4 order argv).
Proof.
  intros sys uc NFC junk junk4 order items argv files CL F. unfold wordfreq_main. enter no_options CL vars V.
  unfold wordfreq. rewrite (Forall2_zlen sys _ _ F). destruct (zlen files =? 0); [reflexivity|].
  rewrite (reading_all sys _ _ _ F). apply prints_bind.
Qed.
Print Assumptions C64_wordfreq.

Theorem C64_editopsum : forall sys line items argv files,
  command_line [] items argv -> Forall2 (has_file sys) (plain_args items) files ->
  prints sys (editopsum line files) (editopsum_main sys line argv).
Proof.
  intros sys line items argv files CL F. unfold editopsum_main. enter no_options CL vars V.
  unfold editopsum. rewrite (Forall2_zlen sys _ _ F). destruct (zlen files <? 2); [reflexivity|].
  rewrite (reading_all sys _ _ _ F). apply (prints_bind2 sys _ (fun d _ => write_edorpt d)).
Qed.
Print Assumptions C64_editopsum.

Theorem C64_editopcost : forall sys line items argv files,
  command_line [] items argv -> Forall2 (has_file sys) (plain_args items) files ->
  prints sys (editopcost line files) (editopcost_main sys line argv).
Proof.
  intros sys line items argv files CL F. unfold editopcost_main. enter no_options CL vars V.
  unfold editopcost. rewrite (Forall2_zlen sys _ _ F). set (args := plain_args items) in *. clearbody args.
  destruct F as [|n0 f0 names files F0 F]; [reflexivity|].
  destruct F as [|n1 f1 names files F1 F]; [|destruct F as [|n2 f2 names files F2 F]].
  - change ((zlen [f0] <? 1) || (2 <? zlen [f0])) with false. cbv iota.
    change (rd "argv[0]" [n0] 0) with (Ok n0). cbn [obind]. rewrite (open_file sys n0 f0 F0). cbn [obind].
    change (zlen [f0] =? 2) with false. cbv iota. cbn [obind].
    apply (prints_bind2 sys _ (fun d _ => EdoModel.write_results d)).
  - change ((zlen [f0; f1] <? 1) || (2 <? zlen [f0; f1])) with false. cbv iota.
    change (rd "argv[0]" [n0; n1] 0) with (Ok n0). cbn [obind]. rewrite (open_file sys n0 f0 F0). cbn [obind].
    destruct (read_edorpt line edo_empty f0) as [[d l]| | |]; try reflexivity. cbn [obind].
    change (zlen [f0; f1] =? 2) with true. cbv iota.
    change (rd "argv[1]" [n0; n1] 1) with (Ok n1). cbn [obind]. rewrite (open_file sys n1 f1 F1). cbn [obind].
    destruct (read_edorpt l edo_empty f1) as [[d2 l2]| | |]; try reflexivity. cbn [obind].
    apply prints_bind.
  - rewrite !zlen_cons. pose proof (zlen_nonneg files).
    replace ((zlen files + 1 + 1 + 1 <? 1) || (2 <? zlen files + 1 + 1 + 1)) with true by lia. reflexivity.
Qed.
Print Assumptions C64_editopcost.

Theorem C64_groupacc : forall sys uc junk junk4 line fmt8 items argv n0 n1 dest f0 f1,
  command_line [] items argv -> plain_args items = with_third [n0; n1] dest ->
  has_file sys n0 f0 -> has_file sys n1 f1 -> can_deliver sys dest ->
  ends_with sys dest (let! c := groupacc uc junk junk4 fmt8 line [f0; f1] in Ok ([], c))
            (groupacc_main sys uc junk junk4 line fmt8 argv).
Proof.
  intros sys uc junk junk4 line fmt8 items argv n0 n1 dest f0 f1 CL PA F0 F1 D. unfold groupacc_main. enter no_options CL vars V.
  rewrite PA, zlen_with_third, third_with. cbv iota. unfold groupacc. change ((zlen [f0; f1] <? 2) || (3 <? zlen [f0; f1])) with false.
  cbv iota. cbn [nth].
  change (rd "argv[0]" (with_third [n0; n1] dest) 0) with (Ok n0). cbn [obind]. rewrite (open_file sys n0 f0 F0). cbn [obind].
  destruct (read_text _ _ _ _ _ _) as [[t h]| | |]; try reflexivity. cbn [obind].
  change (rd "argv[1]" (with_third [n0; n1] dest) 1) with (Ok n1). cbn [obind]. rewrite (open_file sys n1 f1 F1). cbn [obind].
  destruct (read_accrpt _ _ _) as [[d l]| | |]; try reflexivity. cbn [obind].
  destruct (GroupModel.write_report _ _ _ _) as [c| | |] eqn:E; cbn [obind].
  - destruct (write_delivered sys dest [] c D) as (r & Er & Dl). rewrite Er. cbn [obind ends_with]. eauto.
  - destruct dest as [n|]; cbn in D |- *; [rewrite D|]; reflexivity.
  - destruct dest as [n|]; cbn in D |- *; [rewrite D|]; reflexivity.
  - destruct dest as [n|]; cbn in D |- *; [rewrite D|]; reflexivity.
Qed.
Print Assumptions C64_groupacc.

(** Programs that end by writing to a file or to the standard output *)
Lemma ends_with_write sys dest printed content : can_deliver sys dest ->
  ends_with sys dest (let! c := content in Ok (printed, c)) (let! r := write_to sys dest printed content in Ok (Done r)).
Proof.
  intros D. destruct content as [c| | |]; cbn [obind].
  - destruct (write_delivered sys dest printed c D) as (r & Er & Dl). rewrite Er. cbn [obind ends_with]. eauto.
  - destruct dest as [n|]; cbn in D |- *; [rewrite D|]; reflexivity.
  - destruct dest as [n|]; cbn in D |- *; [rewrite D|]; reflexivity.
  - destruct dest as [n|]; cbn in D |- *; [rewrite D|]; reflexivity.
Qed.

Ltac good_options := apply good_flags;
  [repeat (constructor; [cbn; intuition discriminate|]); constructor
  |repeat (constructor; [split; [discriminate|first [left; reflexivity|right; reflexivity]]|]); constructor].
Lemma editop_options : good_table [MainModel.flag_option 68]. Proof. good_options. Qed.
Lemma wordacc_options : good_table [string_option 83]. Proof. good_options. Qed.
Lemma ngram_options : good_table [string_option 110]. Proof. good_options. Qed.
Lemma synctext_options : good_table [MainModel.flag_option 72; MainModel.flag_option 105; MainModel.flag_option 115; MainModel.flag_option 84].
Proof. good_options. Qed.
Lemma vote_options : good_table [MainModel.flag_option 68; MainModel.flag_option 79; string_option 111; string_option 115; string_option 119].
Proof. good_options. Qed.

(** editop, with -D or without: the report is the same.  With -D the trace of C66 is printed first. *)
Theorem C64_editop : forall sys uc junk junk4 items argv n0 n1 dest f0 f1 debug,
  command_line [MainModel.flag_option 68] items argv -> plain_args items = with_third [n0; n1] dest ->
  says_flag items 68 debug ->
  has_file sys n0 f0 -> has_file sys n1 f1 -> can_deliver sys dest ->
  (forall t h, read_text uc junk junk4 editop_opt [] f1 = Ok (t, h) -> zlen t < 10000000000000) ->
  exists printed,
    (debug = false -> printed = []) /\
    (debug = true -> forall t0 h0 t1 h1 l0 l1,
       read_text uc junk junk4 editop_opt [] f0 = Ok (t0, h0) -> h0 = false ->
       read_text uc junk junk4 editop_opt [] f1 = Ok (t1, h1) ->
       transpose_sync (map value t0) (map value t1) = Ok (l0, l1) ->
       exists ls es, trace (length_of l1) (numbers l1) ls es /\
         printed = line_text (bytes "original", map (fun n => (n, length_of l1 n)) (numbers l1)) ++ flat_map line_text es) /\
    ends_with sys dest (let! c := editop uc junk junk4 f0 f1 in Ok (printed, c)) (editop_main sys uc junk junk4 argv).
Proof.
  intros sys uc junk junk4 items argv n0 n1 dest f0 f1 debug CL PA SF F0 F1 D Big. unfold editop_main.
  enter editop_options CL vars V. destruct (flag_at _ _ _ 0 68 V eq_refl) as (b & Eb & SF'). rewrite Eb. cbn [obind].
  rewrite (says_flag_fun _ _ _ _ SF' SF). rewrite PA, zlen_with_third, third_with. cbv iota. unfold editop.
  change (rd "argv[0]" (with_third [n0; n1] dest) 0) with (Ok n0). cbn [obind]. rewrite (open_file sys n0 f0 F0). cbn [obind].
  change (rd "argv[1]" (with_third [n0; n1] dest) 1) with (Ok n1). cbn [obind]. rewrite (open_file sys n1 f1 F1). cbn [obind].
  destruct (read_text uc junk junk4 editop_opt [] f0) as [[t0 h]| | |]; cbn [obind];
    try (exists []; split; [reflexivity|]; split; [intros _ ? ? ? ? ? ? X; discriminate X|reflexivity]).
  destruct h; [exists []; split; [reflexivity|]; split; [intros _ ? ? ? ? ? ? X Y; congruence|reflexivity]|].
  destruct (read_text uc junk junk4 editop_opt [] f1) as [[t1 h']| | |]; cbn [obind];
    try (exists []; split; [reflexivity|]; split; [intros _ ? ? ? ? ? ? X Y Z; discriminate Z|reflexivity]).
  specialize (Big t1 h' eq_refl).
  assert (Big' : zlen (map value t1) < 10000000000000) by (unfold zlen in *; rewrite map_length; exact Big).
  destruct (C23_transpose (map value t0) (map value t1)) as (l0 & l1 & Et & _).
  destruct (C66_trace _ _ _ _ Et Big') as (d & ls & es & E1 & E2 & Tr & _). rewrite E1. cbn [obind].
  destruct debug.
  - rewrite E2. cbn [obind]. eexists. split; [discriminate|]. split; [|now apply ends_with_write].
    intros _ a h0 a' h1 m0 m1 Q1 _ Q2 Q3. injection Q1 as <- _. injection Q2 as <- _. rewrite Et in Q3. injection Q3 as <- <-.
    exists ls, es. split; [exact Tr|reflexivity].
  - rewrite (C66_silent _ _ _ E1). cbn [obind]. exists []. split; [reflexivity|]. split; [discriminate|]. now apply ends_with_write.
Qed.
Print Assumptions C64_editop.

(** ngram -n *)
Theorem C64_ngram : forall sys uc junk junk4 order items argv files nstring,
  command_line [string_option 110] items argv -> Forall2 (has_file sys) (plain_args items) files ->
  says_value items 110 nstring ->
  prints sys (ngram uc order junk junk4 nstring files) (ngram_main sys uc junk junk4 order argv).
Proof.
  intros sys uc junk junk4 order items argv files nstring CL F SV. unfold ngram_main. enter ngram_options CL vars V.
  destruct (value_at _ _ _ 0 110 V eq_refl) as (v & Ev & SV'). rewrite Ev. cbn [obind]. rewrite (says_value_fun _ _ _ _ SV' SV).
  unfold ngram. rewrite (Forall2_zlen sys _ _ F). destruct (zlen files =? 0); [reflexivity|].
  destruct (get_n nstring) as [n| | |]; try reflexivity. cbn [obind].
  rewrite (reading_all sys _ _ _ F). apply prints_bind.
Qed.
Print Assumptions C64_ngram.

Lemma ofold_combine {S} (step : S -> list Z -> outcome S) (names files : list (list Z)) : zlen names = zlen files ->
  forall st, ofold (fun acc (nf : list Z * list Z) => step acc (snd nf)) (combine names files) st = ofold step files st.
Proof.
  revert files. induction names as [|n names IH]; intros [|f files] L st; try reflexivity.
  - rewrite zlen_cons in L. pose proof (zlen_nonneg files). change (zlen (@nil (list Z))) with 0 in L. lia.
  - cbn [combine ofold snd]. destruct (step st f); cbn [obind]; try reflexivity. apply IH. rewrite !zlen_cons in L. lia.
Qed.
Lemma map_fst_combine {A B} (l : list A) (l' : list B) : zlen l = zlen l' -> map fst (combine l l') = l.
Proof.
  revert l'. induction l as [|x l IH]; intros [|y l'] L; try reflexivity.
  - rewrite zlen_cons in L. pose proof (zlen_nonneg l). unfold zlen in *. cbn in *. lia.
  - cbn [combine map fst]. rewrite IH; [reflexivity|]. rewrite !zlen_cons in L. lia.
Qed.
Lemma zlen_combine {A B} (l : list A) (l' : list B) : zlen l = zlen l' -> zlen (combine l l') = zlen l.
Proof. intros L. unfold zlen in *. rewrite combine_length. lia. Qed.

(** synctext with its four options; the names of the files are shown in the output. *)
Theorem C64_synctext : forall sys uc junk junk4 items argv files H i s T,
  command_line [MainModel.flag_option 72; MainModel.flag_option 105; MainModel.flag_option 115; MainModel.flag_option 84] items argv ->
  Forall2 (has_file sys) (plain_args items) files ->
  says_flag items 72 H -> says_flag items 105 i -> says_flag items 115 s -> says_flag items 84 T ->
  prints sys (synctext uc junk junk4 H i s T (combine (plain_args items) files)) (synctext_main sys uc junk junk4 argv).
Proof.
  intros sys uc junk junk4 items argv files H i s T CL F SH Si Ss ST. unfold synctext_main. enter synctext_options CL vars V.
  destruct (flag_at _ _ _ 0 72 V eq_refl) as (v & Ev & SV'). rewrite Ev. cbn [obind]. rewrite (says_flag_fun _ _ _ _ SV' SH). clear v Ev SV'.
  destruct (flag_at _ _ _ 1 105 V eq_refl) as (v & Ev & SV'). rewrite Ev. cbn [obind]. rewrite (says_flag_fun _ _ _ _ SV' Si). clear v Ev SV'.
  destruct (flag_at _ _ _ 2 115 V eq_refl) as (v & Ev & SV'). rewrite Ev. cbn [obind]. rewrite (says_flag_fun _ _ _ _ SV' Ss). clear v Ev SV'.
  destruct (flag_at _ _ _ 3 84 V eq_refl) as (v & Ev & SV'). rewrite Ev. cbn [obind]. rewrite (says_flag_fun _ _ _ _ SV' ST). clear v Ev SV'.
  pose proof (Forall2_zlen sys _ _ F) as L. unfold synctext. rewrite (zlen_combine _ _ L), (map_fst_combine _ _ L).
  destruct ((zlen (plain_args items) <? 2) || (T && (2 <? zlen (plain_args items)))); [reflexivity|].
  rewrite (reading_all sys _ _ _ F).
  rewrite (ofold_combine (fun acc f => let! (text, _) := read_text uc junk junk4 (synctext_opt i) [] f in Ok (acc ++ [text])) _ _ L).
  apply prints_bind.
Qed.
Print Assumptions C64_synctext.

Lemma reading_named {S} sys (step : S -> list Z -> list Z -> outcome S) names files : Forall2 (has_file sys) names files ->
  forall st, ofold (fun acc name => let! f := open_read sys name in step acc name f) names st =
             ofold (fun acc nf => step acc (fst nf) (snd nf)) (combine names files) st.
Proof.
  induction 1 as [|n f names files H F IH]; intros st; [reflexivity|]. cbn [ofold combine fst snd].
  rewrite (open_file sys n f H). cbn [obind]. destruct (step st n f); cbn [obind]; auto.
Qed.

(** vote with its five options: the text goes to the file given with -o, or to the standard output
    after what -D prints. *)
Theorem C64_vote : forall sys uc junk junk4 order signed items argv files D O o s w,
  command_line [MainModel.flag_option 68; MainModel.flag_option 79; string_option 111; string_option 115; string_option 119] items argv ->
  Forall2 (has_file sys) (plain_args items) files ->
  says_flag items 68 D -> says_flag items 79 O -> says_value items 111 o -> says_value items 115 s -> says_value items 119 w ->
  can_deliver sys o ->
  ends_with sys o (vote_all uc order junk junk4 signed D O s w (combine (plain_args items) files))
    (vote_main sys uc junk junk4 order signed argv).
Proof.
  intros sys uc junk junk4 order signed items argv files D O o s w CL F SD SO So Ss Sw Cd. unfold vote_main. enter vote_options CL vars V.
  destruct (flag_at _ _ _ 0 68 V eq_refl) as (v & Ev & SV'). rewrite Ev. cbn [obind]. rewrite (says_flag_fun _ _ _ _ SV' SD). clear v Ev SV'.
  destruct (flag_at _ _ _ 1 79 V eq_refl) as (v & Ev & SV'). rewrite Ev. cbn [obind]. rewrite (says_flag_fun _ _ _ _ SV' SO). clear v Ev SV'.
  destruct (value_at _ _ _ 2 111 V eq_refl) as (v & Ev & SV'). rewrite Ev. cbn [obind]. rewrite (says_value_fun _ _ _ _ SV' So). clear v Ev SV'.
  destruct (value_at _ _ _ 3 115 V eq_refl) as (v & Ev & SV'). rewrite Ev. cbn [obind]. rewrite (says_value_fun _ _ _ _ SV' Ss). clear v Ev SV'.
  destruct (value_at _ _ _ 4 119 V eq_refl) as (v & Ev & SV'). rewrite Ev. cbn [obind]. rewrite (says_value_fun _ _ _ _ SV' Sw). clear v Ev SV'.
  pose proof (Forall2_zlen sys _ _ F) as L. unfold vote_all. rewrite (zlen_combine _ _ L).
  destruct ((zlen (plain_args items) <? MIN_VOTERS) || (MAX_VOTERS <? zlen (plain_args items))); [reflexivity|].
  rewrite (reading_named sys (fun acc name f => let! (text, _) := read_text uc junk junk4 vote_opt [] f in
                              Ok (acc ++ [mkvoter (zlen acc) name text 0])) _ _ F).
  destruct (ofold _ _ _) as [voters| | |]; try reflexivity. cbn [obind].
  destruct (vote_voters _ _ _ _ _ _ _ _) as [[printed out]| | |]; try reflexivity. cbn [obind].
  now apply ends_with_write.
Qed.
Print Assumptions C64_vote.

(** ** Inputs *)

(** A program that does its work has found every file named on its command line. *)
Definition found (sys : system) (name : list Z) : Prop := exists f, has_file sys name f.
Definition needs_files (sys : system) (names : list (list Z)) (res : outcome ended) : Prop :=
  forall r, res = Ok (Done r) -> Forall (found sys) names.

Lemma reading_found {S} sys (step : S -> list Z -> outcome S) names : forall st st',
  ofold (reading sys step) names st = Ok st' -> Forall (found sys) names.
Proof.
  induction names as [|n names IH]; intros st st' E; [constructor|]. cbn [ofold] in E. unfold reading at 1, open_read in E.
  destruct (contents sys n) as [f|] eqn:C; cbn [obind] in E; [|discriminate E].
  destruct (step st f) as [st1| | |]; cbn [obind] in E; try discriminate E. constructor; [now exists f|]. exact (IH _ _ E).
Qed.
Lemma named_found {S} sys (step : S -> list Z -> list Z -> outcome S) names : forall st st',
  ofold (fun acc name => let! f := open_read sys name in step acc name f) names st = Ok st' -> Forall (found sys) names.
Proof.
  induction names as [|n names IH]; intros st st' E; [constructor|]. cbn [ofold] in E. unfold open_read at 1 in E.
  destruct (contents sys n) as [f|] eqn:C; cbn [obind] in E; [|discriminate E].
  destruct (step st n f) as [st1| | |]; cbn [obind] in E; try discriminate E. constructor; [now exists f|]. exact (IH _ _ E).
Qed.

Ltac all_read := intros r Er; match type of Er with context [ofold (reading ?sys ?step) ?names ?st] =>
  let E := fresh "E" in destruct (ofold (reading sys step) names st) eqn:E; try discriminate Er; exact (reading_found _ _ _ _ _ E) end.
Ltac enough_files := match goal with |- context [if ?b then Fail _ else _] => destruct b; [intros r Er; discriminate Er|] end.

Theorem C64_missing : forall sys uc NFC junk junk4 line corder torder sorder vorder fmt fmt6 fmt14 fmtd signed argv items,
  (command_line [] items argv ->
     needs_files sys (plain_args items) (accsum_main sys uc line corder fmt argv) /\
     needs_files sys (plain_args items) (accdist_main sys line fmt6 argv) /\
     needs_files sys (plain_args items) (accci_main sys line fmt14 fmtd argv) /\
     needs_files sys (plain_args items) (wordaccsum_main sys line torder fmt argv) /\
     needs_files sys (plain_args items) (wordaccdist_main sys line fmt6 argv) /\
     needs_files sys (plain_args items) (wordaccci_main sys line fmt14 fmtd argv) /\
     needs_files sys (plain_args items) (wordfreq_main sys uc NFC junk junk4 torder argv) /\
     needs_files sys (plain_args items) (editopsum_main sys line argv)) /\
  (command_line [string_option 110] items argv ->
     needs_files sys (plain_args items) (ngram_main sys uc junk junk4 sorder argv)) /\
  (command_line [MainModel.flag_option 72; MainModel.flag_option 105; MainModel.flag_option 115; MainModel.flag_option 84] items argv ->
     needs_files sys (plain_args items) (synctext_main sys uc junk junk4 argv)) /\
  (command_line [MainModel.flag_option 68; MainModel.flag_option 79; string_option 111; string_option 115; string_option 119] items argv ->
     needs_files sys (plain_args items) (vote_main sys uc junk junk4 vorder signed argv)).
Proof.
  intros sys uc NFC junk junk4 line corder torder sorder vorder fmt fmt6 fmt14 fmtd signed argv items.
  split; [|split; [|split]]; intros CL.
  - split; [|split; [|split; [|split; [|split; [|split; [|split]]]]]].
    + unfold accsum_main. enter no_options CL vars V. enough_files. all_read.
    + unfold accdist_main. enter no_options CL vars V. all_read.
    + unfold accci_main. enter no_options CL vars V. enough_files. all_read.
    + unfold wordaccsum_main. enter no_options CL vars V. enough_files. all_read.
    + unfold wordaccdist_main. enter no_options CL vars V. all_read.
    + unfold wordaccci_main. enter no_options CL vars V. enough_files. all_read.
    + unfold wordfreq_main. enter no_options CL vars V. enough_files. all_read.
    + unfold editopsum_main. enter no_options CL vars V. enough_files. all_read.
  - unfold ngram_main. enter ngram_options CL vars V. destruct (value_at _ _ _ 0 110 V eq_refl) as (v & Ev & _). rewrite Ev. cbn [obind].
    enough_files. destruct (get_n v); try (intros r Er; discriminate Er). cbn [obind]. all_read.
  - unfold synctext_main. enter synctext_options CL vars V.
    destruct (flag_at _ _ _ 0 72 V eq_refl) as (v0 & Ev & _). rewrite Ev. cbn [obind].
    destruct (flag_at _ _ _ 1 105 V eq_refl) as (v1 & Ev1 & _). rewrite Ev1. cbn [obind].
    destruct (flag_at _ _ _ 2 115 V eq_refl) as (v2 & Ev2 & _). rewrite Ev2. cbn [obind].
    destruct (flag_at _ _ _ 3 84 V eq_refl) as (v3 & Ev3 & _). rewrite Ev3. cbn [obind].
    enough_files. all_read.
  - unfold vote_main. enter vote_options CL vars V.
    destruct (flag_at _ _ _ 0 68 V eq_refl) as (v0 & Ev & _). rewrite Ev. cbn [obind].
    destruct (flag_at _ _ _ 1 79 V eq_refl) as (v1 & Ev1 & _). rewrite Ev1. cbn [obind].
    destruct (value_at _ _ _ 2 111 V eq_refl) as (v2 & Ev2 & _). rewrite Ev2. cbn [obind].
    destruct (value_at _ _ _ 3 115 V eq_refl) as (v3 & Ev3 & _). rewrite Ev3. cbn [obind].
    destruct (value_at _ _ _ 4 119 V eq_refl) as (v4 & Ev4 & _). rewrite Ev4. cbn [obind].
    enough_files. intros r Er.
    match type of Er with context [ofold ?s ?names ?st] => destruct (ofold s names st) eqn:E; try discriminate Er end.
    exact (named_found _ _ _ _ _ E).
Qed.
Print Assumptions C64_missing.

(** ** Outputs *)

(** A program that does its work changes no file, or only the file whose name it is given for its
    report. *)
Definition changes_only (sys : system) (allowed : list Z -> Prop) (res : outcome ended) : Prop :=
  forall r, res = Ok (Done r) -> forall n, files_after r n <> contents sys n -> allowed n.
Definition is_third (args : list (list Z)) (n : list Z) : Prop := exists n0 n1, args = [n0; n1; n].

Lemma write_changes sys dest printed content r : write_to sys dest printed content = Ok r ->
  forall n, files_after r n <> contents sys n -> dest = Some n.
Proof.
  unfold write_to. intros E n Hn. destruct dest as [name|].
  - destruct (writable sys name); [|discriminate E]. destruct content; cbn [obind] in E; try discriminate E. injection E as <-.
    cbn [files_after] in Hn. unfold update in Hn. destruct (list_eq_dec Z.eq_dec n name); congruence.
  - destruct content; cbn [obind] in E; try discriminate E. injection E as <-. cbn [files_after] in Hn. congruence.
Qed.
Lemma run_main_done table argv body r : run_main table argv body = Ok (Done r) -> exists args vars, body args vars = Ok r.
Proof.
  unfold run_main. destruct (rd _ argv 0); cbn [obind]; try discriminate. destruct (basefilename _); cbn [obind]; try discriminate.
  destruct (parse_args _ _ _ _) as [p| | |]; cbn [obind]; try discriminate.
  destruct p as [args vars| | |]; try discriminate.
  destruct (body args vars) as [r'| | |] eqn:E; cbn [obind]; try discriminate. intros [= <-]. eauto.
Qed.

Ltac split_pairs X := match type of X with (_ * _)%type => let a := fresh "X" in let b := fresh "X" in destruct X as [a b]; split_pairs a; split_pairs b | _ => idtac end.
Ltac walk E := repeat match type of E with
  | print _ _ = _ => fail 1
  | write_to _ _ _ _ = _ => fail 1
  | (if ?b then _ else _) = _ => destruct b; try discriminate E
  | obind ?e _ = _ => let X := fresh "X" in destruct e as [X| | |]; try discriminate E; cbn [obind] in E; split_pairs X
  end.
Ltac no_change := intros r Er n Hn; apply run_main_done in Er as (args & vars & Er); cbv beta in Er; walk Er;
  apply (write_changes _ _ _ _ _ Er) in Hn; discriminate Hn.

Theorem C64_read_only : forall sys uc NFC junk junk4 line corder torder sorder fmt fmt6 fmt14 fmtd argv,
  Forall (changes_only sys (fun _ => False))
    [accsum_main sys uc line corder fmt argv; accdist_main sys line fmt6 argv; accci_main sys line fmt14 fmtd argv;
     wordaccsum_main sys line torder fmt argv; wordaccdist_main sys line fmt6 argv; wordaccci_main sys line fmt14 fmtd argv;
     nonstopacc_main sys uc NFC junk junk4 line fmt6 argv; wordfreq_main sys uc NFC junk junk4 torder argv;
     editopsum_main sys line argv; editopcost_main sys line argv; ngram_main sys uc junk junk4 sorder argv;
     synctext_main sys uc junk junk4 argv].
Proof.
  intros. repeat (apply Forall_cons; [no_change|]). apply Forall_nil.
Qed.
Print Assumptions C64_read_only.

Lemma is_third_of args n : (zlen args <? 2) || (3 <? zlen args) = false -> third args = Some n -> is_third args n.
Proof.
  intros L E. destruct (with_third_dec args L) as (n0 & n1 & dest & ->). rewrite third_with in E. subst dest. exists n0, n1. reflexivity.
Qed.
Lemma body_done (x : outcome result) r : (let! r := x in Ok (Done r)) = Ok (Done r) -> x = Ok r.
Proof. destruct x; cbn [obind]; try discriminate. congruence. Qed.
Ltac only_third := match goal with |- context [if ?b then _ else _] =>
  let L := fresh "L" in destruct b eqn:L; [intros r Er; discriminate Er|];
  let r := fresh "r" in let Er := fresh "Er" in let n := fresh "n" in let Hn := fresh "Hn" in
  intros r Er n Hn; apply body_done in Er; walk Er; apply is_third_of; [exact L|]; exact (write_changes _ _ _ _ _ Er n Hn) end.

Theorem C64_writes : forall sys uc NFC junk junk4 line corder torder vorder fmt fmt8 signed argv items,
  (command_line [] items argv ->
     changes_only sys (is_third (plain_args items)) (accuracy_main sys uc junk junk4 corder fmt argv) /\
     changes_only sys (is_third (plain_args items)) (groupacc_main sys uc junk junk4 line fmt8 argv)) /\
  (command_line [string_option 83] items argv ->
     changes_only sys (is_third (plain_args items)) (wordacc_main sys uc NFC junk junk4 torder fmt argv)) /\
  (command_line [MainModel.flag_option 68] items argv ->
     changes_only sys (is_third (plain_args items)) (editop_main sys uc junk junk4 argv)) /\
  (command_line [MainModel.flag_option 68; MainModel.flag_option 79; string_option 111; string_option 115; string_option 119] items argv ->
     changes_only sys (fun n => says_value items 111 (Some n)) (vote_main sys uc junk junk4 vorder signed argv)).
Proof.
  intros sys uc NFC junk junk4 line corder torder vorder fmt fmt8 signed argv items.
  split; [|split; [|split]]; intros CL; [split| | |].
  - unfold accuracy_main. enter no_options CL vars V. only_third.
  - unfold groupacc_main. enter no_options CL vars V. only_third.
  - unfold wordacc_main. enter wordacc_options CL vars V.
    only_third.
  - unfold editop_main. enter editop_options CL vars V.
    destruct (flag_at _ _ _ 0 68 V eq_refl) as (v & Ev & _). rewrite Ev. cbn [obind]. only_third.
  - unfold vote_main. enter vote_options CL vars V.
    destruct (flag_at _ _ _ 0 68 V eq_refl) as (v0 & Ev & _). rewrite Ev. cbn [obind].
    destruct (flag_at _ _ _ 1 79 V eq_refl) as (v1 & Ev1 & _). rewrite Ev1. cbn [obind].
    destruct (value_at _ _ _ 2 111 V eq_refl) as (v2 & Ev2 & S2). rewrite Ev2. cbn [obind].
    destruct (value_at _ _ _ 3 115 V eq_refl) as (v3 & Ev3 & _). rewrite Ev3. cbn [obind].
    destruct (value_at _ _ _ 4 119 V eq_refl) as (v4 & Ev4 & _). rewrite Ev4. cbn [obind].
    intros r Er n Hn. apply body_done in Er. walk Er. rewrite <- (write_changes _ _ _ _ _ Er n Hn). exact S2.
Qed.
Print Assumptions C64_writes.

(** A case: synctext -i and vote -o. *)
Definition prog_system : system :=
  mksys (fun n => if list_eq_dec Z.eq_dec n (bytes "a") then Some (bytes "Cat")
                  else if list_eq_dec Z.eq_dec n (bytes "b") then Some (bytes "cot")
                  else if list_eq_dec Z.eq_dec n (bytes "c") then Some (bytes "cat")
                  else None)
        (fun n => if list_eq_dec Z.eq_dec n (bytes "out") then true else false).
Definition prog_uc : unicode_data :=
  mkuc (fun c => if c =? 32 then ZS else if c =? 0 then CC else LL) (fun c => if (65 <=? c) && (c <=? 90) then c + 32 else c).

Example C64_ex :
  command_line [MainModel.flag_option 72; MainModel.flag_option 105; MainModel.flag_option 115; MainModel.flag_option 84]
    [Flag 105; Plain (bytes "a"); Plain (bytes "b"); Plain (bytes "c")]
    [bytes "synctext"; bytes "-i"; bytes "a"; bytes "b"; bytes "c"] /\
  Forall2 (has_file prog_system) [bytes "a"; bytes "b"; bytes "c"] [bytes "Cat"; bytes "cot"; bytes "cat"] /\
  says_flag [Flag 105; Plain (bytes "a"); Plain (bytes "b"); Plain (bytes "c")] 105 true /\
  says_flag [Flag 105; Plain (bytes "a"); Plain (bytes "b"); Plain (bytes "c")] 72 false /\
  (exists r, synctext_main prog_system prog_uc sample_line sample_buf [bytes "synctext"; bytes "-i"; bytes "a"; bytes "b"; bytes "c"] = Ok (Done r) /\
     starts_with (repeat 61 79 ++ [10; 10] ++ bytes "c{1}t") (standard_output r)) /\
  (exists r, vote_main prog_system prog_uc sample_line sample_buf (fun l => l) true
               [bytes "vote"; bytes "-o"; bytes "out"; bytes "a"; bytes "b"; bytes "c"] = Ok (Done r) /\
     standard_output r = [] /\ files_after r (bytes "out") = Some (bytes "cat")).
Proof.
  split; [|split; [|split; [|split; [|split]]]].
  - exists (bytes "synctext"). split; [reflexivity|]. split; [cbn; lia|]. split; [discriminate|]. split; [|split; [|split]].
    + assert (Nd : forall n, forallb (fun c => negb (c =? 45)) n = true -> ~ dashed n).
      { intros n H (c & v & ->). discriminate H. }
      constructor; [split; [right; left; reflexivity|intros (_ & rest & E); discriminate E]|]. repeat (constructor; [now apply Nd|]). constructor.
    + repeat constructor. intros [].
    + unfold real_args. repeat constructor; discriminate.
    + cbn. lia.
  - repeat constructor.
  - split; [intros _; left; reflexivity|reflexivity].
  - split; [discriminate|]. intros [H|[H|[H|[H|[]]]]]; discriminate H.
  - eexists. split; [vm_compute; reflexivity|]. cbn [standard_output]. vm_compute. eexists. reflexivity.
  - eexists. split; [vm_compute; reflexivity|]. split; reflexivity.
Qed.
