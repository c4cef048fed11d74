(** C83: the messages of the programs are true. *)
From Coq Require Import String Permutation.
From Verif Require Import Base CLib CLibProof Utf8Model Utf8Proof TextModel TextSpec TextIO TextProps MainSpec MainProof CharclassModel SyncModel CompareModel WordModel UtilModel UtilProps AccModel AccrptModel AccrptSpec AccrptProps
  ReportModel ReportSpec StopModel LcsSpec WacModel WacrptModel WacrptSpec WacrptProps EdoModel EdoSpec EdoProps EditopModel EditopDebugModel FreqModel NgramModel DoubleModel
  SynctextModel GroupModel NonstopModel DistModel CiModel VoteModel VoteSelModel VoteProps HeurProps FastukkProps TransProps MainModel MainIoModel CrashSpec CrashProof CrashProps
  ExitModel ExitSpec ExitProof ExitProps MessageSpec MessageProof MessageReadProof MessageCallProof.
From Verif Require PipeProps.
Local Open Scope Z_scope.
Local Open Scope list_scope.

Ltac alt n := match n with O => left | Datatypes.S ?k => right; alt k end.
Ltac why := unfold accuracy_reasons, accsum_reasons, accdist_reasons, accci_reasons, groupacc_reasons, wordacc_reasons, wordaccsum_reasons, wordaccdist_reasons,
  wordaccci_reasons, nonstopacc_reasons, wordfreq_reasons, editop_reasons, editopsum_reasons, editopcost_reasons, ngram_reasons, synctext_reasons, vote_reasons,
  accsum_reasons, wordaccsum_reasons, either; cbv zeta.

Lemma bad_messages h msg f : bad_text h msg f -> msg = "invalid UTF-8 character"%string \/ msg = "unexpected end of input"%string \/ msg = "Invalid UTF-8 string was supplied"%string.
Proof. intros [(cs & r & _ & _ & M)|(_ & _ & hd & body & _ & (cs & r & _ & _ & M))]; inversion M; auto. Qed.
Lemma bad_shown h msg f n : bad_text h msg f -> shown_with msg (about n) = None.
Proof. intros B. destruct (bad_messages h msg f B) as [->|[->| ->]]; reflexivity. Qed.

Section Programs.
Variable sys : system.
Variable uc : unicode_data.
Variable NFC : list Z -> list Z.
Variables junk junk4 line : list Z.
Variable corder : list conf -> list conf.
Variable torder : list WacModel.term -> list WacModel.term.
Variable sorder : list NgramModel.entry -> list NgramModel.entry.
Variable vorder : list vseq -> list vseq.
Variables fmt fmt6 fmt8 fmt14 : Z -> Z -> list Z.
Variable fmtd : double -> list Z.
Variable signed : bool.
Hypothesis ordinary : ordinary_system sys uc junk junk4.
Hypothesis buffer : line_buffer line.
Variable argv : list (list Z).
Variable name : list Z.
Hypothesis named : (let! n := rd "argv[0]" argv 0 in basefilename n) = Ok name.

Lemma text_fail opt n f msg : contents sys n = Some f -> read_text uc junk junk4 opt [] f = Fail msg -> bad_text (find_header opt) msg f.
Proof. intros F E. destruct ordinary as (J & B & _). eapply text_message; [exact J|exact (B n f F)|exact E]. Qed.
Lemma text_codable opt n f t h : contents sys n = Some f -> read_text uc junk junk4 opt [] f = Ok (t, h) -> codable_text t.
Proof. intros F E. destruct ordinary as (J & B & L). eapply codable_read; [exact J|exact (B n f F)|intros _; exact L|exact E]. Qed.
Lemma text_header opt n f t : find_header opt = true -> contents sys n = Some f -> read_text uc junk junk4 opt [] f = Ok (t, true) -> starts_with title_start f.
Proof. intros H F E. destruct ordinary as (J & _ & _). apply (read_flag uc junk junk4 opt f t true J H E). reflexivity. Qed.

Lemma says_accuracy : says_why [] (accuracy_reasons sys uc junk junk4) argv name (accuracy_process sys uc junk junk4 corder fmt argv).
Proof.
  apply process_why; [exact named|]. intros args vars. cbv beta.
  destruct (_ || _) eqn:L; [apply explains_error; why; alt 0%nat; constructor; lia|]. destruct args as [|a [|b rest]]; try discriminate L.
  rewrite !rd_0, call_ok. apply explains_open; [intros M; why; alt 1%nat; apply (Missing sys _ [] a [b]); auto|]. intros f1 F1. cbn [app].
  apply explains_then; [intros msg E; why; alt 2%nat; apply (Undecodable sys true _ [] a f1); [now left|exact F1|exact (text_fail _ _ _ _ F1 E)]|]. intros [t1 h] E1.
  destruct h; [apply explains_error; why; alt 3%nat; apply (Has_header sys _ [] f1); [exact F1|eapply text_header; eauto; reflexivity]|].
  rewrite !rd_1, call_ok. apply explains_open; [intros M; why; alt 1%nat; apply (Missing sys _ [a] b []); auto|]. intros f2 F2. cbn [app].
  apply explains_then; [intros msg E; why; alt 2%nat; apply (Undecodable sys true _ [a] b f2); [right; now left|exact F2|exact (text_fail _ _ _ _ F2 E)]|]. intros [t2 h2] E2.
  apply explains_then.
  - intros msg E. apply accuracy_fail in E as [-> E]; [|exact (text_codable _ a _ _ _ F1 E1)|exact (text_codable _ b _ _ _ F2 E2)]. why. do 4 right.
    apply (Too_long sys uc junk junk4 _ _ a (map value t1)); [reflexivity|exists f1, t1, false; auto|exact E].
  - intros d Ed. apply explains_write; [intros n D W; why; alt 1%nat; apply (Locked sys (two_files (a :: b :: rest) vars) n); [destruct rest; exact D|exact W]|]. apply nf_accrpt. eapply named_accuracy; exact Ed.
Qed.

(** Reports. *)
Lemma acc_fail b D f n before msg reports : line_buffer b -> In n reports -> contents sys n = Some f -> read_accrpt b D f = Fail msg ->
  not_report sys accuracy_header reports (before ++ [n]) msg (shown_with msg (about n)) \/ bad_character sys reports (before ++ [n]) msg (shown_with msg (about n)).
Proof.
  intros B I F E. destruct (C31_accuracy_partial b D f B) as [[S X]|[S [(D' & b' & X)|[X|X]]]]; rewrite X in E; try discriminate E; injection E as <-.
  - left. eapply Not_report; eauto.
  - right. eapply Bad_character; eauto. exact (char_message _ _ _ B X).
Qed.
Lemma wac_fail b D f n before msg reports : line_buffer b -> In n reports -> contents sys n = Some f -> read_wacrpt b D f = Fail msg ->
  not_report sys word_header reports (before ++ [n]) msg (shown_with msg (about n)).
Proof.
  intros B I F E. destruct (C31_words_partial b D f B) as [[S X]|[S [(D' & b' & X)|X]]]; rewrite X in E; try discriminate E; injection E as <-.
  eapply Not_report; eauto.
Qed.
Lemma edo_fail b D f n before msg reports : line_buffer b -> In n reports -> contents sys n = Some f -> read_edorpt b D f = Fail msg ->
  not_report sys edit_header reports (before ++ [n]) msg (shown_with msg (about n)).
Proof.
  intros B I F E. destruct (C31_editop_partial b D f B) as [[S X]|[S [(D' & b' & X)|X]]]; rewrite X in E; try discriminate E; injection E as <-.
  eapply Not_report; eauto.
Qed.
Lemma middle {A} (l : list A) before n later : l = before ++ n :: later -> In n l.
Proof. intros ->. apply in_or_app. right. now left. Qed.

Lemma says_accsum : says_why [] (accsum_reasons sys) argv name (accsum_process sys uc line corder fmt argv).
Proof.
  apply process_why; [exact named|]. intros args vars. cbv beta. unfold print_px.
  destruct (_ <? _) eqn:L; [apply explains_error; why; alt 0%nat; constructor; lia|].
  apply (explains_all sys _ _ (fun _ st => line_buffer (snd st) /\ CrashProof.named (fst st))).
  - intros before n later E M. why. alt 1%nat. apply (Missing sys _ before n later); auto.
  - split; [exact buffer|apply named_empty].
  - intros before n later f [d b] El F [Hb Hn]. cbn [fst snd] in *. split.
    + intros [d' b'] E. split; [exact (proj1 (kept_report _ _ _ _ _ Hb E))|exact (named_read _ _ _ _ _ Hn E)].
    + intros msg E. why. do 2 right. exact (acc_fail _ _ _ _ _ _ _ Hb (middle _ _ _ _ El) F E).
  - intros [d b] [Hb Hn]. apply explains_write; [intros n D; discriminate D|apply nf_accrpt; exact Hn].
Qed.
Lemma says_accdist : says_why [] (accdist_reasons sys) argv name (accdist_process sys line fmt6 argv).
Proof.
  apply process_why; [exact named|]. intros args vars. cbv beta. unfold print_px.
  apply (explains_all sys _ _ (fun _ (st : (accdata * list Z) * dist) => line_buffer (snd (fst st)))).
  - intros before n later E M. why. alt 0%nat. apply (Missing sys _ before n later); auto.
  - exact buffer.
  - intros before n later f [[d b] t] El F Hb. cbn [fst snd] in *. unfold acc_page. cbv zeta. split.
    + intros st E. destruct (read_accrpt b d f) as [[d' b']| | |] eqn:Er; cbn [obind] in E; bad E.
      destruct (update_dist _ _ _) as [t'| | |]; cbn [obind] in E; bad E. injection E as <-. exact (proj1 (kept_report _ _ _ _ _ Hb Er)).
    + intros msg E. why. right. destruct (read_accrpt b d f) as [[d' b']|m| |] eqn:Er; cbn [obind] in E; try discriminate E.
      * destruct (update_dist _ _ _) as [t'|m| |] eqn:Eu; cbn [obind] in E; try discriminate E. now apply nf_update_dist in Eu.
      * injection E as ->. exact (acc_fail _ _ _ _ _ _ _ Hb (middle _ _ _ _ El) F Er).
  - intros [[d b] t] Hb. apply explains_write; [intros n D; discriminate D|apply nf_dist].
Qed.
Lemma says_accci : says_why [] (accci_reasons sys) argv name (accci_process sys line fmt14 fmtd argv).
Proof.
  apply process_why; [exact named|]. intros args vars. cbv beta. unfold print_px.
  destruct (_ <? _) eqn:L; [apply explains_error; why; left; alt 0%nat; constructor; lia|].
  apply (explains_all sys _ _ (fun before (st : (accdata * list Z) * list obs) => line_buffer (snd (fst st)) /\
    Forall2 (fun s n => exists f, contents sys s = Some f /\ third_number f n) before (map fst (snd st)))).
  - intros before n later E M. why. left. alt 1%nat. apply (Missing sys _ before n later); auto.
  - split; [exact buffer|constructor].
  - intros before n later f [[d b] l] El F [Hb Hl]. cbn [fst snd] in *. unfold acc_obs. cbv zeta. split.
    + intros st E. destruct (read_accrpt b d f) as [[d' b']| | |] eqn:Er; cbn [obind] in E; bad E. injection E as <-.
      destruct (kept_report _ _ _ _ _ Hb Er) as [Hb' T]. split; [exact Hb'|]. cbn [snd]. rewrite map_app. apply Forall2_app; [exact Hl|].
      constructor; [exists f; split; [exact F|exact T]|constructor].
    + intros msg E. why. left. do 2 right. destruct (read_accrpt b d f) as [[d' b']|m| |] eqn:Er; cbn [obind] in E; try discriminate E.
      injection E as ->. exact (acc_fail _ _ _ _ _ _ _ Hb (middle _ _ _ _ El) F Er).
  - intros [[d b] l] [Hb Hl]. cbn [fst snd] in *. apply explains_then.
    + intros msg E. apply ci_fail in E as [-> E]. why. right. exact (Few_observations sys _ _ Hl E).
    + intros v E. apply explains_write; [intros n D; discriminate D|exact (nf_ci _ _ _ _ _ _ _ _ E)].
Qed.
Lemma says_groupacc : says_why [] (groupacc_reasons sys) argv name (groupacc_process sys uc junk junk4 line fmt8 argv).
Proof.
  apply process_why; [exact named|]. intros args vars. cbv beta.
  destruct (_ || _) eqn:L; [apply explains_error; why; alt 0%nat; constructor; lia|]. destruct args as [|a [|b rest]]; try discriminate L.
  rewrite !rd_0, call_ok. apply explains_open; [intros M; why; alt 1%nat; apply (Missing sys _ [] a [b]); auto|]. intros f1 F1. cbn [app].
  apply explains_then; [intros msg E; why; alt 2%nat; apply (Undecodable sys false _ [] a f1); [now left|exact F1|exact (text_fail _ _ _ _ F1 E)]|]. intros [t1 h] E1.
  rewrite !rd_1, call_ok. apply explains_open; [intros M; why; alt 1%nat; apply (Missing sys _ [a] b []); auto|]. intros f2 F2. cbn [app].
  apply explains_then; [intros msg E; why; do 3 right; exact (acc_fail _ _ _ _ [a] _ _ buffer (in_eq _ _) F2 E)|]. intros [d b'] Ed.
  apply explains_write; [intros n D W; why; alt 1%nat; apply (Locked sys (two_files (a :: b :: rest) vars) n); [destruct rest; exact D|exact W]|apply nf_group].
Qed.
Lemma says_wordacc : says_why [string_option 83] (wordacc_reasons sys uc NFC junk junk4) argv name (wordacc_process sys uc NFC junk junk4 torder fmt argv).
Proof.
  apply process_why; [exact named|]. intros args vars. cbv beta.
  destruct (_ || _) eqn:L; [apply explains_error; why; alt 0%nat; constructor; lia|]. destruct args as [|a [|b rest]]; try discriminate L.
  apply explains_safe; [apply nf_bind; [apply nf_rd|intros; apply nf_ok]|]. intros sw E. apply (string_value vars 0) in E.
  pose (R := wordacc_reasons sys uc NFC junk junk4 (a :: b :: rest) vars).
  apply (explains_bind R [] _ _ (fun d sf => d = (match sw with Some s => [s] | None => [] end) /\
    match sw with Some n => exists f, contents sys n = Some f /\ sf = Some f | None => sf = None end)).
  { destruct sw as [s|].
    - apply explains_open; [intros M; unfold R; why; alt 1%nat; apply (Missing sys _ [] s [a; b]); [unfold wordacc_files; rewrite E; reflexivity|exact M]|].
      intros f F. apply explains_call_on; [intros msg X; discriminate X|]. intros sf X. injection X as <-. split; [reflexivity|eauto].
    - apply explains_call_on; [intros msg X; discriminate X|]. intros sf X. injection X as <-. split; reflexivity. }
  intros d sf [Ed Hsf]. apply explains_then.
  { intros msg X. unfold init_stopwords, at_start in X. cbn [initialized] in X. destruct sw as [s|].
    - destruct Hsf as (f & F & ->). cbn [shown_with]. unfold R. why. alt 2%nat. rewrite E, Ed. apply (Undecodable sys false [s] [] s f); [now left|exact F|].
      destruct (words_in _ _ _ _ _ _) as [w|m| |] eqn:Ew; cbn [obind] in X; try discriminate X. injection X as ->. apply words_fail in Ew. exact (text_fail _ _ _ _ F Ew).
    - subst sf. discriminate X. }
  intros stop _. apply explains_warn.
  assert (reading (wordacc_files (a :: b :: rest) vars) = d ++ [a; b]) as R2 by (cbn [reading wordacc_files]; rewrite E, Ed; reflexivity).
  assert ((match value_of vars 0 with Some s => [s] | None => [] end) = d) as R3 by now rewrite E, Ed.
  unfold R. clear Hsf.
  rewrite !rd_0, call_ok. apply explains_open; [intros M; why; alt 1%nat; apply (Missing sys _ d a [b]); auto|]. intros f1 F1.
  apply explains_then; [intros msg X; why; alt 3%nat; apply (Undecodable sys true _ d a f1); [now left|exact F1|exact (text_fail _ _ _ _ F1 X)]|]. intros [t1 h] E1.
  destruct h; [apply explains_error; why; rewrite R3; alt 4%nat; apply (Has_header sys _ d f1); [exact F1|eapply text_header; [|exact F1|exact E1]; reflexivity]|].
  apply explains_safe; [apply nf_find_words|]. intros w0 W0.
  rewrite !rd_1, call_ok. apply explains_open; [intros M; why; alt 1%nat; apply (Missing sys _ (d ++ [a]) b []); [rewrite R2; now rewrite <- app_assoc|exact M]|]. intros f2 F2.
  apply explains_then; [intros msg X; why; alt 3%nat; apply (Undecodable sys true _ (d ++ [a]) b f2); [right; now left|exact F2|exact (text_fail _ _ _ _ F2 X)]|]. intros [t2 h2] E2.
  apply explains_safe; [apply nf_find_words|]. intros w1 W1.
  replace ((d ++ [a]) ++ [b]) with (d ++ [a; b]) by now rewrite <- app_assoc.
  apply explains_then.
  - intros msg X. apply wordacc_fail in X as [-> X]. why. rewrite R3. do 5 right. apply (Too_many_words sys uc NFC junk junk4 wordacc_opt d a b w0 w1); [| |exact X].
    + exists (map value t1). split; [exists f1, t1, false; auto|exact W0].
    + exists (map value t2). split; [exists f2, t2, h2; auto|exact W1].
  - intros dd _. apply explains_write; [|apply nf_wacrpt]. intros n D W. why. alt 1%nat. rewrite <- R2. apply (Locked sys (wordacc_files (a :: b :: rest) vars) n); [destruct rest; exact D|exact W].
Qed.
Lemma says_wordaccsum : says_why [] (wordaccsum_reasons sys) argv name (wordaccsum_process sys line torder fmt argv).
Proof.
  apply process_why; [exact named|]. intros args vars. cbv beta. unfold print_px.
  destruct (_ <? _) eqn:L; [apply explains_error; why; alt 0%nat; constructor; lia|].
  apply (explains_all sys _ _ (fun _ st => line_buffer (snd st))).
  - intros before n later E M. why. alt 1%nat. apply (Missing sys _ before n later); auto.
  - exact buffer.
  - intros before n later f [d b] El F Hb. cbn [fst snd] in *. split.
    + intros [d' b'] E. exact (proj1 (kept_word_report _ _ _ _ _ Hb E)).
    + intros msg E. why. do 2 right. exact (wac_fail _ _ _ _ _ _ _ Hb (middle _ _ _ _ El) F E).
  - intros [d b] Hb. apply explains_write; [intros n D; discriminate D|apply nf_wacrpt].
Qed.
Lemma says_wordaccdist : says_why [] (wordaccdist_reasons sys) argv name (wordaccdist_process sys line fmt6 argv).
Proof.
  apply process_why; [exact named|]. intros args vars. cbv beta. unfold print_px.
  apply (explains_all sys _ _ (fun _ (st : (wacdata * list Z) * dist) => line_buffer (snd (fst st)))).
  - intros before n later E M. why. alt 0%nat. apply (Missing sys _ before n later); auto.
  - exact buffer.
  - intros before n later f [[d b] t] El F Hb. cbn [fst snd] in *. unfold wac_page. cbv zeta. split.
    + intros st E. destruct (read_wacrpt b d f) as [[d' b']| | |] eqn:Er; cbn [obind] in E; bad E.
      destruct (update_dist _ _ _) as [t'| | |]; cbn [obind] in E; bad E. injection E as <-. exact (proj1 (kept_word_report _ _ _ _ _ Hb Er)).
    + intros msg E. why. right. destruct (read_wacrpt b d f) as [[d' b']|m| |] eqn:Er; cbn [obind] in E; try discriminate E.
      * destruct (update_dist _ _ _) as [t'|m| |] eqn:Eu; cbn [obind] in E; try discriminate E. now apply nf_update_dist in Eu.
      * injection E as ->. exact (wac_fail _ _ _ _ _ _ _ Hb (middle _ _ _ _ El) F Er).
  - intros [[d b] t] Hb. apply explains_write; [intros n D; discriminate D|apply nf_dist].
Qed.
Lemma says_wordaccci : says_why [] (wordaccci_reasons sys) argv name (wordaccci_process sys line fmt14 fmtd argv).
Proof.
  apply process_why; [exact named|]. intros args vars. cbv beta. unfold print_px.
  destruct (_ <? _) eqn:L; [apply explains_error; why; left; alt 0%nat; constructor; lia|].
  apply (explains_all sys _ _ (fun before (st : (wacdata * list Z) * list obs) => line_buffer (snd (fst st)) /\
    Forall2 (fun s n => exists f, contents sys s = Some f /\ third_number f n) before (map fst (snd st)))).
  - intros before n later E M. why. left. alt 1%nat. apply (Missing sys _ before n later); auto.
  - split; [exact buffer|constructor].
  - intros before n later f [[d b] l] El F [Hb Hl]. cbn [fst snd] in *. unfold wac_obs. cbv zeta. split.
    + intros st E. destruct (read_wacrpt b d f) as [[d' b']| | |] eqn:Er; cbn [obind] in E; bad E. injection E as <-.
      destruct (kept_word_report _ _ _ _ _ Hb Er) as [Hb' T]. split; [exact Hb'|]. cbn [snd]. rewrite map_app. apply Forall2_app; [exact Hl|].
      constructor; [exists f; split; [exact F|exact T]|constructor].
    + intros msg E. why. left. do 2 right. destruct (read_wacrpt b d f) as [[d' b']|m| |] eqn:Er; cbn [obind] in E; try discriminate E.
      injection E as ->. exact (wac_fail _ _ _ _ _ _ _ Hb (middle _ _ _ _ El) F Er).
  - intros [[d b] l] [Hb Hl]. cbn [fst snd] in *. apply explains_then.
    + intros msg E. apply ci_fail in E as [-> E]. why. right. exact (Few_observations sys _ _ Hl E).
    + intros v E. apply explains_write; [intros n D; discriminate D|exact (nf_ci _ _ _ _ _ _ _ _ E)].
Qed.
Lemma says_nonstopacc : says_why [] (nonstopacc_reasons sys) argv name (nonstopacc_process sys uc NFC junk junk4 line fmt6 argv).
Proof.
  apply process_why; [exact named|]. intros args vars. cbv beta. unfold print_px.
  destruct (negb _) eqn:L; [apply explains_error; why; alt 0%nat; constructor; lia|].
  destruct args as [|a [|b [|c rest]]]; try discriminate L; [|apply negb_false_iff, Z.eqb_eq in L; pose proof (zlen_nonneg rest); rewrite !zlen_cons in L; lia].
  rewrite !rd_0, call_ok. apply explains_open; [intros M; why; alt 1%nat; apply (Missing sys _ [] a [b]); auto|]. intros f1 F1. cbn [app].
  apply explains_then; [intros msg E; apply words_fail in E; why; alt 2%nat; apply (Undecodable sys false _ [] a f1); [now left|exact F1|exact (text_fail _ _ _ _ F1 E)]|]. intros ws E1.
  rewrite !rd_1, call_ok. apply explains_open; [intros M; why; alt 1%nat; apply (Missing sys _ [a] b []); auto|]. intros f2 F2. cbn [app].
  apply explains_then; [intros msg E; why; do 3 right; exact (wac_fail _ _ _ _ [a] _ _ buffer (in_eq _ _) F2 E)|]. intros [d b'] Ed.
  apply explains_write; [intros n D; discriminate D|apply nf_ok].
Qed.
Lemma says_wordfreq : says_why [] (wordfreq_reasons sys) argv name (wordfreq_process sys uc NFC junk junk4 torder argv).
Proof.
  apply process_why; [exact named|]. intros args vars. cbv beta. unfold print_px.
  destruct (_ =? _) eqn:L; [apply explains_error; why; alt 0%nat; constructor; lia|].
  apply (explains_all sys _ _ (fun _ _ => True)).
  - intros before n later E M. why. alt 1%nat. apply (Missing sys _ before n later); auto.
  - exact I.
  - intros before n later f st El F _. split; [auto|]. intros msg E. why. do 2 right.
    destruct (words_in _ _ _ _ _ _) as [w|m| |] eqn:Ew; cbn [obind] in E; try discriminate E. injection E as ->. apply words_fail in Ew.
    pose proof (text_fail _ _ _ _ F Ew) as B. rewrite (bad_shown _ _ _ n B). apply (Undecodable sys true _ before n f); [exact (middle _ _ _ _ El)|exact F|exact B].
  - intros t _. apply explains_write; [intros n D; discriminate D|apply nf_freq].
Qed.
Lemma says_editop : says_why [MainModel.flag_option 68] (editop_reasons sys) argv name (editop_process sys uc junk junk4 argv).
Proof.
  apply process_why; [exact named|]. intros args vars. cbv beta.
  apply explains_safe; [apply nf_bind; [apply nf_rd|intros; apply nf_ok]|]. intros debug _.
  destruct (_ || _) eqn:L; [apply explains_error; why; alt 0%nat; constructor; lia|]. destruct args as [|a [|b rest]]; try discriminate L.
  rewrite !rd_0, call_ok. apply explains_open; [intros M; why; alt 1%nat; apply (Missing sys _ [] a [b]); auto|]. intros f1 F1. cbn [app].
  apply explains_then; [intros msg E; why; alt 2%nat; apply (Undecodable sys true _ [] a f1); [now left|exact F1|exact (text_fail _ _ _ _ F1 E)]|]. intros [t1 h] E1.
  destruct h; [apply explains_error; why; do 3 right; apply (Has_header sys _ [] f1); [exact F1|eapply text_header; [|exact F1|exact E1]; reflexivity]|].
  rewrite !rd_1, call_ok. apply explains_open; [intros M; why; alt 1%nat; apply (Missing sys _ [a] b []); auto|]. intros f2 F2. cbn [app].
  apply explains_then; [intros msg E; why; alt 2%nat; apply (Undecodable sys true _ [a] b f2); [right; now left|exact F2|exact (text_fail _ _ _ _ F2 E)]|]. intros [t2 h2] E2.
  apply explains_safe; [apply nf_edit_operations|]. intros [d printed] _. apply explains_say.
  apply explains_write; [intros n D W; why; alt 1%nat; apply (Locked sys (two_files (a :: b :: rest) vars) n); [destruct rest; exact D|exact W]|apply nf_edorpt].
Qed.
Lemma says_editopsum : says_why [] (editopsum_reasons sys) argv name (editopsum_process sys line argv).
Proof.
  apply process_why; [exact named|]. intros args vars. cbv beta. unfold print_px.
  destruct (_ <? _) eqn:L; [apply explains_error; why; alt 0%nat; constructor; lia|].
  apply (explains_all sys _ _ (fun _ st => line_buffer (snd st))).
  - intros before n later E M. why. alt 1%nat. apply (Missing sys _ before n later); auto.
  - exact buffer.
  - intros before n later f [d b] El F Hb. cbn [fst snd] in *. split.
    + intros [d' b'] E. exact (kept_edit_report _ _ _ _ _ Hb E).
    + intros msg E. why. do 2 right. exact (edo_fail _ _ _ _ _ _ _ Hb (middle _ _ _ _ El) F E).
  - intros [d b] Hb. apply explains_write; [intros n D; discriminate D|apply nf_edorpt].
Qed.
Lemma says_editopcost : says_why [] (editopcost_reasons sys) argv name (editopcost_process sys line argv).
Proof.
  apply process_why; [exact named|]. intros args vars. cbv beta. unfold print_px.
  destruct (_ || _) eqn:L; [apply explains_error; why; alt 0%nat; constructor; lia|]. destruct args as [|a rest]; [discriminate L|].
  rewrite !rd_0, call_ok. apply explains_open; [intros M; why; alt 1%nat; apply (Missing sys _ [] a rest); auto|]. intros f1 F1. cbn [app].
  apply explains_then; [intros msg E; why; do 2 right; exact (edo_fail _ _ _ _ [] _ _ buffer (in_eq _ _) F1 E)|]. intros [d b1] E1.
  apply kept_edit_report in E1; [|exact buffer].
  apply (explains_bind _ _ _ _ (fun _ _ => True)); [|intros d' d2 _; apply explains_write; [intros n D; discriminate D|apply nf_costs]].
  destruct (_ =? 2) eqn:L2; [|apply explains_call_on; [intros msg E; discriminate E|auto]].
  destruct rest as [|b rest]; [discriminate L2|].
  rewrite !rd_1, call_ok. apply explains_open; [intros M; why; alt 1%nat; apply (Missing sys _ [a] b rest); auto|]. intros f2 F2. cbn [app].
  apply explains_then; [intros msg E; why; do 2 right; exact (edo_fail _ _ _ _ [a] _ _ E1 (in_cons _ _ _ (in_eq _ _)) F2 E)|]. intros [d2 b2] E2.
  apply explains_call_on; [|auto]. intros msg E. now apply nf_decrement in E.
Qed.
Lemma says_ngram : says_why [string_option 110] (ngram_reasons sys) argv name (ngram_process sys uc junk junk4 sorder argv).
Proof.
  apply process_why; [exact named|]. intros args vars. cbv beta. unfold print_px.
  apply explains_safe; [apply nf_bind; [apply nf_rd|intros; apply nf_ok]|]. intros ns E. apply (string_value vars 0) in E.
  destruct (_ =? _) eqn:L; [apply explains_error; why; alt 0%nat; constructor; lia|].
  apply explains_then.
  { intros msg X. apply get_n_fail in X as [-> (s & -> & N1 & N2 & N3)]. why. alt 1%nat. rewrite E. cbn. apply (Bad_value _ _ _ _ s); [reflexivity|tauto]. }
  intros k _. apply (explains_all sys _ _ (fun _ _ => True)).
  - intros before n later El M. why. alt 2%nat. apply (Missing sys _ before n later); auto.
  - exact I.
  - intros before n later f st El F _. split; [auto|]. intros msg X. why. do 3 right.
    destruct (read_text _ _ _ _ _ _) as [[t h]|m| |] eqn:Er; cbn [obind] in X; try discriminate X.
    + exfalso. revert X. apply nf_process_text. exact (text_codable _ _ _ _ _ F Er).
    + injection X as ->. pose proof (text_fail _ _ _ _ F Er) as B. rewrite (bad_shown _ _ _ n B).
      apply (Undecodable sys true _ before n f); [exact (middle _ _ _ _ El)|exact F|exact B].
  - intros t _. apply explains_write; [intros n D; discriminate D|apply nf_ngram].
Qed.

Lemma flag_value vars i o : flag_of vars (Z.of_nat i) = Ok o -> snd (nth i vars (None, false)) = o.
Proof.
  unfold flag_of, rd. destruct (znth vars (Z.of_nat i)) as [v|] eqn:E; cbn [obind]; [|intros N; discriminate N].
  intros H. injection H as <-. unfold znth in E. destruct (Z.of_nat i <? 0); [discriminate E|]. rewrite Nat2Z.id in E.
  now rewrite (nth_error_nth _ _ _ E).
Qed.
Lemma says_synctext : says_why [MainModel.flag_option 72; MainModel.flag_option 105; MainModel.flag_option 115; MainModel.flag_option 84] (synctext_reasons sys uc junk junk4) argv name
  (synctext_process sys uc junk junk4 argv).
Proof.
  apply process_why; [exact named|]. intros args vars. cbv beta. unfold print_px.
  apply explains_safe; [apply nf_bind; [apply nf_rd|intros; apply nf_ok]|]. intros heur E0. apply (flag_value vars 0) in E0.
  apply explains_safe; [apply nf_bind; [apply nf_rd|intros; apply nf_ok]|]. intros low E1. apply (flag_value vars 1) in E1.
  apply explains_safe; [apply nf_bind; [apply nf_rd|intros; apply nf_ok]|]. intros show _.
  apply explains_safe; [apply nf_bind; [apply nf_rd|intros; apply nf_ok]|]. intros trans E3. apply (flag_value vars 3) in E3.
  destruct (_ || _) eqn:L.
  { apply explains_error. why. alt 0%nat. constructor. rewrite E3. intros [N1 N2]. destruct trans; cbn [andb] in L; [specialize (N2 eq_refl)|]; lia. }
  apply (explains_all sys _ _ (fun before texts => Forall codable_text texts /\
    Forall2 (fun n t => read_as sys uc junk junk4 (SynctextModel.synctext_opt low) n (map value t)) before texts)).
  - intros before n later El M. why. alt 1%nat. apply (Missing sys _ before n later); auto.
  - split; constructor.
  - intros before n later f st El F [C H]. split.
    + intros s' X. destruct (read_text _ _ _ _ _ _) as [[t h]|m| |] eqn:Er; cbn [obind] in X; try discriminate X. injection X as <-. split.
      * apply Forall_app. split; [exact C|]. constructor; [exact (text_codable _ _ _ _ _ F Er)|constructor].
      * apply Forall2_app; [exact H|]. constructor; [exists f, t, h; auto|constructor].
    + intros msg X. why. alt 2%nat. destruct (read_text _ _ _ _ _ _) as [[t h]|m| |] eqn:Er; cbn [obind] in X; try discriminate X.
      injection X as ->. pose proof (text_fail _ _ _ _ F Er) as B. rewrite (bad_shown _ _ _ n B).
      apply (Undecodable sys true _ before n f); [exact (middle _ _ _ _ El)|exact F|exact B].
  - intros texts [C H]. cbv zeta. destruct trans.
    + apply explains_safe; [intros msg X; destruct (C23_transpose (nth 0 (map (map value) texts) []) (nth 1 (map (map value) texts) [])) as (l1 & l2 & Y & _); congruence|].
      intros [l1 l2] _. assert (forall i, codable_text (nth i texts [])) as Ci.
      { intros i. destruct (nth_in_or_default i texts []) as [N|N]; [|rewrite N; constructor]. rewrite Forall_forall in C. exact (C _ N). }
      apply explains_write; [intros n D; discriminate D|]. apply nf_bind; [apply nf_transposed, Ci|intros o1 _]. apply nf_bind; [apply nf_transposed, Ci|intros o2 _]. apply nf_ok.
    + assert (zlen texts = zlen args) as Lt by exact (eq_sym (PipeProps.Forall2_lengths _ _ _ H)).
      apply explains_then.
      * intros msg X. cbn [shown_with]. destruct (heur || (2 <? zlen args)) eqn:Hh.
        -- why. alt 3%nat. pose proof (C21_synchronize (map (map value) texts)) as Sy.
           replace (zlen (map (map value) texts)) with (zlen texts) in Sy by (unfold zlen; now rewrite map_length).
           destruct (_ && _) eqn:N in Sy; [destruct Sy as (l & Y & _); congruence|]. rewrite X in Sy. injection Sy as ->. cbn [andb] in L. repeat split; lia.
        -- why. do 4 right. apply orb_false_iff in Hh as [-> Hh]. rewrite E0, E1, E3. assert (zlen args = 2) as Z2 by (cbn [andb] in L; lia).
           repeat (split; [auto|]). pose proof (C20_fastukk_safe (nth 0 (map (map value) texts) []) (nth 1 (map (map value) texts) [])) as Sy. unfold MAX_F in Sy.
           destruct (Z.leb_spec (zlen (nth 0 (map (map value) texts) [])) 9223372036854775807) as [N|N]; [rewrite X in Sy; discriminate Sy|]. rewrite X in Sy. injection Sy as ->.
           destruct H as [|a t args texts Ha H]; [discriminate Z2|]. apply (Too_long sys uc junk junk4 _ _ a (map value t)); [reflexivity|exact Ha|exact N].
      * intros l _. apply explains_write; [intros n D; discriminate D|]. apply nf_bind; [apply nf_matches; exact C|intros o1 _].
        apply nf_bind; [|intros o2 _; apply nf_ok]. apply nf_differences. apply Forall_forall. intros [n t] I. apply in_combine_r in I. rewrite Forall_forall in C. exact (C _ I).
Qed.
Lemma says_vote : says_why [MainModel.flag_option 68; MainModel.flag_option 79; string_option 111; string_option 115; string_option 119] (vote_reasons sys) argv name
  (vote_process sys uc junk junk4 vorder signed argv).
Proof.
  apply process_why; [exact named|]. intros args vars. cbv beta.
  apply explains_safe; [apply nf_bind; [apply nf_rd|intros; apply nf_ok]|]. intros debug _.
  apply explains_safe; [apply nf_bind; [apply nf_rd|intros; apply nf_ok]|]. intros optimize _.
  apply explains_safe; [apply nf_bind; [apply nf_rd|intros; apply nf_ok]|]. intros out E2. apply (string_value vars 2) in E2.
  apply explains_safe; [apply nf_bind; [apply nf_rd|intros; apply nf_ok]|]. intros sf E3. apply (string_value vars 3) in E3.
  apply explains_safe; [apply nf_bind; [apply nf_rd|intros; apply nf_ok]|]. intros wf E4. apply (string_value vars 4) in E4.
  unfold MIN_VOTERS, MAX_VOTERS. destruct (_ || _) eqn:L; [apply explains_error; why; alt 0%nat; constructor; lia|].
  eapply explains_bind.
  { apply (explains_fold _ _ (fun before voters => Forall codable_voter voters /\ zlen voters = zlen before)).
    - cbn [app]. intros before n later st El [C N]. apply explains_open; [intros M; why; alt 1%nat; apply (Missing sys _ before n later); auto|]. intros f F.
      apply explains_then; [intros msg X; why; alt 2%nat; apply (Undecodable sys true _ before n f); [exact (middle _ _ _ _ El)|exact F|exact (text_fail _ _ _ _ F X)]|].
      intros [t h] Er. apply explains_call_on; [intros msg X; discriminate X|]. intros s' X. injection X as <-. split; [reflexivity|]. split.
      + apply Forall_app. split; [exact C|]. constructor; [exact (text_codable _ _ _ _ _ F Er)|constructor].
      + rewrite !zlen_app, !zlen_cons, N. reflexivity.
    - split; [constructor|reflexivity]. }
  cbn [app]. intros d voters [-> [C N]]. apply explains_then.
  { intros msg X. apply options_fail in X as [[-> (v & -> & Hv)]|[-> (v & -> & Hv)]]; why; cbn [shown_with].
    - alt 3%nat. rewrite E4. cbn. apply (Bad_value _ _ _ _ v); [reflexivity|exact Hv].
    - do 4 right. rewrite E3. cbn. apply (Bad_value _ _ _ _ v); [reflexivity|exact Hv]. }
  intros st Es. apply options_voters in Es. assert (2 <= zlen voters <= 16) as Lv by (rewrite N; clear - L; lia). clear L N.
  assert (2 <= actual_voters st <= 16) as La by (rewrite Es; destruct (negb optimize || _) eqn:O; lia). clear Es Lv.
  apply explains_safe; [now apply nf_select|]. intros [pr input] Ei. apply explains_say.
  pose proof (select_codable _ _ _ _ _ _ _ _ C Ei) as Ci. apply select_number in Ei; [|lia].
  apply explains_safe; [apply nf_vote_texts; rewrite Ei; exact La|]. intros o Eo.
  apply explains_write; [|apply nf_write_text; exact (texts_codable _ _ _ Ci Eo)].
  intros n D W. why. alt 1%nat. apply (Locked sys (vote_files args vars) n); [cbn [destination vote_files]; now rewrite E2|exact W].
Qed.
End Programs.

(** C83: a program that ends with status 1 has said what is wrong, and it is: the number of
    arguments is not one it takes; or the next file does not exist; or the last file it read is
    not UTF-8 where the message says; and so on.  See MessageSpec. *)
Theorem C83_messages : forall sys uc NFC junk junk4 line corder torder sorder vorder fmt fmt6 fmt8 fmt14 fmtd signed argv program name,
  ordinary_system sys uc junk junk4 -> line_buffer line -> nth_error argv 0 = Some program -> zlen program <= 32768 -> base_of program name ->
  says_why [] (accuracy_reasons sys uc junk junk4) argv name (accuracy_process sys uc junk junk4 corder fmt argv) /\
  says_why [] (accsum_reasons sys) argv name (accsum_process sys uc line corder fmt argv) /\
  says_why [] (accdist_reasons sys) argv name (accdist_process sys line fmt6 argv) /\
  says_why [] (accci_reasons sys) argv name (accci_process sys line fmt14 fmtd argv) /\
  says_why [] (groupacc_reasons sys) argv name (groupacc_process sys uc junk junk4 line fmt8 argv) /\
  says_why [string_option 83] (wordacc_reasons sys uc NFC junk junk4) argv name (wordacc_process sys uc NFC junk junk4 torder fmt argv) /\
  says_why [] (wordaccsum_reasons sys) argv name (wordaccsum_process sys line torder fmt argv) /\
  says_why [] (wordaccdist_reasons sys) argv name (wordaccdist_process sys line fmt6 argv) /\
  says_why [] (wordaccci_reasons sys) argv name (wordaccci_process sys line fmt14 fmtd argv) /\
  says_why [] (nonstopacc_reasons sys) argv name (nonstopacc_process sys uc NFC junk junk4 line fmt6 argv) /\
  says_why [] (wordfreq_reasons sys) argv name (wordfreq_process sys uc NFC junk junk4 torder argv) /\
  says_why [MainModel.flag_option 68] (editop_reasons sys) argv name (editop_process sys uc junk junk4 argv) /\
  says_why [] (editopsum_reasons sys) argv name (editopsum_process sys line argv) /\
  says_why [] (editopcost_reasons sys) argv name (editopcost_process sys line argv) /\
  says_why [string_option 110] (ngram_reasons sys) argv name (ngram_process sys uc junk junk4 sorder argv) /\
  says_why [MainModel.flag_option 72; MainModel.flag_option 105; MainModel.flag_option 115; MainModel.flag_option 84] (synctext_reasons sys uc junk junk4) argv name (synctext_process sys uc junk junk4 argv) /\
  says_why [MainModel.flag_option 68; MainModel.flag_option 79; string_option 111; string_option 115; string_option 119] (vote_reasons sys) argv name (vote_process sys uc junk junk4 vorder signed argv).
Proof.
  intros sys uc NFC junk junk4 line corder torder sorder vorder fmt fmt6 fmt8 fmt14 fmtd signed argv program name O B P L N.
  pose proof (name_of _ _ _ P L N) as E.
  split; [now apply says_accuracy|]. split; [now apply says_accsum|]. split; [now apply says_accdist|]. split; [now apply says_accci|]. split; [now apply says_groupacc|].
  split; [now apply says_wordacc|]. split; [now apply says_wordaccsum|]. split; [now apply says_wordaccdist|]. split; [now apply says_wordaccci|].
  split; [now apply says_nonstopacc|]. split; [now apply says_wordfreq|]. split; [now apply says_editop|]. split; [now apply says_editopsum|].
  split; [now apply says_editopcost|]. split; [now apply says_ngram|]. split; [now apply says_synctext|now apply says_vote].
Qed.
Print Assumptions C83_messages.

(** C83: the message for a text, which has no header, is determined by the first place that is
    not the encoding of a character. *)
Theorem C83_utf8 : forall uc line buf opt text f msg,
  junk_ok line buf -> Forall is_byte f -> find_header opt = false ->
  (read_text uc line buf opt text f = Fail msg <-> bad_bytes msg f).
Proof.
  intros uc line buf opt text f msg J B H. split.
  - intros E. destruct (text_message _ _ _ _ _ _ _ J B E) as [M|(X & _)]; [exact M|congruence].
  - intros M. destruct (C08_reject uc line buf opt text f J B H) as [_ R]. destruct R as [m E].
    + intros (cs & S & Ef). exact (bad_not_text _ _ _ M S Ef).
    + rewrite E. f_equal. destruct (text_message _ _ _ _ _ _ _ J B E) as [M'|(X & _)]; [exact (bad_fun _ _ _ M' M)|congruence].
Qed.
Print Assumptions C83_utf8.

(** C83: exactly the bytes that are not UTF-8 have a message, and they have one only. *)
Theorem C83_one_message : forall f, Forall is_byte f ->
  ((exists msg, bad_bytes msg f) <-> ~ exists cs, Forall scalar cs /\ f = utf8s cs) /\
  forall msg msg', bad_bytes msg f -> bad_bytes msg' f -> msg = msg'.
Proof.
  intros f B. split; [|intros msg msg'; apply bad_fun]. split.
  - intros [msg M] (cs & S & E). exact (bad_not_text _ _ _ M S E).
  - intros N. assert (junk_ok sample_line sample_buf) as J by (split; [reflexivity|]; split; [reflexivity|]; repeat constructor; unfold is_byte; lia).
    destruct (C08_reject sample_uc sample_line sample_buf group_opt [] f J B eq_refl) as [_ R]. destruct (R N) as [m E]. exists m.
    now apply (C83_utf8 sample_uc sample_line sample_buf group_opt [] f m J B eq_refl).
Qed.
Print Assumptions C83_one_message.

(** ** Examples *)
Definition torn_system : system :=
  mksys (fun n => if list_eq_dec Z.eq_dec n (bytes "lead") then Some (bytes "a" ++ [255] ++ bytes "b")
                  else if list_eq_dec Z.eq_dec n (bytes "cut") then Some (bytes "ab" ++ [226; 130])
                  else if list_eq_dec Z.eq_dec n (bytes "over") then Some (bytes "a" ++ [192; 128])
                  else if list_eq_dec Z.eq_dec n (bytes "a") then Some (bytes "ab" ++ [10]) else None) (fun _ => true).
Example C83_ex :
  ordinary_system torn_system sample_uc sample_line sample_buf /\ line_buffer (repeat 0 100) /\
  standard_error (editop_process torn_system sample_uc sample_line sample_buf [bytes "editop"; bytes "a"; bytes "lead"]) = bytes "editop: invalid UTF-8 character" ++ [10] /\
  standard_error (editop_process torn_system sample_uc sample_line sample_buf [bytes "editop"; bytes "cut"; bytes "a"]) = bytes "editop: unexpected end of input" ++ [10] /\
  standard_error (editop_process torn_system sample_uc sample_line sample_buf [bytes "editop"; bytes "a"; bytes "over"]) = bytes "editop: Invalid UTF-8 string was supplied" ++ [10] /\
  exits (editop_process torn_system sample_uc sample_line sample_buf [bytes "editop"; bytes "a"; bytes "over"]) = Status 1 /\
  bad_bytes "invalid UTF-8 character" (bytes "a" ++ [255] ++ bytes "b") /\ bad_bytes "unexpected end of input" (bytes "ab" ++ [226; 130]).
Proof.
  split.
  { split; [split; [reflexivity|]; split; [reflexivity|]; repeat constructor; unfold is_byte; lia|]. split; [|unfold scalar; intros c Hc; cbn [tolower sample_uc]; destruct ((65 <=? c) && (c <=? 90)) eqn:R; lia].
    intros n f. cbn [contents torn_system]. repeat match goal with |- context [if ?c then _ else _] => destruct c end; intros E; try discriminate E; injection E as <-;
      (repeat (constructor; [unfold is_byte; cbv; intuition discriminate|]); constructor). }
  split; [split; reflexivity|].
  split; [vm_compute; reflexivity|]. split; [vm_compute; reflexivity|]. split; [vm_compute; reflexivity|]. split; [vm_compute; reflexivity|]. split.
  - exists (bytes "a"), ([255] ++ bytes "b"). split; [repeat (constructor; [unfold scalar; cbn; lia|]); constructor|]. split; [reflexivity|]. apply Bad_lead. lia.
  - exists (bytes "ab"), [226; 130]. split; [repeat (constructor; [unfold scalar; cbn; lia|]); constructor|]. split; [reflexivity|]. apply (Cut_short 226 [130] 3); [unfold leads; lia|]. cbn. lia.
Qed.
