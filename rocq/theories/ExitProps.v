(** C82: messages on the standard error, and the exit status. *)
From Coq Require Import String.
From Verif Require Import Base CLib CLibProof Utf8Model TextModel TextProps SyncModel CompareModel DoubleModel WordModel UtilModel UtilProps AccModel AccrptModel
  StopModel StopProps WacModel WacrptModel EdoModel EditopModel EditopDebugModel FreqModel NgramModel SynctextModel GroupModel NonstopModel DistModel CiModel
  VoteModel VoteSelModel MainModel MainIoModel ArgsProps NgramProps VoteProps MainSpec MainProof MainProps MainProgProps CrashSpec CrashProof CrashProps ExitModel ExitSpec ExitProof.
Local Open Scope Z_scope.
Local Open Scope list_scope.

(** Only wordacc warns: about the words of the file of stopwords that occur in it before already. *)
Definition none_warned (_ : list var) (ws : list (list Z)) : Prop := ws = [].
Definition wordacc_warned (sys : system) uc NFC junk junk4 (vars : list var) (ws : list (list Z)) : Prop :=
  match value_of vars 0 with
  | None => ws = []
  | Some n => exists f words, contents sys n = Some f /\ initial_words uc NFC junk junk4 (Some f) = Ok words /\ ws = repeated [] words
  end.

(** ** The programs, one by one *)
Ltac forget := repeat first
  [ apply forgets_all | apply forgets_fold; intros | apply forgets_call0 | apply forgets_call | apply forgets_error | apply forgets_open
  | apply forgets_say | apply forgets_write | apply forgets_print | apply forgets_warn | apply forgets_bind; intros
  | match goal with |- forgets (if ?c then _ else _) _ => destruct c end
  | match goal with |- forgets (match ?c with _ => _ end) _ => destruct c end ].

Lemma save_warnings ws : forall s,
  warnings (fold_left save_stopword ws s) = warnings s ++ repeated (keys s) ws.
Proof.
  induction ws as [|w ws IH]; intros s; cbn [fold_left repeated]; [now rewrite app_nil_r|].
  rewrite IH. unfold save_stopword. destruct (in_dec (list_eq_dec Z.eq_dec) w (keys s)) as [H|H].
  - apply lookup_spec in H. rewrite H. cbn [warnings keys]. now rewrite <- app_assoc.
  - destruct (lookup s w) eqn:E; [exfalso; apply H; now apply lookup_spec|]. reflexivity.
Qed.
Lemma warned uc NFC j j4 file s : init_stopwords uc NFC j j4 at_start file = Ok s ->
  exists words, initial_words uc NFC j j4 file = Ok words /\ warnings s = repeated [] words.
Proof.
  unfold init_stopwords, initial_words. cbn [initialized at_start].
  assert (forall o : outcome (list (list Z)), (let! words := o in let s := fold_left save_stopword words at_start in Ok (mkstop true (keys s) (warnings s))) = Ok s ->
    exists words, o = Ok words /\ warnings s = repeated [] words) as H.
  { intros [words| | |] E; cbn [obind] in E; try discriminate E. injection E as <-. exists words. split; [reflexivity|]. cbn [warnings]. apply save_warnings. }
  destruct file; apply H.
Qed.
Lemma repeated_nodup : forall ws seen, NoDup ws -> (forall w, In w ws -> ~ In w seen) -> repeated seen ws = [].
Proof.
  induction ws as [|w ws IH]; intros seen N H; [reflexivity|]. cbn [repeated]. apply NoDup_cons_iff in N as [N1 N2].
  destruct (in_dec _ w seen) as [I|_]; [exfalso; exact (H w (or_introl eq_refl) I)|]. apply IH; [exact N2|].
  intros v Hv [->|I]; [contradiction|]. exact (H v (or_intror Hv) I).
Qed.
Lemma string_value vars i o : string_of vars (Z.of_nat i) = Ok o -> value_of vars i = o.
Proof.
  unfold string_of, rd, value_of. destruct (znth vars (Z.of_nat i)) as [v|] eqn:E; cbn [obind]; [|intros N; discriminate N].
  intros H. injection H as <-. unfold znth in E. destruct (Z.of_nat i <? 0); [discriminate E|]. rewrite Nat2Z.id in E.
  now rewrite (nth_error_nth _ _ _ E).
Qed.
Lemma valid_no_fail signed s msg : valid_fraction signed s <> Fail msg.
Proof.
  intros N. unfold valid_fraction, rd in N. cbn zeta in N.
  repeat match type of N with
    | context [match znth ?l ?i with _ => _ end] => destruct (znth l i); cbn [obind] in N; try discriminate N
    | context [if ?c then _ else _] => destruct c; try discriminate N
    end.
Qed.

Section Programs.
Variable sys : system.
Variable uc : unicode_data.
Variable NFC : list Z -> list Z.
Variables junk junk4 line : list Z.
Variable corder : list conf -> list conf.
Variable torder : list WacModel.term -> list WacModel.term.
Variable sorder : list NgramModel.entry -> list NgramModel.entry.
Variable vorder : list vseq -> list vseq.
Variables fmt fmt6 fmt8 fmt14 : Z -> Z -> list Z.
Variable fmtd : double -> list Z.
Variable signed : bool.
Hypothesis ordinary : ordinary_system sys uc junk junk4.
Variable argv : list (list Z).
Variable name : list Z.
Hypothesis named : (let! n := rd "argv[0]" argv 0 in basefilename n) = Ok name.

Lemma ends_accuracy :
  ends_well sys "correctfile generatedfile [accuracy_report]"%string
    [] two_files none_warned argv name
    (accuracy_process sys uc junk junk4 corder fmt argv) (accuracy_main sys uc junk junk4 corder fmt argv).
Proof.
  pose proof (C68_same sys uc NFC junk junk4 line corder torder sorder vorder fmt fmt6 fmt8 fmt14 fmtd signed argv) as S.
  apply proj1 in S.
  pose proof (proj1 (Forall_forall _ _) (C68_fail sys uc NFC junk junk4 line corder torder sorder vorder fmt fmt6 fmt8 fmt14 fmtd signed argv ordinary) (accuracy_run sys uc junk junk4 corder fmt argv) ltac:(cbn [In]; tauto)) as H.
  unfold accuracy_process. unfold accuracy_run in S, H.
  eapply process_ok; [exact named|intros; apply parse_no_fail| | |exact S|exact H]; clear S H; intros args vars; cbv beta; [forget|].
  unfold print_px. try change (none_warned vars) with none.
  destruct (_ || _) eqn:L; [apply fin_error; eexists; reflexivity|]. destruct args as [|a [|b rest]]; try discriminate L. clear L.
  rewrite !rd_0, call_ok.
  apply fin_open; [now exists [b]|]. intros f1 _. cbn [app].
  apply fin_call; [now exists [b]|]. intros [t1 h] _. destruct h; [apply fin_error; now exists [b]|].
  rewrite !rd_1, call_ok. apply fin_open; [now exists []|]. intros f2 _. cbn [app].
  apply fin_call; [now exists []|]. intros [t2 h2] _. apply fin_call; [now exists []|]. intros d _. apply fin_write; [now exists []|reflexivity].
Qed.
Lemma ends_accsum :
  ends_well sys "accuracy_report1 accuracy_report2 ... >accuracy_report"%string
    [] all_files none_warned argv name
    (accsum_process sys uc line corder fmt argv) (accsum_main sys uc line corder fmt argv).
Proof.
  pose proof (C68_same sys uc NFC junk junk4 line corder torder sorder vorder fmt fmt6 fmt8 fmt14 fmtd signed argv) as S.
  do 1 apply proj2 in S. apply proj1 in S.
  pose proof (proj1 (Forall_forall _ _) (C68_fail sys uc NFC junk junk4 line corder torder sorder vorder fmt fmt6 fmt8 fmt14 fmtd signed argv ordinary) (accsum_run sys uc line corder fmt argv) ltac:(cbn [In]; tauto)) as H.
  unfold accsum_process. unfold accsum_run in S, H.
  eapply process_ok; [exact named|intros; apply parse_no_fail| | |exact S|exact H]; clear S H; intros args vars; cbv beta; [forget|].
  unfold print_px. try change (none_warned vars) with none.
  destruct (_ <? _); [apply fin_error; eexists; reflexivity|].
  apply fin_all; [reflexivity|]. intros [d l]. apply fin_write; [exists []; now rewrite app_nil_r|reflexivity].
Qed.
Lemma ends_accdist :
  ends_well sys "accuracy_report1 accuracy_report2 ... >xyfile"%string
    [] all_files none_warned argv name
    (accdist_process sys line fmt6 argv) (accdist_main sys line fmt6 argv).
Proof.
  pose proof (C68_same sys uc NFC junk junk4 line corder torder sorder vorder fmt fmt6 fmt8 fmt14 fmtd signed argv) as S.
  do 2 apply proj2 in S. apply proj1 in S.
  pose proof (proj1 (Forall_forall _ _) (C68_fail sys uc NFC junk junk4 line corder torder sorder vorder fmt fmt6 fmt8 fmt14 fmtd signed argv ordinary) (accdist_run sys line fmt6 argv) ltac:(cbn [In]; tauto)) as H.
  unfold accdist_process. unfold accdist_run in S, H.
  eapply process_ok; [exact named|intros; apply parse_no_fail| | |exact S|exact H]; clear S H; intros args vars; cbv beta; [forget|].
  unfold print_px. try change (none_warned vars) with none.
  apply fin_all; [reflexivity|]. intros [d l]. apply fin_write; [exists []; now rewrite app_nil_r|reflexivity].
Qed.
Lemma ends_accci :
  ends_well sys "accuracy_report1 accuracy_report2 ... >resultfile"%string
    [] all_files none_warned argv name
    (accci_process sys line fmt14 fmtd argv) (accci_main sys line fmt14 fmtd argv).
Proof.
  pose proof (C68_same sys uc NFC junk junk4 line corder torder sorder vorder fmt fmt6 fmt8 fmt14 fmtd signed argv) as S.
  do 3 apply proj2 in S. apply proj1 in S.
  pose proof (proj1 (Forall_forall _ _) (C68_fail sys uc NFC junk junk4 line corder torder sorder vorder fmt fmt6 fmt8 fmt14 fmtd signed argv ordinary) (accci_run sys line fmt14 fmtd argv) ltac:(cbn [In]; tauto)) as H.
  unfold accci_process. unfold accci_run in S, H.
  eapply process_ok; [exact named|intros; apply parse_no_fail| | |exact S|exact H]; clear S H; intros args vars; cbv beta; [forget|].
  unfold print_px. try change (none_warned vars) with none.
  destruct (_ <? _); [apply fin_error; eexists; reflexivity|].
  apply fin_all; [reflexivity|]. intros [st l].
  apply fin_call; [exists []; now rewrite app_nil_r|]. intros ci _. apply fin_write; [exists []; now rewrite app_nil_r|reflexivity].
Qed.
Lemma ends_groupacc :
  ends_well sys "groupfile accuracy_report [groupacc_report]"%string
    [] two_files none_warned argv name
    (groupacc_process sys uc junk junk4 line fmt8 argv) (groupacc_main sys uc junk junk4 line fmt8 argv).
Proof.
  pose proof (C68_same sys uc NFC junk junk4 line corder torder sorder vorder fmt fmt6 fmt8 fmt14 fmtd signed argv) as S.
  do 4 apply proj2 in S. apply proj1 in S.
  pose proof (proj1 (Forall_forall _ _) (C68_fail sys uc NFC junk junk4 line corder torder sorder vorder fmt fmt6 fmt8 fmt14 fmtd signed argv ordinary) (groupacc_run sys uc junk junk4 line fmt8 argv) ltac:(cbn [In]; tauto)) as H.
  unfold groupacc_process. unfold groupacc_run in S, H.
  eapply process_ok; [exact named|intros; apply parse_no_fail| | |exact S|exact H]; clear S H; intros args vars; cbv beta; [forget|].
  unfold print_px. try change (none_warned vars) with none.
  destruct (_ || _) eqn:L; [apply fin_error; eexists; reflexivity|]. destruct args as [|a [|b rest]]; try discriminate L. clear L.
  rewrite !rd_0, call_ok.
  apply fin_open; [now exists [b]|]. intros f1 _. cbn [app].
  apply fin_call; [now exists [b]|]. intros [t1 h] _.
  rewrite !rd_1, call_ok. apply fin_open; [now exists []|]. intros f2 _.
  apply fin_about; [now exists []|]. intros [d l] _. apply fin_write; [now exists []|reflexivity].
Qed.
Lemma ends_wordacc :
  ends_well sys "[-S stopwordfile] correctfile generatedfile [wordacc_report]"%string
    [string_option 83] wordacc_files (wordacc_warned sys uc NFC junk junk4) argv name
    (wordacc_process sys uc NFC junk junk4 torder fmt argv) (wordacc_main sys uc NFC junk junk4 torder fmt argv).
Proof.
  pose proof (C68_same sys uc NFC junk junk4 line corder torder sorder vorder fmt fmt6 fmt8 fmt14 fmtd signed argv) as S.
  do 5 apply proj2 in S. apply proj1 in S.
  pose proof (proj1 (Forall_forall _ _) (C68_fail sys uc NFC junk junk4 line corder torder sorder vorder fmt fmt6 fmt8 fmt14 fmtd signed argv ordinary) (wordacc_run sys uc NFC junk junk4 torder fmt argv) ltac:(cbn [In]; tauto)) as H.
  unfold wordacc_process. unfold wordacc_run in S, H.
  eapply process_ok; [exact named|intros; apply parse_no_fail| | |exact S|exact H]; clear S H; intros args vars; cbv beta; [forget|].
  destruct (_ || _) eqn:L; [apply fin_error; eexists; reflexivity|]. destruct args as [|a [|b rest]]; try discriminate L. clear L.
  apply fin_call; [eexists; reflexivity|]. intros sw E. apply (string_value vars 0) in E.
  apply (fin_bind sys _ _ _ _ _ (fun sf d => d = match sw with Some s => [s] | None => [] end /\
    match sw with Some n => exists f, contents sys n = Some f /\ sf = Some f | None => sf = None end)).
  { destruct sw as [s|].
    - eapply tells_bind; [apply (tells_open sys _ [] s (fun f d => d = [s] /\ contents sys s = Some f)); [cbn [reading wordacc_files]; rewrite E; now exists [a; b]|auto]|].
      intros f d R [-> F]. apply tells_call; [exact R|]. intros x X. injection X as <-. split; [reflexivity|eauto].
    - apply tells_call; [eexists; reflexivity|]. intros x X. injection X as <-. split; reflexivity. }
  intros sf d R [Ed Hsf]. apply fin_call; [exact R|]. intros stop Es. apply warned in Es as (words & Ew & Hw).
  apply fin_warn.
  { unfold wordacc_warned. rewrite E. destruct sw as [s|].
    - destruct Hsf as (f & F & ->). exists f, words. auto.
    - subst sf. cbn [initial_words] in Ew. injection Ew as <-. rewrite Hw. apply repeated_nodup; [exact (proj1 C42_default)|intros ? _ []]. }
  assert (reading (wordacc_files (a :: b :: rest) vars) = d ++ [a; b]) as R2 by (cbn [reading wordacc_files]; rewrite E, Ed; reflexivity).
  rewrite !rd_0, call_ok. apply fin_open; [now exists [b]|]. intros f1 _.
  assert (exists later, reading (wordacc_files (a :: b :: rest) vars) = (d ++ [a]) ++ later) as R3 by (exists [b]; now rewrite <- app_assoc).
  apply fin_call; [exact R3|]. intros [t1 h] _. destruct h; [apply fin_error; exact R3|].
  apply fin_call; [exact R3|]. intros w0 _.
  rewrite !rd_1, call_ok. apply fin_open; [exists []; now rewrite <- app_assoc|]. intros f2 _.
  assert (exists later, reading (wordacc_files (a :: b :: rest) vars) = ((d ++ [a]) ++ [b]) ++ later) as R4 by (exists []; now rewrite <- !app_assoc).
  apply fin_call; [exact R4|]. intros [t2 h2] _. apply fin_call; [exact R4|]. intros w1 _. apply fin_call; [exact R4|]. intros dd _.
  apply fin_write; [exact R4|reflexivity].
Qed.
Lemma ends_wordaccsum :
  ends_well sys "wordacc_report1 wordacc_report2 ... >wordacc_report"%string
    [] all_files none_warned argv name
    (wordaccsum_process sys line torder fmt argv) (wordaccsum_main sys line torder fmt argv).
Proof.
  pose proof (C68_same sys uc NFC junk junk4 line corder torder sorder vorder fmt fmt6 fmt8 fmt14 fmtd signed argv) as S.
  do 6 apply proj2 in S. apply proj1 in S.
  pose proof (proj1 (Forall_forall _ _) (C68_fail sys uc NFC junk junk4 line corder torder sorder vorder fmt fmt6 fmt8 fmt14 fmtd signed argv ordinary) (wordaccsum_run sys line torder fmt argv) ltac:(cbn [In]; tauto)) as H.
  unfold wordaccsum_process. unfold wordaccsum_run in S, H.
  eapply process_ok; [exact named|intros; apply parse_no_fail| | |exact S|exact H]; clear S H; intros args vars; cbv beta; [forget|].
  unfold print_px. try change (none_warned vars) with none.
  destruct (_ <? _); [apply fin_error; eexists; reflexivity|].
  apply fin_all; [reflexivity|]. intros [d l]. apply fin_write; [exists []; now rewrite app_nil_r|reflexivity].
Qed.
Lemma ends_wordaccdist :
  ends_well sys "wordacc_report1 wordacc_report2 ... >xyfile"%string
    [] all_files none_warned argv name
    (wordaccdist_process sys line fmt6 argv) (wordaccdist_main sys line fmt6 argv).
Proof.
  pose proof (C68_same sys uc NFC junk junk4 line corder torder sorder vorder fmt fmt6 fmt8 fmt14 fmtd signed argv) as S.
  do 7 apply proj2 in S. apply proj1 in S.
  pose proof (proj1 (Forall_forall _ _) (C68_fail sys uc NFC junk junk4 line corder torder sorder vorder fmt fmt6 fmt8 fmt14 fmtd signed argv ordinary) (wordaccdist_run sys line fmt6 argv) ltac:(cbn [In]; tauto)) as H.
  unfold wordaccdist_process. unfold wordaccdist_run in S, H.
  eapply process_ok; [exact named|intros; apply parse_no_fail| | |exact S|exact H]; clear S H; intros args vars; cbv beta; [forget|].
  unfold print_px. try change (none_warned vars) with none.
  apply fin_all; [reflexivity|]. intros [d l]. apply fin_write; [exists []; now rewrite app_nil_r|reflexivity].
Qed.
Lemma ends_wordaccci :
  ends_well sys "wordacc_report1 wordacc_report2 ... >resultfile"%string
    [] all_files none_warned argv name
    (wordaccci_process sys line fmt14 fmtd argv) (wordaccci_main sys line fmt14 fmtd argv).
Proof.
  pose proof (C68_same sys uc NFC junk junk4 line corder torder sorder vorder fmt fmt6 fmt8 fmt14 fmtd signed argv) as S.
  do 8 apply proj2 in S. apply proj1 in S.
  pose proof (proj1 (Forall_forall _ _) (C68_fail sys uc NFC junk junk4 line corder torder sorder vorder fmt fmt6 fmt8 fmt14 fmtd signed argv ordinary) (wordaccci_run sys line fmt14 fmtd argv) ltac:(cbn [In]; tauto)) as H.
  unfold wordaccci_process. unfold wordaccci_run in S, H.
  eapply process_ok; [exact named|intros; apply parse_no_fail| | |exact S|exact H]; clear S H; intros args vars; cbv beta; [forget|].
  unfold print_px. try change (none_warned vars) with none.
  destruct (_ <? _); [apply fin_error; eexists; reflexivity|].
  apply fin_all; [reflexivity|]. intros [st l].
  apply fin_call; [exists []; now rewrite app_nil_r|]. intros ci _. apply fin_write; [exists []; now rewrite app_nil_r|reflexivity].
Qed.
Lemma ends_nonstopacc :
  ends_well sys "stopwordfile wordacc_report >xyfile"%string
    [] all_files none_warned argv name
    (nonstopacc_process sys uc NFC junk junk4 line fmt6 argv) (nonstopacc_main sys uc NFC junk junk4 line fmt6 argv).
Proof.
  pose proof (C68_same sys uc NFC junk junk4 line corder torder sorder vorder fmt fmt6 fmt8 fmt14 fmtd signed argv) as S.
  do 9 apply proj2 in S. apply proj1 in S.
  pose proof (proj1 (Forall_forall _ _) (C68_fail sys uc NFC junk junk4 line corder torder sorder vorder fmt fmt6 fmt8 fmt14 fmtd signed argv ordinary) (nonstopacc_run sys uc NFC junk junk4 line fmt6 argv) ltac:(cbn [In]; tauto)) as H.
  unfold nonstopacc_process. unfold nonstopacc_run in S, H.
  eapply process_ok; [exact named|intros; apply parse_no_fail| | |exact S|exact H]; clear S H; intros args vars; cbv beta; [forget|].
  unfold print_px. try change (none_warned vars) with none.
  destruct (negb _) eqn:L; [apply fin_error; eexists; reflexivity|]. destruct args as [|a [|b [|c rest]]]; try discriminate L.
  2:{ exfalso. rewrite !zlen_cons in L. pose proof (zlen_nonneg rest). destruct (Z.eqb_spec (zlen rest + 1 + 1 + 1) 2); [lia|discriminate L]. }
  rewrite !rd_0, call_ok. apply fin_open; [now exists [b]|]. intros f1 _. cbn [app].
  apply fin_call; [now exists [b]|]. intros ws _.
  rewrite !rd_1, call_ok. apply fin_open; [now exists []|]. intros f2 _.
  apply fin_about; [now exists []|]. intros [d l] _. apply fin_write; [now exists []|reflexivity].
Qed.
Lemma ends_wordfreq :
  ends_well sys "textfile1 textfile2 ... >resultfile"%string
    [] all_files none_warned argv name
    (wordfreq_process sys uc NFC junk junk4 torder argv) (wordfreq_main sys uc NFC junk junk4 torder argv).
Proof.
  pose proof (C68_same sys uc NFC junk junk4 line corder torder sorder vorder fmt fmt6 fmt8 fmt14 fmtd signed argv) as S.
  do 10 apply proj2 in S. apply proj1 in S.
  pose proof (proj1 (Forall_forall _ _) (C68_fail sys uc NFC junk junk4 line corder torder sorder vorder fmt fmt6 fmt8 fmt14 fmtd signed argv ordinary) (wordfreq_run sys uc NFC junk junk4 torder argv) ltac:(cbn [In]; tauto)) as H.
  unfold wordfreq_process. unfold wordfreq_run in S, H.
  eapply process_ok; [exact named|intros; apply parse_no_fail| | |exact S|exact H]; clear S H; intros args vars; cbv beta; [forget|].
  unfold print_px. try change (none_warned vars) with none.
  destruct (_ =? _); [apply fin_error; eexists; reflexivity|].
  apply fin_all; [reflexivity|]. intros tab. apply fin_write; [exists []; now rewrite app_nil_r|reflexivity].
Qed.
Lemma ends_editop :
  ends_well sys "correctfile generatedfile [editop_report]"%string
    [MainModel.flag_option 68] two_files none_warned argv name
    (editop_process sys uc junk junk4 argv) (editop_main sys uc junk junk4 argv).
Proof.
  pose proof (C68_same sys uc NFC junk junk4 line corder torder sorder vorder fmt fmt6 fmt8 fmt14 fmtd signed argv) as S.
  do 11 apply proj2 in S. apply proj1 in S.
  pose proof (proj1 (Forall_forall _ _) (C68_fail sys uc NFC junk junk4 line corder torder sorder vorder fmt fmt6 fmt8 fmt14 fmtd signed argv ordinary) (editop_run sys uc junk junk4 argv) ltac:(cbn [In]; tauto)) as H.
  unfold editop_process. unfold editop_run in S, H.
  eapply process_ok; [exact named|intros; apply parse_no_fail| | |exact S|exact H]; clear S H; intros args vars; cbv beta; [forget|].
  unfold print_px. try change (none_warned vars) with none.
  apply fin_call; [eexists; reflexivity|]. intros debug _.
  destruct (_ || _) eqn:L; [apply fin_error; eexists; reflexivity|]. destruct args as [|a [|b rest]]; try discriminate L. clear L.
  rewrite !rd_0, call_ok.
  apply fin_open; [now exists [b]|]. intros f1 _. cbn [app].
  apply fin_call; [now exists [b]|]. intros [t1 h] _. destruct h; [apply fin_error; now exists [b]|].
  rewrite !rd_1, call_ok. apply fin_open; [now exists []|]. intros f2 _. cbn [app].
  apply fin_call; [now exists []|]. intros [t2 h2] _. apply fin_call; [now exists []|]. intros [d pr] _.
  apply fin_say; [now exists []|]. apply quiet_write. reflexivity.
Qed.
Lemma ends_editopsum :
  ends_well sys "editop_report1 editop_report2 ... >editop_report"%string
    [] all_files none_warned argv name
    (editopsum_process sys line argv) (editopsum_main sys line argv).
Proof.
  pose proof (C68_same sys uc NFC junk junk4 line corder torder sorder vorder fmt fmt6 fmt8 fmt14 fmtd signed argv) as S.
  do 12 apply proj2 in S. apply proj1 in S.
  pose proof (proj1 (Forall_forall _ _) (C68_fail sys uc NFC junk junk4 line corder torder sorder vorder fmt fmt6 fmt8 fmt14 fmtd signed argv ordinary) (editopsum_run sys line argv) ltac:(cbn [In]; tauto)) as H.
  unfold editopsum_process. unfold editopsum_run in S, H.
  eapply process_ok; [exact named|intros; apply parse_no_fail| | |exact S|exact H]; clear S H; intros args vars; cbv beta; [forget|].
  unfold print_px. try change (none_warned vars) with none.
  destruct (_ <? _); [apply fin_error; eexists; reflexivity|].
  apply fin_all; [reflexivity|]. intros [d l]. apply fin_write; [exists []; now rewrite app_nil_r|reflexivity].
Qed.
Lemma ends_editopcost :
  ends_well sys "editop_report [editop_report2] >xyfile"%string
    [] all_files none_warned argv name
    (editopcost_process sys line argv) (editopcost_main sys line argv).
Proof.
  pose proof (C68_same sys uc NFC junk junk4 line corder torder sorder vorder fmt fmt6 fmt8 fmt14 fmtd signed argv) as S.
  do 13 apply proj2 in S. apply proj1 in S.
  pose proof (proj1 (Forall_forall _ _) (C68_fail sys uc NFC junk junk4 line corder torder sorder vorder fmt fmt6 fmt8 fmt14 fmtd signed argv ordinary) (editopcost_run sys line argv) ltac:(cbn [In]; tauto)) as H.
  unfold editopcost_process. unfold editopcost_run in S, H.
  eapply process_ok; [exact named|intros; apply parse_no_fail| | |exact S|exact H]; clear S H; intros args vars; cbv beta; [forget|].
  unfold print_px. try change (none_warned vars) with none.
  destruct (_ || _) eqn:L; [apply fin_error; eexists; reflexivity|]. destruct args as [|a rest]; try discriminate L.
  rewrite !rd_0, call_ok. apply fin_open; [now exists rest|]. intros f1 _.
  apply fin_about; [now exists rest|]. intros [d l] _.
  destruct (_ =? 2) eqn:E2.
  - destruct rest as [|b rest]; [discriminate E2|]. cbn [app].
    apply (fin_bind sys _ _ _ _ _ (fun _ _ => True)).
    { rewrite !rd_1, call_ok. eapply tells_bind; [apply (tells_open sys _ [a] b (fun _ d => d = [a] ++ [b])); [now exists rest|auto]|].
      intros f d' R ->. eapply tells_bind; [apply (tells_call_on sys _ ([a] ++ [b]) (about b) _ (fun _ d => d = [a] ++ [b])); [exact R| |auto]|].
      - unfold about. constructor; [|constructor; [|constructor]]; cbn [fst snd blames]; right; right; left; (split; [auto|now exists [a]]).
      - intros [d2 l2] d' R' ->. apply tells_call; auto. }
    intros d3 done R _. apply fin_write; [exact R|reflexivity].
  - rewrite call_ok. apply fin_write; [now exists rest|reflexivity].
Qed.
Lemma ends_ngram :
  ends_well sys "[-n 1|2|3] textfile1 textfile2 ... >resultfile"%string
    [string_option 110] ngram_files none_warned argv name
    (ngram_process sys uc junk junk4 sorder argv) (ngram_main sys uc junk junk4 sorder argv).
Proof.
  pose proof (C68_same sys uc NFC junk junk4 line corder torder sorder vorder fmt fmt6 fmt8 fmt14 fmtd signed argv) as S.
  do 14 apply proj2 in S. apply proj1 in S.
  pose proof (proj1 (Forall_forall _ _) (C68_fail sys uc NFC junk junk4 line corder torder sorder vorder fmt fmt6 fmt8 fmt14 fmtd signed argv ordinary) (ngram_run sys uc junk junk4 sorder argv) ltac:(cbn [In]; tauto)) as H.
  unfold ngram_process. unfold ngram_run in S, H.
  eapply process_ok; [exact named|intros; apply parse_no_fail| | |exact S|exact H]; clear S H; intros args vars; cbv beta; [forget|].
  unfold print_px. try change (none_warned vars) with none.
  apply fin_call; [eexists; reflexivity|]. intros ns E. apply (string_value vars 0) in E.
  destruct (_ =? _); [apply fin_error; eexists; reflexivity|].
  apply fin_call_on; [eexists; reflexivity| |].
  { intros msg Em. cbn [shown_with]. destruct (string_dec msg _) as [->|]; [|exact I]. right. right. right. cbn [option_value ngram_files].
    rewrite E. destruct ns as [s|]; [reflexivity|discriminate Em]. }
  intros n _. apply fin_all; [reflexivity|]. intros t. apply fin_write; [exists []; now rewrite app_nil_r|reflexivity].
Qed.
Lemma ends_synctext :
  ends_well sys "[-H] [-i] [-s] [-T] textfile1 textfile2 ... >resultfile"%string
    [MainModel.flag_option 72; MainModel.flag_option 105; MainModel.flag_option 115; MainModel.flag_option 84] all_files none_warned argv name
    (synctext_process sys uc junk junk4 argv) (synctext_main sys uc junk junk4 argv).
Proof.
  pose proof (C68_same sys uc NFC junk junk4 line corder torder sorder vorder fmt fmt6 fmt8 fmt14 fmtd signed argv) as S.
  do 15 apply proj2 in S. apply proj1 in S.
  pose proof (proj1 (Forall_forall _ _) (C68_fail sys uc NFC junk junk4 line corder torder sorder vorder fmt fmt6 fmt8 fmt14 fmtd signed argv ordinary) (synctext_run sys uc junk junk4 argv) ltac:(cbn [In]; tauto)) as H.
  unfold synctext_process. unfold synctext_run in S, H.
  eapply process_ok; [exact named|intros; apply parse_no_fail| | |exact S|exact H]; clear S H; intros args vars; cbv beta; [forget|].
  unfold print_px. try change (none_warned vars) with none.
  do 4 (apply fin_call; [eexists; reflexivity|]; intros ? _).
  destruct (_ || _); [apply fin_error; eexists; reflexivity|].
  apply fin_all; [reflexivity|]. intros texts. cbn zeta. match goal with |- fin _ _ _ _ (if ?c then _ else _) => destruct c end.
  - apply fin_call; [exists []; now rewrite app_nil_r|]. intros [l1 l2] _. apply fin_write; [exists []; now rewrite app_nil_r|reflexivity].
  - apply fin_call; [exists []; now rewrite app_nil_r|]. intros l _. apply fin_write; [exists []; now rewrite app_nil_r|reflexivity].
Qed.
Lemma ends_vote :
  ends_well sys "[-O] [-o outputfile] [-s m/n] [-w m/n] textfile1 textfile2 ..."%string
    [MainModel.flag_option 68; MainModel.flag_option 79; string_option 111; string_option 115; string_option 119] vote_files none_warned argv name
    (vote_process sys uc junk junk4 vorder signed argv) (vote_main sys uc junk junk4 vorder signed argv).
Proof.
  pose proof (C68_same sys uc NFC junk junk4 line corder torder sorder vorder fmt fmt6 fmt8 fmt14 fmtd signed argv) as S.
  do 16 apply proj2 in S. 
  pose proof (proj1 (Forall_forall _ _) (C68_fail sys uc NFC junk junk4 line corder torder sorder vorder fmt fmt6 fmt8 fmt14 fmtd signed argv ordinary) (vote_run sys uc junk junk4 vorder signed argv) ltac:(cbn [In]; tauto)) as H.
  unfold vote_process. unfold vote_run in S, H.
  eapply process_ok; [exact named|intros; apply parse_no_fail| | |exact S|exact H]; clear S H; intros args vars; cbv beta; [forget|].
  unfold print_px. try change (none_warned vars) with none.
  apply fin_call; [eexists; reflexivity|]. intros debug _. apply fin_call; [eexists; reflexivity|]. intros optimize _.
  apply fin_call; [eexists; reflexivity|]. intros out E2. apply (string_value vars 2) in E2.
  apply fin_call; [eexists; reflexivity|]. intros sf E3. apply (string_value vars 3) in E3.
  apply fin_call; [eexists; reflexivity|]. intros wf E4. apply (string_value vars 4) in E4.
  destruct (_ || _); [apply fin_error; eexists; reflexivity|].
  assert (exists later, reading (vote_files args vars) = args ++ later) as R by (exists []; now rewrite app_nil_r).
  eapply fin_bind.
  { apply (tells_fold sys _ _ args [] []); [cbn [reading vote_files app]; now rewrite app_nil_r|].
    intros st n done later Hr. eapply tells_bind; [apply (tells_open sys _ done n (fun _ d => d = done ++ [n])); eauto|].
    intros f d Rd ->. eapply tells_bind; [apply (tells_call sys _ (done ++ [n]) _ (fun _ d => d = done ++ [n])); auto|].
    intros [t h] d Rd' ->. apply tells_call; auto. }
  cbv beta. intros voters d _ ->. cbn [app]. apply fin_call_on; [exact R| |].
  { intros msg Em. cbn [shown_with].
    assert (msg = "invalid weight"%string /\ wf <> None \/ msg = "invalid threshold"%string /\ sf <> None) as [[-> N]|[-> N]].
    { unfold set_options in Em. cbn zeta in Em. destruct wf as [w|].
      - destruct (valid_fraction signed w) as [[[m n]|]|m| |] eqn:Ev; cbn [obind] in Em; try discriminate Em.
        + right. destruct sf as [s|]; [|discriminate Em]. destruct (valid_fraction signed s) as [[[m' n']|]|m'| |] eqn:Ev'; cbn [obind] in Em; try discriminate Em.
          * injection Em as <-. split; [reflexivity|discriminate].
          * exfalso. exact (valid_no_fail _ _ _ Ev').
        + left. injection Em as <-. split; [reflexivity|discriminate].
        + exfalso. exact (valid_no_fail _ _ _ Ev).
      - cbn [obind] in Em. right. destruct sf as [s|]; [|discriminate Em]. destruct (valid_fraction signed s) as [[[m' n']|]|m'| |] eqn:Ev'; cbn [obind] in Em; try discriminate Em.
        + injection Em as <-. split; [reflexivity|discriminate].
        + exfalso. exact (valid_no_fail _ _ _ Ev'). }
    - cbn -[vote_files value_of]. right. right. right. cbn -[value_of]. rewrite E4. destruct wf; [reflexivity|congruence].
    - cbn -[vote_files value_of]. right. right. right. cbn -[value_of]. rewrite E3. destruct sf; [reflexivity|congruence]. }
  intros st _. apply fin_call; [exact R|]. intros [pr input] _. apply fin_say; [exact R|]. apply quiet_call. intros o _. apply quiet_write. exact E2.
Qed.
End Programs.

(** C82: for every program and every command line, with [name] the last part of argv[0]: if the
    program does its work, the status is 0 and there is nothing on the standard error but the
    warnings of wordacc; -help gives the usage and the status 0; everything else gives the status 1
    and one line, which begins with the name of the program, and names the file or the value that is
    to blame (see ExitSpec.ends_well). *)
Theorem C82_ends : forall sys uc NFC junk junk4 line corder torder sorder vorder fmt fmt6 fmt8 fmt14 fmtd signed argv program name,
  ordinary_system sys uc junk junk4 -> nth_error argv 0 = Some program -> zlen program <= 32768 -> base_of program name ->
  ends_well sys "correctfile generatedfile [accuracy_report]"%string
    [] two_files none_warned argv name
    (accuracy_process sys uc junk junk4 corder fmt argv) (accuracy_main sys uc junk junk4 corder fmt argv) /\
  ends_well sys "accuracy_report1 accuracy_report2 ... >accuracy_report"%string
    [] all_files none_warned argv name
    (accsum_process sys uc line corder fmt argv) (accsum_main sys uc line corder fmt argv) /\
  ends_well sys "accuracy_report1 accuracy_report2 ... >xyfile"%string
    [] all_files none_warned argv name
    (accdist_process sys line fmt6 argv) (accdist_main sys line fmt6 argv) /\
  ends_well sys "accuracy_report1 accuracy_report2 ... >resultfile"%string
    [] all_files none_warned argv name
    (accci_process sys line fmt14 fmtd argv) (accci_main sys line fmt14 fmtd argv) /\
  ends_well sys "groupfile accuracy_report [groupacc_report]"%string
    [] two_files none_warned argv name
    (groupacc_process sys uc junk junk4 line fmt8 argv) (groupacc_main sys uc junk junk4 line fmt8 argv) /\
  ends_well sys "[-S stopwordfile] correctfile generatedfile [wordacc_report]"%string
    [string_option 83] wordacc_files (wordacc_warned sys uc NFC junk junk4) argv name
    (wordacc_process sys uc NFC junk junk4 torder fmt argv) (wordacc_main sys uc NFC junk junk4 torder fmt argv) /\
  ends_well sys "wordacc_report1 wordacc_report2 ... >wordacc_report"%string
    [] all_files none_warned argv name
    (wordaccsum_process sys line torder fmt argv) (wordaccsum_main sys line torder fmt argv) /\
  ends_well sys "wordacc_report1 wordacc_report2 ... >xyfile"%string
    [] all_files none_warned argv name
    (wordaccdist_process sys line fmt6 argv) (wordaccdist_main sys line fmt6 argv) /\
  ends_well sys "wordacc_report1 wordacc_report2 ... >resultfile"%string
    [] all_files none_warned argv name
    (wordaccci_process sys line fmt14 fmtd argv) (wordaccci_main sys line fmt14 fmtd argv) /\
  ends_well sys "stopwordfile wordacc_report >xyfile"%string
    [] all_files none_warned argv name
    (nonstopacc_process sys uc NFC junk junk4 line fmt6 argv) (nonstopacc_main sys uc NFC junk junk4 line fmt6 argv) /\
  ends_well sys "textfile1 textfile2 ... >resultfile"%string
    [] all_files none_warned argv name
    (wordfreq_process sys uc NFC junk junk4 torder argv) (wordfreq_main sys uc NFC junk junk4 torder argv) /\
  ends_well sys "correctfile generatedfile [editop_report]"%string
    [MainModel.flag_option 68] two_files none_warned argv name
    (editop_process sys uc junk junk4 argv) (editop_main sys uc junk junk4 argv) /\
  ends_well sys "editop_report1 editop_report2 ... >editop_report"%string
    [] all_files none_warned argv name
    (editopsum_process sys line argv) (editopsum_main sys line argv) /\
  ends_well sys "editop_report [editop_report2] >xyfile"%string
    [] all_files none_warned argv name
    (editopcost_process sys line argv) (editopcost_main sys line argv) /\
  ends_well sys "[-n 1|2|3] textfile1 textfile2 ... >resultfile"%string
    [string_option 110] ngram_files none_warned argv name
    (ngram_process sys uc junk junk4 sorder argv) (ngram_main sys uc junk junk4 sorder argv) /\
  ends_well sys "[-H] [-i] [-s] [-T] textfile1 textfile2 ... >resultfile"%string
    [MainModel.flag_option 72; MainModel.flag_option 105; MainModel.flag_option 115; MainModel.flag_option 84] all_files none_warned argv name
    (synctext_process sys uc junk junk4 argv) (synctext_main sys uc junk junk4 argv) /\
  ends_well sys "[-O] [-o outputfile] [-s m/n] [-w m/n] textfile1 textfile2 ..."%string
    [MainModel.flag_option 68; MainModel.flag_option 79; string_option 111; string_option 115; string_option 119] vote_files none_warned argv name
    (vote_process sys uc junk junk4 vorder signed argv) (vote_main sys uc junk junk4 vorder signed argv).
Proof.
  intros sys uc NFC junk junk4 line corder torder sorder vorder fmt fmt6 fmt8 fmt14 fmtd signed argv program name O P L B.
  assert ((let! n := rd "argv[0]" argv 0 in basefilename n) = Ok name) as named.
  { destruct argv as [|p rest]; [discriminate P|]. injection P as ->. rewrite rd_0. cbn [obind].
    destruct (C57_base_partial program L) as (b & -> & B'). now rewrite (C57_unique _ _ _ B B'). }
  split; [now apply (ends_accuracy sys uc NFC junk junk4 line corder torder sorder vorder fmt fmt6 fmt8 fmt14 fmtd signed)|].
  split; [now apply (ends_accsum sys uc NFC junk junk4 line corder torder sorder vorder fmt fmt6 fmt8 fmt14 fmtd signed)|].
  split; [now apply (ends_accdist sys uc NFC junk junk4 line corder torder sorder vorder fmt fmt6 fmt8 fmt14 fmtd signed)|].
  split; [now apply (ends_accci sys uc NFC junk junk4 line corder torder sorder vorder fmt fmt6 fmt8 fmt14 fmtd signed)|].
  split; [now apply (ends_groupacc sys uc NFC junk junk4 line corder torder sorder vorder fmt fmt6 fmt8 fmt14 fmtd signed)|].
  split; [now apply (ends_wordacc sys uc NFC junk junk4 line corder torder sorder vorder fmt fmt6 fmt8 fmt14 fmtd signed)|].
  split; [now apply (ends_wordaccsum sys uc NFC junk junk4 line corder torder sorder vorder fmt fmt6 fmt8 fmt14 fmtd signed)|].
  split; [now apply (ends_wordaccdist sys uc NFC junk junk4 line corder torder sorder vorder fmt fmt6 fmt8 fmt14 fmtd signed)|].
  split; [now apply (ends_wordaccci sys uc NFC junk junk4 line corder torder sorder vorder fmt fmt6 fmt8 fmt14 fmtd signed)|].
  split; [now apply (ends_nonstopacc sys uc NFC junk junk4 line corder torder sorder vorder fmt fmt6 fmt8 fmt14 fmtd signed)|].
  split; [now apply (ends_wordfreq sys uc NFC junk junk4 line corder torder sorder vorder fmt fmt6 fmt8 fmt14 fmtd signed)|].
  split; [now apply (ends_editop sys uc NFC junk junk4 line corder torder sorder vorder fmt fmt6 fmt8 fmt14 fmtd signed)|].
  split; [now apply (ends_editopsum sys uc NFC junk junk4 line corder torder sorder vorder fmt fmt6 fmt8 fmt14 fmtd signed)|].
  split; [now apply (ends_editopcost sys uc NFC junk junk4 line corder torder sorder vorder fmt fmt6 fmt8 fmt14 fmtd signed)|].
  split; [now apply (ends_ngram sys uc NFC junk junk4 line corder torder sorder vorder fmt fmt6 fmt8 fmt14 fmtd signed)|].
  split; [now apply (ends_synctext sys uc NFC junk junk4 line corder torder sorder vorder fmt fmt6 fmt8 fmt14 fmtd signed)|].
  now apply (ends_vote sys uc NFC junk junk4 line corder torder sorder vorder fmt fmt6 fmt8 fmt14 fmtd signed).
Qed.
Print Assumptions C82_ends.
(** ** A file that is not there *)
Definition processes sys uc NFC junk junk4 line corder torder sorder vorder fmt fmt6 fmt8 fmt14 fmtd signed argv : list final :=
  [accuracy_process sys uc junk junk4 corder fmt argv;
   accsum_process sys uc line corder fmt argv;
   accdist_process sys line fmt6 argv;
   accci_process sys line fmt14 fmtd argv;
   groupacc_process sys uc junk junk4 line fmt8 argv;
   wordacc_process sys uc NFC junk junk4 torder fmt argv;
   wordaccsum_process sys line torder fmt argv;
   wordaccdist_process sys line fmt6 argv;
   wordaccci_process sys line fmt14 fmtd argv;
   nonstopacc_process sys uc NFC junk junk4 line fmt6 argv;
   wordfreq_process sys uc NFC junk junk4 torder argv;
   editop_process sys uc junk junk4 argv;
   editopsum_process sys line argv;
   editopcost_process sys line argv;
   ngram_process sys uc junk junk4 sorder argv;
   synctext_process sys uc junk junk4 argv;
   vote_process sys uc junk junk4 vorder signed argv].
Ltac follow O W := repeat first
  [ apply W | apply O | apply (follows_all _ _ _ _ _ O) | apply follows_call0 | apply follows_call | apply follows_error | apply follows_warn
  | apply follows_bind; intros | apply follows_fold; intros
  | match goal with |- follows _ _ _ (if ?c then _ else _) _ => destruct c end
  | match goal with |- follows _ _ _ (match ?c with _ => _ end) _ => destruct c end
  | apply follows_same; intros [X|[]]; discriminate X ].

Lemma name_of argv program name : nth_error argv 0 = Some program -> zlen program <= 32768 -> base_of program name ->
  (let! n := rd "argv[0]" argv 0 in basefilename n) = Ok name.
Proof.
  intros P L B. destruct argv as [|p rest]; [discriminate P|]. injection P as ->. rewrite rd_0. cbn [obind].
  destruct (C57_base_partial program L) as (b & -> & B'). now rewrite (C57_unique _ _ _ B B').
Qed.

(** C82: when a file is missing, every program runs as it would if the file were there, until it
    opens it; then it ends with the status 1 and a line that names the file.  (If it does not open
    the file, nothing changes.) *)
Theorem C82_missing : forall uc NFC junk junk4 line corder torder sorder vorder fmt fmt6 fmt8 fmt14 fmtd signed argv program name sys sys' n,
  nth_error argv 0 = Some program -> zlen program <= 32768 -> base_of program name -> without sys sys' n ->
  Forall2 (stops_at (Reads n) "unable to open file" n name)
    (processes sys uc NFC junk junk4 line corder torder sorder vorder fmt fmt6 fmt8 fmt14 fmtd signed argv) (processes sys' uc NFC junk junk4 line corder torder sorder vorder fmt fmt6 fmt8 fmt14 fmtd signed argv).
Proof.
  intros uc NFC junk junk4 line corder torder sorder vorder fmt fmt6 fmt8 fmt14 fmtd signed argv program name sys sys' n P L B M.
  pose proof (name_of _ _ _ P L B) as E. pose proof (missing_open _ _ _ M) as O. pose proof (missing_write _ _ _ M) as W.
  unfold processes. repeat (apply Forall2_cons; [apply process_follows; [exact E|]; intros args vars; unfold print_px; cbv beta; follow O W|]). constructor.
Qed.
Print Assumptions C82_missing.

(** C82: in the same way when the file for the report cannot be written. *)
Theorem C82_uncreatable : forall uc NFC junk junk4 line corder torder sorder vorder fmt fmt6 fmt8 fmt14 fmtd signed argv program name sys sys' n,
  nth_error argv 0 = Some program -> zlen program <= 32768 -> base_of program name -> locked sys sys' n ->
  Forall2 (stops_at (Opens (Some n)) "unable to create file" n name)
    (processes sys uc NFC junk junk4 line corder torder sorder vorder fmt fmt6 fmt8 fmt14 fmtd signed argv) (processes sys' uc NFC junk junk4 line corder torder sorder vorder fmt fmt6 fmt8 fmt14 fmtd signed argv).
Proof.
  intros uc NFC junk junk4 line corder torder sorder vorder fmt fmt6 fmt8 fmt14 fmtd signed argv program name sys sys' n P L B M.
  pose proof (name_of _ _ _ P L B) as E. pose proof (locked_open _ _ _ M) as O. pose proof (locked_write _ _ _ M) as W.
  unfold processes. repeat (apply Forall2_cons; [apply process_follows; [exact E|]; intros args vars; unfold print_px; cbv beta; follow O W|]). constructor.
Qed.
Print Assumptions C82_uncreatable.
(** ** Reports that cannot be read *)
Lemma ci_message l msg : report_message msg -> compute_ci l <> Fail msg.
Proof.
  intros R N. unfold compute_ci in N. destruct (negb _); [injection N as <-; destruct R as [R|R]; discriminate R|]. cbn zeta in N.
  assert (forall a b, CiModel.accuracy a b <> Fail msg) as A by (intros a b X; unfold CiModel.accuracy in X; destruct (a =? 0); discriminate X).
  assert (forall l tc tm n th sum, pseudovalues tc tm n th l sum <> Fail msg) as Q.
  { induction l0 as [|[c m] l0 IH]; intros tc tm n th sum X; cbn [pseudovalues] in X; [discriminate X|].
    destruct (CiModel.accuracy (tc - c) (tm - m)) eqn:E; cbn [obind] in X; try discriminate X; [|injection X as ->; exact (A _ _ E)].
    destruct (pseudovalues tc tm n th l0 (fadd sum a)) as [[js su]| | |] eqn:E2; cbn [obind] in X; try discriminate X. injection X as ->. exact (IH _ _ _ _ _ E2). }
  destruct (CiModel.accuracy _ _) eqn:E; cbn [obind] in N; try discriminate N; [|injection N as ->; exact (A _ _ E)].
  destruct (pseudovalues _ _ _ _ _ _) as [[js su]| | |] eqn:E2; cbn [obind] in N; try discriminate N. injection N as ->. exact (Q _ _ _ _ _ _ E2).
Qed.
Lemma decrement_message d d2 msg : decrement_edodata d d2 <> Fail msg.
Proof.
  unfold decrement_edodata. intros N.
  assert (forall is ms, ofold (fun ms i => let! x := rd "moves[i]" ms i in let! y := rd "moves[i]" (moves d2) i in wr "moves[i]" ms i (x - y)) is ms <> Fail msg) as Q.
  { induction is as [|i is IH]; intros ms X; cbn [ofold] in X; [discriminate X|]. unfold rd, wr in X.
    destruct (znth ms i); cbn [obind] in X; [|discriminate X]. destruct (znth (moves d2) i); cbn [obind] in X; [|discriminate X].
    destruct (zset ms i (z - z0)); cbn [obind] in X; [|discriminate X]. exact (IH _ X). }
  destruct (ofold _ _ _) eqn:E; cbn [obind] in N; try discriminate N. injection N as ->. exact (Q _ _ E).
Qed.
Lemma rd_message {A} m (l : list A) i msg : rd m l i <> Fail msg.
Proof. unfold rd. destruct (znth l i); intros N; discriminate N. Qed.
Section Reports.
Variable sys : system.
Variable uc : unicode_data.
Variable NFC : list Z -> list Z.
Variables junk junk4 line : list Z.
Variable corder : list conf -> list conf.
Variable torder : list WacModel.term -> list WacModel.term.
Variable sorder : list NgramModel.entry -> list NgramModel.entry.
Variable vorder : list vseq -> list vseq.
Variables fmt fmt6 fmt8 fmt14 : Z -> Z -> list Z.
Variable fmtd : double -> list Z.
Variable signed : bool.
Hypothesis ordinary : ordinary_system sys uc junk junk4.
Variable argv : list (list Z).
Variable name : list Z.
Hypothesis named : (let! n := rd "argv[0]" argv 0 in basefilename n) = Ok name.
Definition cited (msg : string) (e : final) (main : outcome ended) : Prop :=
  main = Fail msg -> exists before n, e = mkfinal (map Reads (before ++ [n])) (said name msg (Some n)) (Status 1).
Ltac not_report := let R := fresh in intros [R|R]; discriminate R.
Lemma cited_accsum msg : report_message msg -> cited msg (accsum_process sys uc line corder fmt argv) (accsum_main sys uc line corder fmt argv).
Proof.
  intros RM Em.
  pose proof (C68_same sys uc NFC junk junk4 line corder torder sorder vorder fmt fmt6 fmt8 fmt14 fmtd signed argv) as S.
  do 1 apply proj2 in S. apply proj1 in S.
  pose proof (proj1 (Forall_forall _ _) (C68_fail sys uc NFC junk junk4 line corder torder sorder vorder fmt fmt6 fmt8 fmt14 fmtd signed argv ordinary) (accsum_run sys uc line corder fmt argv) ltac:(cbn [In]; tauto)) as H.
  unfold accsum_process. unfold accsum_run in S, H.
  eapply (process_cites sys _ _ _ _ _ _ all_files); [exact named| | | | |exact S|exact H|exact Em|exact RM]; clear S H Em; intros args vars; cbv beta; [forget| |reflexivity|]; unfold print_px.
  {
  destruct (_ <? _); [apply fin_error; eexists; reflexivity|].
  apply fin_all; [reflexivity|]. intros [d l]. apply fin_write; [exists []; now rewrite app_nil_r|reflexivity].
  }
  destruct (_ <? _); [apply cites_error; not_report|].
  apply cites_bind; [apply reads_files|apply reads_files|]. intros [d l].
  apply cites_write.
Qed.
Lemma cited_accdist msg : report_message msg -> cited msg (accdist_process sys line fmt6 argv) (accdist_main sys line fmt6 argv).
Proof.
  intros RM Em.
  pose proof (C68_same sys uc NFC junk junk4 line corder torder sorder vorder fmt fmt6 fmt8 fmt14 fmtd signed argv) as S.
  do 2 apply proj2 in S. apply proj1 in S.
  pose proof (proj1 (Forall_forall _ _) (C68_fail sys uc NFC junk junk4 line corder torder sorder vorder fmt fmt6 fmt8 fmt14 fmtd signed argv ordinary) (accdist_run sys line fmt6 argv) ltac:(cbn [In]; tauto)) as H.
  unfold accdist_process. unfold accdist_run in S, H.
  eapply (process_cites sys _ _ _ _ _ _ all_files); [exact named| | | | |exact S|exact H|exact Em|exact RM]; clear S H Em; intros args vars; cbv beta; [forget| |reflexivity|]; unfold print_px.
  {
  apply fin_all; [reflexivity|]. intros [d l]. apply fin_write; [exists []; now rewrite app_nil_r|reflexivity].
  }
  apply cites_bind; [apply reads_files|apply reads_files|]. intros [d l].
  apply cites_write.
Qed.
Lemma cited_accci msg : report_message msg -> cited msg (accci_process sys line fmt14 fmtd argv) (accci_main sys line fmt14 fmtd argv).
Proof.
  intros RM Em.
  pose proof (C68_same sys uc NFC junk junk4 line corder torder sorder vorder fmt fmt6 fmt8 fmt14 fmtd signed argv) as S.
  do 3 apply proj2 in S. apply proj1 in S.
  pose proof (proj1 (Forall_forall _ _) (C68_fail sys uc NFC junk junk4 line corder torder sorder vorder fmt fmt6 fmt8 fmt14 fmtd signed argv ordinary) (accci_run sys line fmt14 fmtd argv) ltac:(cbn [In]; tauto)) as H.
  unfold accci_process. unfold accci_run in S, H.
  eapply (process_cites sys _ _ _ _ _ _ all_files); [exact named| | | | |exact S|exact H|exact Em|exact RM]; clear S H Em; intros args vars; cbv beta; [forget| |reflexivity|]; unfold print_px.
  {
  destruct (_ <? _); [apply fin_error; eexists; reflexivity|].
  apply fin_all; [reflexivity|]. intros [st l].
  apply fin_call; [exists []; now rewrite app_nil_r|]. intros ci _. apply fin_write; [exists []; now rewrite app_nil_r|reflexivity].
  }
  destruct (_ <? _); [apply cites_error; not_report|].
  apply cites_bind; [apply reads_files|apply reads_files|]. intros [d l].
  apply cites_bind; [apply reads_call|apply cites_call; intros; now apply ci_message|]. intros ci.
  apply cites_write.
Qed.
Lemma cited_wordaccsum msg : report_message msg -> cited msg (wordaccsum_process sys line torder fmt argv) (wordaccsum_main sys line torder fmt argv).
Proof.
  intros RM Em.
  pose proof (C68_same sys uc NFC junk junk4 line corder torder sorder vorder fmt fmt6 fmt8 fmt14 fmtd signed argv) as S.
  do 6 apply proj2 in S. apply proj1 in S.
  pose proof (proj1 (Forall_forall _ _) (C68_fail sys uc NFC junk junk4 line corder torder sorder vorder fmt fmt6 fmt8 fmt14 fmtd signed argv ordinary) (wordaccsum_run sys line torder fmt argv) ltac:(cbn [In]; tauto)) as H.
  unfold wordaccsum_process. unfold wordaccsum_run in S, H.
  eapply (process_cites sys _ _ _ _ _ _ all_files); [exact named| | | | |exact S|exact H|exact Em|exact RM]; clear S H Em; intros args vars; cbv beta; [forget| |reflexivity|]; unfold print_px.
  {
  destruct (_ <? _); [apply fin_error; eexists; reflexivity|].
  apply fin_all; [reflexivity|]. intros [d l]. apply fin_write; [exists []; now rewrite app_nil_r|reflexivity].
  }
  destruct (_ <? _); [apply cites_error; not_report|].
  apply cites_bind; [apply reads_files|apply reads_files|]. intros [d l].
  apply cites_write.
Qed.
Lemma cited_wordaccdist msg : report_message msg -> cited msg (wordaccdist_process sys line fmt6 argv) (wordaccdist_main sys line fmt6 argv).
Proof.
  intros RM Em.
  pose proof (C68_same sys uc NFC junk junk4 line corder torder sorder vorder fmt fmt6 fmt8 fmt14 fmtd signed argv) as S.
  do 7 apply proj2 in S. apply proj1 in S.
  pose proof (proj1 (Forall_forall _ _) (C68_fail sys uc NFC junk junk4 line corder torder sorder vorder fmt fmt6 fmt8 fmt14 fmtd signed argv ordinary) (wordaccdist_run sys line fmt6 argv) ltac:(cbn [In]; tauto)) as H.
  unfold wordaccdist_process. unfold wordaccdist_run in S, H.
  eapply (process_cites sys _ _ _ _ _ _ all_files); [exact named| | | | |exact S|exact H|exact Em|exact RM]; clear S H Em; intros args vars; cbv beta; [forget| |reflexivity|]; unfold print_px.
  {
  apply fin_all; [reflexivity|]. intros [d l]. apply fin_write; [exists []; now rewrite app_nil_r|reflexivity].
  }
  apply cites_bind; [apply reads_files|apply reads_files|]. intros [d l].
  apply cites_write.
Qed.
Lemma cited_wordaccci msg : report_message msg -> cited msg (wordaccci_process sys line fmt14 fmtd argv) (wordaccci_main sys line fmt14 fmtd argv).
Proof.
  intros RM Em.
  pose proof (C68_same sys uc NFC junk junk4 line corder torder sorder vorder fmt fmt6 fmt8 fmt14 fmtd signed argv) as S.
  do 8 apply proj2 in S. apply proj1 in S.
  pose proof (proj1 (Forall_forall _ _) (C68_fail sys uc NFC junk junk4 line corder torder sorder vorder fmt fmt6 fmt8 fmt14 fmtd signed argv ordinary) (wordaccci_run sys line fmt14 fmtd argv) ltac:(cbn [In]; tauto)) as H.
  unfold wordaccci_process. unfold wordaccci_run in S, H.
  eapply (process_cites sys _ _ _ _ _ _ all_files); [exact named| | | | |exact S|exact H|exact Em|exact RM]; clear S H Em; intros args vars; cbv beta; [forget| |reflexivity|]; unfold print_px.
  {
  destruct (_ <? _); [apply fin_error; eexists; reflexivity|].
  apply fin_all; [reflexivity|]. intros [st l].
  apply fin_call; [exists []; now rewrite app_nil_r|]. intros ci _. apply fin_write; [exists []; now rewrite app_nil_r|reflexivity].
  }
  destruct (_ <? _); [apply cites_error; not_report|].
  apply cites_bind; [apply reads_files|apply reads_files|]. intros [d l].
  apply cites_bind; [apply reads_call|apply cites_call; intros; now apply ci_message|]. intros ci.
  apply cites_write.
Qed.
Lemma cited_editopsum msg : report_message msg -> cited msg (editopsum_process sys line argv) (editopsum_main sys line argv).
Proof.
  intros RM Em.
  pose proof (C68_same sys uc NFC junk junk4 line corder torder sorder vorder fmt fmt6 fmt8 fmt14 fmtd signed argv) as S.
  do 12 apply proj2 in S. apply proj1 in S.
  pose proof (proj1 (Forall_forall _ _) (C68_fail sys uc NFC junk junk4 line corder torder sorder vorder fmt fmt6 fmt8 fmt14 fmtd signed argv ordinary) (editopsum_run sys line argv) ltac:(cbn [In]; tauto)) as H.
  unfold editopsum_process. unfold editopsum_run in S, H.
  eapply (process_cites sys _ _ _ _ _ _ all_files); [exact named| | | | |exact S|exact H|exact Em|exact RM]; clear S H Em; intros args vars; cbv beta; [forget| |reflexivity|]; unfold print_px.
  {
  destruct (_ <? _); [apply fin_error; eexists; reflexivity|].
  apply fin_all; [reflexivity|]. intros [d l]. apply fin_write; [exists []; now rewrite app_nil_r|reflexivity].
  }
  destruct (_ <? _); [apply cites_error; not_report|].
  apply cites_bind; [apply reads_files|apply reads_files|]. intros [d l].
  apply cites_write.
Qed.
Lemma cited_editopcost msg : report_message msg -> cited msg (editopcost_process sys line argv) (editopcost_main sys line argv).
Proof.
  intros RM Em.
  pose proof (C68_same sys uc NFC junk junk4 line corder torder sorder vorder fmt fmt6 fmt8 fmt14 fmtd signed argv) as S.
  do 13 apply proj2 in S. apply proj1 in S.
  pose proof (proj1 (Forall_forall _ _) (C68_fail sys uc NFC junk junk4 line corder torder sorder vorder fmt fmt6 fmt8 fmt14 fmtd signed argv ordinary) (editopcost_run sys line argv) ltac:(cbn [In]; tauto)) as H.
  unfold editopcost_process. unfold editopcost_run in S, H.
  eapply (process_cites sys _ _ _ _ _ _ all_files); [exact named| | | | |exact S|exact H|exact Em|exact RM]; clear S H Em; intros args vars; cbv beta; [forget| |reflexivity|]; unfold print_px.
  {
  destruct (_ || _) eqn:L; [apply fin_error; eexists; reflexivity|]. destruct args as [|a rest]; try discriminate L.
  rewrite !rd_0, call_ok. apply fin_open; [now exists rest|]. intros f1 _.
  apply fin_about; [now exists rest|]. intros [d l] _.
  destruct (_ =? 2) eqn:E2.
  - destruct rest as [|b rest]; [discriminate E2|]. cbn [app].
    apply (fin_bind sys _ _ _ _ _ (fun _ _ => True)).
    { rewrite !rd_1, call_ok. eapply tells_bind; [apply (tells_open sys _ [a] b (fun _ d => d = [a] ++ [b])); [now exists rest|auto]|].
      intros f d' R ->. eapply tells_bind; [apply (tells_call_on sys _ ([a] ++ [b]) (about b) _ (fun _ d => d = [a] ++ [b])); [exact R| |auto]|].
      - unfold about. constructor; [|constructor; [|constructor]]; cbn [fst snd blames]; right; right; left; (split; [auto|now exists [a]]).
      - intros [d2 l2] d' R' ->. apply tells_call; auto. }
    intros d3 done R _. apply fin_write; [exact R|reflexivity].
  - rewrite call_ok. apply fin_write; [now exists rest|reflexivity].
  }
  destruct (_ || _); [apply cites_error; not_report|]. apply cites_bind; [apply reads_call|apply cites_call; intros m0 _ X; exact (rd_message _ _ _ _ X)|]. intros nm.
  apply cites_bind; [apply reads_open|apply cites_open|]. intros f. apply cites_bind; [apply reads_call|apply cites_about|]. intros [d l].
  apply cites_bind; [| |intros; apply cites_write].
  - destruct (_ =? 2); [|apply reads_call]. apply reads_bind; [apply reads_call|]. intros nm2. apply reads_bind; [apply reads_open|]. intros f2.
    apply reads_bind; [apply reads_call|]. intros [d2 l2]. apply reads_call.
  - destruct (_ =? 2); [|apply cites_call; intros m0 _ X; discriminate X].
    apply cites_bind; [apply reads_call|apply cites_call; intros m0 _ X; exact (rd_message _ _ _ _ X)|]. intros nm2.
    apply cites_bind; [apply reads_open|apply cites_open|]. intros f2. apply cites_bind; [apply reads_call|apply cites_about|]. intros [d2 l2].
    apply cites_call. intros m0 _ X. exact (decrement_message _ _ _ X).
Qed.
End Reports.

(** C82: when a report is malformed, the line names it, and it is the last file that was read. *)
Theorem C82_reports : forall sys uc junk junk4 line corder torder fmt fmt6 fmt14 fmtd argv program name msg,
  ordinary_system sys uc junk junk4 -> nth_error argv 0 = Some program -> zlen program <= 32768 -> base_of program name ->
  msg = "invalid format in"%string \/ msg = "invalid character in"%string ->
  Forall2 (fun e main => main = Fail msg ->
      exists before n, e = mkfinal (map Reads (before ++ [n])) (said name msg (Some n)) (Status 1))
    [accsum_process sys uc line corder fmt argv;
     accdist_process sys line fmt6 argv;
     accci_process sys line fmt14 fmtd argv;
     wordaccsum_process sys line torder fmt argv;
     wordaccdist_process sys line fmt6 argv;
     wordaccci_process sys line fmt14 fmtd argv;
     editopsum_process sys line argv;
     editopcost_process sys line argv]
    [accsum_main sys uc line corder fmt argv;
     accdist_main sys line fmt6 argv;
     accci_main sys line fmt14 fmtd argv;
     wordaccsum_main sys line torder fmt argv;
     wordaccdist_main sys line fmt6 argv;
     wordaccci_main sys line fmt14 fmtd argv;
     editopsum_main sys line argv;
     editopcost_main sys line argv].
Proof.
  intros sys uc junk junk4 line corder torder fmt fmt6 fmt14 fmtd argv program name msg O P L B R. pose proof (name_of _ _ _ P L B) as E.
  apply Forall2_cons; [now apply (cited_accsum sys uc (fun s => s) junk junk4 line corder torder (fun l => l) (fun l => l) fmt fmt6 fmt fmt14 fmtd true)|].
  apply Forall2_cons; [now apply (cited_accdist sys uc (fun s => s) junk junk4 line corder torder (fun l => l) (fun l => l) fmt fmt6 fmt fmt14 fmtd true)|].
  apply Forall2_cons; [now apply (cited_accci sys uc (fun s => s) junk junk4 line corder torder (fun l => l) (fun l => l) fmt fmt6 fmt fmt14 fmtd true)|].
  apply Forall2_cons; [now apply (cited_wordaccsum sys uc (fun s => s) junk junk4 line corder torder (fun l => l) (fun l => l) fmt fmt6 fmt fmt14 fmtd true)|].
  apply Forall2_cons; [now apply (cited_wordaccdist sys uc (fun s => s) junk junk4 line corder torder (fun l => l) (fun l => l) fmt fmt6 fmt fmt14 fmtd true)|].
  apply Forall2_cons; [now apply (cited_wordaccci sys uc (fun s => s) junk junk4 line corder torder (fun l => l) (fun l => l) fmt fmt6 fmt fmt14 fmtd true)|].
  apply Forall2_cons; [now apply (cited_editopsum sys uc (fun s => s) junk junk4 line corder torder (fun l => l) (fun l => l) fmt fmt6 fmt fmt14 fmtd true)|].
  apply Forall2_cons; [now apply (cited_editopcost sys uc (fun s => s) junk junk4 line corder torder (fun l => l) (fun l => l) fmt fmt6 fmt fmt14 fmtd true)|].
  constructor.
Qed.
Print Assumptions C82_reports.
(** ** Values of options *)
Lemma run_px_items usage table items argv program name body :
  good_table table -> command_line table items argv -> nth_error argv 0 = Some program -> base_of program name ->
  exists vars, vars_ok table items vars /\
    run_px usage table argv body =
    let '(acts, ws, e) := body (plain_args items) vars in
    match e with
    | Got _ => mkfinal acts (flat_map (line_of name) ws) (Status 0)
    | Error msg => mkfinal acts (flat_map (line_of name) ws ++ line_of name msg) (Status 1)
    | Undefined msg => mkfinal acts (flat_map (line_of name) ws) (Undefined_behaviour msg)
    | Endless => mkfinal acts (flat_map (line_of name) ws) Never
    end.
Proof.
  intros G (prog & -> & Lp & Ne & A & N & R & L) E0 B. injection E0 as ->.
  destruct (C56_accepted true table program items G A N R L) as (vars & E & V); [left; now apply written_not_nil|].
  exists vars. split; [exact V|]. unfold run_px. rewrite (name_of (program :: List.concat (map written items)) program name eq_refl Lp B), E. reflexivity.
Qed.

(** C82: ngram says which value of -n is not valid, before it reads a file. *)
Theorem C82_ngram_value : forall sys uc junk junk4 sorder items argv program name s,
  command_line [string_option 110] items argv -> nth_error argv 0 = Some program -> base_of program name ->
  says_value items 110 (Some s) -> ~ In 0 s -> s <> bytes "1" -> s <> bytes "2" -> s <> bytes "3" -> plain_args items <> [] ->
  ngram_process sys uc junk junk4 sorder argv = mkfinal [] (said name "invalid value" (Some s)) (Status 1).
Proof.
  intros sys uc junk junk4 sorder items argv program name s CL E0 B SV Hs N1 N2 N3 Ne. unfold ngram_process.
  match goal with |- run_px ?u ?t ?a ?b = _ => destruct (run_px_items u t _ a _ name b ngram_options CL E0 B) as (vars & V & E) end.
  rewrite E. clear E.
  destruct (value_at _ _ _ 0 110 V eq_refl) as (v & Ev & SV'). rewrite Ev, call_ok, (says_value_fun _ _ _ _ SV' SV).
  destruct (Z.eqb_spec (zlen (plain_args items)) 0) as [Z0|_]; [destruct (plain_args items); [congruence|rewrite zlen_cons in Z0; pose proof (zlen_nonneg l0); lia]|].
  destruct (proj2 (proj2 C50_option s Hs)) as [[n En]|En].
  - exfalso. apply (proj1 (proj2 C50_option s Hs)) in En as [En Hn].
    assert (n = 1 \/ n = 2 \/ n = 3) as [-> | [-> | ->]] by lia; [apply N1|apply N2|apply N3]; rewrite En; reflexivity.
  - rewrite En. cbn [call_on shown_with pbind app flat_map text_of]. destruct (string_dec _ _) as [_|N]; [|congruence]. now rewrite line_said.
Qed.
Print Assumptions C82_ngram_value.

(** C82: vote says which value of -w or -s is not valid, after it has read the files. *)
Definition vote_step sys uc junk junk4 (acc : list voter) (name : list Z) : px (list voter) :=
  let% f := open_px sys name in
  let% (text, _) := call (read_text uc junk junk4 vote_opt [] f) in
  call (Ok (acc ++ [mkvoter (zlen acc) name text 0])).
Lemma voters_read sys uc junk junk4 : forall args acc,
  Forall (fun n => exists f t h, contents sys n = Some f /\ read_text uc junk junk4 vote_opt [] f = Ok (t, h)) args ->
  exists voters, pxfold (vote_step sys uc junk junk4) args acc = (map Reads args, [], Got voters).
Proof.
  induction args as [|n args IH]; intros acc F; cbn [pxfold]; [now exists acc|].
  apply Forall_cons_iff in F as [(f & t & h & F1 & F2) F]. destruct (IH (acc ++ [mkvoter (zlen acc) n t 0]) F) as (voters & E).
  exists voters. replace (vote_step sys uc junk junk4 acc n) with ([Reads n], @nil message, Got (acc ++ [mkvoter (zlen acc) n t 0])).
  - cbn [pbind]. rewrite E. reflexivity.
  - unfold vote_step, open_px. rewrite F1. cbn [pbind]. rewrite F2. reflexivity.
Qed.
Theorem C82_vote_value : forall sys uc junk junk4 vorder signed items argv program name s wsf,
  command_line [MainModel.flag_option 68; MainModel.flag_option 79; string_option 111; string_option 115; string_option 119] items argv ->
  nth_error argv 0 = Some program -> base_of program name ->
  2 <= zlen (plain_args items) <= 16 ->
  Forall (fun n => exists f t h, contents sys n = Some f /\ read_text uc junk junk4 vote_opt [] f = Ok (t, h)) (plain_args items) ->
  Forall (fun b => 0 < b < 256) s -> (forall m n, ~ fraction s m n) ->
  (says_value items 119 (Some s) ->
   vote_process sys uc junk junk4 vorder signed argv = mkfinal (map Reads (plain_args items)) (said name "invalid weight" (Some s)) (Status 1)) /\
  (says_value items 119 wsf -> match wsf with None => True | Some w => Forall (fun b => 0 < b < 256) w /\ exists m n, fraction w m n end ->
   says_value items 115 (Some s) ->
   vote_process sys uc junk junk4 vorder signed argv = mkfinal (map Reads (plain_args items)) (said name "invalid threshold" (Some s)) (Status 1)).
Proof.
  intros sys uc junk junk4 vorder signed items argv program name s wsf CL E0 B Ln F Hs Nf. unfold vote_process.
  match goal with |- (_ -> run_px ?u ?t ?a ?b = _) /\ _ => destruct (run_px_items u t _ a _ name b vote_options CL E0 B) as (vars & V & E) end.
  rewrite E. clear E.
  destruct (flag_at _ _ _ 0 68 V eq_refl) as (v0 & -> & _). rewrite call_ok.
  destruct (flag_at _ _ _ 1 79 V eq_refl) as (v1 & -> & _). rewrite call_ok.
  destruct (value_at _ _ _ 2 111 V eq_refl) as (v2 & -> & _). rewrite call_ok.
  destruct (value_at _ _ _ 3 115 V eq_refl) as (v3 & -> & S3). rewrite call_ok.
  destruct (value_at _ _ _ 4 119 V eq_refl) as (v4 & -> & S4). rewrite call_ok.
  replace ((zlen (plain_args items) <? MIN_VOTERS) || (MAX_VOTERS <? zlen (plain_args items))) with false by (unfold MIN_VOTERS, MAX_VOTERS; lia).
  destruct (voters_read sys uc junk junk4 (plain_args items) [] F) as (voters & E). unfold vote_step in E. rewrite E. clear E. cbn [pbind].
  assert (valid_fraction signed s = Ok None) as Vs.
  { destruct (C49_fraction signed s Hs) as [(m & n & Hf & _)|[_ H]]; [exfalso; exact (Nf _ _ Hf)|exact H]. }
  split.
  - intros SV. rewrite (says_value_fun _ _ _ _ S4 SV). unfold set_options. rewrite Vs. cbn [obind call_on shown_with app text_of flat_map].
    destruct (string_dec _ _) as [_|N]; [|congruence]. rewrite ?app_nil_r; cbn [app pbind]; rewrite ?app_nil_r; now rewrite line_said.
  - intros SW HW SV. rewrite (says_value_fun _ _ _ _ S4 SW), (says_value_fun _ _ _ _ S3 SV). unfold set_options. cbn zeta.
    assert (exists sw uw, match wsf with None => Ok (1, 1) | Some s => let! r := valid_fraction signed s in match r with Some mn => Ok mn | None => Fail "invalid weight" end end = Ok (sw, uw)) as (sw & uw & Ew).
    { destruct wsf as [w|]; [|now exists 1, 1]. destruct HW as [Hw (m & n & Hf)].
      destruct (C49_fraction signed w Hw) as [(m' & n' & _ & ->)|[H _]]; [cbn [obind]; eauto|exfalso; exact (H _ _ Hf)]. }
    rewrite Ew. cbn [obind]. rewrite Vs. cbn [obind call_on shown_with app text_of flat_map].
    destruct (string_dec _ _) as [N|_]; [discriminate N|]. destruct (string_dec _ _) as [_|N]; [|congruence]. rewrite ?app_nil_r; cbn [app pbind]; rewrite ?app_nil_r; now rewrite line_said.
Qed.
Print Assumptions C82_vote_value.

(** C82: the status is 0 exactly when the program has done its work or has shown its usage, and 1
    exactly when it has given up; then it has not opened a file for writing and has said something. *)
Theorem C82_status : forall sys usage table given warns argv name e main, ends_well sys usage table given warns argv name e main ->
  (forall n, exits e = Status n -> n = 0 \/ n = 1) /\
  (exits e = Status 0 <-> main = Ok (Stopped Usage) \/ exists r, main = Ok (Done r)) /\
  (exits e = Status 1 <-> (exists arg, main = Ok (Stopped (InvalidOption arg)) \/ main = Ok (Stopped (DuplicateOption arg))) \/ exists msg, main = Fail msg) /\
  (exits e = Status 1 -> standard_error e <> [] /\ forall d, ~ In (Opens d) (actions e)).
Proof.
  intros sys usage table given warns argv name e main H.
  assert (forall m a, said name m a <> []) as Ns by (intros m a X; apply (f_equal (@List.length Z)) in X; unfold said in X; destruct a; repeat rewrite app_length in X; cbn in X; lia).
  destruct main as [[r|[ | |arg|arg]]|msg|msg|]; cbn [ends_well] in H.
  - destruct H as (E & _). rewrite E. repeat split; try (intros; congruence).
    + intros n X. injection X as <-. auto.
    + intros _. right. eauto.
    + intros [(a & [X|X])|(m & X)]; discriminate X.
  - destruct H.
  - subst e. cbn [exits standard_error actions]. repeat split; try (intros; congruence).
    + intros n X. injection X as <-. auto.
    + auto.
    + intros [(a & [X|X])|(m & X)]; discriminate X.
  - subst e. cbn [exits standard_error actions]. repeat split; try (intros; congruence).
    + intros n X. injection X as <-. auto.
    + intros [X|(r & X)]; discriminate X.
    + intros _. left. eauto.
    + intros d [].
  - subst e. cbn [exits standard_error actions]. repeat split; try (intros; congruence).
    + intros n X. injection X as <-. auto.
    + intros [X|(r & X)]; discriminate X.
    + intros _. left. eauto.
    + intros d [].
  - destruct H as (E & args & vars & ws & arg & l & shown & _ & S & _ & A & _). rewrite E. repeat split; try (intros; congruence).
    + intros n X. injection X as <-. auto.
    + intros [X|(r & X)]; discriminate X.
    + intros _. right. eauto.
    + rewrite S. intros X. apply app_eq_nil in X as [_ X]. exact (Ns _ _ X).
    + rewrite A. intros d I. apply in_app_or in I as [I|I]; apply in_map_iff in I as (x & X & _); discriminate X.
  - rewrite H. repeat split; try (intros; congruence).
    + intros [X|(r & X)]; discriminate X.
    + intros [(a & [X|X])|(m & X)]; discriminate X.
  - rewrite H. repeat split; try (intros; congruence).
    + intros [X|(r & X)]; discriminate X.
    + intros [(a & [X|X])|(m & X)]; discriminate X.
Qed.
Print Assumptions C82_status.

(** ** Examples *)
Definition demo_system : system :=
  mksys (fun n => if list_eq_dec Z.eq_dec n (bytes "stop") then Some (bytes "b" ++ [10] ++ bytes "a b" ++ [10])
                  else if list_eq_dec Z.eq_dec n (bytes "a") then Some (bytes "ab" ++ [10]) else None)
        (fun n => if list_eq_dec Z.eq_dec n (bytes "locked") then false else true).
Definition demo_full : system := mksys (update (contents demo_system) (bytes "b") (bytes "ab")) (writable demo_system).
Example C82_ex :
  without demo_system demo_full (bytes "b") /\ locked demo_system (mksys (contents demo_system) (fun _ => true)) (bytes "locked") /\
  base_of (bytes "bin/accuracy") (bytes "accuracy") /\
  accuracy_process demo_system prog_uc sample_line sample_buf (fun l => l) (fun _ _ => []) [bytes "bin/accuracy"; bytes "a"; bytes "b"] =
    mkfinal [Reads (bytes "a")] (bytes "accuracy: unable to open file " ++ [34] ++ bytes "b" ++ [34; 10]) (Status 1) /\
  (exists rest, actions (editop_process demo_full prog_uc sample_line sample_buf [bytes "editop"; bytes "a"; bytes "b"]) = [Reads (bytes "a")] ++ Reads (bytes "b") :: rest) /\
  wordacc_process demo_system sample_uc (fun s => s) sample_line sample_buf (fun l => l) (fun _ _ => []) [bytes "wordacc"; bytes "-S"; bytes "stop"; bytes "b"; bytes "a"] =
    mkfinal [Reads (bytes "stop")]
      (bytes "wordacc: duplicate stopword " ++ [34] ++ bytes "b" ++ [34; 10] ++ bytes "wordacc: unable to open file " ++ [34] ++ bytes "b" ++ [34; 10]) (Status 1) /\
  editopsum_process demo_system sample_line [bytes "editopsum"; bytes "a"; bytes "a"] =
    mkfinal [Reads (bytes "a")] (bytes "editopsum: invalid format in " ++ [34] ++ bytes "a" ++ [34; 10]) (Status 1) /\
  ngram_process demo_system prog_uc sample_line sample_buf (fun l => l) [bytes "ngram"; bytes "-n4"; bytes "a"] =
    mkfinal [] (bytes "ngram: invalid value " ++ [34] ++ bytes "4" ++ [34; 10]) (Status 1) /\
  vote_process demo_system prog_uc sample_line sample_buf (fun l => l) true [bytes "vote"; bytes "-w"; bytes "3/2"; bytes "a"; bytes "a"] =
    mkfinal [Reads (bytes "a"); Reads (bytes "a")] (bytes "vote: invalid weight " ++ [34] ++ bytes "3/2" ++ [34; 10]) (Status 1) /\
  vote_process demo_system prog_uc sample_line sample_buf (fun l => l) true [bytes "vote"] =
    mkfinal [] (bytes "Usage:  vote [-O] [-o outputfile] [-s m/n] [-w m/n] textfile1 textfile2 ..." ++ [10]) (Status 0).
Proof.
  split.
  { split; [reflexivity|]. split; [|reflexivity]. intros m N. cbn [contents demo_full]. unfold update. destruct (list_eq_dec Z.eq_dec m (bytes "b")); [contradiction|reflexivity]. }
  split.
  { split; [reflexivity|]. split; [|reflexivity]. intros m N. cbn [writable demo_system]. destruct (list_eq_dec Z.eq_dec m (bytes "locked")); [contradiction|reflexivity]. }
  split.
  { exists (bytes "bin/"). split; [reflexivity|]. split; [intros I; cbn in I; repeat destruct I as [I|I]; try discriminate I; exact I|]. right. exists (bytes "bin"). reflexivity. }
  split; [vm_compute; reflexivity|]. split; [eexists; vm_compute; reflexivity|].
  split; [vm_compute; reflexivity|].
  split; [vm_compute; reflexivity|].
  split; [vm_compute; reflexivity|].
  split; [vm_compute; reflexivity|].
  vm_compute; reflexivity.
Qed.
