(** C68: runs that fail or are interrupted. *)
From Coq Require Import String Permutation.
From Verif Require Import Base CLib CLibProof Utf8Model Utf8Proof TextModel TextSpec TextProof TextIO TextProps ReadProof SortModel SortProps SyncModel CompareModel DoubleModel WordModel
  UtilModel UtilProps ArgsProps CharclassModel AccModel AccSpec ReportModel AccrptModel
  StopModel WacModel WacrptModel EdoModel EditopModel EditopDebugModel FreqModel NgramModel SynctextModel GroupModel NonstopModel DistModel CiModel
  VoteModel VoteSelModel MainModel MainSpec MainProof MainProps MainProgProps MainIoModel CrashSpec CrashProof.
Local Open Scope Z_scope.
Local Open Scope list_scope.

(** ** The two descriptions agree *)
Section Agree.
Variable sys : system.

Definition agrees (b : list Z) (m : io unit) (o : outcome result) : Prop :=
  match o with
  | Ok r => snd m = Ok tt /\ standard_output r = b ++ put None (fst m) /\
            forall n, (In (Opens (Some n)) (fst m) -> files_after r n = Some (put (Some n) (fst m))) /\
                      (~ In (Opens (Some n)) (fst m) -> files_after r n = contents sys n)
  | Fail msg => snd m = Fail msg
  | UB msg => snd m = UB msg
  | OutOfFuel => snd m = OutOfFuel
  end.
Definition is_read (a : action) : Prop := match a with Reads _ => True | _ => False end.
Definition silent {A} (m : io A) (o : outcome A) : Prop := snd m = o /\ Forall is_read (fst m).

Lemma silent_lift {A} (o : outcome A) : silent (lift o) o.
Proof. split; [reflexivity|constructor]. Qed.
Lemma silent_open n : silent (open_io sys n) (open_read sys n).
Proof. unfold open_io, open_read. destruct (contents sys n); [split; [reflexivity|repeat constructor]|apply silent_lift]. Qed.
Lemma silent_bind {A B} (m : io A) (k : A -> io B) o k' : silent m o -> (forall a, silent (k a) (k' a)) -> silent (ibind m k) (obind o k').
Proof.
  intros [<- F] K. unfold ibind, silent. destruct (snd m) as [a| | |]; cbn [obind fst snd]; auto.
  destruct (K a) as [E F']. split; [exact E|]. apply Forall_app. auto.
Qed.
Lemma silent_fold {A S} (step : S -> A -> io S) step' : (forall s x, silent (step s x) (step' s x)) ->
  forall l s, silent (iofold step l s) (ofold step' l s).
Proof. intros H. induction l as [|x l IH]; intros s; [apply silent_lift|]. cbn [iofold ofold]. apply silent_bind; auto. Qed.
Lemma silent_reading {S} (step : S -> list Z -> outcome S) s n : silent (reading_io sys step s n) (reading sys step s n).
Proof. apply silent_bind; [apply silent_open|]. intros; apply silent_lift. Qed.
Lemma silent_all {S} (step : S -> list Z -> outcome S) l s : silent (iofold (reading_io sys step) l s) (ofold (reading sys step) l s).
Proof. apply silent_fold. apply silent_reading. Qed.

Lemma agree_fail b msg : agrees b (lift (Fail msg)) (Fail msg).
Proof. reflexivity. Qed.
Lemma reads_put l : Forall is_read l -> forall d, put d l = [].
Proof. induction 1 as [|a l H F IH]; intros d; [reflexivity|]. unfold put in *. cbn [flat_map]. rewrite IH. destruct a; try contradiction. reflexivity. Qed.
Lemma reads_open l : Forall is_read l -> forall d, ~ In (Opens d) l.
Proof. intros F d I. rewrite Forall_forall in F. exact (F _ I). Qed.
Lemma agree_bind {A} b (m : io A) (k : A -> io unit) o k' : silent m o -> (forall a, agrees b (k a) (k' a)) -> agrees b (ibind m k) (obind o k').
Proof.
  intros [<- F] K. unfold ibind. destruct (snd m) as [a| | |]; cbn [obind]; try reflexivity.
  specialize (K a). unfold agrees in *. destruct (k' a) as [r| | |]; cbn [fst snd]; try exact K.
  destruct K as (K1 & K2 & K3). split; [exact K1|]. rewrite put_app, (reads_put _ F). split; [exact K2|].
  intros n. rewrite put_app, (reads_put _ F). destruct (K3 n) as [K4 K5]. split.
  - intros I. apply in_app_or in I as [I|I]; [exfalso; exact (reads_open _ F _ I)|auto].
  - intros I. apply K5. intros J. apply I. apply in_or_app. now right.
Qed.
Lemma agree_say b p k o : agrees (b ++ p) k o -> agrees b (let* _ := say p in k) o.
Proof.
  unfold ibind, say, agrees. cbn [fst snd]. destruct o as [r| | |]; auto.
  intros (K1 & K2 & K3). split; [exact K1|]. rewrite put_app. cbn [put flat_map same_dest]. rewrite app_nil_r, app_assoc. split; [exact K2|].
  intros n. destruct (K3 n) as [K4 K5]. rewrite put_app. cbn [put flat_map same_dest app In]. split.
  - intros [I|I]; [discriminate I|auto].
  - intros I. apply K5. tauto.
Qed.
Lemma agree_write b dest c : agrees b (write_io sys dest c) (write_to sys dest b c).
Proof.
  unfold write_io, write_to, ibind, lift. cbn [fst snd]. destruct dest as [name|].
  - destruct (writable sys name); [|reflexivity]. destruct c as [c| | |]; cbn [obind]; try reflexivity.
    cbn [agrees standard_output files_after fst snd app put flat_map same_dest In]. rewrite !app_nil_r. split; [reflexivity|]. split; [reflexivity|].
    intros n. unfold update. destruct (list_eq_dec Z.eq_dec n name) as [->|N].
    + destruct (list_eq_dec Z.eq_dec name name); [|contradiction]. rewrite app_nil_r. tauto.
    + split; [intros [I|[I|[]]]; congruence|reflexivity].
  - destruct c as [c| | |]; cbn [obind]; try reflexivity.
    cbn [agrees standard_output files_after fst snd app put flat_map same_dest In]. rewrite !app_nil_r. split; [reflexivity|]. split; [reflexivity|].
    intros n. split; [intros [I|[I|[]]]; congruence|reflexivity].
Qed.
Lemma agree_print c : agrees [] (print_io sys c) (print sys c).
Proof. apply agree_write. Qed.

Lemma agree_main table argv body body' : (forall args vars, agrees [] (body args vars) (body' args vars)) ->
  same_end sys (run_io table argv body) (run_main table argv body').
Proof.
  intros H. unfold run_io, run_main. destruct (rd _ argv 0) as [name| | |]; cbn [obind]; try reflexivity.
  destruct (basefilename name) as [base| | |] eqn:Eb; cbn [obind]; unfold ibind, lift; cbn [fst snd]; rewrite ?Eb; try reflexivity.
  destruct (parse_args _ _ _ _) as [p| | |] eqn:Ep; cbn [obind fst snd app]; try reflexivity.
  destruct p as [args vars| | |]; cbn [fst snd app]; try reflexivity.
  specialize (H args vars). unfold agrees in H. destruct (body' args vars) as [r| | |]; cbn [obind same_end].
  - destruct H as (H1 & H2 & H3). rewrite H1. cbn [fst snd]. rewrite app_nil_r. split; [reflexivity|]. split; [exact H2|exact H3].
  - rewrite H. reflexivity.
  - rewrite H. reflexivity.
  - rewrite H. reflexivity.
Qed.
End Agree.

Ltac silently := first [apply silent_lift | apply silent_open | apply silent_all
  | match goal with |- silent (match ?x with _ => _ end) _ => destruct x; silently end
  | match goal with |- silent (if ?x then _ else _) _ => destruct x; silently end
  | apply silent_bind; [silently|intros ?; repeat (match goal with H : (_ * _)%type |- _ => destruct H end); silently] | apply silent_fold; intros ? ?; silently].
Ltac agreeing := repeat first
  [ apply agree_fail | apply agree_print | apply agree_write
  | match goal with |- agrees _ _ (if ?b then _ else _) (if ?b then _ else _) => destruct b end
  | apply agree_bind; [solve [silently]|];
    let X := fresh "X" in intros X; repeat (match goal with H : (_ * _)%type |- _ => destruct H end) ].
Ltac program := apply agree_main; intros args vars; agreeing.

(** What is printed without a destination: nothing is known to follow a computation that does not end well. *)
Lemma agree_ci sys fmt14 fmtd a b l c m :
  agrees sys [] (let* _ := lift (compute_ci l) in print_io sys (CiModel.write_results fmt14 fmtd a b l c m))
             (print sys (CiModel.write_results fmt14 fmtd a b l c m)).
Proof.
  unfold ibind, lift. cbn [fst snd]. destruct (compute_ci l) as [v| | |] eqn:E.
  - cbn [app]. generalize (agree_print sys (CiModel.write_results fmt14 fmtd a b l c m)). unfold agrees. auto.
  - unfold print, write_to, CiModel.write_results. rewrite E. reflexivity.
  - unfold print, write_to, CiModel.write_results. rewrite E. reflexivity.
  - unfold print, write_to, CiModel.write_results. rewrite E. reflexivity.
Qed.
Lemma agree_skip sys {A} (x : outcome A) (k : A -> io unit) b o : (forall a, x = Ok a -> agrees sys b (k a) o) ->
  (forall msg, x = Fail msg -> o = Fail msg) -> (forall msg, x = UB msg -> o = UB msg) -> (x = OutOfFuel -> o = OutOfFuel) ->
  agrees sys b (ibind (lift x) k) o.
Proof.
  intros H1 H2 H3 H4. unfold ibind, lift. cbn [fst snd]. destruct x as [a| | |].
  - specialize (H1 a eq_refl). cbn [app]. exact H1.
  - rewrite (H2 _ eq_refl). reflexivity.
  - rewrite (H3 _ eq_refl). reflexivity.
  - rewrite (H4 eq_refl). reflexivity.
Qed.

Lemma obind_assoc {A B C} (x : outcome A) (f : A -> outcome B) (g : B -> outcome C) : obind (obind x f) g = obind x (fun a => obind (f a) g).
Proof. destruct x; reflexivity. Qed.

(** C68: the programs step by step do what was said before (MainModel, C62-C65). *)
Theorem C68_same : forall sys uc NFC junk junk4 line corder torder sorder vorder fmt fmt6 fmt8 fmt14 fmtd signed argv,
  same_end sys (accuracy_run sys uc junk junk4 corder fmt argv) (accuracy_main sys uc junk junk4 corder fmt argv) /\
  same_end sys (accsum_run sys uc line corder fmt argv) (accsum_main sys uc line corder fmt argv) /\
  same_end sys (accdist_run sys line fmt6 argv) (accdist_main sys line fmt6 argv) /\
  same_end sys (accci_run sys line fmt14 fmtd argv) (accci_main sys line fmt14 fmtd argv) /\
  same_end sys (groupacc_run sys uc junk junk4 line fmt8 argv) (groupacc_main sys uc junk junk4 line fmt8 argv) /\
  same_end sys (wordacc_run sys uc NFC junk junk4 torder fmt argv) (wordacc_main sys uc NFC junk junk4 torder fmt argv) /\
  same_end sys (wordaccsum_run sys line torder fmt argv) (wordaccsum_main sys line torder fmt argv) /\
  same_end sys (wordaccdist_run sys line fmt6 argv) (wordaccdist_main sys line fmt6 argv) /\
  same_end sys (wordaccci_run sys line fmt14 fmtd argv) (wordaccci_main sys line fmt14 fmtd argv) /\
  same_end sys (nonstopacc_run sys uc NFC junk junk4 line fmt6 argv) (nonstopacc_main sys uc NFC junk junk4 line fmt6 argv) /\
  same_end sys (wordfreq_run sys uc NFC junk junk4 torder argv) (wordfreq_main sys uc NFC junk junk4 torder argv) /\
  same_end sys (editop_run sys uc junk junk4 argv) (editop_main sys uc junk junk4 argv) /\
  same_end sys (editopsum_run sys line argv) (editopsum_main sys line argv) /\
  same_end sys (editopcost_run sys line argv) (editopcost_main sys line argv) /\
  same_end sys (ngram_run sys uc junk junk4 sorder argv) (ngram_main sys uc junk junk4 sorder argv) /\
  same_end sys (synctext_run sys uc junk junk4 argv) (synctext_main sys uc junk junk4 argv) /\
  same_end sys (vote_run sys uc junk junk4 vorder signed argv) (vote_main sys uc junk junk4 vorder signed argv).
Proof.
  intros. repeat apply conj.
  - program.
  - program.
  - program.
  - program. apply agree_ci.
  - program.
  - program.
  - program.
  - program.
  - program. apply agree_ci.
  - program.
  - program.
  - program. apply agree_say. cbn [app]. apply agree_write.
  - program.
  - program.
  - program.
  - program. unfold print, synctext_texts. match goal with |- context [if ?b then _ else _] => destruct b end; cbv zeta.
    + rewrite !obind_assoc. apply agree_skip.
      * intros [l1 l2] ->. cbn [obind]. rewrite !obind_assoc.
        match goal with |- agrees _ _ (print_io _ ?c) (write_to _ _ _ ?c') => replace c' with c; [apply agree_write|] end.
        destruct (write_transposed _ _ l1 _); cbn [obind]; try reflexivity. destruct (write_transposed _ _ l2 _); reflexivity.
      * intros msg ->. reflexivity.
      * intros msg ->. reflexivity.
      * intros ->. reflexivity.
    + rewrite !obind_assoc. apply agree_skip.
      * intros l ->. cbn [obind]. rewrite !obind_assoc.
        match goal with |- agrees _ _ (print_io _ ?c) (write_to _ _ _ ?c') => replace c' with c; [apply agree_write|] end.
        destruct (write_matches _ _ l _); cbn [obind]; try reflexivity. destruct (write_differences _ _ l _); reflexivity.
      * intros msg ->. reflexivity.
      * intros msg ->. reflexivity.
      * intros ->. reflexivity.
  - program. unfold vote_voters. rewrite obind_assoc. apply agree_bind; [silently|]. intros st.
    rewrite obind_assoc. apply agree_bind; [silently|]. intros [printed input]. apply agree_say. cbn [app].
    rewrite obind_assoc. apply agree_bind; [silently|]. intros out. cbn [obind]. apply agree_write.
Qed.
Print Assumptions C68_same.

(** ** The shape of each program *)
Definition among (args : list (list Z)) (n : list Z) : Prop := In n args.
Lemma rd_among s (args : list (list Z)) i n : rd s args i = Ok n -> In n args.
Proof. intros E. apply rd_Ok in E. eapply znth_In; exact E. Qed.
Ltac split_all := repeat (match goal with H : (_ * _)%type |- _ => destruct H end).
Ltac named_file := first [eassumption | unfold among; eapply rd_among; eassumption | left; eapply rd_among; eassumption
  | right; assumption].
Ltac shaping := repeat first
  [ match goal with |- shape _ _ (if ?b then _ else _) => destruct b end
  | match goal with |- shape _ _ (lift _) => apply shape_reader, reader_lift end
  | match goal with |- shape _ _ (ibind (lift _) _) =>
      apply shape_bind; [apply reader_lift|]; cbn [snd lift]; let X := fresh "X" in let E := fresh "E" in intros X E; split_all end
  | match goal with |- shape _ _ (ibind (open_io _ _) _) =>
      apply shape_bind; [apply reader_open; named_file|]; let X := fresh "X" in let E := fresh "E" in intros X E; split_all end
  | match goal with |- shape _ _ (ibind (say _) _) => apply shape_bind; [apply reader_say|intros ? _] end
  | match goal with |- shape _ _ (ibind (iofold (reading_io _ _) _ _) _) =>
      apply shape_bind; [apply reader_all; intros ? I; exact I|]; let X := fresh "X" in let E := fresh "E" in intros X E; split_all end
  | match goal with |- shape _ _ (write_io _ _ _) => apply shape_write end
  | match goal with |- shape _ _ (print_io _ _) => apply shape_print end ].

(** A program whose report goes to [dest]. *)
Definition shaped (table : list UtilModel.entry) (names : list (list Z) -> list var -> list Z -> Prop)
  (dest : list (list Z) -> list var -> option (list Z)) (run : list (list Z) -> io finish) : Prop :=
  exists body, (forall argv, run argv = run_io table argv body) /\
    forall args vars, shape (names args vars) (dest args vars) (body args vars).
Definition only_args (args : list (list Z)) (_ : list var) (n : list Z) : Prop := In n args.
Definition third_arg (args : list (list Z)) (_ : list var) : option (list Z) := third args.
Definition no_dest (args : list (list Z)) (_ : list var) : option (list Z) := None.
Ltac shape_it := eexists; split; [intros argv; reflexivity|]; intros args vars; unfold only_args, third_arg, no_dest; shaping.

Lemma opened sys n f : snd (open_io sys n) = Ok f -> contents sys n = Some f.
Proof. unfold open_io. destruct (contents sys n); cbn [snd lift]; congruence. Qed.
Lemma folded sys {S} (step : S -> list Z -> outcome S) l s s' : snd (iofold (reading_io sys step) l s) = Ok s' -> ofold (reading sys step) l s = Ok s'.
Proof. intros E. destruct (silent_all sys step l s) as [H _]. congruence. Qed.
Lemma read_keeps sys {S} (P : S -> Prop) (step : S -> list Z -> outcome S) l s s' :
  (forall s n f s', P s -> contents sys n = Some f -> step s f = Ok s' -> P s') -> P s ->
  snd (iofold (reading_io sys step) l s) = Ok s' -> P s'.
Proof.
  intros H Hs E. apply folded in E. revert Hs E. apply ofold_keeps. clear s s'. intros s n s' Hs E. unfold reading, open_read in E.
  destruct (contents sys n) as [f|] eqn:Ef; cbn [obind] in E; [|discriminate E]. eauto.
Qed.

Definition codable_voter (v : voter) : Prop := codable_text (vtext v).

Lemma rank_codable uc vorder voters voters' : Forall codable_voter voters -> rank_voters uc vorder voters = Ok voters' -> Forall codable_voter voters'.
Proof.
  intros C E. unfold rank_voters in E.
  match type of E with obind ?e _ = _ => destruct e as [table| | |]; cbn [obind] in E; bad E end.
  match type of E with obind ?e _ = _ => destruct e as [array| | |]; cbn [obind] in E; bad E end.
  match type of E with obind ?e _ = _ => destruct e as [vs| | |] eqn:Ev; cbn [obind] in E; bad E end.
  assert (H : Forall codable_voter vs /\ zlen vs = zlen voters).
  { assert (G : forall is acc, Forall codable_voter acc -> forall vs, ofold (fun acc i => let! v := rd "voter[index]" voters i in
        let! d := compute_distance array i in Ok (acc ++ [mkvoter (argnum v) (filename v) (vtext v) d])) is acc = Ok vs ->
      Forall codable_voter vs /\ zlen vs = zlen acc + zlen is).
    { clear -C. induction is as [|i is IH]; intros acc Ca vs E; cbn [ofold] in E.
      - injection E as <-. split; [exact Ca|]. unfold zlen. cbn [List.length]. lia.
      - destruct (rd _ voters i) as [v| | |] eqn:Er; cbn [obind] in E; bad E.
        destruct (compute_distance array i) as [d| | |]; cbn [obind] in E; bad E.
        apply IH in E.
        + destruct E as [E1 E2]. split; [exact E1|]. rewrite E2, zlen_app, !zlen_cons. unfold zlen. cbn [List.length]. lia.
        + apply Forall_app. split; [exact Ca|]. constructor; [|constructor]. unfold codable_voter. cbn [vtext].
          apply rd_Ok in Er. apply znth_In in Er. rewrite Forall_forall in C. exact (C v Er). }
    apply G in Ev; [|constructor]. destruct Ev as [E1 E2]. split; [exact E1|]. rewrite E2.
    assert (Hr : forall n k, List.length (zrange k n) = n) by (clear; induction n; intros; cbn [zrange List.length]; auto).
    unfold zlen. rewrite Hr. cbn [List.length]. lia. }
  destruct H as [H1 H2]. rewrite <- H2 in E. destruct (sort_perm compare_distances vs) as (a' & Ea & P). rewrite Ea in E. injection E as <-.
  rewrite Forall_forall in *. intros v Hv. apply H1. eapply Permutation_in; [apply Permutation_sym; exact P|exact Hv].
Qed.
Lemma select_codable uc vorder debug optimize actual voters printed input : Forall codable_voter voters ->
  select_voters uc vorder debug optimize actual voters = Ok (printed, input) -> Forall codable_text input.
Proof.
  intros C E. unfold select_voters in E.
  match type of E with obind ?e _ = _ => destruct e as [[p vs]| | |] eqn:Ev; cbn [obind] in E; bad E end.
  assert (C' : Forall codable_voter vs).
  { destruct optimize; [|replace vs with voters by congruence; exact C].
    destruct (rank_voters uc vorder voters) as [vs'| | |] eqn:Er; cbn [obind] in Ev; bad Ev.
    replace vs with vs' by congruence. eapply rank_codable; eauto. }
  match type of E with obind ?e _ = _ => destruct e as [inp| | |] eqn:Ei; cbn [obind] in E; bad E end.
  replace input with inp by congruence. revert Ei. apply ofold_keeps; [|constructor]. clear -C'. intros acc i acc' Ca E.
  destruct (rd _ vs i) as [v| | |] eqn:Er; cbn [obind] in E; bad E. injection E as <-. apply Forall_app. split; [exact Ca|].
  constructor; [|constructor]. apply rd_Ok in Er. apply znth_In in Er. rewrite Forall_forall in C'. exact (C' v Er).
Qed.

Section Shapes.
Variable sys : system.
Variable uc : unicode_data.
Variable NFC : list Z -> list Z.
Variables junk junk4 line : list Z.
Variable corder : list conf -> list conf.
Variable torder : list WacModel.term -> list WacModel.term.
Variable sorder : list NgramModel.entry -> list NgramModel.entry.
Variable vorder : list vseq -> list vseq.
Variables fmt fmt6 fmt8 fmt14 : Z -> Z -> list Z.
Variable fmtd : double -> list Z.
Variable signed : bool.

Lemma accuracy_shaped : shaped [] only_args third_arg (accuracy_run sys uc junk junk4 corder fmt).
Proof. shape_it. apply nf_accrpt. eapply named_accuracy. eassumption. Qed.
Lemma accsum_shaped : shaped [] only_args no_dest (accsum_run sys uc line corder fmt).
Proof.
  shape_it. apply nf_accrpt. match goal with E : snd _ = Ok (?d, ?l) |- _ => change d with (fst (d, l)); revert E end.
  apply (read_keeps sys (fun st => named (fst st))); [|apply named_empty]. intros [d0 l0] n f [d1 l1] N _ E. cbn [fst snd] in *. eapply named_read; eauto.
Qed.
Lemma accdist_shaped : shaped [] only_args no_dest (accdist_run sys line fmt6).
Proof. shape_it. apply nf_dist. Qed.
Lemma accci_shaped : shaped [] only_args no_dest (accci_run sys line fmt14 fmtd).
Proof. shape_it. eapply nf_ci. eassumption. Qed.
Lemma groupacc_shaped : shaped [] only_args third_arg (groupacc_run sys uc junk junk4 line fmt8).
Proof. shape_it. apply nf_group. Qed.
Definition args_or_stop (args : list (list Z)) (vars : list var) (n : list Z) : Prop := In n args \/ string_of vars 0 = Ok (Some n).
Lemma wordacc_shaped : shaped [string_option 83] args_or_stop third_arg (wordacc_run sys uc NFC junk junk4 torder fmt).
Proof.
  shape_it. apply shape_bind.
  { match goal with X : option (list Z) |- _ => destruct X end; [|apply reader_lift]. apply reader_bind; [apply reader_open; now right|intros; apply reader_lift]. }
  intros stopfile _. unfold args_or_stop. shaping. apply nf_wacrpt.
Qed.
Lemma wordaccsum_shaped : shaped [] only_args no_dest (wordaccsum_run sys line torder fmt).
Proof. shape_it. apply nf_wacrpt. Qed.
Lemma wordaccdist_shaped : shaped [] only_args no_dest (wordaccdist_run sys line fmt6).
Proof. shape_it. apply nf_dist. Qed.
Lemma wordaccci_shaped : shaped [] only_args no_dest (wordaccci_run sys line fmt14 fmtd).
Proof. shape_it. eapply nf_ci. eassumption. Qed.
Lemma nonstopacc_shaped : shaped [] only_args no_dest (nonstopacc_run sys uc NFC junk junk4 line fmt6).
Proof. shape_it. apply nf_ok. Qed.
Lemma wordfreq_shaped : shaped [] only_args no_dest (wordfreq_run sys uc NFC junk junk4 torder).
Proof. shape_it. apply nf_freq. Qed.
Lemma editop_shaped : shaped [MainModel.flag_option 68] only_args third_arg (editop_run sys uc junk junk4).
Proof. shape_it. apply nf_edorpt. Qed.
Lemma editopsum_shaped : shaped [] only_args no_dest (editopsum_run sys line).
Proof. shape_it. apply nf_edorpt. Qed.
Lemma editopcost_shaped : shaped [] only_args no_dest (editopcost_run sys line).
Proof.
  shape_it. apply shape_bind.
  { match goal with |- reader _ (if ?b then _ else _) => destruct b end; [|apply reader_lift].
    apply reader_bind; [apply reader_lift|]. cbn [snd lift]. intros n En. apply reader_bind; [apply reader_open; eapply rd_among; exact En|].
    intros f _. apply reader_bind; [apply reader_lift|]. intros [d2 l2] _. apply reader_lift. }
  intros d _. shaping. apply nf_costs.
Qed.
Lemma ngram_shaped : shaped [string_option 110] only_args no_dest (ngram_run sys uc junk junk4 sorder).
Proof. shape_it. apply nf_ngram. Qed.

(** The texts of synctext and vote can be written. *)
Hypothesis Junk : junk_ok junk junk4.
Hypothesis Bytes : byte_files sys.
Hypothesis Lower : forall c, scalar c -> scalar (tolower uc c).

Lemma synctext_shaped : shaped [MainModel.flag_option 72; MainModel.flag_option 105; MainModel.flag_option 115; MainModel.flag_option 84]
  only_args no_dest (synctext_run sys uc junk junk4).
Proof.
  shape_it.
  all: match goal with E : snd (iofold _ _ _) = Ok ?texts |- _ => assert (C : Forall codable_text texts);
    [revert E; apply (read_keeps sys (Forall codable_text)); [|constructor];
     intros acc n f acc' Ca Ef E; match type of E with obind ?e _ = _ => destruct e as [[t h]| | |] eqn:Et; cbn [obind] in E; bad E end;
     injection E as <-; apply Forall_app; split; [exact Ca|]; constructor; [|constructor];
     eapply codable_read; [exact Junk|exact (Bytes n f Ef)|intros _; exact Lower|exact Et] | set (tx := texts) in *] end.
  - assert (C0 : forall k, codable_text (nth k tx [])).
    { intros k. destruct (nth_in_or_default k tx []) as [I|D]; [rewrite Forall_forall in C; now apply C|rewrite D; constructor]. }
    apply nf_bind; [apply nf_transposed, C0|intros o1 _]. apply nf_bind; [apply nf_transposed, C0|intros; apply nf_ok].
  - apply nf_bind; [now apply nf_matches|intros o1 _]. apply nf_bind; [|intros; apply nf_ok]. apply nf_differences.
    apply Forall_forall. intros [nm t] I. apply in_combine_r in I. rewrite Forall_forall in C. now apply C.
Qed.

Definition vote_dest (args : list (list Z)) (vars : list var) : option (list Z) :=
  match string_of vars 2 with Ok d => d | _ => None end.
Lemma vote_shaped : shaped [MainModel.flag_option 68; MainModel.flag_option 79; string_option 111; string_option 115; string_option 119]
  only_args vote_dest (vote_run sys uc junk junk4 vorder signed).
Proof.
  shape_it. apply shape_bind.
  { apply reader_fold. intros acc n I. apply reader_bind; [now apply reader_open|]. intros f _. apply reader_bind; [apply reader_lift|].
    intros [t h] _. apply reader_lift. }
  intros voters Ev.
  assert (C : Forall codable_voter voters).
  { match type of Ev with snd (iofold ?st ?l ?s) = _ =>
      pose proof (silent_fold st (fun acc name => let! f := open_read sys name in let! (text, _) := read_text uc junk junk4 vote_opt [] f in
                       Ok (acc ++ [mkvoter (zlen acc) name text 0]))) as Sf; specialize (fun H => Sf H l s) end.
    destruct Sf as [Es _].
    { intros acc n. apply silent_bind; [apply silent_open|]. intros f. apply silent_bind; [apply silent_lift|]. intros [t h]. apply silent_lift. }
    rewrite Ev in Es. symmetry in Es. revert Es. apply ofold_keeps; [|constructor]. intros acc n acc' Ca Es.
    unfold open_read in Es. destruct (contents sys n) as [f|] eqn:Ef; cbn [obind] in Es; bad Es.
    match type of Es with obind ?e _ = _ => destruct e as [[t h]| | |] eqn:Et; cbn [obind] in Es; bad Es end.
    injection Es as <-. apply Forall_app. split; [exact Ca|]. constructor; [|constructor]. unfold codable_voter. cbn [vtext].
    eapply (codable_read uc junk junk4 vote_opt); [exact Junk|exact (Bytes n f Ef)|discriminate|exact Et]. }
  assert (D : vote_dest args vars = X1). { unfold vote_dest. now rewrite E1. }
  rewrite D. shaping. apply nf_write_text. eapply texts_codable; [|eassumption]. eapply select_codable; eassumption.
Qed.
End Shapes.

(** ** Running them *)
Lemma run_shape table names dest run argv : shaped table names dest run ->
  exists nm d, shape nm d (run argv) /\ (d = None \/ exists args vars, d = dest args vars).
Proof.
  intros (body & E & H). rewrite E. unfold run_io.
  destruct (rd _ argv 0) as [name| | |]; [|exists (fun _ => True), None; split; [apply shape_reader; constructor|now left]..].
  unfold ibind at 1. unfold lift at 1. cbn [snd].
  unfold ibind at 1. unfold lift at 1 2. cbn [snd fst].
  destruct (basefilename name); [|exists (fun _ => True), None; split; [apply shape_reader; constructor|now left]..].
  unfold ibind at 1. unfold lift at 1 2 3 4. cbn [snd fst].
  destruct (parse_args _ _ _ _) as [p| | |]; [|exists (fun _ => True), None; split; [apply shape_reader; constructor|now left]..].
  cbn [app]. destruct p as [args vars| | |]; [|exists (fun _ => True), None; split; [apply shape_reader; constructor|now left]..].
  exists (names args vars), (dest args vars). split; [|eauto]. pose proof (shape_end _ _ _ (H args vars)) as S.
  rewrite (surjective_pairing (let* _ := body args vars in lift (Ok Completed))) in S. exact S.
Qed.
Lemma lift_ok {A B} (a : A) (k : A -> io B) : ibind (lift (Ok a)) k = k a.
Proof. unfold ibind, lift. cbn [fst snd app]. symmetry. apply surjective_pairing. Qed.
Lemma items_shape table names dest run items argv : good_table table -> command_line table items argv -> shaped table names dest run ->
  exists vars, vars_ok table items vars /\ shape (names (plain_args items) vars) (dest (plain_args items) vars) (run argv).
Proof.
  intros G (program & -> & Lp & Ne & A & N & R & L) (body & E & H). rewrite E.
  destruct (C56_accepted true table program items G A N R L) as (vars & Ep & V).
  { left. now apply written_not_nil. }
  exists vars. split; [exact V|]. unfold run_io.
  change (rd "argv[0]" (program :: List.concat (map written items)) 0) with (Ok program). rewrite lift_ok.
  destruct (C57_base_partial program Lp) as (base & Eb & _). rewrite Eb, lift_ok, Ep, lift_ok. apply shape_end. apply H.
Qed.
Lemma weaker sys (P Q : list Z -> Prop) run : (forall n, P n -> Q n) -> interruptible sys P run -> interruptible sys Q run.
Proof.
  intros H I r Hr. destruct (I r Hr) as [I1 I2]. split; [exact I1|]. intros n. destruct (I2 n) as [E|[A B]]; [now left|right]. split; [now apply H|exact B].
Qed.
Lemma reads_weaker (P Q : list Z -> Prop) run : (forall n, P n -> Q n) -> reads_only P run -> reads_only Q run.
Proof. intros H [R1 R2]. split; [intros n I; apply H; now apply R1|exact R2]. Qed.

(** What is assumed of the buffers, the files and the lower-case mapping. *)
Definition ordinary_system (sys : system) (uc : unicode_data) (junk junk4 : list Z) : Prop :=
  junk_ok junk junk4 /\ byte_files sys /\ forall c, scalar c -> scalar (tolower uc c).

Ltac fails S := let H := fresh in pose proof S as H; eapply run_shape in H; destruct H as (nm & d & H & _); eapply shape_failure; exact H.
(** C68: whatever the command line and the files are, if a program ends with an error message it
    has left all files as they were. *)
Theorem C68_fail : forall sys uc NFC junk junk4 line corder torder sorder vorder fmt fmt6 fmt8 fmt14 fmtd signed argv,
  ordinary_system sys uc junk junk4 ->
  Forall (harmless_failure sys)
    [accuracy_run sys uc junk junk4 corder fmt argv; accsum_run sys uc line corder fmt argv; accdist_run sys line fmt6 argv;
     accci_run sys line fmt14 fmtd argv; groupacc_run sys uc junk junk4 line fmt8 argv; wordacc_run sys uc NFC junk junk4 torder fmt argv;
     wordaccsum_run sys line torder fmt argv; wordaccdist_run sys line fmt6 argv; wordaccci_run sys line fmt14 fmtd argv;
     nonstopacc_run sys uc NFC junk junk4 line fmt6 argv; wordfreq_run sys uc NFC junk junk4 torder argv; editop_run sys uc junk junk4 argv;
     editopsum_run sys line argv; editopcost_run sys line argv; ngram_run sys uc junk junk4 sorder argv; synctext_run sys uc junk junk4 argv;
     vote_run sys uc junk junk4 vorder signed argv].
Proof.
  intros sys uc NFC junk junk4 line corder torder sorder vorder fmt fmt6 fmt8 fmt14 fmtd signed argv (J & B & L).
  apply Forall_cons; [fails (accuracy_shaped sys uc junk junk4 corder fmt)|].
  apply Forall_cons; [fails (accsum_shaped sys uc line corder fmt)|].
  apply Forall_cons; [fails (accdist_shaped sys line fmt6)|].
  apply Forall_cons; [fails (accci_shaped sys line fmt14 fmtd)|].
  apply Forall_cons; [fails (groupacc_shaped sys uc junk junk4 line fmt8)|].
  apply Forall_cons; [fails (wordacc_shaped sys uc NFC junk junk4 torder fmt)|].
  apply Forall_cons; [fails (wordaccsum_shaped sys line torder fmt)|].
  apply Forall_cons; [fails (wordaccdist_shaped sys line fmt6)|].
  apply Forall_cons; [fails (wordaccci_shaped sys line fmt14 fmtd)|].
  apply Forall_cons; [fails (nonstopacc_shaped sys uc NFC junk junk4 line fmt6)|].
  apply Forall_cons; [fails (wordfreq_shaped sys uc NFC junk junk4 torder)|].
  apply Forall_cons; [fails (editop_shaped sys uc junk junk4)|].
  apply Forall_cons; [fails (editopsum_shaped sys line)|].
  apply Forall_cons; [fails (editopcost_shaped sys line)|].
  apply Forall_cons; [fails (ngram_shaped sys uc junk junk4 sorder)|].
  apply Forall_cons; [fails (synctext_shaped sys uc junk junk4 J B L)|].
  apply Forall_cons; [fails (vote_shaped sys uc junk junk4 vorder signed J B)|].
  apply Forall_nil.
Qed.
Print Assumptions C68_fail.

Ltac untouched S := let H := fresh in pose proof S as H; eapply run_shape in H; destruct H as (nm & d & H & [D|(a & v & D)]);
  (eapply weaker; [|eapply shape_interruptible; exact H]; intros n Hn; rewrite D in Hn; discriminate Hn).
(** C68: the twelve programs that only print never touch a file, wherever they are interrupted. *)
Theorem C68_read_only : forall sys uc NFC junk junk4 line corder torder sorder fmt fmt6 fmt14 fmtd argv,
  ordinary_system sys uc junk junk4 ->
  Forall (interruptible sys (fun _ => False))
    [accsum_run sys uc line corder fmt argv; accdist_run sys line fmt6 argv; accci_run sys line fmt14 fmtd argv;
     wordaccsum_run sys line torder fmt argv; wordaccdist_run sys line fmt6 argv; wordaccci_run sys line fmt14 fmtd argv;
     nonstopacc_run sys uc NFC junk junk4 line fmt6 argv; wordfreq_run sys uc NFC junk junk4 torder argv;
     editopsum_run sys line argv; editopcost_run sys line argv; ngram_run sys uc junk junk4 sorder argv; synctext_run sys uc junk junk4 argv].
Proof.
  intros sys uc NFC junk junk4 line corder torder sorder fmt fmt6 fmt14 fmtd argv (J & B & L).
  apply Forall_cons; [untouched (accsum_shaped sys uc line corder fmt)|].
  apply Forall_cons; [untouched (accdist_shaped sys line fmt6)|].
  apply Forall_cons; [untouched (accci_shaped sys line fmt14 fmtd)|].
  apply Forall_cons; [untouched (wordaccsum_shaped sys line torder fmt)|].
  apply Forall_cons; [untouched (wordaccdist_shaped sys line fmt6)|].
  apply Forall_cons; [untouched (wordaccci_shaped sys line fmt14 fmtd)|].
  apply Forall_cons; [untouched (nonstopacc_shaped sys uc NFC junk junk4 line fmt6)|].
  apply Forall_cons; [untouched (wordfreq_shaped sys uc NFC junk junk4 torder)|].
  apply Forall_cons; [untouched (editopsum_shaped sys line)|].
  apply Forall_cons; [untouched (editopcost_shaped sys line)|].
  apply Forall_cons; [untouched (ngram_shaped sys uc junk junk4 sorder)|].
  apply Forall_cons; [untouched (synctext_shaped sys uc junk junk4 J B L)|].
  apply Forall_nil.
Qed.
Print Assumptions C68_read_only.

(** C68: the five programs with an output file, wherever they are interrupted: only that file can
    be found changed, and then with a first part of the report. *)
Theorem C68_interrupted : forall sys uc NFC junk junk4 line corder torder vorder fmt fmt8 signed items argv,
  ordinary_system sys uc junk junk4 ->
  let third_argument n := nth_error (plain_args items) 2 = Some n in
  (command_line [] items argv ->
     interruptible sys third_argument (accuracy_run sys uc junk junk4 corder fmt argv) /\
     interruptible sys third_argument (groupacc_run sys uc junk junk4 line fmt8 argv)) /\
  (command_line [string_option 83] items argv ->
     interruptible sys third_argument (wordacc_run sys uc NFC junk junk4 torder fmt argv)) /\
  (command_line [MainModel.flag_option 68] items argv ->
     interruptible sys third_argument (editop_run sys uc junk junk4 argv)) /\
  (command_line [MainModel.flag_option 68; MainModel.flag_option 79; string_option 111; string_option 115; string_option 119] items argv ->
     interruptible sys (fun n => says_value items 111 (Some n)) (vote_run sys uc junk junk4 vorder signed argv)).
Proof.
  intros sys uc NFC junk junk4 line corder torder vorder fmt fmt8 signed items argv (J & B & L) third_argument.
  repeat apply conj; intros CL; [split| | |].
  - destruct (items_shape _ _ _ _ _ _ no_options CL (accuracy_shaped sys uc junk junk4 corder fmt)) as (vars & V & Sh).
    apply (shape_interruptible sys) in Sh. exact Sh.
  - destruct (items_shape _ _ _ _ _ _ no_options CL (groupacc_shaped sys uc junk junk4 line fmt8)) as (vars & V & Sh).
    apply (shape_interruptible sys) in Sh. exact Sh.
  - destruct (items_shape _ _ _ _ _ _ wordacc_options CL (wordacc_shaped sys uc NFC junk junk4 torder fmt)) as (vars & V & Sh).
    apply (shape_interruptible sys) in Sh. exact Sh.
  - destruct (items_shape _ _ _ _ _ _ editop_options CL (editop_shaped sys uc junk junk4)) as (vars & V & Sh).
    apply (shape_interruptible sys) in Sh. exact Sh.
  - destruct (items_shape _ _ _ _ _ _ vote_options CL (vote_shaped sys uc junk junk4 vorder signed J B)) as (vars & V & Sh).
    apply (shape_interruptible sys) in Sh. eapply weaker; [|exact Sh]. cbv beta. unfold vote_dest.
    destruct (value_at _ _ _ 2 111 V eq_refl) as (v2 & Ev2 & S2). rewrite Ev2. intros n ->. exact S2.
Qed.
Print Assumptions C68_interrupted.

(** C68: a program opens only files named on its command line, and reads all of them before it
    opens the file for its report. *)
Theorem C68_reads : forall sys uc NFC junk junk4 line corder torder sorder vorder fmt fmt6 fmt8 fmt14 fmtd signed items argv,
  ordinary_system sys uc junk junk4 ->
  let argument n := In n (plain_args items) in
  (command_line [] items argv ->
     Forall (reads_only argument)
       [accuracy_run sys uc junk junk4 corder fmt argv; accsum_run sys uc line corder fmt argv; accdist_run sys line fmt6 argv;
        accci_run sys line fmt14 fmtd argv; groupacc_run sys uc junk junk4 line fmt8 argv; wordaccsum_run sys line torder fmt argv;
        wordaccdist_run sys line fmt6 argv; wordaccci_run sys line fmt14 fmtd argv; nonstopacc_run sys uc NFC junk junk4 line fmt6 argv;
        wordfreq_run sys uc NFC junk junk4 torder argv; editopsum_run sys line argv; editopcost_run sys line argv]) /\
  (command_line [string_option 83] items argv ->
     reads_only (fun n => argument n \/ says_value items 83 (Some n)) (wordacc_run sys uc NFC junk junk4 torder fmt argv)) /\
  (command_line [MainModel.flag_option 68] items argv -> reads_only argument (editop_run sys uc junk junk4 argv)) /\
  (command_line [string_option 110] items argv -> reads_only argument (ngram_run sys uc junk junk4 sorder argv)) /\
  (command_line [MainModel.flag_option 72; MainModel.flag_option 105; MainModel.flag_option 115; MainModel.flag_option 84] items argv ->
     reads_only argument (synctext_run sys uc junk junk4 argv)) /\
  (command_line [MainModel.flag_option 68; MainModel.flag_option 79; string_option 111; string_option 115; string_option 119] items argv ->
     reads_only argument (vote_run sys uc junk junk4 vorder signed argv)).
Proof.
  intros sys uc NFC junk junk4 line corder torder sorder vorder fmt fmt6 fmt8 fmt14 fmtd signed items argv (J & B & L) argument.
  assert (G : forall table dest run, good_table table -> command_line table items argv -> shaped table only_args dest run -> reads_only argument (run argv)).
  { intros table dest run Gt CL S. destruct (items_shape _ _ _ _ _ _ Gt CL S) as (vars & V & Sh). apply shape_reads in Sh. exact Sh. }
  repeat apply conj; intros CL.
  - apply Forall_cons; [exact (G _ _ _ no_options CL (accuracy_shaped sys uc junk junk4 corder fmt))|].
    apply Forall_cons; [exact (G _ _ _ no_options CL (accsum_shaped sys uc line corder fmt))|].
    apply Forall_cons; [exact (G _ _ _ no_options CL (accdist_shaped sys line fmt6))|].
    apply Forall_cons; [exact (G _ _ _ no_options CL (accci_shaped sys line fmt14 fmtd))|].
    apply Forall_cons; [exact (G _ _ _ no_options CL (groupacc_shaped sys uc junk junk4 line fmt8))|].
    apply Forall_cons; [exact (G _ _ _ no_options CL (wordaccsum_shaped sys line torder fmt))|].
    apply Forall_cons; [exact (G _ _ _ no_options CL (wordaccdist_shaped sys line fmt6))|].
    apply Forall_cons; [exact (G _ _ _ no_options CL (wordaccci_shaped sys line fmt14 fmtd))|].
    apply Forall_cons; [exact (G _ _ _ no_options CL (nonstopacc_shaped sys uc NFC junk junk4 line fmt6))|].
    apply Forall_cons; [exact (G _ _ _ no_options CL (wordfreq_shaped sys uc NFC junk junk4 torder))|].
    apply Forall_cons; [exact (G _ _ _ no_options CL (editopsum_shaped sys line))|].
    apply Forall_cons; [exact (G _ _ _ no_options CL (editopcost_shaped sys line))|].
    apply Forall_nil.
  - destruct (items_shape _ _ _ _ _ _ wordacc_options CL (wordacc_shaped sys uc NFC junk junk4 torder fmt)) as (vars & V & Sh).
    apply shape_reads in Sh. eapply reads_weaker; [|exact Sh]. intros n [I|E]; [now left|right].
    destruct (value_at _ _ _ 0 83 V eq_refl) as (v & Ev & Sv). rewrite Ev in E. injection E as ->. exact Sv.
  - exact (G _ _ _ editop_options CL (editop_shaped sys uc junk junk4)).
  - exact (G _ _ _ ngram_options CL (ngram_shaped sys uc junk junk4 sorder)).
  - exact (G _ _ _ synctext_options CL (synctext_shaped sys uc junk junk4 J B L)).
  - exact (G _ _ _ vote_options CL (vote_shaped sys uc junk junk4 vorder signed J B)).
Qed.
Print Assumptions C68_reads.

(** A case: vote -o out a b c writes "cat" to out; interrupted, it can leave "ca" there.  With a
    missing file it fails and leaves everything as it was. *)
Example C68_ex :
  ordinary_system prog_system prog_uc sample_line sample_buf /\
  fst (vote_run prog_system prog_uc sample_line sample_buf (fun l => l) true
         [bytes "vote"; bytes "-o"; bytes "out"; bytes "a"; bytes "b"; bytes "c"]) =
    [Reads (bytes "a"); Reads (bytes "b"); Reads (bytes "c"); Puts None []; Opens (Some (bytes "out")); Puts (Some (bytes "out")) (bytes "cat")] /\
  interrupted prog_system
    [Reads (bytes "a"); Reads (bytes "b"); Reads (bytes "c"); Puts None []; Opens (Some (bytes "out")); Puts (Some (bytes "out")) (bytes "cat")]
    (mkresult [] (update (contents prog_system) (bytes "out") (bytes "ca"))) /\
  vote_run prog_system prog_uc sample_line sample_buf (fun l => l) true
    [bytes "vote"; bytes "-o"; bytes "out"; bytes "a"; bytes "b"; bytes "x"] =
    ([Reads (bytes "a"); Reads (bytes "b")], Fail "unable to open file").
Proof.
  split; [|split; [vm_compute; reflexivity|split; [|vm_compute; reflexivity]]].
  - split; [split; [reflexivity|split; [reflexivity|repeat (constructor; [unfold is_byte; lia|]); constructor]]|]. split.
    + intros n f E. unfold prog_system in E. cbn [contents] in E.
      repeat match type of E with context [list_eq_dec Z.eq_dec ?x ?y] => destruct (list_eq_dec Z.eq_dec x y) end; try discriminate E; injection E as <-;
        (repeat (constructor; [unfold is_byte; cbv; intuition discriminate|]); constructor).
    + unfold scalar. intros c Hc. cbn [tolower prog_uc]. destruct ((65 <=? c) && (c <=? 90)) eqn:R; lia.
  - exists [Reads (bytes "a"); Reads (bytes "b"); Reads (bytes "c"); Puts None []; Opens (Some (bytes "out")); Puts (Some (bytes "out")) (bytes "cat")], [].
    split; [reflexivity|]. split; [exists []; reflexivity|]. intros n. cbn [files_after]. unfold update.
    destruct (list_eq_dec Z.eq_dec n (bytes "out")) as [->|N].
    + right. split; [right; right; right; right; left; reflexivity|]. exists (bytes "ca"). split; [reflexivity|]. exists (bytes "t"). vm_compute. reflexivity.
    + left. split; [|reflexivity]. intros [I|[I|[I|[I|[I|[I|[]]]]]]]; try discriminate I. injection I as I. congruence.
Qed.
