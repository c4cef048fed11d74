(** C70: results are reproducible. *)
From Coq Require Import String Permutation.
From Verif Require Import Base CLib CLibProof SyncModel SyncSpec Utf8Model TextModel TextSpec TextIO TextProps ReadProof ReproProof StopModel StopProps
  SynctextModel SynctextSpec SynctextProof SynctextProps AccModel AccSpec AccProps ReportModel ReportSpec ReportProof AccrptModel AccrptSpec AccrptTop AccrptAcc AccrptProps
  CompareProof WordModel WordSpec WordProps LcsModel LcsSpec LcsTop WacModel WacSpec WacProof WacrptModel WacrptSpec WacrptProof WacrptTop WacrptProps WacSame
  FreqModel FreqSpec FreqProps NgramModel NgramSpec NgramProps GroupModel NonstopModel EditopModel EditopDebugModel EdoModel
  VoteModel VoteSpec VoteProps VoteSelModel VoteSelSpec VoteSelProof VoteSelProps
  UtilModel ArgsProps MainModel MainSpec MainProof MainProps MainWacProps MainProgProps MainTextSpec MainTextProps MainVoteProps MainEditProps ReproSpec.
Local Open Scope Z_scope.
Local Open Scope list_scope.

Lemma run_main_ext table argv body body' : (forall args vars, body args vars = body' args vars) ->
  run_main table argv body = run_main table argv body'.
Proof.
  intros H. unfold run_main. destruct (rd "argv[0]" argv 0); try reflexivity. cbn [obind]. destruct (basefilename _); try reflexivity. cbn [obind].
  destruct (parse_args _ _ _ _) as [[args vars| | |]| | |]; try reflexivity. cbn [obind]. now rewrite H.
Qed.
Lemma ofold_ext {S A} (f g : S -> A -> outcome S) l : (forall s a, f s a = g s a) -> forall s, ofold f l s = ofold g l s.
Proof. intros H. induction l as [|a l IH]; intros s; [reflexivity|]. cbn [ofold]. rewrite H. destruct (g s a); cbn [obind]; auto. Qed.
Lemma words_in_memory uc NFC line line' buf buf' opt f : junk_ok line buf -> junk_ok line' buf' ->
  words_in uc NFC line buf opt f = words_in uc NFC line' buf' opt f.
Proof. intros J J'. unfold words_in. now rewrite (read_text_memory uc line line' buf buf' opt [] f J J'). Qed.
Lemma stopwords_memory uc NFC line line' buf buf' st f : junk_ok line buf -> junk_ok line' buf' ->
  init_stopwords uc NFC line buf st f = init_stopwords uc NFC line' buf' st f.
Proof. intros J J'. unfold init_stopwords. destruct f as [f|]; [|reflexivity]. now rewrite (words_in_memory uc NFC line line' buf buf' _ f J J'). Qed.

Ltac same_steps J J' := repeat first
  [ reflexivity
  | match goal with |- context [read_text ?uc ?l ?b ?o ?t ?f] =>
      match type of J with junk_ok l b => rewrite (read_text_memory uc _ _ _ _ o t f J J') end end
  | match goal with |- context [words_in ?uc ?n ?l ?b ?o ?f] =>
      match type of J with junk_ok l b => rewrite (words_in_memory uc n _ _ _ _ o f J J') end end
  | match goal with |- context [init_stopwords ?uc ?n ?l ?b ?o ?f] =>
      match type of J with junk_ok l b => rewrite (stopwords_memory uc n _ _ _ _ o f J J') end end
  | match goal with |- context [ofold _ _ _] => erewrite ofold_ext; [reflexivity|]; intros ? ?; cbv beta; unfold reading end
  | match goal with |- (if ?b then _ else _) = _ => destruct b end
  | match goal with |- obind ?e _ = _ => lazymatch e with obind _ _ => fail | _ => idtac end; let X := fresh "X" in destruct e as [X| | |]; cbn [obind] end
  | match goal with |- context [let (_, _) := ?x in _] => destruct x end
  ].

(** C70: nothing a program leaves or prints, nor how it ends, depends on what its local buffers
    contain at first. *)
Theorem C70_memory : forall sys uc NFC line line' buf buf' slot corder torder sorder vorder fmt fmt6 fmt8 signed argv,
  junk_ok line buf -> junk_ok line' buf' ->
  accuracy_main sys uc line buf corder fmt argv = accuracy_main sys uc line' buf' corder fmt argv /\
  groupacc_main sys uc line buf slot fmt8 argv = groupacc_main sys uc line' buf' slot fmt8 argv /\
  wordacc_main sys uc NFC line buf torder fmt argv = wordacc_main sys uc NFC line' buf' torder fmt argv /\
  nonstopacc_main sys uc NFC line buf slot fmt6 argv = nonstopacc_main sys uc NFC line' buf' slot fmt6 argv /\
  wordfreq_main sys uc NFC line buf torder argv = wordfreq_main sys uc NFC line' buf' torder argv /\
  editop_main sys uc line buf argv = editop_main sys uc line' buf' argv /\
  ngram_main sys uc line buf sorder argv = ngram_main sys uc line' buf' sorder argv /\
  synctext_main sys uc line buf argv = synctext_main sys uc line' buf' argv /\
  vote_main sys uc line buf vorder signed argv = vote_main sys uc line' buf' vorder signed argv.
Proof.
  intros sys uc NFC line line' buf buf' slot corder torder sorder vorder fmt fmt6 fmt8 signed argv J J'.
  split; [|split; [|split; [|split; [|split; [|split; [|split; [|split]]]]]]]; apply run_main_ext; intros args vars.
  all: same_steps J J'.
Qed.
Print Assumptions C70_memory.

(** ** Files that stand for the same texts *)
Lemma prints_ends sys content res : prints sys content res -> ends_with sys None (let! c := content in Ok ([], c)) res.
Proof. destruct content; cbn; auto. Qed.
Lemma same_prints sys sys' content res res' : prints sys content res -> prints sys' content res' -> same_end sys sys' None res res'.
Proof. intros P P'. exists (let! c := content in Ok ([], c)). split; now apply prints_ends. Qed.
Lemma same_delivered sys sys' dest printed report r r' : delivered sys dest printed report r -> delivered sys' dest printed report r' ->
  same_end sys sys' dest (Ok (Done r)) (Ok (Done r')).
Proof. intros D D'. exists (Ok (printed, report)). split; cbn; eauto. Qed.

(** C70: accuracy. *)
Theorem C70_accuracy : forall sys sys' uc line line' buf buf' order order' fmt items argv n0 n1 dest f0 f0' t0 t1,
  nul_hidden uc -> marks_wide uc -> pct_ok fmt -> permutes order -> permutes order' -> junk_ok line buf -> junk_ok line' buf' ->
  command_line [] items argv -> plain_args items = with_third [n0; n1] dest ->
  has_file sys n0 f0 -> Forall is_byte f0 -> file_text uc false f0 false t0 ->
  has_file sys' n0 f0' -> Forall is_byte f0' -> file_text uc false f0' false t0 ->
  holds_text sys uc false n1 t1 -> holds_text sys' uc false n1 t1 ->
  ~ In 1114111 (map value t0) -> zlen t0 <= MAX_F -> zlen t0 + zlen t1 < 100000000 ->
  can_deliver sys dest -> can_deliver sys' dest ->
  same_end sys sys' dest (accuracy_main sys uc line buf order fmt argv) (accuracy_main sys' uc line' buf' order' fmt argv).
Proof.
  intros sys sys' uc line line' buf buf' order order' fmt items argv n0 n1 dest f0 f0' t0 t1 N W P O O' J J' CL PA
    F0 B0 T0 F0' B0' T0' (f1 & h & F1 & B1 & T1) (f1' & h' & F1' & B1' & T1') Tab Lm Ls D D'.
  destruct (C62_accuracy sys uc line buf order fmt items argv n0 n1 dest f0 f1 t0 t1 h) as (r & report & d & E & Dl & Ed & Rp & _); auto.
  destruct (C62_accuracy sys' uc line' buf' order' fmt items argv n0 n1 dest f0' f1' t0 t1 h') as (r' & report' & d' & E' & Dl' & Ed' & Rp' & _); auto.
  assert (d' = d) by congruence. subst d'. destruct Rp as (R & Bl & o & Po & Wr), Rp' as (_ & _ & o' & Po' & Wr').
  rewrite (write_same uc fmt N o o' d d Po Po' R R) in Wr; [|intros x; reflexivity|intros x; specialize (Bl x); lia].
  assert (report' = report) by congruence. subst report'. rewrite E, E'. exact (same_delivered _ _ _ _ _ _ _ Dl Dl').
Qed.
Print Assumptions C70_accuracy.

(** C70: wordacc. *)
Theorem C70_wordacc : forall sys sys' uc NFC line line' buf buf' order order' fmt items argv n0 n1 dest f0 f0' w0 w1 stopname ws ws',
  pct_ok fmt -> permutes_terms order -> permutes_terms order' -> junk_ok line buf -> junk_ok line' buf' ->
  (forall c, scalar c -> scalar (tolower uc c)) ->
  command_line [string_option 83] items argv -> plain_args items = with_third [n0; n1] dest ->
  says_value items 83 stopname -> stopwords_of sys uc NFC stopname ws -> stopwords_of sys' uc NFC stopname ws' ->
  (forall w, In w ws <-> In w ws') ->
  has_file sys n0 f0 -> Forall is_byte f0 -> file_words uc NFC f0 false w0 ->
  has_file sys' n0 f0' -> Forall is_byte f0' -> file_words uc NFC f0' false w0 ->
  holds_words sys uc NFC n1 w1 -> holds_words sys' uc NFC n1 w1 ->
  zlen (shared w0 w1) <= 65535 ->
  (forall w, In w w0 -> 1 <= zlen w <= 50 /\ ~ In 10 w /\ Forall (fun c => 0 < c < 256) w) ->
  can_deliver sys dest -> can_deliver sys' dest ->
  same_end sys sys' dest (wordacc_main sys uc NFC line buf order fmt argv) (wordacc_main sys' uc NFC line' buf' order' fmt argv).
Proof.
  intros sys sys' uc NFC line line' buf buf' order order' fmt items argv n0 n1 dest f0 f0' w0 w1 stopname ws ws' P O O' J J' Low CL PA SV SW SW' Q
    F0 B0 W0 F0' B0' W0' H1 H1' Sh Hw D D'.
  rewrite <- common_shared in Sh. destruct (proj2 (recognize_ok w0 w1) Sh) as (marks & Em & Lm).
  assert (Run : forall sys order line buf f0 ws, permutes_terms order -> junk_ok line buf -> stopwords_of sys uc NFC stopname ws ->
    has_file sys n0 f0 -> Forall is_byte f0 -> file_words uc NFC f0 false w0 -> holds_words sys uc NFC n1 w1 -> can_deliver sys dest ->
    exists s d r report, (forall w, lookup s w = true <-> In w ws) /\ figures (lookup s) w0 marks d /\ phrases marks (phrase d) /\ wreportable d /\
      write_wacrpt fmt order d = Ok report /\ delivered sys dest [] report r /\
      wordacc_main sys uc NFC line buf order fmt argv = Ok (Done r)).
  { clear sys sys' line line' buf buf' order order' f0 f0' ws ws' O O' J J' SW SW' Q F0 B0 W0 F0' B0' W0' H1 H1' D D'.
    intros sys order line buf f0 ws O J SW F0 B0 (t0 & T0 & W0) (f1 & h & F1 & B1 & t1 & T1 & W1) D.
    pose proof (read_file_text uc line buf true f0 false t0 J B0 T0) as R0.
    pose proof (read_file_text uc line buf true f1 h t1 J B1 T1) as R1.
    assert (X0 : find_words uc NFC [] (map value t0) = Ok w0).
    { apply text_words_found; [|exact W0]. apply (read_text_scalar uc line buf (mkopt true true 0 true true) f0 t0 false J B0); [|exact R0]. intros _. exact Low. }
    assert (X1 : find_words uc NFC [] (map value t1) = Ok w1).
    { apply text_words_found; [|exact W1]. apply (read_text_scalar uc line buf (mkopt true true 0 true true) f1 t1 h J B1); [|exact R1]. intros _. exact Low. }
    assert (St : exists stopfile, match stopname with Some name => let! f := open_read sys name in Ok (Some f) | None => Ok None end = Ok stopfile /\
              exists s, init_stopwords uc NFC line buf at_start stopfile = Ok s /\ forall w, lookup s w = true <-> In w ws).
    { destruct stopname as [n|]; cbn in SW.
      - destruct SW as (f & Hf & Hs). exists (Some f). rewrite (open_file sys n f Hf). split; [reflexivity|].
        destruct (init_ok uc NFC line buf (Some f) ws) as (s & Es & _ & Hl); [now apply read_stop_file|]. eauto.
      - exists None. split; [reflexivity|]. destruct (init_ok uc NFC line buf None ws SW) as (s & Es & _ & Hl). eauto. }
    destruct St as (stopfile & Ef & s & Es & Hl).
    destruct (determine_ok (lookup s) order w0 marks O (proj1 Lm)) as (d & Ed & Fg & Ph). { intros w I. apply Hw, I. }
    destruct (wordacc_reportable (lookup s) w0 marks d (proj1 Lm)) as [Rp Bl]; [|exact Fg|exact Ph|].
    { intros w I. destruct (Hw w I) as ([_ L50] & N & Bt). split; [exact N|]. split; [exact Bt|lia]. }
    destruct (write_wacrpt_text fmt order d Rp O) as (sa & na & _ & _ & Ew & _).
    destruct (write_delivered sys dest [] (report_wtext fmt d sa na) D) as (r & Er & Dl).
    exists s, d, r, (report_wtext fmt d sa na). split; [exact Hl|]. split; [exact Fg|]. split; [exact Ph|]. split; [exact Rp|]. split; [exact Ew|]. split; [exact Dl|].
    unfold wordacc_main. enter stop_option CL vars V. rewrite PA, zlen_with_third, third_with. cbv iota.
    destruct (value_at _ _ _ 0 83 V eq_refl) as (v & Ev & SV'). rewrite Ev. cbn [obind].
    rewrite (says_value_fun _ _ _ _ SV' SV), Ef. cbn [obind]. rewrite Es. cbn [obind].
    change (rd "filename[0]" (with_third [n0; n1] dest) 0) with (Ok n0). cbn [obind]. rewrite (open_file sys n0 f0 F0). cbn [obind].
    unfold wordacc_opt. rewrite R0. cbn [obind]. rewrite X0. cbn [obind].
    change (rd "filename[1]" (with_third [n0; n1] dest) 1) with (Ok n1). cbn [obind]. rewrite (open_file sys n1 f1 F1). cbn [obind].
    rewrite R1. cbn [obind]. rewrite X1. cbn [obind]. unfold wordacc. rewrite Em. cbn [obind]. rewrite Ed. cbn [obind]. rewrite Ew, Er. reflexivity. }
  destruct (Run sys order line buf f0 ws O J SW F0 B0 W0 H1 D) as (s & d & r & report & Hl & Fg & Ph & Rp & Wr & Dl & E).
  destruct (Run sys' order' line' buf' f0' ws' O' J' SW' F0' B0' W0' H1' D') as (s' & d' & r' & report' & Hl' & Fg' & Ph' & Rp' & Wr' & Dl' & E').
  assert (Ws : wsame d d').
  { apply (figures_same (lookup s) (lookup s') w0 marks); auto. intros w. specialize (Hl w). specialize (Hl' w). specialize (Q w).
    destruct (lookup s w), (lookup s' w); intuition congruence. }
  rewrite (wwrite_same fmt order order' d d' O O' Rp Rp' Ws) in Wr. assert (report' = report) by congruence. subst report'.
  rewrite E, E'. exact (same_delivered _ _ _ _ _ _ _ Dl Dl').
Qed.
Print Assumptions C70_wordacc.

(** ** wordfreq and ngram: the order of the files does not matter either *)
Lemma count_if_perm {A} (P : A -> bool) l l' : Permutation l l' -> count_if P l = count_if P l'.
Proof.
  unfold count_if. induction 1 as [|x l l' H IH|x y l|l l2 l3 H1 IH1 H2 IH2]; cbn [filter].
  - reflexivity.
  - destruct (P x); rewrite ?zlen_cons; lia.
  - destruct (P x), (P y); rewrite ?zlen_cons; lia.
  - congruence.
Qed.
Lemma zlen_perm {A} (l l' : list A) : Permutation l l' -> zlen l = zlen l'.
Proof. intros H. unfold zlen. now rewrite (Permutation_length H). Qed.

Lemma lists_words_perm words words' rows : Permutation words words' -> lists_words words rows -> lists_words words' rows.
Proof.
  intros P [O W C]. constructor; [exact O| |].
  - intros w. rewrite W. split; apply Permutation_in; [exact P|now symmetry].
  - intros w c I. rewrite (C w c I). unfold occurrences. now apply count_if_perm.
Qed.
Lemma frequency_same words words' out out' : Permutation words words' -> frequency_report words out -> frequency_report words' out' -> out = out'.
Proof.
  intros P (r1 & r2 & L1 & S1 & L2 & S2 & ->) (q1 & q2 & M1 & T1 & M2 & T2 & ->). rewrite (zlen_perm _ _ P).
  rewrite (C51_unique words' r1 q1 by_word), (C51_unique words' r2 q2 by_frequency); auto; eapply lists_words_perm; eauto.
Qed.
Lemma lists_sequences_perm ws ws' rows : Permutation ws ws' -> lists_sequences ws rows -> lists_sequences ws' rows.
Proof.
  intros P [O V F]. constructor; [exact O| |].
  - intros vs. rewrite V. split; intros (w & I & E); exists w; (split; [|exact E]); eapply Permutation_in; [|exact I| |exact I]; [exact P|now symmetry].
  - intros vs c s I. destruct (F vs c s I) as [-> ->]. split; now apply count_if_perm.
Qed.
Lemma ngram_same uc ws ws' out out' : Permutation ws ws' -> ngram_report uc ws out -> ngram_report uc ws' out' -> out = out'.
Proof.
  intros P (r1 & r2 & L1 & S1 & L2 & S2 & ->) R. refine (C50_unique uc ws' _ _ _ R). exists r1, r2.
  split; [eapply lists_sequences_perm; eauto|]. split; [exact S1|]. split; [eapply lists_sequences_perm; eauto|]. split; [exact S2|].
  unfold seq_listing. rewrite (zlen_perm _ _ P), (count_if_perm _ _ _ P). reflexivity.
Qed.

(** C70: wordfreq. *)
Theorem C70_wordfreq : forall sys sys' uc NFC line line' buf buf' order order' items items' argv argv' lists lists',
  (forall l, Permutation l (order l)) -> (forall l, Permutation l (order' l)) -> junk_ok line buf -> junk_ok line' buf' ->
  (forall c, scalar c -> scalar (tolower uc c)) -> (forall s, bytes_ok s -> bytes_ok (NFC s)) ->
  command_line [] items argv -> command_line [] items' argv' ->
  Forall2 (holds_words sys uc NFC) (plain_args items) lists -> Forall2 (holds_words sys' uc NFC) (plain_args items') lists' ->
  Permutation (concat lists) (concat lists') -> zlen (concat lists) < 2147483648 ->
  same_end sys sys' None (wordfreq_main sys uc NFC line buf order argv) (wordfreq_main sys' uc NFC line' buf' order' argv').
Proof.
  intros sys sys' uc NFC line line' buf buf' order order' items items' argv argv' lists lists' O O' J J' Low Nb CL CL' H H' P Sz.
  destruct (C69_wordfreq sys uc NFC line buf order items argv lists O J Low Nb CL H Sz) as (r & out & E & D & R).
  rewrite (zlen_perm _ _ P) in Sz.
  destruct (C69_wordfreq sys' uc NFC line' buf' order' items' argv' lists' O' J' Low Nb CL' H' Sz) as (r' & out' & E' & D' & R').
  assert (out = out') by (eapply frequency_same; eauto). subst out'. rewrite E, E'. exact (same_delivered _ _ _ _ _ _ _ D D').
Qed.
Print Assumptions C70_wordfreq.

(** C70: ngram. *)
Theorem C70_ngram : forall sys sys' uc line line' buf buf' order order' items items' argv argv' texts texts' nopt nopt' n,
  nul_hidden uc -> marks_wide uc ->
  (forall l, Permutation l (order l)) -> (forall l, Permutation l (order' l)) -> junk_ok line buf -> junk_ok line' buf' ->
  command_line [string_option 110] items argv -> command_line [string_option 110] items' argv' ->
  says_value items 110 nopt -> n_given nopt n -> says_value items' 110 nopt' -> n_given nopt' n ->
  Forall2 (holds_text sys uc false) (plain_args items) texts -> Forall2 (holds_text sys' uc false) (plain_args items') texts' ->
  texts <> [] -> Permutation texts texts' -> zlen (flat_map (sequences (Z.to_nat n)) texts) < 2147483648 ->
  same_end sys sys' None (ngram_main sys uc line buf order argv) (ngram_main sys' uc line' buf' order' argv').
Proof.
  intros sys sys' uc line line' buf buf' order order' items items' argv argv' texts texts' nopt nopt' n N W O O' J J' CL CL' SV G SV' G' H H' Ne P Sz.
  assert (Q : Permutation (flat_map (sequences (Z.to_nat n)) texts) (flat_map (sequences (Z.to_nat n)) texts')) by now apply Permutation_flat_map.
  destruct (C69_ngram sys uc line buf order items argv texts nopt n N W O J CL SV G H Ne Sz) as (r & out & E & D & R).
  rewrite (zlen_perm _ _ Q) in Sz.
  destruct (C69_ngram sys' uc line' buf' order' items' argv' texts' nopt' n N W O' J' CL' SV' G' H') as (r' & out' & E' & D' & R'); [|exact Sz|].
  { intros ->. symmetry in P. apply Permutation_nil in P. contradiction. }
  assert (out = out') by (eapply ngram_same; eauto). subst out'. rewrite E, E'. exact (same_delivered _ _ _ _ _ _ _ D D').
Qed.
Print Assumptions C70_ngram.

(** ** synctext and editop *)

(** C70: synctext. *)
Theorem C70_synctext : forall sys sys' uc line line' buf buf' items argv texts H i s T,
  junk_ok line buf -> junk_ok line' buf' -> (i = true -> forall c, scalar c -> scalar (tolower uc c)) ->
  command_line [MainModel.flag_option 72; MainModel.flag_option 105; MainModel.flag_option 115; MainModel.flag_option 84] items argv ->
  says_flag items 72 H -> says_flag items 105 i -> says_flag items 115 s -> says_flag items 84 T ->
  Forall2 (holds_text sys uc i) (plain_args items) texts -> Forall2 (holds_text sys' uc i) (plain_args items) texts ->
  same_end sys sys' None (synctext_main sys uc line buf argv) (synctext_main sys' uc line' buf' argv).
Proof.
  intros sys sys' uc line line' buf buf' items argv texts H i s T J J' Low CL SH Si Ss ST Ho Ho'.
  destruct (holds_read sys uc line buf i _ _ J Low Ho) as (files & F & _ & R).
  destruct (holds_read sys' uc line' buf' i _ _ J' Low Ho') as (files' & F' & _ & R').
  pose proof (C64_synctext sys uc line buf items argv files H i s T CL F SH Si Ss ST) as P.
  pose proof (C64_synctext sys' uc line' buf' items argv files' H i s T CL F' SH Si Ss ST) as P'.
  replace (synctext uc line' buf' H i s T (combine (plain_args items) files')) with (synctext uc line buf H i s T (combine (plain_args items) files)) in P'.
  { exact (same_prints _ _ _ _ _ P P'). }
  unfold synctext. rewrite !(zlen_combine (plain_args items)), !(map_fst_combine (plain_args items)); try (eapply MainProgProps.Forall2_zlen; eassumption).
  destruct ((zlen (plain_args items) <? 2) || _); [reflexivity|].
  assert (X : forall line buf files names, Forall2 (fun f t => (exists h, read_text uc line buf (mkopt true true 0 true i) [] f = Ok (t, h)) /\ text_ok t) files texts ->
    zlen names = zlen files -> forall acc,
    ofold (fun acc (f : list Z * list Z) => let! (text, _) := read_text uc line buf (synctext_opt i) [] (snd f) in Ok (acc ++ [text])) (combine names files) acc = Ok (acc ++ texts)).
  { clear. intros line buf files names R. revert names. induction R as [|f t files texts ((h & E) & _) R IH]; intros [|n names] L acc; try (rewrite ?zlen_cons in L; pose proof (zlen_nonneg files); pose proof (zlen_nonneg names); unfold zlen in L at 1; cbn in L; lia).
    - cbn. now rewrite app_nil_r.
    - exfalso. rewrite zlen_cons in L. pose proof (zlen_nonneg names). change (zlen (@nil (list Z))) with 0 in L. lia.
    - exfalso. rewrite zlen_cons in L. pose proof (zlen_nonneg files). change (zlen (@nil (list Z))) with 0 in L. lia.
    - cbn [combine ofold snd]. unfold synctext_opt in *. rewrite E. cbn [obind]. rewrite IH; [|rewrite !zlen_cons in L; lia]. now rewrite <- app_assoc. }
  rewrite !X; auto; eapply MainProgProps.Forall2_zlen; eassumption.
Qed.
Print Assumptions C70_synctext.

(** C70: editop. *)
Theorem C70_editop : forall sys sys' uc line line' buf buf' items argv n0 n1 dest f0 f0' t0 t1,
  junk_ok line buf -> junk_ok line' buf' ->
  command_line [MainModel.flag_option 68] items argv -> plain_args items = with_third [n0; n1] dest ->
  has_file sys n0 f0 -> Forall is_byte f0 -> file_text uc false f0 false t0 ->
  has_file sys' n0 f0' -> Forall is_byte f0' -> file_text uc false f0' false t0 ->
  holds_text sys uc false n1 t1 -> holds_text sys' uc false n1 t1 ->
  can_deliver sys dest -> can_deliver sys' dest ->
  same_end sys sys' dest (editop_main sys uc line buf argv) (editop_main sys' uc line' buf' argv).
Proof.
  intros sys sys' uc line line' buf buf' items argv n0 n1 dest f0 f0' t0 t1 J J' CL PA F0 B0 T0 F0' B0' T0' H1 H1' D D'.
  assert (Run : exists debug, forall sys line buf f0, junk_ok line buf -> has_file sys n0 f0 -> Forall is_byte f0 -> file_text uc false f0 false t0 ->
    holds_text sys uc false n1 t1 -> can_deliver sys dest ->
    ends_with sys dest (let! (d, printed) := edit_operations_shown debug (map value t0) (map value t1) in let! c := write_edorpt d in Ok (printed, c))
      (editop_main sys uc line buf argv)).
  { assert (exists debug, says_flag items 68 debug) as (debug & SF).
    { destruct (in_dec (fun a b : ArgsProps.item => ltac:(decide equality; try apply Z.eq_dec; apply (list_eq_dec Z.eq_dec)) : {a = b} + {a <> b}) (Flag 68) items) as [I|I];
        [exists true|exists false]; (split; [intros Q; first [exact I|discriminate Q]|intros Q; first [reflexivity|contradiction]]). }
    exists debug. clear -CL PA SF. intros sys line buf f0 J F0 B0 T0 (f1 & h & F1 & B1 & T1) D.
    pose proof (read_file_text uc line buf false f0 false t0 J B0 T0) as R0.
    pose proof (read_file_text uc line buf false f1 h t1 J B1 T1) as R1.
    unfold editop_main. enter editop_options CL vars V. destruct (flag_at _ _ _ 0 68 V eq_refl) as (b & Eb & SF'). rewrite Eb. cbn [obind].
    rewrite (says_flag_fun _ _ _ _ SF' SF). rewrite PA, zlen_with_third, third_with. cbv iota.
    change (rd "argv[0]" (with_third [n0; n1] dest) 0) with (Ok n0). cbn [obind]. rewrite (open_file sys n0 f0 F0). cbn [obind].
    change (rd "argv[1]" (with_third [n0; n1] dest) 1) with (Ok n1). cbn [obind]. rewrite (open_file sys n1 f1 F1). cbn [obind].
    unfold editop_opt. rewrite R0. cbn [obind]. rewrite R1. cbn [obind].
    destruct (edit_operations_shown debug (map value t0) (map value t1)) as [[d printed]| | |]; cbn [obind]; try reflexivity.
    now apply ends_with_write. }
  destruct Run as (debug & Run). eexists. split; [eapply (Run sys line buf f0)|eapply (Run sys' line' buf' f0')]; auto.
Qed.
Print Assumptions C70_editop.

(** ** The programs that read a text and a report *)

(** C70: groupacc. *)
Theorem C70_groupacc : forall sys sys' uc line line' buf buf' slot fmt8 items argv n0 n1 dest f0 f0' t report,
  junk_ok line buf -> junk_ok line' buf' ->
  command_line [] items argv -> plain_args items = with_third [n0; n1] dest ->
  has_file sys n0 f0 -> stands_for uc false f0 t -> has_file sys' n0 f0' -> stands_for uc false f0' t ->
  has_file sys n1 report -> has_file sys' n1 report -> can_deliver sys dest -> can_deliver sys' dest ->
  same_end sys sys' dest (groupacc_main sys uc line buf slot fmt8 argv) (groupacc_main sys' uc line' buf' slot fmt8 argv).
Proof.
  intros sys sys' uc line line' buf buf' slot fmt8 items argv n0 n1 dest f0 f0' t report J J' CL PA F0 T F0' T' F1 F1' D D'.
  pose proof (C64_groupacc sys uc line buf slot fmt8 items argv n0 n1 dest f0 report CL PA F0 F1 D) as P.
  pose proof (C64_groupacc sys' uc line' buf' slot fmt8 items argv n0 n1 dest f0' report CL PA F0' F1' D') as P'.
  eexists. split; [exact P|]. unfold groupacc in *. cbn [nth] in *. unfold group_opt in *.
  rewrite (read_stands_for uc line' buf' false f0' t J' T') in P'. rewrite (read_stands_for uc line buf false f0 t J T). exact P'.
Qed.
Print Assumptions C70_groupacc.

(** C70: nonstopacc. *)
Theorem C70_nonstopacc : forall sys sys' uc NFC line line' buf buf' slot fmt6 items argv n0 n1 f0 f0' ws report,
  junk_ok line buf -> junk_ok line' buf' -> (forall c, scalar c -> scalar (tolower uc c)) ->
  command_line [] items argv -> plain_args items = [n0; n1] ->
  has_file sys n0 f0 -> stop_file_words uc NFC f0 ws -> has_file sys' n0 f0' -> stop_file_words uc NFC f0' ws ->
  has_file sys n1 report -> has_file sys' n1 report ->
  same_end sys sys' None (nonstopacc_main sys uc NFC line buf slot fmt6 argv) (nonstopacc_main sys' uc NFC line' buf' slot fmt6 argv).
Proof.
  intros sys sys' uc NFC line line' buf buf' slot fmt6 items argv n0 n1 f0 f0' ws report J J' Low CL PA F0 W F0' W' F1 F1'.
  assert (X : forall sys f0, has_file sys n0 f0 -> has_file sys n1 report -> Forall2 (has_file sys) (plain_args items) [f0; report]).
  { intros s f A B. rewrite PA. auto. }
  pose proof (C64_nonstopacc sys uc NFC line buf slot fmt6 items argv [f0; report] CL (X _ _ F0 F1)) as P.
  pose proof (C64_nonstopacc sys' uc NFC line' buf' slot fmt6 items argv [f0'; report] CL (X _ _ F0' F1')) as P'.
  assert (Y : forall line buf f, junk_ok line buf -> stop_file_words uc NFC f ws ->
    nonstopacc fmt6 uc NFC line buf slot [f; report] = let! (d, _) := read_wacrpt slot wac_empty report in Ok (NonstopModel.write_results fmt6 d ws)).
  { intros l b f Jf Wf. pose proof (read_stop_file uc NFC l b f ws Jf Low Wf) as R. unfold words_in in R. unfold nonstopacc, nonstop_opt.
    destruct (read_text uc l b _ [] f) as [[t h]| | |]; cbn [obind] in R |- *; try discriminate R. rewrite R. reflexivity. }
  rewrite (Y line buf f0 J W) in P. rewrite (Y line' buf' f0' J' W') in P'. exact (same_prints _ _ _ _ _ P P').
Qed.
Print Assumptions C70_nonstopacc.

(** ** vote *)

Lemma same_by_number {A} (f : A -> Z) l l' : Permutation l l' -> NoDup (map f l) -> map f l = map f l' -> l = l'.
Proof.
  intros P N E.
  assert (U : forall x y, In x l -> In y l -> f x = f y -> x = y).
  { clear -N. induction l as [|a l IH]; intros x y X Y E; [destruct X|]. cbn [map] in N. apply NoDup_cons_iff in N as [Na N].
    destruct X as [->|X], Y as [->|Y]; auto; exfalso; apply Na; [rewrite E|rewrite <- E]; now apply in_map. }
  assert (S : forall x, In x l' -> In x l) by (intros x; apply Permutation_in, Permutation_sym, P).
  assert (S0 : forall x, In x l -> In x l) by auto.
  revert S S0 E. clear P N. enough (forall m m', (forall x, In x m' -> In x l) -> (forall x, In x m -> In x l) -> map f m = map f m' -> m = m') as H by apply H.
  induction m as [|a m IH]; intros [|a' m'] S S0 E; try discriminate E; [reflexivity|]. cbn [map] in E. injection E as E1 E2.
  f_equal; [apply U; [apply S0; now left|apply S; now left|exact E1]|]. apply IH; auto; intros; [apply S|apply S0]; now right.
Qed.

Lemma rank_order uc order order' texts voters : marks_wide uc -> nul_hidden uc ->
  (forall l, Permutation l (order l)) -> (forall l, Permutation l (order' l)) ->
  1 <= zlen texts <= 16 -> Forall text_ok texts -> VoteSelProof.numbered texts voters -> (forall t, In t texts -> zlen t < 2147483648) ->
  rank_voters uc order voters = rank_voters uc order' voters.
Proof.
  intros W N O O' L T Nu Sz.
  destruct (rank_ok uc W N order O texts voters L T Nu Sz) as (ds & vs & E & D & P & R & _).
  destruct (rank_ok uc W N order' O' texts voters L T Nu Sz) as (ds' & vs' & E' & D' & P' & R' & _).
  destruct (C61_unique texts ds _ ds' _ R R') as [<- M]. rewrite E, E'. f_equal.
  apply (same_by_number argnum); [eapply Permutation_trans; [apply Permutation_sym; exact P|exact P']| |exact M].
  destruct R as (_ & R & _). eapply Permutation_NoDup; [exact R|].
  clear. generalize 0 at 1. induction (List.length texts) as [|n IH]; intros z; cbn [zrange]; constructor; [|apply IH].
  intros I. assert (G : forall k y, In z (zrange y k) -> y <= z).
  { clear. induction k as [|k IHk]; intros y I; cbn [zrange] in I; [destruct I|]. destruct I as [->|I]; [lia|]. specialize (IHk _ I). lia. }
  specialize (G _ _ I). lia.
Qed.

Lemma options_signed signed signed' n O s w : 2 <= n <= 16 -> (forall str, s = Some str \/ w = Some str -> Forall (fun b => 0 < b < 256) str) ->
  set_options signed n O s w = set_options signed' n O s w.
Proof.
  assert (X : forall n, 2 <= n <= 16 -> (forall str, s = Some str \/ w = Some str -> Forall (fun b => 0 < b < 256) str) ->
    set_options signed n false s w = set_options signed' n false s w).
  { clear n. intros n L B.
    destruct (C49_options signed n s w L B) as [(Nw & E)|(sw & uw & Hw & H)], (C49_options signed' n s w L B) as [(Nw' & E')|(sw' & uw' & Hw' & H')].
    - congruence.
    - exfalso. destruct w; [exact (Nw _ _ Hw')|exact Nw].
    - exfalso. destruct w; [exact (Nw' _ _ Hw)|exact Nw'].
    - assert (sw = sw' /\ uw = uw') as [<- <-].
      { destruct w as [str|]; [exact (fraction_fun _ _ _ _ _ Hw Hw')|lia]. }
      destruct H as [(Ns & E)|(thr & Ht & E)], H' as [(Ns' & E')|(thr' & Ht' & E')].
      + congruence.
      + exfalso. destruct s; [destruct Ht' as (m & k & F & _); exact (Ns _ _ F)|exact Ns].
      + exfalso. destruct s; [destruct Ht as (m & k & F & _); exact (Ns' _ _ F)|exact Ns'].
      + rewrite E, E'. repeat f_equal. destruct s as [str|]; [|lia]. destruct Ht as (m & k & F & T), Ht' as (m' & k' & F' & T').
        destruct (fraction_fun _ _ _ _ _ F F') as [<- <-]. destruct F as (F1 & _). nia. }
  intros L B. destruct O; [|auto]. rewrite !C61_options. apply X; [lia|exact B].
Qed.

(** C70: vote, with or without -O and -D, for any two orders in which the n-grams lie in the table,
    on machines whose characters are signed or not. *)
Theorem C70_vote : forall sys sys' uc line line' buf buf' order order' signed signed' items argv texts D O o s w,
  nul_hidden uc -> marks_wide uc -> (forall l, Permutation l (order l)) -> (forall l, Permutation l (order' l)) ->
  junk_ok line buf -> junk_ok line' buf' ->
  command_line [MainModel.flag_option 68; MainModel.flag_option 79; string_option 111; string_option 115; string_option 119] items argv ->
  says_flag items 68 D -> says_flag items 79 O -> says_value items 111 o -> says_value items 115 s -> says_value items 119 w ->
  (forall str, s = Some str \/ w = Some str -> Forall (fun b => 0 < b < 256) str) ->
  can_deliver sys o -> can_deliver sys' o ->
  Forall2 (holds_text sys uc false) (plain_args items) texts -> Forall2 (holds_text sys' uc false) (plain_args items) texts ->
  (forall t, In t texts -> zlen t < 2147483648) ->
  same_end sys sys' o (vote_main sys uc line buf order signed argv) (vote_main sys' uc line' buf' order' signed' argv).
Proof.
  intros sys sys' uc line line' buf buf' order order' signed signed' items argv texts D O o s w N W Or Or' J J' CL SD SO So Ss Sw B Cd Cd' Ho Ho' Sz.
  destruct (holds_read sys uc line buf false _ _ J ltac:(discriminate) Ho) as (files & F & _ & R).
  destruct (holds_read sys' uc line' buf' false _ _ J' ltac:(discriminate) Ho') as (files' & F' & _ & R').
  pose proof (C64_vote sys uc line buf order signed items argv files D O o s w CL F SD SO So Ss Sw Cd) as P.
  pose proof (C64_vote sys' uc line' buf' order' signed' items argv files' D O o s w CL F' SD SO So Ss Sw Cd') as P'.
  eexists. split; [exact P|].
  replace (vote_all uc order line buf signed D O s w (combine (plain_args items) files))
    with (vote_all uc order' line' buf' signed' D O s w (combine (plain_args items) files')); [exact P'|].
  pose proof (combine_read sys uc line buf false _ _ _ F R) as C. pose proof (combine_read sys' uc line' buf' false _ _ _ F' R') as C'.
  pose proof (MainTextProps.combine_fst sys _ _ F) as M. pose proof (MainTextProps.combine_fst sys' _ _ F') as M'.
  assert (Tx : Forall text_ok texts) by (clear -R; induction R as [|? ? ? ? (_ & X)]; constructor; auto).
  remember (combine (plain_args items) files) as fs eqn:Efs. remember (combine (plain_args items) files') as fs' eqn:Efs'.
  rewrite <- M' in M. clear -M C C' N W Or Or' Sz B Tx. unfold texts_read in *.
  pose proof (SynctextProof.Forall2_zlen _ _ _ C) as L. pose proof (SynctextProof.Forall2_zlen _ _ _ C') as L'.
  unfold vote_all. rewrite L, L'. unfold MIN_VOTERS, MAX_VOTERS.
  destruct (Z.ltb_spec (zlen texts) 2) as [|L2]; [reflexivity|]. destruct (Z.ltb_spec 16 (zlen texts)) as [|L3]; [reflexivity|]. cbn [orb].
  assert (E : forall acc, ofold (fun acc (f : list Z * list Z) => let! (text, _) := read_text uc line' buf' vote_opt [] (snd f) in Ok (acc ++ [mkvoter (zlen acc) (fst f) text 0])) fs' acc
    = ofold (fun acc (f : list Z * list Z) => let! (text, _) := read_text uc line buf vote_opt [] (snd f) in Ok (acc ++ [mkvoter (zlen acc) (fst f) text 0])) fs acc).
  { clear -C C' M. revert fs' C' M. unfold vote_opt. induction C as [|f t fs texts (h & Ef) C IH]; intros fs' C' M acc; inversion C' as [|f' ? fs1 ? (h' & Ef') C1]; subst; [reflexivity|].
    cbn [ofold]. rewrite Ef, Ef'. cbn [obind]. cbn [map] in M. injection M as M0 M. rewrite M0. now apply IH. }
  rewrite E. clear E fs' M C' L'. 
  destruct (read_voters uc line buf fs texts C []) as (voters & Er & Et & Ea & _). cbn [app] in Er. change (zlen []) with 0 in Ea.
  unfold vote_opt. rewrite Er. cbn [obind]. unfold vote_voters.
  assert (Lv : zlen voters = zlen texts) by (rewrite <- Et, zlen_map; reflexivity). rewrite Lv.
  rewrite (options_signed signed' signed) by (auto; lia). destruct (set_options signed _ O s w) as [st| | |]; cbn [obind]; try reflexivity.
  unfold select_voters. rewrite (rank_order uc order order' texts voters) by (auto; try lia; split; auto). reflexivity.
Qed.
Print Assumptions C70_vote.

(** ** Sums of reports *)

(** C70: accsum, for the reports in any order. *)
Theorem C70_accsum : forall sys sys' uc fmt order order' line line' items items' argv argv' ds files files',
  nul_hidden uc -> marks_wide uc -> pct_ok fmt -> AccrptTop.permutes order -> AccrptTop.permutes order' -> line_buffer line -> line_buffer line' ->
  command_line [] items argv -> command_line [] items' argv' ->
  Forall2 (has_file sys) (plain_args items) files -> Forall2 (has_file sys') (plain_args items') files' ->
  Forall2 (report_of uc fmt) ds files -> sums_below 2147483648 ds -> Permutation files files' ->
  same_end sys sys' None (accsum_main sys uc line order fmt argv) (accsum_main sys' uc line' order' fmt argv').
Proof.
  intros sys sys' uc fmt order order' line line' items items' argv argv' ds files files' N W Fm O O' Li Li' CL CL' F F' R S P.
  pose proof (C64_accsum sys uc line order fmt items argv files CL F) as E.
  pose proof (C64_accsum sys' uc line' order' fmt items' argv' files' CL' F') as E'.
  apply (same_prints _ _ _ _ _ E). destruct (Z_le_gt_dec 2 (zlen files)) as [L|L].
  - rewrite (C30_order uc fmt order order' line line' ds files files') by auto. exact E'.
  - unfold accsum in *. rewrite (zlen_perm _ _ P). rewrite (zlen_perm _ _ P) in L. destruct (Z.ltb_spec (zlen files') 2); [exact E'|lia].
Qed.
Print Assumptions C70_accsum.

(** C70: wordaccsum, for the reports in any order. *)
Theorem C70_wordaccsum : forall sys sys' fmt order order' line line' items items' argv argv' ds files files',
  pct_ok fmt -> permutes_terms order -> permutes_terms order' -> line_buffer line -> line_buffer line' ->
  command_line [] items argv -> command_line [] items' argv' ->
  Forall2 (has_file sys) (plain_args items) files -> Forall2 (has_file sys') (plain_args items') files' ->
  Forall2 (wreport_of fmt) ds files -> Permutation files files' ->
  same_end sys sys' None (wordaccsum_main sys line order fmt argv) (wordaccsum_main sys' line' order' fmt argv').
Proof.
  intros sys sys' fmt order order' line line' items items' argv argv' ds files files' Fm O O' Li Li' CL CL' F F' R P.
  pose proof (C64_wordaccsum sys line order fmt items argv files CL F) as E.
  pose proof (C64_wordaccsum sys' line' order' fmt items' argv' files' CL' F') as E'.
  apply (same_prints _ _ _ _ _ E). destruct (Z_le_gt_dec 2 (zlen files)) as [L|L].
  - rewrite (C41_order fmt order order' line line' ds files files') by auto. exact E'.
  - unfold wordaccsum in *. rewrite (zlen_perm _ _ P). rewrite (zlen_perm _ _ P) in L. destruct (Z.ltb_spec (zlen files') 2); [exact E'|lia].
Qed.
Print Assumptions C70_wordaccsum.

(** The words of [text_system], written in another way: with blanks at the start, at the end, and others
    between the words. *)
Definition other_system : system :=
  mksys (fun n => if list_eq_dec Z.eq_dec n (bytes "correct") then Some (bytes "ab cde  ")
                  else if list_eq_dec Z.eq_dec n (bytes "generated") then Some ([32] ++ bytes "c^de" ++ [9; 32] ++ bytes "ab")
                  else None)
        (fun _ => false).

Lemma other_texts : Forall2 (holds_text other_system main_uc false) (plain_args text_items) [correct_text; generated_text].
Proof.
  assert (J : junk_ok sample_line sample_buf).
  { split; [reflexivity|]. split; [reflexivity|]. repeat constructor; unfold is_byte; lia. }
  assert (B : forall s, forallb (fun b => (0 <=? b) && (b <? 256)) s = true -> Forall is_byte s).
  { intros s H. rewrite Forall_forall. intros c Hc. rewrite forallb_forall in H. specialize (H c Hc). unfold is_byte. lia. }
  constructor; [|constructor; [|constructor]].
  - eexists. exists false. split; [reflexivity|]. split; [now apply B|].
    apply (read_without_header main_uc sample_line sample_buf); [exact J|now apply B|vm_compute; reflexivity].
  - eexists. exists false. split; [reflexivity|]. split; [now apply B|].
    apply (read_without_header main_uc sample_line sample_buf); [exact J|now apply B|vm_compute; reflexivity].
Qed.

(** Two different systems, which stand for the same two texts: vote -O and synctext print the same. *)
Example C70_ex :
  contents text_system (bytes "correct") <> contents other_system (bytes "correct") /\
  contents text_system (bytes "generated") <> contents other_system (bytes "generated") /\
  same_end text_system other_system None
    (vote_main text_system main_uc sample_line sample_buf (fun l => l) true (map bytes ["program"; "correct"; "generated"]%string))
    (vote_main other_system main_uc (repeat 65 100) [200; 201; 202; 203] (@rev _) false (map bytes ["program"; "correct"; "generated"]%string)) /\
  same_end text_system other_system None
    (synctext_main text_system main_uc sample_line sample_buf (map bytes ["program"; "correct"; "generated"]%string))
    (synctext_main other_system main_uc (repeat 65 100) [200; 201; 202; 203] (map bytes ["program"; "correct"; "generated"]%string)).
Proof.
  assert (J : junk_ok sample_line sample_buf).
  { split; [reflexivity|]. split; [reflexivity|]. repeat constructor; unfold is_byte; lia. }
  assert (J' : junk_ok (repeat 65 100) [200; 201; 202; 203]).
  { split; [reflexivity|]. split; [reflexivity|]. repeat constructor; unfold is_byte; lia. }
  destruct C69_ex as (Ho & _).
  split; [vm_compute; discriminate|]. split; [vm_compute; discriminate|]. split.
  - apply (C70_vote text_system other_system main_uc _ _ _ _ (fun l => l) (@rev _) true false text_items _ [correct_text; generated_text] false false None None None); auto.
    all: try apply text_flag; try apply text_value; try exact I.
    + reflexivity.
    + intros v V. unfold is_combining, main_uc. cbn [cat]. destruct (v =? 32); [reflexivity|]. destruct (v =? 0); reflexivity.
    + intros l. apply Permutation_rev.
    + apply text_line.
    + intros str [H|H]; discriminate H.
    + exact other_texts.
    + intros t [<-|[<-|[]]]; vm_compute; reflexivity.
  - apply (C70_synctext text_system other_system main_uc _ _ _ _ text_items _ [correct_text; generated_text] false false false false); auto.
    all: try apply text_flag; try apply text_line; try discriminate. exact other_texts.
Qed.
