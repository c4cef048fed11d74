(** C69: from the files to the output of ngram, wordfreq, synctext, vote and editop. *)
From Coq Require Import String Permutation.
From Verif Require Import Base CLib CLibProof Utf8Model TextModel TextSpec TextIO TextProps ReadProof SyncModel SyncSpec
  HeurProps TransProps AccSpec AccrptSpec SumProof AccProof AccCount CompareProof WacSpec FreqSpec FreqModel FreqProps NgramSpec NgramModel NgramProps
  StopModel SynctextModel SynctextSpec SynctextProof SynctextProps UtilModel ArgsProps MainModel MainSpec MainProof MainProps MainProgProps MainTextSpec.
Local Open Scope Z_scope.
Local Open Scope list_scope.

Lemma holds_files sys uc lower names texts : Forall2 (holds_text sys uc lower) names texts ->
  exists files, Forall2 (has_file sys) names files /\
    Forall2 (fun f t => Forall is_byte f /\ exists h, file_text uc lower f h t) files texts.
Proof.
  induction 1 as [|n t names texts (f & h & F & B & T) H (files & IH1 & IH2)]; [exists []; auto|].
  exists (f :: files). split; constructor; eauto.
Qed.

Lemma holds_read sys uc line buf lower names texts : junk_ok line buf -> (lower = true -> forall c, scalar c -> scalar (tolower uc c)) ->
  Forall2 (holds_text sys uc lower) names texts ->
  exists files, Forall2 (has_file sys) names files /\ Forall (Forall is_byte) files /\
    Forall2 (fun f t => (exists h, read_text uc line buf (mkopt true true 0 true lower) [] f = Ok (t, h)) /\ text_ok t) files texts.
Proof.
  intros J Low H. destruct (holds_files _ _ _ _ _ H) as (files & F & T). exists files. split; [exact F|].
  split; [clear F H; induction T as [|? ? ? ? (B & _)]; constructor; auto|].
  eapply Forall2_weaken; [|exact T]. cbv beta. intros f t (B & h & E). pose proof (read_file_text uc line buf lower f h t J B E) as R.
  split; [eauto|]. eapply (read_text_scalar uc line buf (mkopt true true 0 true lower)); eauto.
Qed.

(** C69: ngram prints the report on the sequences of -n characters, one if it is not given, of the
    texts which the files stand for. *)
Theorem C69_ngram : forall sys uc line buf order items argv texts nopt n,
  nul_hidden uc -> marks_wide uc -> (forall l, Permutation l (order l)) -> junk_ok line buf ->
  command_line [string_option 110] items argv -> says_value items 110 nopt -> n_given nopt n ->
  Forall2 (holds_text sys uc false) (plain_args items) texts -> texts <> [] ->
  zlen (flat_map (sequences (Z.to_nat n)) texts) < 2147483648 ->
  exists r out, ngram_main sys uc line buf order argv = Ok (Done r) /\ delivered sys None [] out r /\
    ngram_report uc (flat_map (sequences (Z.to_nat n)) texts) out.
Proof.
  intros sys uc line buf order items argv texts nopt n N W O J CL SV G H Ne Sz.
  destruct (holds_read sys uc line buf false _ _ J ltac:(discriminate) H) as (files & F & _ & T).
  assert (Gn : get_n nopt = Ok n).
  { destruct nopt as [s|]; cbn in G; [|subst n; reflexivity]. destruct G as [-> G].
    assert (n = 1 \/ n = 2 \/ n = 3) as [->|[->| ->]] by lia; reflexivity. }
  destruct (C50_report uc order line buf nopt n files texts W N O Gn) as (out & E & R); [|exact T|exact Sz|].
  { intros ->. inversion T; subst. now apply Ne. }
  pose proof (C64_ngram sys uc line buf order items argv files nopt CL F SV) as P. rewrite E in P. destruct P as (r & Er & D). eauto.
Qed.
Print Assumptions C69_ngram.

Lemma holds_words_found sys uc NFC line buf names lists : junk_ok line buf -> (forall c, scalar c -> scalar (tolower uc c)) ->
  (forall s, bytes_ok s -> bytes_ok (NFC s)) ->
  Forall2 (holds_words sys uc NFC) names lists ->
  exists files, Forall2 (has_file sys) names files /\ Forall (Forall bytes_ok) lists /\
    Forall2 (fun f ws => words_in uc NFC line buf (mkopt true true 0 true true) f = Ok ws) files lists.
Proof.
  intros J Low Nb. induction 1 as [|n ws names lists (f & h & F & B & t & T & Wd) H (files & IH1 & IH2 & IH3)]; [exists []; auto|].
  pose proof (read_file_text uc line buf true f h t J B T) as R.
  assert (Ot : text_ok t). { eapply (read_text_scalar uc line buf (mkopt true true 0 true true)); eauto. }
  pose proof (text_words_found uc NFC t ws Ot Wd) as Fw.
  exists (f :: files). split; [constructor; auto|]. split; constructor; auto.
  - apply (C36_strings uc NFC (map value t) ws); auto. rewrite Forall_map. exact Ot.
  - unfold words_in. rewrite R. cbn [obind]. exact Fw.
Qed.

(** C69: wordfreq prints the report on the words of the files. *)
Theorem C69_wordfreq : forall sys uc NFC line buf order items argv lists,
  (forall l, Permutation l (order l)) -> junk_ok line buf -> (forall c, scalar c -> scalar (tolower uc c)) ->
  (forall s, bytes_ok s -> bytes_ok (NFC s)) ->
  command_line [] items argv ->
  Forall2 (holds_words sys uc NFC) (plain_args items) lists -> zlen (concat lists) < 2147483648 ->
  exists r out, wordfreq_main sys uc NFC line buf order argv = Ok (Done r) /\ delivered sys None [] out r /\
    frequency_report (concat lists) out.
Proof.
  intros sys uc NFC line buf order items argv lists O J Low Nb CL H Sz.
  destruct (holds_words_found sys uc NFC line buf _ _ J Low Nb H) as (files & F & B & T).
  destruct (C51_report order uc NFC line buf files lists O) as (out & E & R); [|exact T|exact B|exact Sz|].
  { intros ->. inversion F as [E|]; subst. destruct CL as (program & _ & _ & Ni & Al & _). 
    destruct items as [|i items]; [now apply Ni|]. inversion Al as [|? ? A _]; subst. destruct i; cbn in A; [discriminate E|destruct A as [[] _]..]. }
  pose proof (C64_wordfreq sys uc NFC line buf order items argv files CL F) as P. rewrite E in P. destruct P as (r & Er & D). eauto.
Qed.
Print Assumptions C69_wordfreq.

Lemma combine_read sys uc line buf ic names files texts : Forall2 (has_file sys) names files ->
  Forall2 (fun f t => (exists h, read_text uc line buf (mkopt true true 0 true ic) [] f = Ok (t, h)) /\ text_ok t) files texts ->
  texts_read uc line buf ic (combine names files) texts.
Proof.
  intros F. revert texts. induction F as [|n f names files Hf F IH]; intros texts T; inversion T as [|? ? ? ? (R & _) T']; subst; [constructor|].
  constructor; [exact R|]. now apply IH.
Qed.

Lemma combine_fst sys names files : Forall2 (has_file sys) names files -> map fst (combine names files) = names.
Proof. induction 1; [reflexivity|]. cbn [combine map fst]. now f_equal. Qed.

(** What synctext assumes of texts and names. *)
Definition showable (uc : unicode_data) (show : bool) (names : list (list Z)) (texts : list (list char)) : Prop :=
  (show = true -> forall t c, In t texts -> In c t -> value c < 1048576 \/ is_graphic uc (value c) = true) /\
  (forall t, In t texts -> zlen t < 2 ^ 63) /\ (forall nm, In nm names -> zlen nm < 10 ^ 15).

Lemma holds_suitable sys uc line buf ic show names texts : nul_hidden uc -> junk_ok line buf ->
  (ic = true -> forall c, scalar c -> scalar (tolower uc c)) ->
  Forall2 (holds_text sys uc ic) names texts -> showable uc show names texts ->
  exists files, Forall2 (has_file sys) names files /\ suitable uc line buf ic show (combine names files) texts.
Proof.
  intros N J Low H (S1 & S2 & S3). destruct (holds_read sys uc line buf ic _ _ J Low H) as (files & F & B & T).
  exists files. split; [exact F|]. constructor; auto.
  - intros nm f I. apply in_combine_r in I. rewrite Forall_forall in B. now apply B.
  - now apply (combine_read sys).
  - intros nm f I. apply in_combine_l in I. now apply S3.
Qed.

(** C69: synctext prints an alignment of the texts which the files stand for, in lower case with
    option -i; of two texts an optimal one without -H, and with it one that leaves nothing in common. *)
Theorem C69_synctext : forall sys uc line buf items argv texts H i s,
  nul_hidden uc -> junk_ok line buf -> (i = true -> forall c, scalar c -> scalar (tolower uc c)) ->
  command_line [MainModel.flag_option 72; MainModel.flag_option 105; MainModel.flag_option 115; MainModel.flag_option 84] items argv ->
  says_flag items 72 H -> says_flag items 105 i -> says_flag items 115 s -> says_flag items 84 false ->
  Forall2 (holds_text sys uc i) (plain_args items) texts -> 2 <= zlen texts <= 16 -> showable uc s (plain_args items) texts ->
  exists r al, synctext_main sys uc line buf argv = Ok (Done r) /\ aligned texts al /\
    delivered sys None [] (printed uc s (plain_args items) al) r /\
    (forall t0 t1, texts = [t0; t1] ->
     if H then forall ps qs, In (ps, qs) (steps al) -> apart ps
     else distance (map value t0) (map value t1) (edited al)).
Proof.
  intros sys uc line buf items argv texts H i s N J Low CL SH Si Ss ST Ho L Sh.
  destruct (holds_suitable sys uc line buf i s _ _ N J Low Ho Sh) as (files & F & St).
  assert (Lf : zlen (combine (plain_args items) files) = zlen texts) by (eapply SynctextProof.Forall2_zlen, (st_read _ _ _ _ _ _ _ St)).
  destruct (C59_output uc line buf H i s _ _ St) as (al & A & E & D); [lia|].
  pose proof (C64_synctext sys uc line buf items argv files H i s false CL F SH Si Ss ST) as P. rewrite E in P.
  rewrite (combine_fst sys _ _ F) in P. destruct P as (r & Er & Dl). exists r, al. split; [exact Er|]. split; [exact A|]. split; [exact Dl|].
  intros t0 t1 Et. specialize (D t0 t1 Et). destruct H; [|exact D].
  intros ps qs I v V. destruct A as (_ & _ & A). destruct (A (ps, qs) I) as (Lp & _). cbn [fst] in Lp. subst texts.
  destruct ps as [|p0 [|p1 [|p2 ps]]]; try (rewrite ?zlen_cons in Lp; pose proof (zlen_nonneg ps); cbn in Lp; lia); [cbn in Lp; lia..|].
  eapply (D _ _ p0 p1 v I); [reflexivity|apply V; now left|apply V; right; now left].
Qed.
Print Assumptions C69_synctext.

(** With option -T: the pieces the two texts have in common. *)
Theorem C69_synctext_transposed : forall sys uc line buf items argv t1 t2 H i s,
  nul_hidden uc -> junk_ok line buf -> (i = true -> forall c, scalar c -> scalar (tolower uc c)) ->
  command_line [MainModel.flag_option 72; MainModel.flag_option 105; MainModel.flag_option 115; MainModel.flag_option 84] items argv ->
  says_flag items 72 H -> says_flag items 105 i -> says_flag items 115 s -> says_flag items 84 true ->
  Forall2 (holds_text sys uc i) (plain_args items) [t1; t2] -> showable uc s (plain_args items) [t1; t2] ->
  exists r ps1 ps2, synctext_main sys uc line buf argv = Ok (Done r) /\
    concat (map snd ps1) = t1 /\ concat (map snd ps2) = t2 /\ paired ps1 ps2 /\
    delivered sys None [] (transposed_part uc s ps1 ++ transposed_part uc s ps2 ++ separator) r.
Proof.
  intros sys uc line buf items argv t1 t2 H i s N J Low CL SH Si Ss ST Ho Sh.
  destruct (holds_suitable sys uc line buf i s _ _ N J Low Ho Sh) as (files & F & St).
  destruct (C59_transposed uc line buf H i s _ _ _ St) as (ps1 & ps2 & T1 & T2 & Pa & E).
  pose proof (C64_synctext sys uc line buf items argv files H i s true CL F SH Si Ss ST) as P. rewrite E in P.
  destruct P as (r & Er & Dl). exists r, ps1, ps2. auto.
Qed.
Print Assumptions C69_synctext_transposed.
