(** C69: from the files to the output of vote. *)
From Coq Require Import String Permutation Sorted.
From Verif Require Import Base CLib CLibProof Utf8Model TextModel TextSpec TextIO TextProps ReadProof SyncModel SyncSpec
  HeurProps AccModel AccSpec AccrptSpec SumProof AccProof AccCount ReportModel ReportProof SynctextSpec SynctextProof SynctextProps UtilModel ArgsProps MainModel MainSpec MainProof MainProps MainProgProps
  VoteModel VoteSpec VoteProps VoteSelModel VoteSelSpec VoteSelProps MainTextSpec MainTextProps.
Local Open Scope Z_scope.
Local Open Scope list_scope.

Lemma write_text_images uc t : nul_hidden uc ->
  Forall (fun c => scalar (value c) /\ (value c < 1048576 \/ is_graphic uc (value c) = true)) t ->
  write_text uc t None = Ok (images uc t).
Proof.
  intros N F. unfold write_text.
  assert (G : forall acc, ofold (fun acc c => let! s := char_out uc c in Ok (acc ++ s)) t acc = Ok (acc ++ images uc t)).
  { induction F as [|[su v] t (S & G) F IH]; intros acc; cbn [ofold]; [now rewrite app_nil_r|].
    rewrite char_out_image by auto. cbn [obind]. rewrite IH. unfold images. cbn [flat_map]. now rewrite <- app_assoc. }
  rewrite G. reflexivity.
Qed.

Lemma is_fraction_iff s m n : is_fraction s m n <-> fraction s m n.
Proof.
  assert (D : forall k, 1 <= k <= 9 -> dec k = [48 + k]).
  { intros k Hk. assert (k = 1 \/ k = 2 \/ k = 3 \/ k = 4 \/ k = 5 \/ k = 6 \/ k = 7 \/ k = 8 \/ k = 9) as H by lia.
    repeat destruct H as [->|H]; try reflexivity. subst k. reflexivity. }
  unfold is_fraction, fraction. split; intros (A & B & ->); (split; [exact A|split; [exact B|]]);
    rewrite !D by lia; reflexivity.
Qed.

Lemma fraction_fun s m n m' n' : fraction s m n -> fraction s m' n' -> m = m' /\ n = n'.
Proof. intros (_ & _ & ->) (_ & _ & E). assert (48 + m = 48 + m') by congruence. assert (48 + n = 48 + n') by congruence. lia. Qed.

Lemma options_given signed voters s w sw uw thr : 2 <= voters <= 16 -> weights_given w sw uw -> threshold_given s voters uw thr ->
  set_options signed voters false s w = Ok (mkset sw uw thr voters).
Proof.
  intros V Hw Hs.
  assert (B : forall str, s = Some str \/ w = Some str -> Forall (fun b => 0 < b < 256) str).
  { assert (X : forall str m n, fraction str m n -> Forall (fun b => 0 < b < 256) str).
    { intros str m n (A & A' & ->). repeat (constructor; [lia|]). constructor. }
    intros str [-> | ->]; cbn in Hs, Hw.
    - destruct Hs as (m & n & F & _). apply is_fraction_iff in F. eauto.
    - apply is_fraction_iff in Hw. eauto. }
  destruct (C49_options signed voters s w V B) as [(C & _)|(sw' & uw' & Hw' & [(C & _)|(thr' & Ht & E)])].
  - exfalso. destruct w as [str|]; [|exact C]. cbn in Hw. apply is_fraction_iff in Hw. exact (C _ _ Hw).
  - exfalso. destruct s as [str|]; [|exact C]. cbn in Hs. destruct Hs as (m & n & F & _). apply is_fraction_iff in F. exact (C _ _ F).
  - assert (sw' = sw /\ uw' = uw) as [-> ->].
    { destruct w as [str|]; cbn in Hw; [|lia]. apply is_fraction_iff in Hw. destruct (fraction_fun _ _ _ _ _ Hw Hw'). auto. }
    assert (thr' = thr) as ->; [|exact E].
    destruct s as [str|]; cbn in Hs; [|lia]. destruct Hs as (m & n & F & T). apply is_fraction_iff in F. destruct Ht as (m' & n' & F' & T').
    destruct (fraction_fun _ _ _ _ _ F F') as [-> ->]. destruct F as (F1 & _). nia.
Qed.

(** The rows of a synchronisation. *)
Lemma rows_cut texts l : partition (map (map value) texts) l -> cut texts (map (parts_of texts) l).
Proof.
  intros P. pose proof (partition_good texts l P) as G. split.
  - intros row I. apply in_map_iff in I as (it & <- & I). rewrite Forall_forall in G. exact (pieces_zlen texts it (G it I)).
  - intros i t Ht. destruct P as (_ & P & _). specialize (P i (map value t)). rewrite znth_map, Ht in P. specialize (P eq_refl).
    rewrite zlen_map in P. destruct (consecutive_parts t _ 0 ltac:(lia) P) as (_ & E & _). cbn [Z.to_nat skipn] in E. etransitivity; [|exact E].
    unfold SyncSpec.column. rewrite !flat_map_map. apply flat_map_ext_in. intros it Hit. rewrite Forall_forall in G. specialize (G it Hit).
    unfold piece, parts_of. rewrite znth_map, znth_combine, Ht. 
    destruct (znth (isubs it) i) as [u|] eqn:Eu; [reflexivity|]. exfalso.
    pose proof (znth_Some_lt _ _ _ Ht) as Lt. pose proof (SynctextProof.Forall2_zlen _ _ _ G) as Lz.
    destruct (znth_lt_Some (isubs it) i) as [u Hu]; [lia|congruence].
Qed.

Lemma rows_apart t0 t1 l : synchronize [map value t0; map value t1] = Ok l ->
  Forall (fun row => alike row \/ apart row) (map (parts_of [t0; t1]) l).
Proof.
  intros E. pose proof (C21_synchronize [map value t0; map value t1]) as S.
  change ((2 <=? zlen [map value t0; map value t1]) && (zlen [map value t0; map value t1] <=? 16)) with true in S. cbv iota in S. destruct S as (l' & E' & P & G & _).
  assert (l' = l) by congruence. subst l'. pose proof (partition_good [t0; t1] l P) as Good.
  rewrite Forall_map. apply Forall_forall. intros it Hit. rewrite Forall_forall in Good. pose proof (Good it Hit) as Gi.
  destruct (is_match it) eqn:M.
  - left. unfold matches_genuine in G. rewrite Forall_forall in G. exact (alike_pieces [t0; t1] it (G it Hit M) Gi).
  - right. intros v V. destruct (Z.eq_dec v 126) as [|Nv]; [assumption|exfalso].
    inversion Gi as [|? u0 ? ss O0 H' X1 X2]; subst. inversion H' as [|? u1 ? ss' O1 H'' X3 X4]; subst. inversion H''; subst.
    unfold parts_of in V. rewrite <- X2 in V. cbn [combine map fst snd] in V.
    refine (C22_nothing_left _ _ l E it u0 u1 v Hit M (eq_sym X2) Nv _).
    split; apply occurs_part; auto; apply V; [now left|right; now left].
Qed.

Lemma in_parts texts it p c : In p (parts_of texts it) -> In c p -> exists t, In t texts /\ In c t.
Proof.
  unfold parts_of. intros I H. apply in_map_iff in I as ((t & u) & <- & I). cbn [fst snd] in H. apply in_combine_l in I.
  exists t. split; [exact I|]. 
  rewrite <- (firstn_skipn (Z.to_nat (SyncModel.start u)) t). apply in_or_app. right.
  rewrite <- (firstn_skipn (Z.to_nat (slen u)) (skipn _ t)). apply in_or_app. now left.
Qed.

Lemma elected_values sw uw thr texts l outs : texts <> [] -> Forall (fun it => zlen (isubs it) = zlen texts) l ->
  Forall2 (fun it out => rounds sw uw thr (parts_of texts it) out) l outs ->
  forall c, In c (concat outs) -> exists t d, In t texts /\ In d t /\ value d = value c.
Proof.
  intros Ne F R. induction R as [|it out l outs H R IH]; intros c I; [destruct I|]. apply Forall_cons_iff in F as [F0 F].
  cbn [concat] in I. apply in_app_or in I as [I|I]; [|now apply IH].
  assert (Np : parts_of texts it <> []).
  { destruct texts as [|t texts]; [now destruct Ne|]. unfold parts_of. destruct (isubs it); [rewrite zlen_cons in F0; pose proof (zlen_nonneg texts); cbn in F0; lia|discriminate]. }
  destruct (C47_bounds sw uw thr _ out Np H) as (_ & _ & B). apply In_znth in I as (i & _ & Ei). destruct (B i c Ei) as (p & d & Ip & Ed & Ev).
  apply znth_In in Ed. destruct (in_parts texts it p d Ip Ed) as (t & It & Id). eauto.
Qed.

(** C69: vote without -O.  The texts which the files stand for are cut into rows of pieces; of each
    row the characters are elected, one after the other, and written to the file given with -o or to
    the standard output.  Two pieces of a row are alike, or they have nothing in common.
    With -O this is done with the three texts that are nearest to the others. *)
Theorem C69_vote : forall sys uc line buf order signed items argv texts D O o s w sw uw thr,
  nul_hidden uc -> marks_wide uc -> (forall l, Permutation l (order l)) -> junk_ok line buf ->
  command_line [MainModel.flag_option 68; MainModel.flag_option 79; string_option 111; string_option 115; string_option 119] items argv ->
  says_flag items 68 D -> says_flag items 79 O -> says_value items 111 o -> says_value items 115 s -> says_value items 119 w ->
  weights_given w sw uw -> threshold_given s (if O : bool then Z.min (zlen texts) 3 else zlen texts) uw thr ->
  can_deliver sys o ->
  Forall2 (holds_text sys uc false) (plain_args items) texts -> 2 <= zlen texts <= 16 ->
  (forall t c, In t texts -> In c t -> value c < 1048576 \/ is_graphic uc (value c) = true) ->
  (forall t, In t texts -> zlen t < 2147483648) ->
  exists r chosen rows outs printed, vote_main sys uc line buf order signed argv = Ok (Done r) /\
    (if O then exists ds ranks lines, ranking texts ds ranks /\ texts_of texts (firstn 3 ranks) chosen /\
                 Forall2 (debug_line (plain_args items) ds) ranks lines /\ printed = if D then concat lines else []
     else chosen = texts /\ printed = []) /\
    cut chosen rows /\ (zlen chosen = 2 -> Forall (fun row => alike row \/ apart row) rows) /\
    Forall2 (rounds sw uw thr) rows outs /\
    delivered sys o printed (images uc (concat outs)) r.
Proof.
  intros sys uc line buf order signed items argv texts D O o s w sw uw thr N W Or J CL SD SO So Ss Sw Hw Ht Cd Ho L Pr Sz.
  destruct (holds_read sys uc line buf false _ _ J ltac:(discriminate) Ho) as (files & F & B & T).
  assert (Lf : zlen (combine (plain_args items) files) = zlen texts).
  { eapply SynctextProof.Forall2_zlen. apply (combine_read sys uc line buf false _ _ _ F T). }
  assert (Tx : Forall (fun t => text_ok t /\ zlen t < 2147483648) texts).
  { clear -T Sz. revert Sz. induction T as [|f t files texts (_ & Ot) T IH]; intros Sz; constructor; [split; [exact Ot|apply Sz; now left]|].
    apply IH. intros u I. apply Sz. now right. }
  assert (Nm : map snd (combine (plain_args items) files) = files).
  { clear -F. induction F; [reflexivity|]. cbn [combine map snd]. now f_equal. }
  pose proof (C64_vote sys uc line buf order signed items argv files D O o s w CL F SD SO So Ss Sw Cd) as P.
  assert (Wr : forall chosen l outs, (forall t, In t chosen -> In t texts) -> chosen <> [] ->
    Forall (fun it => zlen (isubs it) = zlen chosen) l ->
    Forall2 (fun it out => rounds sw uw thr (parts_of chosen it) out) l outs -> write_text uc (concat outs) None = Ok (images uc (concat outs))).
  { intros chosen l outs Sub Ne Fl R. apply write_text_images; [exact N|]. apply Forall_forall. intros c I.
    destruct (elected_values sw uw thr chosen l outs Ne Fl R c I) as (t & d & It & Id & <-). specialize (Sub t It).
    split; [|now apply (Pr t)]. rewrite Forall_forall in Tx. destruct (Tx t Sub) as [Ot _]. unfold text_ok in Ot. rewrite Forall_forall in Ot. now apply Ot. }
  assert (Rw : forall chosen l outs, Forall2 (fun it out => rounds sw uw thr (parts_of chosen it) out) l outs ->
    Forall2 (rounds sw uw thr) (map (parts_of chosen) l) outs).
  { intros chosen l outs R. induction R; constructor; auto. }
  destruct O.
  - assert (St : set_options signed (zlen (combine (plain_args items) files)) true s w = Ok (mkset sw uw thr (Z.min (zlen texts) 3))).
    { rewrite C61_options, Lf. apply options_given; [lia|exact Hw|exact Ht]. }
    destruct (C61_selected uc order line buf signed D s w (combine (plain_args items) files) texts _ W N Or ltac:(lia)
                (combine_read sys uc line buf false _ _ _ F T) Tx St) as (ds & ranks & chosen & l & outs & lines & Rk & Ch & Sy & Pt & R & Ln & E).
    cbn [suspect_weight unmarked_weight suspect_threshold] in R. rewrite (combine_fst sys _ _ F) in Ln.
    assert (Sub : forall t, In t chosen -> In t texts).
    { clear -Ch. unfold texts_of in Ch. induction Ch as [|i t is ch H Ch IH]; intros u []; [subst; eapply znth_In; eauto|auto]. }
    assert (Lc : zlen chosen = Z.min (zlen texts) 3).
    { rewrite <- (SynctextProof.Forall2_zlen _ _ _ Ch). destruct Rk as (_ & Pm & _). apply Permutation_length in Pm. rewrite zrange_length in Pm.
      unfold zlen. rewrite firstn_length. lia. }
    rewrite (Wr chosen l outs Sub) in E; [|intros ->; cbn in Lc; lia| |exact R].
    2: { destruct Pt as (Pt & _). rewrite zlen_map in Pt. exact Pt. }
    cbn [obind] in E. rewrite E in P. destruct P as (r & Er & Dl).
    exists r, chosen, (map (parts_of chosen) l), outs, (if D then concat lines else []). split; [exact Er|].
    split; [exists ds, ranks, lines; auto|]. split; [now apply rows_cut|]. split; [|auto].
    intros L2. destruct chosen as [|t0 [|t1 [|t2 rest]]]; try (exfalso; rewrite ?zlen_cons in L2; try (pose proof (zlen_nonneg rest)); cbn in L2; lia).
    now apply rows_apart.
  - assert (St : set_options signed (zlen texts) false s w = Ok (mkset sw uw thr (zlen texts))).
    { apply options_given; [lia|exact Hw|exact Ht]. }
    destruct (C47_vote (mkset sw uw thr (zlen texts)) texts L eq_refl) as (l & outs & Sy & Pt & _ & R).
    cbn [suspect_weight unmarked_weight suspect_threshold] in R.
    assert (Lff : zlen files = zlen texts) by (eapply SynctextProof.Forall2_zlen, T).
    destruct (C47_program uc line buf signed s w files texts (mkset sw uw thr (zlen texts))) as (l' & outs' & Sy' & R' & E); [lia| |now rewrite Lff|].
    { eapply Forall2_weaken; [|exact T]. cbv beta. tauto. }
    assert (l' = l) by congruence. subst l'. cbn [suspect_weight unmarked_weight suspect_threshold] in R'.
    rewrite (Wr texts l outs') in E; [|auto|intros ->; cbn in L; lia| |exact R'].
    2: { destruct Pt as (Pt & _). rewrite zlen_map in Pt. exact Pt. }
    rewrite C61_all_vote, Nm, E in P. cbn [obind] in P. destruct P as (r & Er & Dl).
    exists r, texts, (map (parts_of texts) l), outs', []. split; [exact Er|]. split; [auto|]. split; [now apply rows_cut|]. split; [|auto].
    intros L2. destruct texts as [|t0 [|t1 [|t2 rest]]]; try (exfalso; rewrite ?zlen_cons in L2; try (pose proof (zlen_nonneg rest)); cbn in L2; lia).
    now apply rows_apart.
Qed.
Print Assumptions C69_vote.
