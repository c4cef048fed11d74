(** C59: synctext. *)
From Coq Require Import String Permutation.
From Verif Require Import Base CLib CLibProof Utf8Model Utf8Proof TextModel TextSpec TextProof TextIO TextProps ReadProof SyncModel SyncSpec
  FastukkProps HeurProps TransProps AccModel AccSpec SumProof AccProof AccCount ReportModel ReportProof SynctextModel SynctextSpec SynctextProof
  SynctextUniq.
Local Open Scope Z_scope.
Local Open Scope list_scope.

(** The texts of the files, given by their names and contents; [ic] is the option -i. *)
Definition texts_read (uc : unicode_data) (line buf : list Z) (ic : bool) (files : list (list Z * list Z)) (texts : list (list char)) : Prop :=
  Forall2 (fun f t => exists found, read_text uc line buf (mkopt true true 0 true ic) [] (snd f) = Ok (t, found)) files texts.

(** What is assumed: the buffers, the Unicode data base, files of bytes, and sizes; no marked
    character has a code of six hexadecimal digits to be printed (C15). *)
Record suitable (uc : unicode_data) (line buf : list Z) (ic show : bool) (files : list (list Z * list Z)) (texts : list (list char)) : Prop := {
  st_junk : junk_ok line buf;
  st_nul : is_graphic uc 0 = false;
  st_lower : ic = true -> forall c, scalar c -> scalar (tolower uc c);
  st_bytes : forall nm f, In (nm, f) files -> Forall is_byte f;
  st_read : texts_read uc line buf ic files texts;
  st_fit : show = true -> forall t c, In t texts -> In c t -> value c < 1048576 \/ is_graphic uc (value c) = true;
  st_size : forall t, In t texts -> zlen t < 2 ^ 63;
  st_names : forall nm f, In (nm, f) files -> zlen nm < 10 ^ 15 }.

Lemma read_all uc line buf ic files texts : texts_read uc line buf ic files texts -> forall acc,
  ofold (fun acc nf => let! (text, _) := read_text uc line buf (synctext_opt ic) [] (snd nf) in Ok (acc ++ [text])) files acc = Ok (acc ++ texts).
Proof.
  induction 1 as [|f t files texts (found & E) F IH]; intros acc; cbn [ofold]; [now rewrite app_nil_r|].
  unfold synctext_opt at 1. rewrite E. cbn [obind]. rewrite IH. now rewrite <- app_assoc.
Qed.

Lemma suitable_fits uc line buf ic show files texts : suitable uc line buf ic show files texts -> Forall (Forall (fits uc show)) texts.
Proof.
  intros [J N Lo B R Fit _ _]. apply Forall_forall. intros t Ht. apply Forall_forall. intros c Hc. split.
  - clear -J Lo B R Ht Hc. unfold texts_read in R. induction R as [|[nm f] t' files texts (found & E) F IH]; [easy|].
    destruct Ht as [->|Ht].
    + pose proof (read_text_scalar uc line buf (mkopt true true 0 true ic) f t found J (B nm f (or_introl eq_refl)) Lo E) as T.
      unfold text_ok in T. rewrite Forall_forall in T. exact (T c Hc).
    + apply IH; auto. intros nm' f' H. apply (B nm' f'). now right.
  - intros S. exact (Fit S t c Ht Hc).
Qed.

Lemma longest_small names b : 0 <= b -> (forall nm, In nm names -> zlen nm < b) -> 0 < b -> 0 <= longest names < b.
Proof.
  intros _ H P. unfold longest. induction names as [|nm names IH]; cbn [map fold_right]; [lia|].
  pose proof (H nm (or_introl eq_refl)). pose proof (zlen_nonneg nm). destruct IH; [intros; apply H; now right|]. lia.
Qed.

Lemma format_fits w : 0 <= w < 10 ^ 15 -> (20 <? zlen (bytes "%-" ++ dec w ++ bytes "s") + 1) = false.
Proof.
  intros W. rewrite !zlen_app. change (zlen (bytes "%-")) with 2. change (zlen (bytes "s")) with 1.
  unfold dec. destruct (Z.ltb_spec w 0); [lia|]. unfold zlen at 1. rewrite map_length.
  pose proof (digits_len 10 w 14 ltac:(lia)) as L. rewrite Z.ltb_ge. change (Z.of_nat 15) with 15 in L.
  assert (List.length (digits 10 w) <= 15)%nat by (apply L; lia). lia.
Qed.

Lemma build_edited texts l : Forall (fun it => Forall2 sub_ok texts (isubs it)) l -> edited (build texts l) = total_cost l.
Proof.
  induction 1 as [|it l H F IH]; [reflexivity|]. cbn [build]. unfold total_cost. cbn [map fold_right]. fold (total_cost l).
  unfold item_cost. destruct (is_match it); [unfold edited in *; cbn [steps]; lia|].
  unfold edited in *. cbn [steps map fst]. rewrite zsum_cons. f_equal; [|exact IH]. f_equal. clear IH F. unfold pieces. rewrite map_map.
  revert H. generalize (isubs it) as ss0. intros ss0 H. induction H as [|t s texts ss O H IH]; [reflexivity|]. cbn [combine map fst snd]. rewrite (part_len t s O). now rewrite IH.
Qed.

Lemma build_steps texts l s : In s (steps (build texts l)) -> exists it, In it l /\ is_match it = false /\ fst s = pieces texts it.
Proof.
  induction l as [|it l IH]; cbn [build]; [intros []|]. destruct (is_match it) eqn:M; cbn [steps].
  - intros H. destruct (IH H) as (it' & I & H'). exists it'. split; [now right|exact H'].
  - intros [<-|H]; [exists it; cbn [fst]; auto using in_eq|]. destruct (IH H) as (it' & I & H'). exists it'. split; [now right|exact H'].
Qed.

Lemma occurs_part t u v : sub_ok t u -> In v (map value (part t u)) -> occurs (map value t) u v.
Proof.
  intros O V. apply In_znth in V as (j & Bj & Hj). rewrite zlen_map, (part_len t u O) in Bj. rewrite znth_map in Hj.
  rewrite (znth_part t u j O Bj) in Hj. exists (start u + j). split; [lia|]. now rewrite znth_map.
Qed.

(** C59: synctext shows its texts by an alignment; for two texts it is an optimal one without
    option -H, and with it the two pieces of a difference have no character in common but '~'. *)
Theorem C59_output : forall uc line buf heuristic ic show files texts,
  suitable uc line buf ic show files texts -> 2 <= zlen files <= 16 ->
  exists al, aligned texts al /\
    synctext uc line buf heuristic ic show false files = Ok (printed uc show (map fst files) al) /\
    (forall t0 t1, texts = [t0; t1] ->
     if heuristic then forall ps qs p0 p1 v, In (ps, qs) (steps al) -> ps = [p0; p1] -> In v (map value p0) -> In v (map value p1) -> v = 126
     else distance (map value t0) (map value t1) (edited al)).
Proof.
  intros uc line buf heuristic ic show files texts St Nf. pose proof (suitable_fits _ _ _ _ _ _ _ St) as Fit.
  destruct St as [J N Lo B R _ Sz Nm].
  assert (Lt : zlen texts = zlen files) by (symmetry; eapply Forall2_zlen, R).
  set (values := map (map value) texts).
  assert (exists l, (if heuristic || (2 <? zlen files) then synchronize values
                     else fastukk_sync (nth 0 values []) (nth 1 values [])) = Ok l /\
            partition values l /\ matches_genuine values l /\
            (heuristic = false -> forall t0 t1, texts = [t0; t1] -> distance (map value t0) (map value t1) (total_cost l)) /\
            (heuristic = true -> synchronize values = Ok l)) as (l & El & P & G & D & Hs).
  { destruct (heuristic || (2 <? zlen files)) eqn:C.
    - pose proof (C21_synchronize values) as S. unfold values in S at 1 2. rewrite zlen_map, Lt in S.
      replace ((2 <=? zlen files) && (zlen files <=? 16)) with true in S by lia. destruct S as (l & E & P & G & _).
      exists l. split; [exact E|]. split; [exact P|]. split; [exact G|]. split; [|auto]. intros -> t0 t1 ->. cbn in Lt. rewrite <- Lt in C. discriminate C.
    - apply orb_false_iff in C as [-> C]. assert (L2 : zlen texts = 2) by lia.
      destruct texts as [|t0 [|t1 [|t2 rest]]]; try (exfalso; unfold zlen in L2; cbn [List.length] in L2; lia).
      unfold values. cbn [map nth]. destruct (C17_fastukk_partition (map value t0) (map value t1)) as (l & E & P).
      { rewrite zlen_map. specialize (Sz t0 (or_introl eq_refl)). unfold MAX_F. lia. }
      exists l. split; [exact E|]. split; [exact P|]. split; [apply (C18_fastukk_matches _ _ _ E)|].
      split; [|discriminate]. intros _ u0 u1 [= <- <-]. exact (C19_fastukk_optimal _ _ _ E). }
  pose proof (partition_good texts l P) as Good.
  exists (build texts l). split; [now apply build_aligned|]. split.
  2: { intros t0 t1 Ht. destruct heuristic; [|rewrite (build_edited texts l Good); exact (D eq_refl t0 t1 Ht)].
       intros ps qs p0 p1 v Hst -> V0 V1. destruct (build_steps texts l _ Hst) as (it & Hit & M & E). cbn [fst] in E.
       destruct (Z.eq_dec v 126) as [|Nv]; [assumption|exfalso]. subst texts. specialize (Hs eq_refl). unfold values in Hs. cbn [map] in Hs.
       rewrite Forall_forall in Good. pose proof (Good it Hit) as Gi. inversion Gi as [|? u0 ? ss O0 H' X1 X2]; subst. inversion H' as [|? u1 ? ss' O1 H'' X3 X4]; subst. inversion H''; subst.
       unfold pieces in E. rewrite <- X2 in E. cbn [combine map fst snd] in E. injection E as -> ->.
       refine (C22_nothing_left _ _ l Hs it u0 u1 v Hit M (eq_sym X2) Nv _). split; apply occurs_part; auto. }
  unfold synctext, synctext_texts. rewrite ?zlen_map. replace ((zlen files <? 2) || (false && (2 <? zlen files))) with false by (destruct (Z.ltb_spec (zlen files) 2); [lia|reflexivity]).
  rewrite (read_all _ _ _ _ _ _ R). cbn [obind app]. fold values. rewrite El. cbn [obind].
  unfold write_matches. rewrite (match_loop_ok uc show texts l N ltac:(lia) Good G Fit). cbn [obind].
  unfold write_differences.
  assert (Ln : zlen (map fst files) = zlen texts) by (rewrite zlen_map; lia).
  rewrite maxlen_longest by exact Ln.
  assert (W : 0 <= longest (map fst files) < 10 ^ 15).
  { apply longest_small; try lia. intros nm Hnm. apply in_map_iff in Hnm as ((nm' & f) & <- & Hin). exact (Nm _ _ Hin). }
  rewrite format_fits by exact W. rewrite (difference_loop_ok uc show _ _ texts l N (proj1 W) Good Fit). cbn [obind].
  f_equal. unfold printed, common_part. change (0 + 1) with 1. unfold write_separator, separator. now rewrite <- !app_assoc.
Qed.
Print Assumptions C59_output.

(** Errors: too few or too many files, and files that cannot be read. *)
Theorem C59_errors : forall uc line buf heuristic ic show transpose files,
  (zlen files < 2 \/ (transpose = true /\ 2 < zlen files) ->
     synctext uc line buf heuristic ic show transpose files = Fail "invalid number of text files") /\
  (forall texts, texts_read uc line buf ic files texts -> transpose = false -> 16 < zlen files ->
     synctext uc line buf heuristic ic show transpose files = Fail "invalid number of text streams") /\
  (forall files1 nm f files2 texts1 msg, files = files1 ++ (nm, f) :: files2 -> texts_read uc line buf ic files1 texts1 ->
     read_text uc line buf (mkopt true true 0 true ic) [] f = Fail msg ->
     2 <= zlen files -> (transpose = true -> zlen files = 2) ->
     synctext uc line buf heuristic ic show transpose files = Fail msg).
Proof.
  intros uc line buf heuristic ic show transpose files. split; [|split].
  - intros H. unfold synctext, synctext_texts. rewrite ?zlen_map. replace ((zlen files <? 2) || (transpose && (2 <? zlen files))) with true; [reflexivity|].
    destruct (Z.ltb_spec (zlen files) 2); [reflexivity|]. destruct H as [H|(-> & H)]; [lia|]. symmetry. cbn. lia.
  - intros texts R -> H. unfold synctext, synctext_texts. rewrite ?zlen_map. replace ((zlen files <? 2) || (false && (2 <? zlen files))) with false
      by (destruct (Z.ltb_spec (zlen files) 2); [lia|reflexivity]).
    rewrite (read_all _ _ _ _ _ _ R). cbn [obind app]. replace (heuristic || (2 <? zlen files)) with true by (destruct heuristic; cbn; lia).
    pose proof (C21_synchronize (map (map value) texts)) as S. rewrite zlen_map in S.
    pose proof (Forall2_zlen _ _ _ R) as L. replace ((2 <=? zlen texts) && (zlen texts <=? 16)) with false in S by lia.
    rewrite S. reflexivity.
  - intros files1 nm f files2 texts1 msg -> R E Nf T. unfold synctext, synctext_texts. rewrite ?zlen_map.
    replace ((_ <? 2) || (transpose && (2 <? _))) with false.
    2: { symmetry. destruct (Z.ltb_spec (zlen (files1 ++ (nm, f) :: files2)) 2); [lia|]. cbn [orb]. destruct transpose; [|reflexivity].
         specialize (T eq_refl). cbn [andb]. lia. }
    rewrite ofold_app, (read_all _ _ _ _ _ _ R). cbn [obind app ofold snd]. unfold synctext_opt at 1. rewrite E. reflexivity.
Qed.
Print Assumptions C59_errors.

(** *** Reading the output *)
Definition unmarked (cs : list char) : list char := map (fun c => mkchar false (value c)) cs.

Lemma unmarked_values a b : map value a = map value b -> unmarked a = unmarked b.
Proof.
  intros H. unfold unmarked. rewrite <- (map_map value (mkchar false) a), <- (map_map value (mkchar false) b). now rewrite H.
Qed.

Lemma shown_common_plain ps p : alike ps -> In p ps -> shown_common false ps = unmarked p.
Proof.
  intros (vs & _ & H) Hp. unfold shown_common. cbn [andb]. cbv zeta.
  assert (E : map value (piece 0 ps) = map value p).
  { rewrite (H p Hp). unfold piece. destruct (znth ps 0) eqn:E; [apply H; eapply znth_In, E|].
    exfalso. apply In_znth in Hp as (j & B & _). destruct (znth_lt_Some ps 0); [lia|congruence]. }
  rewrite <- (unmarked_values _ _ E). unfold unmarked. generalize (piece 0 ps) as q. clear. intros q.
  generalize 0 as k. induction q as [|c q IH]; intros k; [reflexivity|]. cbn [List.length zrange combine map fst snd]. now rewrite IH.
Qed.

Lemma shown_text_plain texts al i t : aligned texts al -> znth texts i = Some t -> shown_text false i al = unmarked t.
Proof.
  intros (H & (Lb & Ab) & St) Ht. rewrite <- (H i t Ht). clear H. pose proof (znth_Some_lt _ _ _ Ht) as B.
  assert (G : forall ps, zlen ps = zlen texts -> In (piece i ps) ps).
  { intros ps L. unfold piece. destruct (znth_lt_Some ps i) as [p Hp]; [lia|]. rewrite Hp. eapply znth_In, Hp. }
  unfold shown_text, text_of. unfold unmarked. rewrite map_app. f_equal; [apply shown_common_plain; auto|].
  revert St. generalize (steps al) as st. induction st as [|s st IH]; intros St; [reflexivity|].
  cbn [flat_map]. rewrite !map_app. destruct (St s (or_introl eq_refl)) as (L1 & L2 & A). f_equal.
  - f_equal. apply shown_common_plain; auto.
  - apply IH. intros x Hx. apply St. now right.
Qed.

Lemma aligned_ordinary texts al (P : char -> Prop) : aligned texts al -> Forall (Forall P) texts ->
  Forall (Forall P) (beginning al) /\ Forall (fun s => Forall (Forall P) (fst s) /\ Forall (Forall P) (snd s)) (steps al).
Proof.
  intros (H & (Lb & _) & St) F.
  assert (T : forall i, Forall P (text_of i al)).
  { intros i. destruct (znth texts i) as [t|] eqn:E.
    - rewrite (H i t E). rewrite Forall_forall in F. apply F. eapply znth_In, E.
    - assert (Z : forall ps, zlen ps = zlen texts -> piece i ps = []).
      { intros ps L. unfold piece. destruct (znth ps i) eqn:E'; [|reflexivity]. apply znth_Some_lt in E'. destruct (znth_lt_Some texts i); [lia|congruence]. }
      unfold text_of. rewrite Z by exact Lb. cbn [app]. clear -St Z. induction (steps al) as [|s st IH]; [constructor|].
      cbn [flat_map]. destruct (St s (or_introl eq_refl)) as (L1 & L2 & _). rewrite !Z by assumption. apply IH. intros x Hx. apply St. now right. }
  assert (G : forall ps, (forall i, Forall P (piece i ps)) -> Forall (Forall P) ps).
  { intros ps Hps. apply Forall_forall. intros p Hp. apply In_znth in Hp as (j & _ & E). specialize (Hps j). unfold piece in Hps. now rewrite E in Hps. }
  split.
  - apply G. intros i. specialize (T i). unfold text_of in T. apply Forall_app in T. tauto.
  - apply Forall_forall. intros s Hs. split; apply G; intros i; specialize (T i); unfold text_of in T; apply Forall_app in T as [_ T];
      rewrite Forall_forall in T |- *; intros c Hc; apply T; apply in_flat_map; exists s; (split; [exact Hs|]); apply in_or_app; tauto.
Qed.

(** C59: the output determines what is printed of each text, whatever the options -H and -i, if
    there is no brace '{' in the texts and in the names; and it determines the characters of the
    texts if moreover all of them are printed as they are. *)
Theorem C59_determined_partial : forall uc line buf names contents1 contents2 texts1 texts2 h1 h2 i1 i2 out,
  let files1 := combine names contents1 in
  let files2 := combine names contents2 in
  suitable uc line buf i1 false files1 texts1 -> suitable uc line buf i2 false files2 texts2 ->
  zlen contents1 = zlen names -> zlen contents2 = zlen names -> 2 <= zlen names <= 16 ->
  (forall nm, In nm names -> ~ In 123 nm) ->
  (forall t c, In t texts1 \/ In t texts2 -> In c t -> value c <> 123) ->
  synctext uc line buf h1 i1 false false files1 = Ok out -> synctext uc line buf h2 i2 false false files2 = Ok out ->
  forall i t1 t2, znth texts1 i = Some t1 -> znth texts2 i = Some t2 ->
    images uc (unmarked t1) = images uc (unmarked t2) /\
    ((forall c, In c t1 \/ In c t2 -> value c = 10 \/ is_graphic uc (value c) = true /\ is_combining uc (value c) = false) ->
     map value t1 = map value t2).
Proof.
  intros uc line buf names contents1 contents2 texts1 texts2 h1 h2 i1 i2 out files1 files2 S1 S2 L1 L2 Nn Cn Ct E1 E2 i t1 t2 H1 H2.
  assert (Nm : forall contents : list (list Z), zlen contents = zlen names -> map fst (combine names contents) = names).
  { intros contents. clear. revert names. induction contents as [|c cs IH]; intros [|nm nms] L; rewrite ?zlen_cons in L; try reflexivity.
    - exfalso. pose proof (zlen_nonneg nms). cbn in L. lia.
    - cbn [combine map fst]. rewrite IH by lia. reflexivity. }
  assert (Z : forall contents : list (list Z), zlen contents = zlen names -> zlen (combine names contents) = zlen names)
    by (intros; apply zlen_combine; lia).
  destruct (C59_output uc line buf h1 i1 false files1 texts1 S1) as (al1 & A1 & O1 & _); [unfold files1; rewrite Z; lia|].
  destruct (C59_output uc line buf h2 i2 false files2 texts2 S2) as (al2 & A2 & O2 & _); [unfold files2; rewrite Z; lia|].
  assert (Or : forall texts files ii, suitable uc line buf ii false files texts -> (forall t, In t texts -> In t texts1 \/ In t texts2) ->
            Forall (Forall ordinary) texts).
  { intros texts files ii S Hin. pose proof (suitable_fits _ _ _ _ _ _ _ S) as F. rewrite Forall_forall in *. intros t Ht.
    specialize (F t Ht). rewrite Forall_forall in *. intros c Hc. split; [apply (F c Hc)|]. exact (Ct t c (Hin t Ht) Hc). }
  pose proof (Or _ _ _ S1 ltac:(auto)) as Or1. pose proof (Or _ _ _ S2 ltac:(auto)) as Or2.
  assert (Steps : forall texts al files ii, suitable uc line buf ii false files texts -> zlen files = zlen names -> aligned texts al ->
            Forall (Forall ordinary) texts -> Forall (step_ok names) (steps al) /\ Forall (Forall ordinary) (beginning al)).
  { intros texts al files ii S Lf A O. destruct (aligned_ordinary texts al ordinary A O) as [B F]. split; [|exact B].
    apply Forall_forall. intros s Hs. rewrite Forall_forall in F. destruct (F s Hs). destruct A as (_ & _ & St). destruct (St s Hs) as (Ls & _).
    split; [|tauto]. destruct S as [_ _ _ _ R _ _ _]. pose proof (Forall2_zlen _ _ _ R) as Lr. unfold zlen in *. lia. }
  destruct (Steps _ _ _ _ S1 ltac:(apply Z; lia) A1 Or1) as [St1 B1]. destruct (Steps _ _ _ _ S2 ltac:(apply Z; lia) A2 Or2) as [St2 B2].
  rewrite O1 in E1. rewrite O2 in E2. unfold files1, files2 in E1, E2. rewrite Nm in E1, E2 by assumption.
  assert (E : printed uc false names al1 = printed uc false names al2) by congruence.
  pose proof (printed_unique uc false names ltac:(now apply Forall_forall) al1 al2 St1 St2 B1 B2 E i) as Im.
  rewrite (shown_text_plain texts1 al1 i t1 A1 H1), (shown_text_plain texts2 al2 i t2 A2 H2) in Im. split; [exact Im|].
  intros Pl.
  assert (U : forall t, (forall c, In c t -> value c = 10 \/ is_graphic uc (value c) = true /\ is_combining uc (value c) = false) ->
            images uc (unmarked t) = utf8s (map value t)).
  { intros t. clear. induction t as [|c t IH]; intros H; [reflexivity|]. unfold images, unmarked, utf8s. cbn [map flat_map].
    f_equal; [|apply IH; intros; apply H; now right]. unfold image. cbn [suspect value app].
    destruct (Z.eqb_spec (value c) 10) as [->|N]; [reflexivity|]. destruct (H c (or_introl eq_refl)) as [C|(G & K)]; [lia|].
    unfold display. replace (value c =? 10) with false by lia. now rewrite G, K. }
  rewrite !U in Im by (intros; apply Pl; tauto).
  assert (Sc : forall texts t, Forall (Forall ordinary) texts -> In t texts -> Forall scalar (map value t)).
  { intros texts t F Ht. apply Forall_map. rewrite Forall_forall in F. specialize (F t Ht). eapply Forall_impl; [|exact F]. intros c (Hc & _). exact Hc. }
  apply utf8s_inj; [apply (Sc texts1); auto; eapply znth_In, H1|apply (Sc texts2); auto; eapply znth_In, H2|exact Im].
Qed.
Print Assumptions C59_determined_partial.

(** The full claim, without the condition on braces, is false: two pairs of files with the same
    output. *)
Theorem C59_braces_refuted :
  let run c0 c1 := synctext sample_uc sample_line sample_buf false false false false [(bytes "f", c0); (bytes "g", c1)] in
  exists out, run (bytes "{1}a") (bytes "{1}b") = Ok out /\ run (bytes "a{1}") (bytes "b{1}") = Ok out.
Proof. cbv zeta. eexists. split; [reflexivity|]. vm_compute. reflexivity. Qed.
Print Assumptions C59_braces_refuted.

(** *** Option -T *)
Lemma transposed_ok uc show l t : nul_hidden uc -> partition [map value t] l -> Forall (fits uc show) t ->
  write_transposed uc show l t = Ok (transposed_part uc show (map (fun it => (inum it, nth_part t it 0)) l)) /\
  flat_map (fun it => nth_part t it 0) l = t /\
  Forall (fun it => exists u, isubs it = [u] /\ sub_ok t u /\ nth_part t it 0 = part t u) l.
Proof.
  intros N P Fit. pose proof (partition_good [t] l P) as Good.
  assert (G : Forall (fun it => exists u, isubs it = [u] /\ sub_ok t u /\ nth_part t it 0 = part t u) l).
  { eapply Forall_impl; [|exact Good]. intros it H. inversion H as [|? u ? ss O H' E1 E2]; subst. inversion H'; subst.
    exists u. split; [reflexivity|]. split; [exact O|]. unfold nth_part. now rewrite <- E2, znth_cons_0. }
  split; [|split; [|exact G]].
  - unfold write_transposed.
    rewrite (oconcat_ok _ (fun it => numbered_piece uc show (inum it, nth_part t it 0))).
    + cbn [obind]. unfold transposed_part. rewrite flat_map_map. reflexivity.
    + intros it Hit. rewrite Forall_forall in G. destruct (G it Hit) as (u & Eu & O & Ep). rewrite Eu, Ep. cbn [obind].
      rewrite (sub_chars_ok t u O). cbn [obind].
      rewrite (oconcat_ok _ (fun c => image uc (mkchar (show && suspect c) (value c)))).
      * cbn [obind]. unfold numbered_piece, images, shown_piece. cbn [fst snd]. rewrite flat_map_map. reflexivity.
      * intros c Hc. pose proof (part_Forall _ t u Fit) as Fp. rewrite Forall_forall in Fp. destruct (Fp c Hc) as [Sc Fc].
        unfold write_char. apply char_out_image; auto. intros H. apply Fc. now destruct show.
  - destruct P as (_ & P & _). specialize (P 0 (map value t) (znth_cons_0 _ _)). rewrite zlen_map in P.
    destruct (consecutive_parts t _ 0 ltac:(lia) P) as (_ & E & _). cbn [Z.to_nat skipn] in E. etransitivity; [|exact E].
    unfold column. rewrite flat_map_map. apply flat_map_ext_in. intros it Hit. rewrite Forall_forall in G. destruct (G it Hit) as (u & Eu & _ & Ep).
    now rewrite Ep, Eu, znth_cons_0.
Qed.

Lemma numbers_items (f : item -> list char) l : map Some (numbers (map (fun it => (inum it, f it)) l)) = map inum (filter is_match l).
Proof.
  induction l as [|it l IH]; [reflexivity|]. unfold numbers in *. cbn [map flat_map fst filter]. unfold is_match at 1.
  destruct (inum it) eqn:E; cbn [app map]; [rewrite IH, E|]; auto.
Qed.

(** C59, with option -T: each text is shown with its numbered and its other pieces. *)
Theorem C59_transposed : forall uc line buf heuristic ic show files t1 t2,
  suitable uc line buf ic show files [t1; t2] ->
  exists ps1 ps2, concat (map snd ps1) = t1 /\ concat (map snd ps2) = t2 /\ paired ps1 ps2 /\
    synctext uc line buf heuristic ic show true files =
    Ok (transposed_part uc show ps1 ++ transposed_part uc show ps2 ++ separator).
Proof.
  intros uc line buf heuristic ic show files t1 t2 St. pose proof (suitable_fits _ _ _ _ _ _ _ St) as Fit.
  destruct St as [J N Lo B R _ Sz Nm]. apply Forall_cons_iff in Fit as [F1 Fit]. apply Forall_cons_iff in Fit as [F2 _].
  pose proof (Forall2_zlen _ _ _ R) as L. change (zlen [t1; t2]) with 2 in L.
  destruct (C23_transpose (map value t1) (map value t2)) as (l1 & l2 & E & P1 & P2 & Nu & Pe & Sm).
  pose proof (C24_nothing_left _ _ _ _ E) as Left.
  destruct (transposed_ok uc show l1 t1 N P1 F1) as (W1 & T1 & G1). destruct (transposed_ok uc show l2 t2 N P2 F2) as (W2 & T2 & G2).
  set (ps1 := map (fun it => (inum it, nth_part t1 it 0)) l1) in *. set (ps2 := map (fun it => (inum it, nth_part t2 it 0)) l2) in *.
  assert (Cc : forall l t, concat (map snd (map (fun it => (inum it, nth_part t it 0)) l)) = flat_map (fun it => nth_part t it 0) l).
  { intros l t. now rewrite map_map, flat_map_concat_map. }
  exists ps1, ps2. split; [unfold ps1; now rewrite Cc|]. split; [unfold ps2; now rewrite Cc|]. split.
  - assert (Inj : forall a b : list Z, map Some a = map Some b -> a = b).
    { induction a as [|x a IH]; intros [|y b] H; try discriminate H; [reflexivity|]. cbn [map] in H. injection H as -> H. f_equal. auto. }
    assert (Len : List.length (filter is_match l1) = List.length (numbers ps1)).
    { rewrite <- (map_length inum), <- (numbers_items (fun it => nth_part t1 it 0)), map_length. reflexivity. }
    split; [|split; [|split]].
    + apply Inj. unfold ps1 at 1. rewrite numbers_items, Nu, Len. reflexivity.
    + assert (P : Permutation (map Some (numbers ps1)) (map Some (numbers ps2))).
      { unfold ps1, ps2. rewrite !numbers_items. now symmetry. }
      pose proof (Permutation_map (fun o => match o with Some n => n | None => 0 end) P) as Q. rewrite !map_map, !map_id in Q. exact Q.
    + intros n p1 p2 H1 H2. apply in_map_iff in H1 as (it1 & E1 & I1). apply in_map_iff in H2 as (it2 & E2 & I2).
      injection E1 as E1 <-. injection E2 as E2 <-. destruct (Sm it1 it2 n I1 I2 E1 E2) as (u1 & u2 & w & U1 & U2 & Nw & Tw & _ & _ & S1 & S2).
      unfold nth_part. rewrite U1, U2, !znth_cons_0, !part_values, S1, S2. split; [reflexivity|]. split; [|exact Tw].
      intros C. apply Nw. rewrite <- S1, <- part_values, C. reflexivity.
    + intros p1 p2 v H1 H2 V1 V2. apply in_map_iff in H1 as (it1 & E1 & I1). apply in_map_iff in H2 as (it2 & E2 & I2).
      injection E1 as E1 <-. injection E2 as E2 <-. rewrite Forall_forall in G1, G2.
      destruct (G1 it1 I1) as (u1 & U1 & O1 & Q1). destruct (G2 it2 I2) as (u2 & U2 & O2 & Q2). rewrite Q1 in V1. rewrite Q2 in V2.
      destruct (Z.eq_dec v 126) as [|Nv]; [assumption|exfalso].
      refine (Left it1 it2 u1 u2 v I1 I2 _ _ U1 U2 Nv _); [unfold is_match; now rewrite E1|unfold is_match; now rewrite E2|].
      split; apply occurs_part; auto.
  - unfold synctext, synctext_texts. rewrite ?zlen_map. replace ((zlen files <? 2) || (true && (2 <? zlen files))) with false by (rewrite L; reflexivity).
    rewrite (read_all _ _ _ _ _ _ R). cbn [obind app map nth]. rewrite E. cbn [obind]. rewrite W1. cbn [obind]. rewrite W2. cbn [obind].
    f_equal. now rewrite <- app_assoc.
Qed.
Print Assumptions C59_transposed.

(** Two files; what is printed. *)
Example C59_ex :
  let files := [(bytes "correct", bytes "the" ++ [10] ++ bytes "end."); (bytes "ocr", bytes "tho" ++ [10; 94] ++ bytes "nd.")] in
  exists t0 t1, suitable sample_uc sample_line sample_buf false true files [t0; t1] /\ zlen t0 = 8 /\ zlen t1 = 7 /\
  synctext sample_uc sample_line sample_buf false false true false files =
  Ok (separator ++ [10] ++ bytes "th{1}" ++ [10] ++ bytes "{2}^nd." ++ [10] ++
      separator ++ bytes "{1}" ++ [10] ++ bytes "correct {e}" ++ [10] ++ bytes "ocr     {o}" ++ [10] ++
      separator ++ bytes "{2}" ++ [10] ++ bytes "correct {e}" ++ [10] ++ bytes "ocr     {}" ++ [10] ++ separator).
Proof.
  cbv zeta. exists (map (mkchar false) (bytes "the" ++ [10] ++ bytes "end.")),
    (map (mkchar false) (bytes "tho" ++ [10]) ++ [mkchar true 110] ++ map (mkchar false) (bytes "d.")).
  split; [|do 2 (split; [reflexivity|]); vm_compute; reflexivity].
  constructor.
  - repeat split. repeat constructor; unfold is_byte; lia.
  - reflexivity.
  - discriminate.
  - intros nm f [[= <- <-]|[[= <- <-]|[]]]; repeat constructor; unfold is_byte; lia.
  - repeat constructor; exists false; reflexivity.
  - intros _ t c [<-|[<-|[]]] Hc; left; revert c Hc; apply Forall_forall; repeat constructor; lia.
  - intros t [<-|[<-|[]]]; vm_compute; reflexivity.
  - intros nm f [[= <- <-]|[[= <- <-]|[]]]; vm_compute; reflexivity.
Qed.
