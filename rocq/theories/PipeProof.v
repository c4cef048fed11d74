(** The reports which accuracy and wordacc leave for page after page. *)
From Coq Require Import String Permutation.
From Verif Require Import Base CLib CLibProof Utf8Model TextModel TextSpec TextIO TextProps ReadProof SyncModel SyncSpec FastukkProps
  CompareModel AccModel AccSpec AccProof AccTop AccProps SumProof ReportSpec AccrptModel AccrptSpec AccrptFig AccrptChar AccrptProof AccrptTop AccrptAcc AccrptProps
  LcsSpec LcsTop WordTable WordModel WordSpec StopModel WacModel WacSpec WacProof WacProps WacrptModel WacrptSpec WacrptProof WacrptTop WacrptProps
  UtilModel ArgsProps MainModel MainSpec MainProof MainProps MainWacProps MainProgProps MainPipeProps GroupProps NonstopProps PipeSpec.
Local Open Scope Z_scope.
Local Open Scope list_scope.
#[local] Opaque all_values.

Lemma page_inputs uc line buf p t0 t1 : nul_hidden uc -> junk_ok line buf ->
  page_texts uc p t0 t1 -> accuracy_sized t0 t1 -> inputs_ok uc t0 t1.
Proof.
  intros N J (B0 & B1 & T0 & h & T1) (Tab & Lm & Ls).
  pose proof (read_file_text uc line buf false _ false t0 J B0 T0) as R0.
  pose proof (read_file_text uc line buf false _ h t1 J B1 T1) as R1.
  split; [exact N|]. split; [eapply (read_text_scalar uc line buf (mkopt true true 0 true false)); [exact J|exact B0|discriminate|exact R0]|].
  split; [eapply (read_text_scalar uc line buf (mkopt true true 0 true false)); [exact J|exact B1|discriminate|exact R1]|].
  split; [|exact Lm]. unfold tabulable. rewrite Forall_forall. intros c Hc Ev. apply Tab. rewrite <- Ev. now apply in_map.
Qed.

(** accuracy *)
Lemma accuracy_pages sys uc line buf order fmt pages texts name :
  nul_hidden uc -> marks_wide uc -> pct_ok fmt -> permutes order -> junk_ok line buf ->
  pages_ready sys pages ->
  (forall p, In p pages -> command_line [] (map Plain (page_args p)) (name :: page_args p)) ->
  Forall2 (fun p t => page_texts uc p (fst t) (snd t) /\ accuracy_sized (fst t) (snd t)) pages texts ->
  exists sys' reports ds,
    runs (fun sys => accuracy_main sys uc line buf order fmt) name sys pages sys' /\
    Forall2 (has_file sys') (map report_name pages) reports /\ Forall2 (report_of uc fmt) ds reports /\
    Forall2 (fun t d => inputs_ok uc (fst t) (snd t) /\ accuracy_data uc (fst t) (snd t) = Ok d) texts ds /\
    (forall n, ~ In n (map report_name pages) -> contents sys' n = contents sys n).
Proof.
  intros N W P O J Rd Cp Tx.
  set (good := fun p report => forall t0 t1, page_texts uc p t0 t1 -> accuracy_sized t0 t1 ->
    exists d, accuracy_data uc t0 t1 = Ok d /\ report_of uc fmt d report).
  destruct (runs_pages (fun sys => accuracy_main sys uc line buf order fmt) name good pages sys Rd) as (sys' & reports & Rn & G & Fr & Un).
  { intros s p Ip (Hf & _ & _). destruct (Hf p (or_introl eq_refl)) as (F0 & F1 & Wr). clear Hf.
    assert (Run : forall t0 t1, page_texts uc p t0 t1 -> accuracy_sized t0 t1 ->
      exists r report d, accuracy_main s uc line buf order fmt (name :: page_args p) = Ok (Done r) /\
        delivered s (Some (report_name p)) [] report r /\ accuracy_data uc t0 t1 = Ok d /\ report_of uc fmt d report).
    { intros t0 t1 (B0 & B1 & T0 & h & T1) (Tab & Lm & Ls).
      destruct (C62_accuracy s uc line buf order fmt (map Plain (page_args p)) (name :: page_args p) (correct_name p) (generated_name p)
                  (Some (report_name p)) (correct_file p) (generated_file p) t0 t1 h) as (r & report & d & E & D & Ed & Ro & _); auto.
      exists r, report, d. auto. }
    destruct (Forall2_in_l _ _ _ Tx p Ip) as ([t0 t1] & Pt & Sz).
    destruct (Run t0 t1 Pt Sz) as (r & report & _ & E & D & _). exists r, report. split; [exact E|]. split; [exact D|].
    intros u0 u1 Pu Su. destruct (Run u0 u1 Pu Su) as (r' & report' & d & E' & D' & Ed & Ro).
    replace r' with r in D' by congruence. destruct D as (_ & D & _). destruct D' as (_ & D' & _).
    replace report' with report in Ro by congruence. exists d. auto. }
  assert (Ds : exists ds, Forall2 (report_of uc fmt) ds reports /\
             Forall2 (fun t d => inputs_ok uc (fst t) (snd t) /\ accuracy_data uc (fst t) (snd t) = Ok d) texts ds).
  { clear - Tx G N J. revert texts Tx. induction G as [|p report pages reports Gp G IH]; intros texts Tx; inversion Tx as [|? [t0 t1] ? texts' [Pt Sz] Tx']; subst.
    - exists []. split; constructor.
    - destruct (IH _ Tx') as (ds & H1 & H2). destruct (Gp _ _ Pt Sz) as (d & Ed & Ro). exists (d :: ds). split; constructor; auto.
      split; [|exact Ed]. exact (page_inputs uc line buf p t0 t1 N J Pt Sz). }
  destruct Ds as (ds & Ro & Td). exists sys', reports, ds. auto.
Qed.

(** wordacc *)
Definition wordacc_figures (w : list (list Z) * list (list Z)) (d : wacdata) : Prop :=
  exists marks stop, lcs_marks marks (fst w) (snd w) /\ figures stop (fst w) marks d.

Lemma wordacc_pages sys uc NFC line buf order fmt pages words name :
  pct_ok fmt -> permutes_terms order -> junk_ok line buf -> (forall c, scalar c -> scalar (tolower uc c)) ->
  pages_ready sys pages ->
  (forall p, In p pages -> command_line [string_option 83] (map Plain (page_args p)) (name :: page_args p)) ->
  Forall2 (fun p w => page_words uc NFC p (fst w) (snd w) /\ wordacc_sized (fst w) (snd w)) pages words ->
  exists sys' reports ds,
    runs (fun sys => wordacc_main sys uc NFC line buf order fmt) name sys pages sys' /\
    Forall2 (has_file sys') (map report_name pages) reports /\ Forall2 (wreport_of fmt) ds reports /\
    Forall2 wordacc_figures words ds /\
    (forall n, ~ In n (map report_name pages) -> contents sys' n = contents sys n).
Proof.
  intros P O J Low Rd Cp Tx.
  set (good := fun p report => forall w0 w1, page_words uc NFC p w0 w1 -> wordacc_sized w0 w1 ->
    exists d, wreport_of fmt d report /\ wordacc_figures (w0, w1) d).
  destruct (runs_pages (fun sys => wordacc_main sys uc NFC line buf order fmt) name good pages sys Rd) as (sys' & reports & Rn & G & Fr & Un).
  { intros s p Ip (Hf & _ & _). destruct (Hf p (or_introl eq_refl)) as (F0 & F1 & Wr). clear Hf.
    assert (Run : forall w0 w1, page_words uc NFC p w0 w1 -> wordacc_sized w0 w1 ->
      exists r report, wordacc_main s uc NFC line buf order fmt (name :: page_args p) = Ok (Done r) /\
        delivered s (Some (report_name p)) [] report r /\
        exists d, wreport_of fmt d report /\ wordacc_figures (w0, w1) d).
    { intros w0 w1 (B0 & B1 & T0 & h & T1) (Sh & Lw & Hw).
      destruct (C63_wordacc s uc NFC line buf order fmt (map Plain (page_args p)) (name :: page_args p) (correct_name p) (generated_name p)
                  (Some (report_name p)) (correct_file p) (generated_file p) h w0 w1 None default_stopword)
        as (r & report & marks & d & stop & E & D & Ro & _ & Lm & Fg & _); auto.
      { intros v. split; [discriminate|]. intros [I|I]; apply in_map_iff in I as (x & X & _); discriminate X. }
      { reflexivity. }
      exists r, report. split; [exact E|]. split; [exact D|]. exists d. split; [exact Ro|]. exists marks, stop. auto. }
    destruct (Forall2_in_l _ _ _ Tx p Ip) as ([t0 t1] & Pt & Sz).
    destruct (Run t0 t1 Pt Sz) as (r & report & E & D & _). exists r, report. split; [exact E|]. split; [exact D|].
    intros u0 u1 Pu Su. destruct (Run u0 u1 Pu Su) as (r' & report' & E' & D' & d & Ro & H).
    replace r' with r in D' by congruence. destruct D as (_ & D & _). destruct D' as (_ & D' & _).
    replace report' with report in Ro by congruence. exists d. auto. }
  assert (Ds : exists ds, Forall2 (wreport_of fmt) ds reports /\ Forall2 wordacc_figures words ds).
  { clear - Tx G. revert words Tx. induction G as [|p report pages reports Gp G IH]; intros texts Tx; inversion Tx as [|? [t0 t1] ? texts' [Pt Sz] Tx']; subst.
    - exists []. split; constructor.
    - destruct (IH _ Tx') as (ds & H1 & H2). destruct (Gp _ _ Pt Sz) as (d & Ro & Hd). exists (d :: ds). split; constructor; auto. }
  destruct Ds as (ds & Ro & Td). exists sys', reports, ds. auto.
Qed.

(** ** Figures of the pages *)

Lemma accuracy_figures uc texts ds dists :
  Forall2 (fun t d => inputs_ok uc (fst t) (snd t) /\ accuracy_data uc (fst t) (snd t) = Ok d) texts ds ->
  Forall2 (fun t dist => distance (map value (fst t)) (map value (snd t)) dist /\ ~ In 126 (map value (fst t))) texts dists ->
  map (fun d => (characters d, errors d)) ds = combine (map (fun t => zlen (fst t)) texts) dists.
Proof.
  intros F. revert dists. induction F as [|t d texts ds [I E] F IH]; intros dists D; inversion D as [|? x ? xs [Dx Nx] D']; subst; [reflexivity|].
  cbn [map combine]. rewrite (IH _ D'). f_equal.
  destruct (C25_figures uc _ _ I) as (d' & Ed' & Ec & _ & Ex). replace d' with d in * by congruence.
  destruct (Ex x Dx) as [_ Ex']. rewrite Ec, (Ex' Nx). f_equal. f_equal.
  clear - Nx. induction (fst t) as [|c l IHl]; [reflexivity|]. cbn [map In] in Nx. rewrite num_cons, zlen_cons, IHl by tauto.
  unfold plain, is_tilde. replace (value c =? 126) with false by lia. cbn [negb]. lia.
Qed.

Lemma in_common_marks marks w0 w1 n : lcs_marks marks w0 w1 -> in_common w0 w1 n -> zlen (select marks w0) = n.
Proof.
  intros (_ & Sm & Mx) ((c & C0 & C1 & Lc') & Mn).
  pose proof (Mx c C0 C1). pose proof (Mn _ (LcsTop.subseq_select marks w0) Sm). lia.
Qed.

Lemma words_figures words ds lcs :
  Forall2 wordacc_figures words ds ->
  Forall2 (fun w n => in_common (fst w) (snd w) n) words lcs ->
  map (fun d => (wcount (wtotal d), wmissed (wtotal d))) ds =
  map (fun wn => (zlen (fst (fst wn)), zlen (fst (fst wn)) - snd wn)) (combine words lcs).
Proof.
  intros F. revert lcs. induction F as [|w d words ds (marks & stop & Lm & Fg) F IH]; intros lcs D; inversion D as [|? n ? ns Hn D']; subst; [reflexivity|].
  cbn [map combine fst snd]. rewrite (IH _ D'). f_equal.
  rewrite (fg_words _ _ _ _ Fg), (fg_missed _ _ _ _ Fg), (in_common_marks _ _ _ _ Lm Hn). reflexivity.
Qed.

(** ** The alignment *)

Lemma concat_filter_map {A B} (f : A -> list B) (p : A -> bool) l : concat (map f (filter p l)) = flat_map f (filter p l).
Proof. now rewrite flat_map_concat_map. Qed.

Lemma items_aligned uc t0 t1 d : inputs_ok uc t0 t1 -> accuracy_data uc t0 t1 = Ok d ->
  exists gs, aligned t0 t1 gs /\
    forall v, fig (FCharacter false v) d = num (plain_value v) t0 /\ fig (FCharacter true v) d = num (plain_value v) (lost gs).
Proof.
  intros (N & T0 & T1 & Tab & L) Hd.
  destruct (accuracy_counted uc t0 t1 N T0 T1 Tab L) as (l & d' & E & Ed & C & F & P0 & P1 & G & D).
  assert (d' = d) by congruence. subst d'.
  exists (map (fun it => mksection (is_match it) (correct t0 it) (generated t1 it)) l). split.
  - unfold aligned. rewrite !map_map. cbn [in_correct in_generated recognized]. rewrite <- !flat_map_concat_map.
    split; [exact P0|]. split; [exact P1|]. split.
    + rewrite Forall_map. cbn [recognized in_correct in_generated]. unfold matches_genuine in G. rewrite Forall_forall in *.
      intros it I M. destruct (G it I M) as (w & _ & _ & H).
      destruct (H 0 (map value t0) eq_refl) as (s0 & Z0 & L0 & S0). destruct (H 1 (map value t1) eq_refl) as (s1 & Z1 & L1 & S1).
      unfold correct, generated, nth_part. rewrite Z0, Z1. unfold part. rewrite <- !firstn_map, <- !skipn_map.
      change (slice (map value t0) (SyncModel.start s0) (slen s0) = slice (map value t1) (SyncModel.start s1) (slen s1)). congruence.
    + replace (zsum _) with (total_cost l); [exact D|]. unfold total_cost, zsum. f_equal. apply map_ext_in. intros it I.
      unfold item_cost. destruct (is_match it); [reflexivity|]. rewrite Forall_forall in F. destruct (F it I) as (s0 & s1 & Es & O0 & O1).
      unfold correct, generated, nth_part. rewrite Es. cbn [map fold_right]. change (znth [s0; s1] 0) with (Some s0). change (znth [s0; s1] 1) with (Some s1).
      cbv iota. destruct O0 as (A0 & B0 & C0). destruct O1 as (A1 & B1 & C1). unfold part, zlen in *. rewrite !firstn_length, !skipn_length. lia.
  - intros v. cbn [fig cell]. destruct C. rewrite cn_count, cn_missed, <- !num_flat_map, P0. split; [reflexivity|]. f_equal.
    unfold lost, unmatched_items. rewrite flat_map_concat_map. clear. induction l as [|it l IH]; [reflexivity|]. cbn [map filter recognized].
    destruct (is_match it); cbn [negb]; [exact IH|]. cbn [map concat in_correct]. now rewrite IH.
Qed.

Lemma listing_table uc fmt8 d count missed vs :
  (forall v, fig (FCharacter false v) d = count v /\ fig (FCharacter true v) d = missed v) ->
  group_listing uc fmt8 d vs = group_table uc fmt8 count missed vs.
Proof.
  intros H. unfold group_listing, group_table, listed, group_row. cbv zeta.
  rewrite (filter_ext _ (fun v => negb (v =? 32) && negb (v =? 10) && (0 <? count v))) by (intros v; now rewrite (proj1 (H v))).
  set (chars := filter _ vs). clearbody chars.
  rewrite (map_ext (fun v => fig (FCharacter false v) d) count) by (intros v; apply H).
  rewrite (map_ext (fun v => fig (FCharacter true v) d) missed) by (intros v; apply H).
  do 2 f_equal. f_equal. f_equal. apply map_ext. intros v. destruct (H v) as [-> ->]. reflexivity.
Qed.

(** ** The words left *)

Lemma remaining_sum q us l : NoDup us ->
  zlen (filter q l) - zsum (map (fun w => count_if (fun wm : list Z * bool => word_eqb w (fst wm) && q wm) l) us) =
  zlen (filter (fun wm => (if in_dec (list_eq_dec Z.eq_dec) (fst wm) us then false else true) && q wm) l).
Proof.
  intros Nu. induction l as [|wm l IH].
  - cbn [filter]. assert (H : zsum (map (fun w => count_if (fun wm : list Z * bool => word_eqb w (fst wm) && q wm) []) us) = 0); [|rewrite H; reflexivity].
    clear. induction us as [|u us IH]; [reflexivity|]. cbn [map]. rewrite zsum_cons, IH. reflexivity.
  - assert (S : zsum (map (fun w => count_if (fun wm : list Z * bool => word_eqb w (fst wm) && q wm) (wm :: l)) us) =
      (if q wm then if in_dec (list_eq_dec Z.eq_dec) (fst wm) us then 1 else 0 else 0) +
      zsum (map (fun w => count_if (fun wm : list Z * bool => word_eqb w (fst wm) && q wm) l) us)).
    { clear IH. induction us as [|u us IH]; [destruct (q wm); reflexivity|]. inversion Nu as [|? ? U1 U2]; subst. cbn [map]. rewrite !zsum_cons, (IH U2).
      unfold count_if at 1. cbn [filter]. fold (count_if (fun wm : list Z * bool => word_eqb u (fst wm) && q wm) l).
      unfold word_eqb at 1. destruct (q wm); [|rewrite andb_false_r; unfold count_if; lia]. rewrite andb_true_r.
      destruct (list_eq_dec Z.eq_dec u (fst wm)) as [Eu|Eu]; destruct (in_dec _ (fst wm) us) as [I|I]; destruct (in_dec _ (fst wm) (u :: us)) as [I'|I'];
        try (exfalso; cbn [In] in I'; subst; intuition congruence); rewrite ?zlen_cons; unfold count_if; lia. }
    rewrite S. clear S. cbn [filter]. destruct (q wm); cbn [andb]; [rewrite andb_true_r|rewrite andb_false_r];
      [destruct (in_dec _ (fst wm) us)|]; rewrite ?zlen_cons; lia.
Qed.

Lemma class_word P words marks by_length terms m w : class_figures P words marks by_length terms ->
  word_fig m terms w = if P w then wcell m (WacSpec.of_word w words marks) else 0.
Proof.
  intros [_ _ _ K Hw Ht].
  assert (Z0 : forall m, ~ In w words -> wcell m (WacSpec.of_word w words marks) = 0).
  { intros m' Ni. unfold WacSpec.of_word, tally.
    assert (X : forall q, filter (fun wm : list Z * bool => word_eqb w (fst wm) && q wm) (combine words marks) = []).
    { intros q. assert (Y : forall x, In x (combine words marks) -> word_eqb w (fst x) && q x = false).
      { intros [x b] I. apply in_combine_l in I. unfold word_eqb. cbn [fst]. destruct (list_eq_dec Z.eq_dec w x); [subst; contradiction|reflexivity]. }
      revert Y. generalize (combine words marks). clear. induction l as [|x l IH]; intros Y; [reflexivity|]. cbn [filter].
      rewrite (Y x (or_introl eq_refl)). apply IH. intros y I. apply Y. now right. }
    unfold count_if. pose proof (X (fun wm => negb (snd wm))) as X1. pose proof (X (fun _ => true)) as X2.
    rewrite (filter_ext _ (fun wm : list Z * bool => word_eqb w (fst wm))) in X2 by (intros; apply andb_true_r).
    cbv beta in X1. rewrite X1, X2. destruct m'; reflexivity. }
  destruct (in_dec (list_eq_dec Z.eq_dec) w (map tkey terms)) as [I|I].
  - destruct (proj1 (Hw w) I) as [Iw ->]. apply in_map_iff in I as (t & <- & It).
    rewrite <- (Ht t It). apply word_fig_in; assumption.
  - rewrite word_fig_absent by exact I. destruct (P w) eqn:Pw; [|reflexivity]. symmetry. apply Z0. intros Iw. apply I, Hw. auto.
Qed.

Lemma curve_words fmt6 stop words marks d ws out : List.length marks = List.length words -> figures stop words marks d -> NoDup ws ->
  is_curve fmt6 d ws out -> word_curve fmt6 ws words marks out.
Proof.
  intros Lm Fg Nd (k & E & A & B & C).
  assert (Ow : forall m w, NonstopProps.of_word m d w = wcell m (WacSpec.of_word w words marks)).
  { intros m w. unfold NonstopProps.of_word. cbn [wfig]. rewrite (class_word _ _ _ _ _ m w (fg_stop _ _ _ _ Fg)), (class_word _ _ _ _ _ m w (fg_non _ _ _ _ Fg)).
    destruct (stop w); cbn [negb]; lia. }
  assert (Nf : forall i, NoDup (firstn i ws)).
  { clear - Nd. intros i. revert i. induction Nd as [|w ws Nw Nd IH]; intros [|i]; cbn [firstn]; constructor; auto.
    intros I. apply Nw. rewrite <- (firstn_skipn i ws). apply in_or_app. now left. }
  assert (L0 : forall i, left_after false d ws i = remaining ws words i).
  { intros i. unfold left_after. cbn [wfig wcell]. rewrite (fg_words _ _ _ _ Fg).
    rewrite (map_ext _ (fun w => count_if (fun wm : list Z * bool => word_eqb w (fst wm) && true) (combine words marks))).
    2: { intros w. rewrite Ow. unfold WacSpec.of_word, tally. cbn [wcell wcount]. unfold count_if. f_equal. apply filter_ext. intros; now rewrite andb_true_r. }
    pose proof (remaining_sum (fun _ => true) (firstn i ws) (combine words marks) (Nf i)) as X.
    assert (T : filter (fun _ : list Z * bool => true) (combine words marks) = combine words marks) by (clear; induction (combine words marks) as [|x l IH]; cbn; congruence).
    rewrite T in X. replace (zlen (combine words marks)) with (zlen words) in X by (unfold zlen; rewrite combine_length; lia).
    rewrite X. unfold remaining. clear - Lm. revert marks Lm. induction words as [|w words IH]; intros [|b marks] Lm; try discriminate Lm; [reflexivity|].
    cbn [combine filter fst]. unfold other_than at 1. rewrite andb_true_r. injection Lm as Lm. destruct (in_dec _ w _); [now apply IH|]. rewrite !zlen_cons, IH; auto. }
  assert (L1 : forall i, left_after false d ws i - left_after true d ws i = remaining_right ws words marks i).
  { intros i. rewrite L0. unfold left_after. cbn [wfig wcell]. rewrite (fg_missed _ _ _ _ Fg).
    rewrite (map_ext _ (fun w => count_if (fun wm : list Z * bool => word_eqb w (fst wm) && negb (snd wm)) (combine words marks))).
    2: { intros w. rewrite Ow. reflexivity. }
    pose proof (remaining_sum (fun wm => negb (snd wm)) (firstn i ws) (combine words marks) (Nf i)) as X.
    replace (zlen words - zlen (select marks words)) with (zlen (filter (fun wm : list Z * bool => negb (snd wm)) (combine words marks))).
    2: { clear - Lm. revert marks Lm. induction words as [|w words IH]; intros [|b marks] Lm; try discriminate Lm; [reflexivity|].
         injection Lm as Lm. specialize (IH _ Lm). cbn [combine filter snd select]. destruct b; cbn [negb]; rewrite !zlen_cons; lia. }
    rewrite X. unfold remaining, remaining_right. clear - Lm. revert marks Lm. induction words as [|w words IH]; intros [|b marks] Lm; try discriminate Lm; [reflexivity|].
    injection Lm as Lm. specialize (IH _ Lm). cbn [combine filter fst snd].
    change (if in_dec (list_eq_dec Z.eq_dec) w (firstn i ws) then false else true) with (other_than ws i w).
    destruct (other_than ws i w); cbn [andb]; [|exact IH]. destruct b; cbn [negb]; rewrite ?zlen_cons; lia. }
  exists k. split; [|split; [|split; [exact B|]]].
  - rewrite E. f_equal. apply map_ext. intros i. unfold curve_line. rewrite L1, L0. reflexivity.
  - intros i Hi. rewrite <- L0. now apply A.
  - rewrite <- L0. exact C.
Qed.
