(** Sums of word accuracy reports. *)
From Coq Require Import String Permutation.
From Verif Require Import Base CLib CLibProof CompareModel CompareProof SortModel SortSpec SortProps TextIO AccSpec SumProof AccrptTop
  ReportModel ReportSpec ReportProof AccrptModel AccrptSpec AccrptProof WacModel LcsSpec LcsProof WacSpec WacProof
  WacrptModel WacrptSpec WacrptProof.
Local Open Scope Z_scope.
Local Open Scope list_scope.

Lemma wcell_add m a b : wcell m (wadd a b) = wcell m a + wcell m b.
Proof. now destruct m. Qed.
Lemma wcell_eq a b : (forall m, wcell m a = wcell m b) -> a = b.
Proof. intros H. apply wac_eq; [exact (H false)|exact (H true)]. Qed.

Lemma word_fig_cons m t l k : word_fig m (t :: l) k =
  (if list_eq_dec Z.eq_dec (tkey t) k then wcell m (twac t) else 0) + word_fig m l k.
Proof. unfold word_fig. cbn [map]. now rewrite zsum_cons. Qed.

Lemma word_fig_perm m a l k : Permutation a l -> word_fig m a k = word_fig m l k.
Proof. intros P. unfold word_fig. apply zsum_perm. now apply Permutation_map. Qed.

Lemma word_fig_put m t k : forall T, word_fig m (put_term T t) k =
  word_fig m T k + (if list_eq_dec Z.eq_dec (tkey t) k then wcell m (twac t) else 0).
Proof.
  unfold put_term. induction T as [|u T IH]; cbn [add_term].
  - rewrite word_fig_cons. cbn [tkey twac]. rewrite increment_wadd, wac_eta, wadd_0_l. change (word_fig m [] k) with 0. lia.
  - destruct (streq (tkey u) (tkey t)) eqn:E.
    + apply streq_spec in E. rewrite !word_fig_cons. cbn [tkey twac]. rewrite increment_wadd, wac_eta, wcell_add, E.
      destruct (list_eq_dec Z.eq_dec (tkey t) k); lia.
    + rewrite !word_fig_cons, IH. lia.
Qed.

Lemma word_fig_puts m k a : forall T, word_fig m (put_terms a T) k = word_fig m T k + word_fig m a k.
Proof.
  induction a as [|t a IH]; intros T.
  - change (put_terms [] T) with T. change (word_fig m [] k) with 0. lia.
  - change (put_terms (t :: a) T) with (put_terms a (put_term T t)). rewrite IH, word_fig_put, word_fig_cons. lia.
Qed.

Lemma add_term_forall (P : term -> Prop) T k c m : Forall P T -> P (mkterm k (mkwac c m)) ->
  (forall w, P (mkterm k w) -> P (mkterm k (increment_wac w c m))) -> Forall P (add_term T k c m).
Proof.
  intros F P0 Ps. induction F as [|t T Ht F IH]; cbn [add_term].
  - constructor; [|constructor]. exact P0.
  - destruct (streq (tkey t) k) eqn:E; [|now constructor]. apply streq_spec in E. subst k.
    constructor; [|exact F]. apply Ps. now destruct t.
Qed.

Lemma put_term_ok T c t : words_ok T c -> report_word (tkey t) -> sane (twac t) -> 0 < wcount (twac t) ->
  words_ok (put_term T t) (c + wcount (twac t)).
Proof.
  intros W Rw [S1 S2] Pos. constructor.
  - apply add_term_nodup, (wo_keys _ _ W).
  - apply add_term_forall; [apply (wo_words _ _ W)|exact Rw|]. intros w H. exact H.
  - apply add_term_forall; [apply (wo_sane _ _ W)| |].
    + cbn [twac]. unfold sane. cbn. lia.
    + cbn [twac]. unfold sane, increment_wac. cbn. lia.
  - rewrite (wo_count _ _ W). clear W Rw. unfold put_term. induction T as [|u T IH]; cbn [add_term map].
    + rewrite zsum_cons. cbn. lia.
    + destruct (streq (tkey u) (tkey t)); cbn [map]; rewrite !zsum_cons; [cbn; lia|]. lia.
Qed.

Lemma words_ok_perm a l c : Permutation a l -> words_ok l c -> words_ok a c.
Proof.
  intros P W. constructor.
  - eapply Permutation_NoDup; [|apply (wo_keys _ _ W)]. apply Permutation_map. now apply Permutation_sym.
  - eapply Permutation_Forall; [apply Permutation_sym, P|apply (wo_words _ _ W)].
  - eapply Permutation_Forall; [apply Permutation_sym, P|apply (wo_sane _ _ W)].
  - rewrite (wo_count _ _ W). apply zsum_perm. apply Permutation_map. now apply Permutation_sym.
Qed.

Lemma put_terms_ok a : forall T c c', words_ok T c -> words_ok a c' -> words_ok (put_terms a T) (c + c').
Proof.
  induction a as [|t a IH]; intros T c c' W Wa.
  - change (put_terms [] T) with T. rewrite (wo_count _ _ Wa). cbn. now rewrite Z.add_0_r.
  - change (put_terms (t :: a) T) with (put_terms a (put_term T t)).
    destruct Wa as [N F S C]. inversion N as [|? ? N1 N2]; subst.
    apply Forall_cons_iff in F as [F1 F2]. apply Forall_cons_iff in S as [[S1 P1] S2].
    cbn [map]. rewrite zsum_cons, Z.add_assoc. apply IH.
    + now apply put_term_ok.
    + now constructor.
Qed.

Lemma same_terms_perm a c b c' : words_ok a c -> words_ok b c' ->
  (forall m k, word_fig m a k = word_fig m b k) -> Permutation a b.
Proof.
  assert (forall l, NoDup (map tkey l) -> NoDup l) as ND by (intros l; apply NoDup_map_inv).
  assert (forall a c b c', words_ok a c -> words_ok b c' -> (forall m k, word_fig m a k = word_fig m b k) ->
            forall t, In t a -> In t b) as H.
  { clear. intros a c b c' Wa Wb E t I.
    assert (exists u, In u b /\ tkey u = tkey t) as (u & U & K).
    { destruct (in_dec (list_eq_dec Z.eq_dec) (tkey t) (map tkey b)) as [J|J].
      - apply in_map_iff in J as (u & K & U). eauto.
      - exfalso. pose proof (E false (tkey t)) as Et. rewrite (word_fig_in false a t (wo_keys _ _ Wa) I) in Et.
        pose proof (wo_sane _ _ Wa) as F. rewrite Forall_forall in F. destruct (F t I) as [_ P]. cbn [wcell] in Et.
        assert (word_fig false b (tkey t) = 0); [|lia].
        clear -J. induction b as [|v b IH]; [reflexivity|]. rewrite word_fig_cons.
        destruct (list_eq_dec Z.eq_dec (tkey v) (tkey t)) as [Q|]; [exfalso; apply J; left; exact Q|].
        rewrite IH; [reflexivity|]. intros Q. apply J. now right. }
    assert (twac u = twac t) as Q.
    { apply wcell_eq. intros m. rewrite <- (word_fig_in m b u (wo_keys _ _ Wb) U), <- (word_fig_in m a t (wo_keys _ _ Wa) I), K.
      now rewrite E. }
    destruct u as [uk uw], t as [tk tw]. cbn in K, Q. subst. exact U. }
  intros Wa Wb E. apply NoDup_Permutation.
  - apply ND, (wo_keys _ _ Wa).
  - apply ND, (wo_keys _ _ Wb).
  - intros t. split; intros I.
    + exact (H a c b c' Wa Wb E t I).
    + exact (H b c' a c Wb Wa (fun m k => eq_sym (E m k)) t I).
Qed.

(** ** Merging *)
Lemma wmerged_fig D d sa na D' : wmerged D d sa na D' -> Permutation sa (stop_terms d) -> Permutation na (non_terms d) ->
  forall x, wfig x D' = wfig x D + wfig x d.
Proof.
  intros (E & (_ & F1) & (_ & F2) & (_ & F3) & (_ & F4) & E5 & E6) Ps Pn x.
  destruct x; cbn [wfig]; rewrite ?E, ?F1, ?F2, ?F3, ?F4, ?E5, ?E6, ?wcell_add, ?word_fig_puts; try reflexivity.
  - now rewrite (word_fig_perm _ _ _ _ Ps).
  - now rewrite (word_fig_perm _ _ _ _ Pn).
Qed.

Lemma sane_add a b : sane a -> sane b -> sane (wadd a b).
Proof. unfold sane, wadd. cbn. lia. Qed.
Lemma sane_rows ws : (forall i, sane (row ws i)) -> Forall sane ws.
Proof.
  intros H. apply Forall_forall. intros w I. apply In_nth_error in I as (n & E). specialize (H (Z.of_nat n)).
  assert (znth ws (Z.of_nat n) = Some w) as Q.
  { unfold znth. destruct (Z.ltb_spec (Z.of_nat n) 0); [lia|]. now rewrite Nat2Z.id. }
  now rewrite (row_Some _ _ _ Q) in H.
Qed.

Lemma wmerged_reportable D d sa na D' : wmerged D d sa na D' -> wreportable D -> wreportable d ->
  Permutation sa (stop_terms d) -> Permutation na (non_terms d) -> wreportable D'.
Proof.
  intros (E & (L1 & F1) & (L2 & F2) & (L3 & F3) & (L4 & F4) & E5 & E6) RD R Ps Pn.
  destruct (wr_sane D RD) as (S1 & S2 & S3 & S4). destruct (wr_sane d R) as (T1 & T2 & T3 & T4).
  pose proof (wr_sum D RD) as Sm1. pose proof (wr_sum d R) as Sm2.
  destruct (wr_total D RD) as [To1 To2]. destruct (wr_total d R) as [Ts1 Ts2].
  constructor.
  - rewrite L1. apply (wr_stop D RD).
  - rewrite L2. apply (wr_non D RD).
  - rewrite L3. apply (wr_distinct D RD).
  - rewrite L4. apply (wr_phrase D RD).
  - rewrite F4, (wr_phrase0 D RD), (wr_phrase0 d R). reflexivity.
  - intros H i. rewrite E in H. cbn in H. rewrite F4, (wr_phrases D RD), (wr_phrases d R) by lia. reflexivity.
  - rewrite E. apply sane_add; split; assumption.
  - split; [|split; [|split]]; apply sane_rows; intros i; rewrite ?F1, ?F2, ?F3, ?F4; apply sane_add; now apply row_sane.
  - rewrite E, F1, F2. cbn. lia.
  - rewrite E5, F1. cbn [wadd wcount]. apply put_terms_ok; [apply (wr_stop_terms D RD)|].
    eapply words_ok_perm; [exact Ps|apply (wr_stop_terms d R)].
  - rewrite E6, F2. cbn [wadd wcount]. apply put_terms_ok; [apply (wr_non_terms D RD)|].
    eapply words_ok_perm; [exact Pn|apply (wr_non_terms d R)].
Qed.

Lemma row_repeat n i : row (repeat no_wac n) i = no_wac.
Proof.
  assert (0 <= i < Z.of_nat n \/ ~ (0 <= i < Z.of_nat n)) as [H|H] by lia.
  - apply row_Some. now apply znth_repeat.
  - apply row_out. now rewrite repeat_zlen.
Qed.

Lemma wac_empty_fig x : wfig x wac_empty = 0.
Proof.
  destruct x as [m|m i|m i|m i|m i|m k|m k]; cbn [wfig wac_empty wtotal stopword non_stopword distinct phrase stop_terms non_terms];
    rewrite ?row_repeat; destruct m; reflexivity.
Qed.

Lemma wac_empty_reportable : wreportable wac_empty.
Proof.
  assert (words_ok [] 0) as W by (constructor; constructor).
  assert (forall n, Forall sane (repeat no_wac n)) as S.
  { intros n. apply Forall_forall. intros w I. apply repeat_spec in I. subst. unfold sane. cbn. lia. }
  constructor; cbn [wac_empty wtotal stopword non_stopword distinct phrase stop_terms non_terms]; rewrite ?row_repeat; auto.
  - intros _ i. apply row_repeat.
  - unfold sane. cbn. lia.
Qed.

(** ** Equal figures, equal reports *)
Lemma numbers_text_same fmt v v' limit title e t : (forall i, row v i = row v' i) ->
  numbers_text fmt v limit title e t = numbers_text fmt v' limit title e t.
Proof.
  intros H. unfold numbers_text. rewrite (flat_map_ext (row_text fmt v limit) (row_text fmt v' limit)); [reflexivity|].
  intros i. unfold row_text. now rewrite H.
Qed.

Lemma wtext_same fmt d d' sa na : wsame d d' -> report_wtext fmt d sa na = report_wtext fmt d' sa na.
Proof.
  intros S.
  assert (wtotal d = wtotal d') as E by (apply wcell_eq; intros m; exact (S (WWords m))).
  assert (forall i, row (stopword d) i = row (stopword d') i) as E1 by (intros i; apply wcell_eq; intros m; exact (S (WStop m i))).
  assert (forall i, row (non_stopword d) i = row (non_stopword d') i) as E2 by (intros i; apply wcell_eq; intros m; exact (S (WNon m i))).
  assert (forall i, row (distinct d) i = row (distinct d') i) as E3 by (intros i; apply wcell_eq; intros m; exact (S (WDistinct m i))).
  assert (forall i, row (phrase d) i = row (phrase d') i) as E4 by (intros i; apply wcell_eq; intros m; exact (S (WPhrase m i))).
  unfold report_wtext, words_text. rewrite E, (E1 0), (E2 0).
  rewrite (numbers_text_same fmt _ _ 50 _ false true E1), (numbers_text_same fmt _ _ 50 _ false true E2),
    (numbers_text_same fmt _ _ 10 _ true true E3), (numbers_text_same fmt _ _ 8 _ false false E4). reflexivity.
Qed.

Definition word_ok (t : term) : Prop := bytes_ok (tkey t).
Lemma compare_words_preorder : preorder_on word_ok compare_words.
Proof. apply key_preorder. intros x H. exact H. Qed.

Lemma sort_words_same a b c : words_ok a c -> Permutation a b ->
  sort compare_words (zlen a) a = sort compare_words (zlen b) b.
Proof.
  intros W P. apply (C07_row_order_determined term word_ok).
  - exact compare_words_preorder.
  - intros x X. pose proof (wo_words _ _ W) as F. rewrite Forall_forall in F. destruct (F x X) as (_ & B & _). exact B.
  - intros x y X Y E. pose proof (wo_words _ _ W) as F. rewrite Forall_forall in F.
    destruct (F x X) as (_ & Bx & _). destruct (F y Y) as (_ & By & _).
    apply ustrcmp_eq in E; auto.
    assert (twac x = twac y) as Ew.
    { apply wcell_eq. intros m. rewrite <- (word_fig_in m a x (wo_keys _ _ W) X), <- (word_fig_in m a y (wo_keys _ _ W) Y).
      now rewrite E. }
    destruct x, y. cbn in *. congruence.
  - exact P.
Qed.

Section Report.
Variable fmt : Z -> Z -> list Z.
Hypothesis FMT : pct_ok fmt.

Lemma wwrite_same order order' d d' : permutes_terms order -> permutes_terms order' ->
  wreportable d -> wreportable d' -> wsame d d' ->
  write_wacrpt fmt order d = write_wacrpt fmt order' d'.
Proof.
  intros O O' R R' S.
  destruct (write_wacrpt_text fmt order d R O) as (sa & na & _ & _ & -> & Es & En).
  destruct (write_wacrpt_text fmt order' d' R' O') as (sa' & na' & _ & _ & -> & Es' & En').
  assert (sa = sa' /\ na = na') as [<- <-]; [|f_equal; now apply wtext_same]. split.
  - rewrite (sort_words_same (order (stop_terms d)) (order' (stop_terms d')) (wcount (row (stopword d) 0))) in Es; [congruence| |].
    + eapply words_ok_perm; [apply O|apply (wr_stop_terms d R)].
    + eapply Permutation_trans; [apply O|]. eapply Permutation_trans; [|apply Permutation_sym, O'].
      eapply same_terms_perm; [apply (wr_stop_terms d R)|apply (wr_stop_terms d' R')|]. intros m k. exact (S (WStopword m k)).
  - rewrite (sort_words_same (order (non_terms d)) (order' (non_terms d')) (wcount (row (non_stopword d) 0))) in En; [congruence| |].
    + eapply words_ok_perm; [apply O|apply (wr_non_terms d R)].
    + eapply Permutation_trans; [apply O|]. eapply Permutation_trans; [|apply Permutation_sym, O'].
      eapply same_terms_perm; [apply (wr_non_terms d R)|apply (wr_non_terms d' R')|]. intros m k. exact (S (WNonStopword m k)).
Qed.

(** ** Summing *)
Definition wreport_of (d : wacdata) (f : list Z) : Prop :=
  wreportable d /\ wbelow 100000000 d /\
  exists order, permutes_terms order /\ write_wacrpt fmt order d = Ok f.

Lemma wread_one b D d f : line_buffer b -> wreport_of d f -> wreportable D ->
  exists D' b', read_wacrpt b D f = Ok (D', b') /\ line_buffer b' /\ wreportable D' /\
    forall x, wfig x D' = wfig x D + wfig x d.
Proof.
  intros B (R & Bl & order & O & W) RD.
  destruct (write_wacrpt_text fmt order d R O) as (sa & na & Ps & Pn & W' & _).
  assert (f = report_wtext fmt d sa na) as -> by congruence.
  destruct (read_wreport fmt FMT b D d sa na B RD R Bl Ps Pn) as (b' & D' & B' & E & M).
  exists D', b'. split; [exact E|]. split; [exact B'|]. split.
  - now apply (wmerged_reportable D d sa na).
  - now apply (wmerged_fig D d sa na).
Qed.

Lemma wread_all ds fs : Forall2 wreport_of ds fs -> forall b D, line_buffer b -> wreportable D ->
  exists D' b', ofold (fun (st : wacdata * list Z) f => read_wacrpt (snd st) (fst st) f) fs (D, b)
      = Ok (D', b') /\ line_buffer b' /\ wreportable D' /\
    forall x, wfig x D' = wfig x D + zsum (map (wfig x) ds).
Proof.
  induction 1 as [|d f ds fs Hd F IH]; intros b D B RD.
  - exists D, b. split; [reflexivity|]. split; [exact B|]. split; [exact RD|]. intros x. cbn. lia.
  - destruct (wread_one b D d f B Hd RD) as (D1 & b1 & E1 & B1 & R1 & F1).
    destruct (IH b1 D1 B1 R1) as (D2 & b2 & E2 & B2 & R2 & F2).
    exists D2, b2. cbn [ofold fst snd]. rewrite E1. cbn [obind]. split; [exact E2|].
    split; [exact B2|]. split; [exact R2|]. intros x. cbn [map]. rewrite F2, F1, zsum_cons. lia.
Qed.

Lemma wordaccsum_total order b ds fs : line_buffer b -> Forall2 wreport_of ds fs -> 2 <= zlen fs ->
  exists D, wreportable D /\ wtotal_of ds D /\ wordaccsum fmt order b fs = write_wacrpt fmt order D.
Proof.
  intros B F L. destruct (wread_all ds fs F b wac_empty B wac_empty_reportable) as (D & b' & E & _ & R & G).
  exists D. split; [exact R|]. split.
  - intros x. rewrite G, wac_empty_fig. lia.
  - unfold wordaccsum. replace (zlen fs <? 2) with false by lia. rewrite E. reflexivity.
Qed.

Lemma wtotal_same ds ds' D D' : (forall x, zsum (map (wfig x) ds) = zsum (map (wfig x) ds')) ->
  wtotal_of ds D -> wtotal_of ds' D' -> wsame D D'.
Proof. intros E T T' x. now rewrite T, T', E. Qed.
End Report.

(** ** The figures of wordacc make a report *)
Lemma count_if_le {A} (P Q : A -> bool) l : (forall x, P x = true -> Q x = true) -> count_if P l <= count_if Q l.
Proof.
  intros H. induction l as [|x l IH]; [reflexivity|]. rewrite !count_if_cons. specialize (H x).
  destruct (P x), (Q x); try lia.
Qed.
Lemma count_if_len {A} (P : A -> bool) l : count_if P l <= zlen l.
Proof. rewrite <- (count_if_true l). now apply count_if_le. Qed.

Lemma tally_sane P words marks : List.length marks = List.length words ->
  sane (tally P words marks) /\ wcount (tally P words marks) <= zlen words.
Proof.
  intros L. unfold tally, sane. cbn [wcount wmissed].
  pose proof (count_if_nonneg (fun wm : list Z * bool => P (fst wm) && negb (snd wm)) (combine words marks)).
  pose proof (count_if_le (fun wm : list Z * bool => P (fst wm) && negb (snd wm)) (fun wm => P (fst wm)) (combine words marks)) as H1.
  pose proof (count_if_len (fun wm : list Z * bool => P (fst wm)) (combine words marks)) as H2.
  assert (zlen (combine words marks) = zlen words) as E by (unfold zlen; rewrite combine_length, L; lia).
  split; [split; [lia|]|lia]. apply H1. intros x. now destruct (P (fst x)).
Qed.

Lemma filter_len {A} (P : A -> bool) l : zlen (filter P l) <= zlen l.
Proof. apply count_if_len. Qed.
Lemma nodup_len (l : list (list Z)) : zlen (distinct_words l) <= zlen l.
Proof.
  unfold distinct_words. induction l as [|x l IH]; [reflexivity|]. cbn [nodup].
  destruct (in_dec _ x l); rewrite ?zlen_cons; lia.
Qed.
Lemma distinct_sane P words marks : sane (tally_distinct P words marks) /\ wcount (tally_distinct P words marks) <= zlen words.
Proof.
  unfold tally_distinct, sane. cbn [wcount wmissed].
  set (ws := filter P (distinct_words words)).
  pose proof (count_if_nonneg (fun w => wcount (of_word w words marks) =? wmissed (of_word w words marks)) ws).
  pose proof (count_if_len (fun w => wcount (of_word w words marks) =? wmissed (of_word w words marks)) ws).
  pose proof (filter_len P (distinct_words words)). pose proof (nodup_len words). fold ws in H1. lia.
Qed.
Lemma phrase_sane len marks : 1 <= len -> sane (phrase_figures len marks) /\ wcount (phrase_figures len marks) <= zlen marks.
Proof.
  intros L. unfold phrase_figures, sane. cbn [wcount wmissed].
  pose proof (count_if_nonneg (fun p => negb (forallb (fun r => r) p)) (phrase_marks len marks)).
  pose proof (count_if_len (fun p => negb (forallb (fun r => r) p)) (phrase_marks len marks)) as H1.
  assert (zlen (phrase_marks len marks) = Z.max 0 (zlen marks - len + 1)) as E.
  { unfold phrase_marks, zlen. rewrite map_length, zrange_length. lia. }
  pose proof (zlen_nonneg marks). lia.
Qed.

(** Occurrences, word by word. *)
Lemma occurrences_sum (P : list Z -> bool) ks (l : list (list Z * bool)) : NoDup ks ->
  (forall w, In w (map fst l) -> P w = true -> In w ks) -> (forall k, In k ks -> P k = true) ->
  zsum (map (fun k => count_if (fun wm => word_eqb k (fst wm)) l) ks) = count_if (fun wm => P (fst wm)) l.
Proof.
  intros N C1 C2. induction l as [|[w m] l IH].
  - clear N C1 C2. induction ks as [|k ks IH]; [reflexivity|]. cbn [map]. now rewrite zsum_cons, IH.
  - rewrite count_if_cons. cbn [fst]. rewrite <- IH by (intros v V; apply C1; now right).
    assert (forall ks', zsum (map (fun k => count_if (fun wm => word_eqb k (fst wm)) ((w, m) :: l)) ks') =
      zsum (map (fun k => if word_eqb k w then 1 else 0) ks') + zsum (map (fun k => count_if (fun wm => word_eqb k (fst wm)) l) ks')) as ->.
    { induction ks' as [|k ks' IH']; [reflexivity|]. cbn [map]. rewrite !zsum_cons, IH', count_if_cons. cbn [fst]. lia. }
    f_equal. specialize (C1 w (or_introl eq_refl)).
    assert (forall ks', NoDup ks' -> zsum (map (fun k => if word_eqb k w then 1 else 0) ks') = if in_dec (list_eq_dec Z.eq_dec) w ks' then 1 else 0) as ->; [|..].
    { clear. induction 1 as [|k ks' K N IH]; [reflexivity|]. cbn [map]. rewrite zsum_cons, IH. clear IH.
      destruct (word_eqb k w) eqn:E.
      - apply word_eqb_spec in E. subst k. destruct (in_dec _ w ks'); [easy|].
        destruct (in_dec _ w (w :: ks')) as [|n0]; [reflexivity|]. exfalso. apply n0. now left.
      - destruct (in_dec _ w ks') as [I|I], (in_dec _ w (k :: ks')) as [J|J]; try reflexivity.
        + exfalso. apply J. now right.
        + destruct J as [J|J]; [|easy]. subst k. now rewrite word_eqb_refl in E. }
    + destruct (in_dec _ w ks) as [I|I]; [now rewrite (C2 w I)|]. destruct (P w) eqn:E; [|reflexivity].
      exfalso. apply I. now apply C1.
    + exact N.
Qed.

Lemma class_words_ok P words marks arr terms : List.length marks = List.length words ->
  (forall w, In w words -> report_word w) ->
  class_figures P words marks arr terms -> words_ok terms (wcount (row arr 0)).
Proof.
  intros L H CF. constructor.
  - apply (cf_keys _ _ _ _ _ CF).
  - apply Forall_forall. intros t T. apply H. apply (cf_words _ _ _ _ _ CF). now apply in_map.
  - apply Forall_forall. intros t T. rewrite (cf_terms _ _ _ _ _ CF t T).
    split; [apply (tally_sane _ words marks L)|].
    assert (In (tkey t) words) as I by (apply (cf_words _ _ _ _ _ CF); now apply in_map).
    pose proof (of_word_pos words marks L _ I). lia.
  - rewrite (row_Some _ _ _ (cf_total _ _ _ _ _ CF)).
    transitivity (zsum (map (fun k => count_if (fun wm => word_eqb k (fst wm)) (combine words marks)) (map tkey terms))).
    + rewrite occurrences_sum with (P := P); [reflexivity|apply (cf_keys _ _ _ _ _ CF)| |].
      * intros w W E. apply (cf_words _ _ _ _ _ CF). split; [|exact E]. now rewrite (combine_fst words marks L) in W.
      * intros k K. now apply (cf_words _ _ _ _ _ CF) in K.
    + rewrite map_map. f_equal. apply map_ext_in. intros t T. now rewrite (cf_terms _ _ _ _ _ CF t T).
Qed.

Lemma class_rows_sane P words marks arr terms i : List.length marks = List.length words ->
  class_figures P words marks arr terms -> sane (row arr i) /\ wcount (row arr i) <= zlen words.
Proof.
  intros L CF. pose proof (cf_size _ _ _ _ _ CF) as Sz. unfold MAX_WORDLENGTH in Sz.
  assert (~ (0 <= i < zlen arr) \/ i = 0 \/ 1 <= i <= MAX_WORDLENGTH) as [Hi|[->|Hi]] by (unfold MAX_WORDLENGTH; lia).
  - rewrite (row_out _ _ Hi). pose proof (zlen_nonneg words). unfold sane. cbn. lia.
  - rewrite (row_Some _ _ _ (cf_total _ _ _ _ _ CF)). now apply tally_sane.
  - rewrite (row_Some _ _ _ (cf_length _ _ _ _ _ CF i Hi)). now apply tally_sane.
Qed.

Lemma wordacc_reportable stop words marks d : List.length marks = List.length words ->
  (forall w, In w words -> report_word w) -> figures stop words marks d -> phrases marks (phrase d) ->
  wreportable d /\ wbelow (zlen words + 1) d.
Proof.
  intros L H F Ph. pose proof (zlen_nonneg words) as Lw.
  assert (zlen marks = zlen words) as Lm by (unfold zlen; now rewrite L).
  assert (forall i, sane (row (phrase d) i) /\ wcount (row (phrase d) i) <= zlen words) as Sp.
  { intros i. pose proof (ph_size _ _ Ph) as Sz. unfold MAX_PHRASELENGTH in Sz.
    assert (~ (0 <= i < zlen (phrase d)) \/ i = 0 \/ 1 <= i <= MAX_PHRASELENGTH) as [Hi|[->|Hi]] by (unfold MAX_PHRASELENGTH; lia).
    - rewrite (row_out _ _ Hi). unfold sane. cbn. lia.
    - rewrite (row_Some _ _ _ (ph_unused _ _ Ph)). unfold sane. cbn. lia.
    - rewrite (row_Some _ _ _ (ph_len _ _ Ph i Hi)). rewrite <- Lm. now apply phrase_sane. }
  assert (forall i, sane (row (distinct d) i) /\ wcount (row (distinct d) i) <= zlen words) as Sd.
  { intros i. pose proof (fg_distinct_size _ _ _ _ F) as Sz. unfold MAX_OCCURRENCES in Sz.
    assert (~ (0 <= i < zlen (distinct d)) \/ i = 0 \/ 1 <= i <= MAX_OCCURRENCES \/ i = MAX_OCCURRENCES + 1) as [Hi|[-> |[Hi| -> ]]]
      by (unfold MAX_OCCURRENCES; lia).
    - rewrite (row_out _ _ Hi). unfold sane. cbn. lia.
    - rewrite (row_Some _ _ _ (fg_distinct _ _ _ _ F)). apply distinct_sane.
    - rewrite (row_Some _ _ _ (fg_occurs _ _ _ _ F i Hi)). apply distinct_sane.
    - rewrite (row_Some _ _ _ (fg_more _ _ _ _ F)). apply distinct_sane. }
  pose proof (fun i => class_rows_sane _ _ _ _ _ i L (fg_stop _ _ _ _ F)) as S1.
  pose proof (fun i => class_rows_sane _ _ _ _ _ i L (fg_non _ _ _ _ F)) as S2.
  pose proof (class_words_ok _ _ _ _ _ L H (fg_stop _ _ _ _ F)) as W1.
  pose proof (class_words_ok _ _ _ _ _ L H (fg_non _ _ _ _ F)) as W2.
  assert (sane (wtotal d) /\ wcount (wtotal d) <= zlen words) as St.
  { unfold sane. rewrite (fg_words _ _ _ _ F), (fg_missed _ _ _ _ F).
    pose proof (select_missed words marks L) as E.
    pose proof (count_if_nonneg (fun wm : list Z * bool => negb (snd wm)) (combine words marks)).
    pose proof (zlen_nonneg (select marks words)). lia. }
  split.
  - constructor; auto.
    + apply (cf_size _ _ _ _ _ (fg_stop _ _ _ _ F)).
    + apply (cf_size _ _ _ _ _ (fg_non _ _ _ _ F)).
    + apply (fg_distinct_size _ _ _ _ F).
    + apply (ph_size _ _ Ph).
    + apply row_Some, (ph_unused _ _ Ph).
    + intros E i. rewrite (fg_words _ _ _ _ F) in E. destruct (Sp i) as [Sa Sb]. apply sane_zero; [exact Sa|lia].
    + apply St.
    + split; [|split; [|split]]; apply sane_rows; intros i; [apply S1|apply S2|apply Sd|apply Sp].
    + rewrite (row_Some _ _ _ (cf_total _ _ _ _ _ (fg_stop _ _ _ _ F))), (row_Some _ _ _ (cf_total _ _ _ _ _ (fg_non _ _ _ _ F))).
      apply (fg_sum _ _ _ _ F).
  - assert (forall w m, sane w -> wcount w <= zlen words -> wcell m w < zlen words + 1) as B.
    { intros w m [A1 A2] A3. destruct m; cbn; lia. }
    assert (forall l P arr m k, class_figures P words marks arr l -> word_fig m l k < zlen words + 1) as Bw.
    { intros l P arr m k CF. destruct (in_dec (list_eq_dec Z.eq_dec) k (map tkey l)) as [I|I].
      - apply in_map_iff in I as (t & <- & T). rewrite (word_fig_in m l t (cf_keys _ _ _ _ _ CF) T), (cf_terms _ _ _ _ _ CF t T).
        apply B; apply tally_sane; exact L.
      - assert (word_fig m l k = 0) as ->; [|lia]. clear -I. induction l as [|v b IH]; [reflexivity|]. rewrite word_fig_cons.
        destruct (list_eq_dec Z.eq_dec (tkey v) k) as [Q|]; [exfalso; apply I; left; exact Q|].
        rewrite IH; [reflexivity|]. intros Q. apply I. now right. }
    intros x. destruct x as [m|m i|m i|m i|m i|m k|m k]; cbn [wfig].
    + apply B; apply St.
    + apply B; apply S1.
    + apply B; apply S2.
    + apply B; apply Sd.
    + apply B; apply Sp.
    + exact (Bw _ _ _ m k (fg_stop _ _ _ _ F)).
    + exact (Bw _ _ _ m k (fg_non _ _ _ _ F)).
Qed.
