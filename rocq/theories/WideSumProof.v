(** Reading word accuracy reports with checked counters. *)
From Coq Require Import String Permutation.
From Verif Require Import Base CLib CLibProof CompareModel CompareProof SortModel SortProps TextIO AccSpec SumProof
  ReportModel ReportSpec ReportProof AccrptModel AccrptSpec AccrptProof WacModel LcsProof WacSpec WacProof
  WacrptModel WacrptSpec WacrptProof WacrptTop WideModel WideProof WideWord WideSumModel.
Local Open Scope Z_scope.
Local Open Scope list_scope.
Local Ltac cb := apply clean_bytes; reflexivity.

Definition wac_upto n (w : wac) : Prop := upto n (wcount w) /\ upto n (wmissed w).
Definition rows_upto n (ws : list wac) : Prop := forall j, wac_upto n (row ws j).
Definition terms_upto n (l : list term) : Prop := NoDup (map tkey l) /\ Forall (fun t => wac_upto n (twac t)) l.
Definition wupto n (d : wacdata) : Prop :=
  wac_upto n (wtotal d) /\ rows_upto n (stopword d) /\ rows_upto n (non_stopword d) /\
  rows_upto n (distinct d) /\ rows_upto n (phrase d) /\ terms_upto n (stop_terms d) /\ terms_upto n (non_terms d).

Lemma increment_small n w v : wac_upto n w -> small_wac v -> n + 100000000 <= TOP ->
  increment_wac64 w (wcount v) (wmissed v) = Ok (increment_wac w (wcount v) (wmissed v)).
Proof.
  intros [U1 U2] [S B] L. unfold sane in S. unfold increment_wac64.
  rewrite (wac_long_true (n + 100000000)); [reflexivity| | |exact L]; cbn [increment_wac wcount wmissed];
    unfold upto in *; lia.
Qed.
Lemma increment_at64_small n ws i v : wac_upto n (row ws i) -> small_wac v -> n + 100000000 <= TOP ->
  increment_at64 ws i (wcount v) (wmissed v) = increment_at ws i (wcount v) (wmissed v).
Proof.
  intros U S L. unfold increment_at64, increment_at, rd. destruct (znth ws i) as [w|] eqn:E; cbn [obind]; [|reflexivity].
  rewrite (row_Some _ _ _ E) in U. rewrite (increment_small n w v U S L). reflexivity.
Qed.

(** A term of which the table has a small number, or none. *)
Lemma add_term64_small n k v l : (forall t, In t l -> tkey t = k -> wac_upto n (twac t)) -> 0 <= n ->
  small_wac v -> n + 100000000 <= TOP ->
  add_term64 l k (wcount v) (wmissed v) = Ok (add_term l k (wcount v) (wmissed v)).
Proof.
  intros H N S L. induction l as [|t l IH]; cbn [add_term64 add_term].
  - rewrite (increment_small n no_wac v); [reflexivity| |exact S|exact L]. split; cbn; unfold upto; lia.
  - destruct (streq (tkey t) k) eqn:E.
    + apply streq_spec in E. rewrite (increment_small n (twac t) v); [reflexivity| |exact S|exact L]. apply H; [now left|exact E].
    + rewrite IH; [reflexivity|]. intros u U. apply H. now right.
Qed.

Section Report.
Variable fmt : Z -> Z -> list Z.
Hypothesis FMT : pct_ok fmt.

Lemma number_rows64_ok n v limit tail is : (forall i, In i is -> index_ok limit i = true /\ 0 <= i < zlen v) ->
  (forall i, small_wac (row v i)) -> NoDup is -> tail_ok tail -> n + 100000000 <= TOP ->
  forall fuel b ws t, line_buffer b -> zlen ws = zlen v -> (forall i, In i is -> wac_upto n (row ws i)) ->
  (List.length (flat_map (row_text fmt v limit) is ++ tail) <= fuel)%nat ->
  number_rows64 fuel ws t (b, flat_map (row_text fmt v limit) is ++ tail) =
  number_rows fuel ws t (b, flat_map (row_text fmt v limit) is ++ tail).
Proof.
  intros I S ND T Ln. induction is as [|i is IH]; intros fuel b ws t B Lw U L.
  - cbn [flat_map app]. destruct T as [->|(r & ->)]; [now destruct fuel|].
    destruct (read_scan_ok scan_two b [10] r B blank_line) as (b' & E & Hb).
    destruct fuel; cbn [number_rows64 number_rows]; rewrite E; reflexivity.
  - inversion ND as [|? ? N1 N2]; subst. specialize (IH (fun j J => I j (or_intror J)) N2).
    cbn [flat_map] in L |- *. unfold row_text at 1 in L. unfold row_text at 1. unfold row_text at 2.
    destruct ((i =? 0) || (0 <? wcount (row v i))); [|apply IH; auto; intros j J; apply U; now right].
    assert (index_ok limit i = true /\ 0 <= i < zlen v) as [Ok1 Ri] by (apply I; now left).
    unfold index_ok in Ok1. apply andb_true_iff in Ok1 as [Ok1 Ot]. apply andb_true_iff in Ok1 as [Ok1 Oi].
    apply andb_true_iff in Ok1 as [Oc Ol]. apply clean_check in Oc.
    destruct (wac_line fmt FMT (row v i) (suffix limit i) (S i) Oc ltac:(lia)) as (Rl & Sc & Lp & Cp).
    pose proof (line_pos _ Rl) as Pos.
    destruct (increment_row ws i (wcount (row v i)) (wmissed (row v i)) ltac:(lia)) as (ws1 & E1 & L1 & P1).
    rewrite <- app_assoc in *. rewrite app_length in L. destruct fuel as [|fuel]; [lia|].
    destruct (read_scan_ok scan_two b _ (flat_map (row_text fmt v limit) is ++ tail) B Rl) as (b1 & Er & Hb).
    cbn [number_rows64 number_rows]. rewrite Er. cbn [obind]. rewrite Sc. cbn [fst].
    destruct (cstr b1 WAC_OFFSET) as [s|e|e|] eqn:Es; cbn [obind]; [|reflexivity..].
    assert (cstr b1 WAC_OFFSET = Ok (suffix limit i ++ [10])) as Es'.
    { unfold WAC_OFFSET. rewrite <- Lp. apply cstr_holds; [exact Hb|].
      intros H. apply in_app_iff in H as [H|[H|[]]]; [now apply (proj2 Oc)|discriminate H]. }
    rewrite Es' in Es. injection Es as <-. replace (row_index (suffix limit i ++ [10])) with i by lia.
    rewrite (increment_at64_small n); [|apply U; now left|apply S|exact Ln]. rewrite E1. cbn [obind].
    apply IH; [apply Hb|lia| |lia].
    intros j J. rewrite P1. destruct (Z.eqb_spec j i) as [->|_]; [contradiction|]. apply U. now right.
Qed.

Lemma read_numbers64_ok n v limit title (excess total : bool) tail :
  (forall i, In i (indices limit excess total) -> index_ok limit i = true /\ 0 <= i < zlen v) ->
  (forall i, small_wac (row v i)) -> tail_ok tail -> 0 <= limit ->
  zlen v = limit + 1 + (if excess then 1 else 0) -> (total = false -> row v 0 = no_wac) ->
  clean title -> zlen title <= 40 -> n + 100000000 <= TOP ->
  forall fuel b ws, line_buffer b -> zlen ws = zlen v -> rows_upto n ws ->
  (List.length (numbers_text fmt v limit title excess total ++ tail) <= fuel)%nat ->
  exists b' ws', line_buffer b' /\ zlen ws' = zlen ws /\
    read_numbers64 fuel ws (b, tl (numbers_text fmt v limit title excess total ++ tail)) =
      Ok (ws', (if total then wcount (row v 0) else 0), (b', tl tail)) /\
    forall j, row ws' j = wadd (row ws j) (row v j).
Proof.
  intros I S T L0 Lv R0 Ct Lt Ln fuel b ws B Lw U Lf.
  destruct (read_numbers_ok fmt FMT v limit title excess total tail I S T L0 Lv R0 Ct Lt fuel b ws B Lw Lf)
    as (b' & ws' & B' & L' & E & P).
  exists b', ws'. split; [exact B'|]. split; [exact L'|]. split; [|exact P]. rewrite <- E. clear E P L' B' b' ws'.
  assert (NoDup (indices limit excess total)) as ND.
  { unfold indices. apply nodup_app; [apply NoDup_zrange| |].
    - apply nodup_app; [destruct excess; repeat constructor; easy|destruct total; repeat constructor; easy|].
      intros x X Y. destruct excess; [|easy]. destruct total; [|easy]. destruct X as [X|[]], Y as [Y|[]]. lia.
    - intros x X Y. apply In_zrange in X. apply in_app_iff in Y as [Y|Y].
      + destruct excess; [|easy]. destruct Y as [Y|[]]. lia.
      + destruct total; [|easy]. destruct Y as [Y|[]]. lia. }
  unfold numbers_text in *. cbn [app tl] in *. rewrite <- !app_assoc. rewrite (app_assoc title).
  rewrite (app_assoc wac_heading). rewrite (app_assoc (_ ++ _) [10]).
  rewrite <- !app_assoc in Lf.
  unfold read_numbers64, read_numbers.
  match goal with |- context [two_lines (b, ?l1 ++ ?l2 ++ ?r)] =>
    destruct (two_lines_ok b l1 l2 r B) as (b1 & B1 & E1) end.
  - apply line_intro; [exact Ct|lia].
  - apply line_intro; [apply clean_app; [cb|destruct excess; cb]|destruct excess; cbn; lia].
  - rewrite E1. cbn [obind]. apply (number_rows64_ok n); auto.
    cbn [List.length] in Lf. rewrite !app_length in *. lia.
Qed.

Lemma put_terms_in T t u : In u (put_term T t) -> tkey u <> tkey t -> In u T.
Proof.
  unfold put_term. induction T as [|x T IH]; cbn [add_term].
  - intros [<-|[]] H. now elim H.
  - destruct (streq (tkey x) (tkey t)) eqn:E.
    + apply streq_spec in E. intros [<-|H] K; [now elim K|now right].
    + intros [<-|H] K; [now left|right; now apply IH].
Qed.

Lemma term_rows64_ok n tail a : Forall term_row_ok a -> tail_ok tail -> 0 <= n -> n + 100000000 <= TOP -> NoDup (map tkey a) ->
  forall fuel b T, line_buffer b -> (forall t u, In t a -> In u T -> tkey u = tkey t -> wac_upto n (twac u)) ->
  (List.length (flat_map (write_term fmt) a ++ tail) <= fuel)%nat ->
  exists b', line_buffer b' /\
    term_rows64 fuel T (b, flat_map (write_term fmt) a ++ tail) = Ok (put_terms a T, (b', tl tail)).
Proof.
  intros F Tl N Ln. induction F as [|t a [Rw Sm] F IH]; intros ND fuel b T B U L.
  - cbn [flat_map app] in *. destruct Tl as [->|(r & ->)].
    + exists b. split; [exact B|]. now destruct fuel.
    + destruct (read_scan_ok scan_two b [10] r B blank_line) as (b' & E & Hb).
      exists b'. split; [apply Hb|]. destruct fuel; cbn [term_rows64]; rewrite E; reflexivity.
  - inversion ND as [|? ? N1 N2]; subst. specialize (IH N2).
    change (put_terms (t :: a) T) with (put_terms a (put_term T t)).
    cbn [flat_map] in L |- *. rewrite <- app_assoc in *.
    destruct (word_clean _ Rw) as [Cl Lk].
    destruct (wac_line fmt FMT (twac t) (tkey t) Sm Cl Lk) as (R & S & Lp & Cp).
    pose proof (line_pos _ R) as P. rewrite app_length in L. unfold write_term at 1 in L. destruct fuel as [|fuel]; [lia|].
    destruct (read_scan_ok scan_two b _ (flat_map (write_term fmt) a ++ tail) B R) as (b1 & E & Hb).
    pose proof Hb as Hb'. rewrite app_assoc in Hb'. destruct (chop b1 _ _ Hb') as (b2 & Ew & H2).
    rewrite <- app_assoc in Ew.
    destruct (IH fuel b2 (put_term T t) (proj1 H2)) as (b3 & B3 & E3).
    { intros t' u H1 H3 K. apply (U t' u); [now right| |exact K]. apply (put_terms_in T t u H3). rewrite K. intros X.
      apply N1. rewrite <- X. now apply in_map. }
    { lia. }
    exists b3. split; [exact B3|]. unfold write_term at 1. cbn [term_rows64]. rewrite E. cbn [obind]. rewrite S. cbn [fst snd].
    rewrite (cstr0_holds b1 _ Hb) by now apply report_line_no_nul. cbn [obind].
    rewrite Ew. cbn [obind]. unfold WAC_OFFSET. rewrite <- Lp.
    rewrite (cstr_holds b2 _ _ H2 (proj2 Cl)). cbn [obind].
    rewrite (add_term64_small n); [cbn [obind]; exact E3| |exact N|exact Sm|exact Ln].
    intros u Hu K. apply (U t u); [now left|exact Hu|exact K].
Qed.

Lemma read_terms64_ok n tail a title : Forall term_row_ok a -> tail_ok tail -> clean title -> zlen title <= 40 ->
  0 <= n -> n + 100000000 <= TOP -> NoDup (map tkey a) ->
  forall fuel b T, line_buffer b -> terms_upto n T -> (List.length (terms_text fmt a title ++ tail) <= fuel)%nat ->
  exists b', line_buffer b' /\
    read_terms64 fuel T (b, tl (terms_text fmt a title ++ tail)) = Ok (put_terms a T, (b', tl tail)).
Proof.
  intros F Tl Ct Lt N Ln ND fuel b T B U L. unfold read_terms64, terms_text in *. cbn [app tl] in *.
  rewrite <- !app_assoc. rewrite (app_assoc title), (app_assoc wac_heading).
  match goal with |- context [two_lines (b, ?l1 ++ ?l2 ++ ?r)] =>
    destruct (two_lines_ok b l1 l2 r B) as (b1 & B1 & E1) end.
  - apply line_intro; [exact Ct|lia].
  - apply line_intro; [cb|cbn; lia].
  - rewrite E1. cbn [obind]. apply (term_rows64_ok n); auto.
    + intros t u _ Hu _. destruct U as [_ U]. rewrite Forall_forall in U. exact (U u Hu).
    + rewrite <- !app_assoc in L. cbn [List.length] in L. rewrite !app_length in *. lia.
Qed.

Lemma read_wreport64 n b D d sa na : line_buffer b -> wreportable D -> wreportable d -> wbelow 100000000 d ->
  wupto n D -> n + 100000000 <= TOP ->
  Permutation sa (stop_terms d) -> Permutation na (non_terms d) ->
  exists b' D', line_buffer b' /\ read_wacrpt64 b D (report_wtext fmt d sa na) = Ok (D', b') /\ wmerged D d sa na D'.
Proof.
  intros B0 RD R Bl Un Ln Ps Pn.
  assert (N0 : 0 <= n) by (destruct Un as ([U0 _] & _); unfold upto in U0; lia).
  destruct Un as (U0 & U1 & U2 & U3 & U4 & U5 & U6).
  assert (Nd : forall l a c, words_ok l c -> Permutation a l -> NoDup (map tkey a)).
  { intros l a c W P. eapply Permutation_NoDup; [apply Permutation_map, Permutation_sym, P|]. apply (wo_keys _ _ W). }
  destruct (rows_small d R Bl) as (Bt & B1' & B2' & B3' & B4').
  destruct indices_ok as (I1 & I2 & I3).
  pose proof (wr_stop d R) as L1. pose proof (wr_non d R) as L2. pose proof (wr_distinct d R) as L3. pose proof (wr_phrase d R) as L4.
  pose proof (wr_stop D RD) as M1. pose proof (wr_non D RD) as M2. pose proof (wr_distinct D RD) as M3. pose proof (wr_phrase D RD) as M4.
  unfold MAX_WORDLENGTH, MAX_OCCURRENCES, MAX_PHRASELENGTH in *.
  set (f := report_wtext fmt d sa na). set (fuel := List.length f).
  destruct Bt as [[Bt1 Bt2] Bt3].
  destruct (pct_clean fmt FMT (wcount (wtotal d) - wmissed (wtotal d)) (wcount (wtotal d))) as (P1 & P2 & _); try lia.
  unfold read_wacrpt64. fold fuel.
  assert (List.length f <= fuel)%nat as Lf by (unfold fuel; lia). clearbody fuel.
  unfold f in *. clear f. unfold report_wtext in *.
  match goal with |- context [need_title WAC_TITLE (b, WAC_TITLE ++ ?r)] =>
    destruct (need_title_ok b WAC_TITLE r B0 wac_title_line) as (b1 & E1 & B1) end.
  rewrite E1. cbn [obind]. clear E1.
  match goal with |- context [need_divider WAC_DIVIDER (b1, WAC_DIVIDER ++ ?r)] =>
    destruct (need_divider_ok b1 WAC_DIVIDER r B1 wac_divider_line) as (b2 & E2 & B2) end.
  rewrite E2. cbn [obind]. clear E2.
  destruct (value_line (wcount (wtotal d)) (bytes "Words")) as (R3 & T3); [lia|cb|cbn; lia|].
  match goal with |- context [need_scan scan_one (b2, ?l ++ ?r)] =>
    destruct (need_scan_ok scan_one (wcount (wtotal d)) b2 l r B2 R3 T3) as (b3 & E3 & B3) end.
  rewrite E3. cbn [obind]. clear E3.
  destruct (value_line (wmissed (wtotal d)) (bytes "Misrecognized")) as (R4 & T4); [lia|cb|cbn; lia|].
  match goal with |- context [need_scan scan_one (b3, ?l ++ ?r)] =>
    destruct (need_scan_ok scan_one (wmissed (wtotal d)) b3 l r B3 R4 T4) as (b4 & E4 & B4) end.
  rewrite E4. cbn [obind]. clear E4.
  match goal with |- context [need_line (b4, ?l ++ ?r)] =>
    destruct (need_line_ok b4 l r B4) as (b5 & E5 & B5);
    [apply line_intro; [apply clean_app; [exact P1|cb]|rewrite zlen_app; unfold wac_pct; cbn [zlen]; change (zlen (bytes "%  Accuracy")) with 11; lia]|] end.
  rewrite E5. cbn [obind]. clear E5.
  match goal with |- context [need_line (b5, ?t)] => set (rest := t) in *; assert (rest = [10] ++ tl rest) as Er by reflexivity end.
  assert (exists b6, need_line (b5, rest) = Ok (b6, tl rest) /\ line_buffer b6) as (b6 & E6 & B6).
  { pose proof (need_line_ok b5 [10] (tl rest) B5 blank_line) as H. rewrite <- Er in H. exact H. }
  rewrite E6. cbn [obind]. clear E6 Er.
  repeat rewrite app_length in Lf.
  assert (List.length rest <= fuel)%nat as Lr by lia.
  unfold rest in *. clear rest Lf. unfold read_tables64.
  rewrite (increment_small n (wtotal D) (wtotal d) U0 ltac:(split; [split; assumption|exact Bt3]) Ln). cbn [obind].
  (* stopwords *)
  match goal with |- context [read_numbers64 fuel (stopword D) (b6, tl (?x ++ ?t))] => set (t1 := t) in * end.
  destruct (read_numbers64_ok n (stopword d) 50 (bytes "Stopwords") false true t1) with (fuel := fuel) (b := b6) (ws := stopword D)
    as (b7 & sw & B7 & Lsw & -> & Psw); try assumption; try lia; try discriminate; try cb.
  { intros i. apply index_in; [exact I1|lia|lia]. }
  { unfold t1. apply tail_numbers. }
  cbn [obind].
  assert (List.length t1 <= fuel)%nat as Lt1 by (rewrite app_length in Lr; lia). clear Lr. unfold t1 in *. clear t1.
  match goal with |- context [read_numbers64 fuel (non_stopword D) (b7, tl (?x ++ ?t))] => set (t1 := t) in * end.
  destruct (read_numbers64_ok n (non_stopword d) 50 (bytes "Non-stopwords") false true t1) with (fuel := fuel) (b := b7) (ws := non_stopword D)
    as (b8 & nsw & B8 & Lnsw & -> & Pnsw); try assumption; try lia; try discriminate; try cb.
  { intros i. apply index_in; [exact I1|lia|lia]. }
  { unfold t1. apply tail_numbers. }
  cbn [obind].
  assert (List.length t1 <= fuel)%nat as Lt2 by (rewrite app_length in Lt1; lia). clear Lt1. unfold t1 in *. clear t1.
  assert (tail_ok (words_text fmt d sa na)) as Tw.
  { unfold words_text. destruct (0 <? wcount (wtotal d)); [apply tail_numbers|now left]. }
  destruct (read_numbers64_ok n (distinct d) 10 (bytes "Distinct Non-stopwords") true true (words_text fmt d sa na)) with (fuel := fuel) (b := b8) (ws := distinct D)
    as (b9 & dn & B9 & Ldn & -> & Pdn); try assumption; try lia; try discriminate; try cb.
  { intros i. apply index_in; [exact I2|lia|lia]. }
  cbn [obind].
  assert (List.length (words_text fmt d sa na) <= fuel)%nat as Lt3 by (rewrite app_length in Lt2; lia). clear Lt2.
  pose proof (wr_stop_terms d R) as Ws. pose proof (wr_non_terms d R) as Wn.
  unfold read_words64. unfold words_text in *. destruct (Z.ltb_spec 0 (wcount (wtotal d))) as [C|C].
  - match goal with |- context [read_numbers64 fuel _ (b9, tl (?x ++ ?t))] => set (t1 := t) in * end.
    cbn [phrase stop_terms non_terms wtotal stopword non_stopword distinct].
    assert (tail_ok t1) as Tt1.
    { unfold t1. destruct (0 <? wcount (row (stopword d) 0)); [right; eexists; reflexivity|].
      destruct (0 <? wcount (row (non_stopword d) 0)); [right; eexists; reflexivity|now left]. }
    assert (forall i, In i (indices 8 false false) -> index_ok 8 i = true /\ 0 <= i < zlen (phrase d)) as Ip
      by (intros i; apply index_in; [exact I3|lia|lia]).
    destruct (read_numbers64_ok n (phrase d) 8 (bytes "Phrases") false false t1 Ip B4' Tt1 ltac:(lia) ltac:(lia)
      (fun _ => wr_phrase0 d R) ltac:(cb) ltac:(cbn; lia) Ln fuel b9 (phrase D) B9 ltac:(lia) U4 Lt3)
      as (b10 & ps & B10 & Lps & Eps & Pps).
    rewrite Eps. clear Eps.
    cbn [obind].
    assert (List.length t1 <= fuel)%nat as Lt4 by (rewrite app_length in Lt3; lia). clear Lt3. unfold t1 in *. clear t1.
    match goal with |- context [(b10, tl (?x ++ ?t))] => set (t1 := t) in * end.
    assert (tail_ok t1) as Tt2.
    { unfold t1. destruct (0 <? wcount (row (non_stopword d) 0)); [right; eexists; reflexivity|now left]. }
    match goal with |- context [obind (if 0 <? wcount (row (stopword d) 0) then ?X else ?Y) _] =>
      assert (exists b11, line_buffer b11 /\
        (if 0 <? wcount (row (stopword d) 0) then X else Y) = Ok (put_terms sa (stop_terms D), (b11, tl t1)))
        as (b11 & B11 & ->) end.
    { destruct (Z.ltb_spec 0 (wcount (row (stopword d) 0))) as [C1|C1].
      - apply (read_terms64_ok n); auto; try cb; try (cbn; lia); try exact (Nd _ _ _ Ws Ps).
        apply (terms_small (stop_terms d) _ _ Ws); [|exact Ps]. intros k. exact (Bl (WStopword false k)).
      - rewrite (terms_none _ _ _ Ws ltac:(lia) Ps). exists b10. split; [exact B10|reflexivity]. }
    cbn [obind].
    assert (List.length t1 <= fuel)%nat as Lt5 by (rewrite app_length in Lt4; lia). clear Lt4.
    match goal with |- context [obind (if 0 <? wcount (row (non_stopword d) 0) then ?X else ?Y) _] =>
      assert (exists b12 r, line_buffer b12 /\
        (if 0 <? wcount (row (non_stopword d) 0) then X else Y) = Ok (put_terms na (non_terms D), (b12, r)))
        as (b12 & r & B12 & ->) end.
    { unfold t1 in *. destruct (Z.ltb_spec 0 (wcount (row (non_stopword d) 0))) as [C1|C1].
      - destruct (read_terms64_ok n [] na (bytes "Non-stopwords")) with (fuel := fuel) (b := b11) (T := non_terms D)
          as (b12 & B12 & E12); auto; try cb; try (cbn; lia); try exact (Nd _ _ _ Wn Pn).
        + apply (terms_small (non_terms d) _ _ Wn); [|exact Pn]. intros k. exact (Bl (WNonStopword false k)).
        + now left.
        + now rewrite app_nil_r.
        + rewrite app_nil_r in E12. eauto.
      - rewrite (terms_none _ _ _ Wn ltac:(lia) Pn). exists b11, []. split; [exact B11|reflexivity]. }
    cbn [obind fst]. eexists b12, _. split; [exact B12|]. split; [reflexivity|].
    unfold wmerged. cbn [phrase stop_terms non_terms wtotal stopword non_stopword distinct].
    split; [rewrite increment_wadd, wac_eta; reflexivity|]. auto 10.
  - cbn [obind fst]. eexists b9, _. split; [exact B9|]. split; [reflexivity|].
    unfold wmerged. cbn [phrase stop_terms non_terms wtotal stopword non_stopword distinct].
    split; [rewrite increment_wadd, wac_eta; reflexivity|].
    split; [auto|]. split; [auto|]. split; [auto|].
    pose proof (wr_sum d R) as Sum. destruct (B1' 0) as [[? ?] _], (B2' 0) as [[? ?] _].
    split; [split; [reflexivity|]|].
    { intros j. rewrite (wr_phrases d R) by lia. now rewrite wadd_0_r. }
    rewrite (terms_none _ _ _ Ws ltac:(lia) Ps), (terms_none _ _ _ Wn ltac:(lia) Pn). split; reflexivity.
Qed.
End Report.

(** ** The bounds, in terms of figures *)
Lemma wupto_figures n D : wreportable D -> (forall x, wfig x D <= n) -> wupto n D.
Proof.
  intros R H. destruct (wr_sane D R) as (S1 & S2 & S3 & S4). pose proof (wr_total D R) as S0.
  assert (T : forall l c (mk : bool -> list Z -> wfigure), words_ok l c ->
    (forall m k, wfig (mk m k) D = word_fig m l k) -> terms_upto n l).
  { intros l c mk W E. split; [apply (wo_keys _ _ W)|]. apply Forall_forall. intros t Ht.
    pose proof (wo_sane _ _ W) as Sw. rewrite Forall_forall in Sw. destruct (Sw t Ht) as [Sa _]. unfold sane in Sa.
    pose proof (H (mk false (tkey t))) as X. rewrite E, (word_fig_in _ _ _ (wo_keys _ _ W) Ht) in X. cbn [wcell] in X.
    split; unfold upto; lia. }
  assert (Rw : forall ws (mk : bool -> Z -> wfigure), Forall sane ws ->
    (forall m j, wfig (mk m j) D = wcell m (row ws j)) -> rows_upto n ws).
  { intros ws mk S E j. pose proof (H (mk false j)) as X. rewrite E in X. cbn [wcell] in X.
    pose proof (row_sane ws j S) as Y. unfold sane in Y. split; unfold upto; lia. }
  split; [|split; [|split; [|split; [|split; [|split]]]]].
  - pose proof (H (WWords false)) as X. cbn [wfig wcell] in X. unfold sane in S0. split; unfold upto; lia.
  - now apply (Rw _ WStop).
  - now apply (Rw _ WNon).
  - now apply (Rw _ WDistinct).
  - now apply (Rw _ WPhrase).
  - now apply (T _ _ WStopword (wr_stop_terms D R)).
  - now apply (T _ _ WNonStopword (wr_non_terms D R)).
Qed.

(** ** The same result, or an overflow *)
Lemma so_increment_at ws i c m : same_or_overflow (increment_at64 ws i c m) (increment_at ws i c m).
Proof.
  unfold increment_at64, increment_at. apply so_bind; [apply so_refl|]. intros w. apply so_long_bind, so_refl.
Qed.
Lemma so_add_term k c m l : same_or_overflow (add_term64 l k c m) (Ok (add_term l k c m)).
Proof.
  induction l as [|t l IH]; cbn [add_term64 add_term].
  - apply so_long_bind, so_refl.
  - destruct (streq (tkey t) k); [apply so_long_bind, so_refl|].
    destruct IH as [->| ->]; [apply so_refl|now right].
Qed.
Lemma so_number_rows fuel : forall ws t st, same_or_overflow (number_rows64 fuel ws t st) (number_rows fuel ws t st).
Proof.
  induction fuel as [|fuel IH]; intros ws t st; cbn [number_rows64 number_rows];
    (apply so_bind; [apply so_refl|]); intros [[[v1 v2]|] st']; try apply so_refl;
    (apply so_bind; [apply so_refl|]); intros s; (apply so_bind; [apply so_increment_at|]); intros ws';
    [apply so_refl|apply IH].
Qed.
Lemma so_read_numbers fuel ws st : same_or_overflow (read_numbers64 fuel ws st) (read_numbers fuel ws st).
Proof.
  unfold read_numbers64, read_numbers. apply so_bind; [apply so_refl|]. intros [ok st']. apply so_if; [apply so_number_rows|apply so_refl].
Qed.
Lemma so_term_rows fuel : forall T st, same_or_overflow (term_rows64 fuel T st) (term_rows fuel T st).
Proof.
  induction fuel as [|fuel IH]; intros T st; cbn [term_rows64 term_rows];
    (apply so_bind; [apply so_refl|]); intros [[[v1 v2]|] st']; try apply so_refl;
    do 3 (apply so_bind; [apply so_refl|]; intros ?);
    match goal with |- context [add_term64 ?l ?k ?c ?m] => destruct (so_add_term k c m l) as [->| ->] end;
    cbn [obind]; try (now right); [apply so_refl|apply IH].
Qed.
Lemma so_read_terms fuel T st : same_or_overflow (read_terms64 fuel T st) (read_terms fuel T st).
Proof.
  unfold read_terms64, read_terms. apply so_bind; [apply so_refl|]. intros [ok st']. apply so_if; [apply so_term_rows|apply so_refl].
Qed.
Lemma so_read_wacrpt b d f : same_or_overflow (read_wacrpt64 b d f) (read_wacrpt b d f).
Proof.
  unfold read_wacrpt64, read_wacrpt.
  do 6 (apply so_bind; [apply so_refl|];
         let x := fresh in intros x; try (match type of x with (_ * _)%type => destruct x end)).
  apply so_bind; [|intros [? ?]; apply so_refl]. unfold read_tables64, read_tables. apply so_long_bind.
  do 3 (apply so_bind; [apply so_read_numbers|]; intros [[? ?] ?]).
  unfold read_words64, read_words. apply so_if; [|apply so_refl].
  apply so_bind; [apply so_read_numbers|]. intros [[? ?] ?].
  apply so_bind; [apply so_if; [apply so_read_terms|apply so_refl]|]. intros [? ?].
  apply so_bind; [apply so_if; [apply so_read_terms|apply so_refl]|]. intros [? ?]. apply so_refl.
Qed.

(** ** One more report *)
Lemma wread_one64 fmt b D d f n : pct_ok fmt -> line_buffer b -> wreport_of fmt d f -> wreportable D ->
  (forall x, wfig x D <= n) -> n + 100000000 <= TOP ->
  exists D' b', read_wacrpt64 b D f = Ok (D', b') /\ read_wacrpt b D f = Ok (D', b') /\ line_buffer b' /\ wreportable D' /\
    (forall x, wfig x D' = wfig x D + wfig x d) /\ forall x, wfig x D' <= n + 100000000.
Proof.
  intros FMT B H RD U L. destruct (wread_one fmt FMT b D d f B H RD) as (D' & b' & E & B' & R' & F').
  exists D', b'. destruct H as (R & Bl & order & O & W).
  split; [|split; [exact E|split; [exact B'|split; [exact R'|split; [exact F'|]]]]].
  - destruct (write_wacrpt_text fmt order d R O) as (sa & na & Ps & Pn & W' & _).
    assert (f = report_wtext fmt d sa na) as -> by congruence.
    destruct (read_wreport64 fmt FMT n b D d sa na B RD R Bl (wupto_figures n D RD U) L Ps Pn) as (b2 & D2 & _ & E2 & _).
    destruct (so_read_wacrpt b D (report_wtext fmt d sa na)) as [X|X]; [now rewrite X|]. rewrite E2 in X. discriminate X.
  - intros x. rewrite F'. pose proof (U x). pose proof (Bl x). lia.
Qed.
