(** Properties of word accuracy reports: C41, C31 (word accuracy reports).

    Hypotheses used below:
    - [pct_ok fmt] (AccrptSpec.v): printf("%8.2f") of a percentage between 0 and 100 takes 8
      columns;
    - [permutes_terms order]: each table of words is listed in some order (C05);
    - [line_buffer b]: [b] is the static buffer of the reader, with arbitrary contents but for
      its last byte, which is never written and therefore 0;
    - [wreportable d] (WacrptSpec.v): [d] is the data of a report; [wreport_of fmt d f]: [f] is the
      report of such data, with all figures below 100000000. *)
From Coq Require Import String Permutation.
From Verif Require Import Base CLib SumProof AccSpec AccrptTop ReportModel ReportSpec ReportProof ReportSafe AccrptModel
  AccrptSpec AccrptProps LcsSpec LcsTop WacModel WacSpec WacProof WacProps WacrptModel WacrptSpec WacrptProof WacrptTop WacrptSafe.
Local Open Scope Z_scope.
Local Open Scope list_scope.

(** C41: reading back a report into fresh data gives all of its figures. *)
Theorem C41_round_trip : forall fmt order b d,
  pct_ok fmt -> permutes_terms order -> line_buffer b -> wreportable d -> wbelow 100000000 d ->
  exists f d' b', write_wacrpt fmt order d = Ok f /\ read_wacrpt b wac_empty f = Ok (d', b') /\
    wsame d d' /\ Permutation (stop_terms d) (stop_terms d') /\ Permutation (non_terms d) (non_terms d').
Proof.
  intros fmt order b d F O B R Bl.
  destruct (write_wacrpt_text fmt order d R O) as (sa & na & _ & _ & E & _).
  destruct (wread_one fmt F b wac_empty d (report_wtext fmt d sa na) B) as (d' & b' & Er & _ & R' & G).
  - split; [exact R|]. split; [exact Bl|]. exists order. auto.
  - exact wac_empty_reportable.
  - exists (report_wtext fmt d sa na), d', b'. split; [exact E|]. split; [exact Er|].
    assert (wsame d d') as S by (intros x; rewrite G, wac_empty_fig; lia).
    split; [exact S|]. split.
    + eapply same_terms_perm; [apply (wr_stop_terms d R)|apply (wr_stop_terms d' R')|]. intros m k. exact (S (WStopword m k)).
    + eapply same_terms_perm; [apply (wr_non_terms d R)|apply (wr_non_terms d' R')|]. intros m k. exact (S (WNonStopword m k)).
Qed.
Print Assumptions C41_round_trip.

(** C41: and, into data already holding figures, adds them. *)
Theorem C41_read_adds : forall fmt b D d f,
  pct_ok fmt -> line_buffer b -> wreport_of fmt d f -> wreportable D ->
  exists D' b', read_wacrpt b D f = Ok (D', b') /\ forall x, wfig x D' = wfig x D + wfig x d.
Proof.
  intros fmt b D d f F B H R. destruct (wread_one fmt F b D d f B H R) as (D' & b' & E & _ & _ & G).
  exists D', b'. auto.
Qed.
Print Assumptions C41_read_adds.

(** C41: in particular the report that wordacc writes for two texts can be read back. *)
Theorem C41_wordacc : forall fmt order is_stopword order' b words0 words1,
  pct_ok fmt -> permutes_terms order -> permutes_terms order' -> line_buffer b ->
  zlen (shared words0 words1) <= 65535 -> zlen words0 < 99999999 ->
  (forall w, In w words0 -> 1 <= zlen w <= 50 /\ ~ In 10 w /\ Forall (fun c => 0 < c < 256) w) ->
  exists d f d' b', wordacc is_stopword order' words0 words1 = Ok d /\ write_wacrpt fmt order d = Ok f /\
    read_wacrpt b wac_empty f = Ok (d', b') /\
    wsame d d' /\ Permutation (stop_terms d) (stop_terms d') /\ Permutation (non_terms d) (non_terms d').
Proof.
  intros fmt order stop order' b words0 words1 F O O' B Sh L H.
  destruct (wordacc_ok stop order' words0 words1 O' Sh) as (marks & d & (L0 & _) & E & Fg & Ph).
  { intros w W. apply H, W. }
  destruct (wordacc_reportable stop words0 marks d L0) as [R Bl]; [|exact Fg|exact Ph|].
  { intros w W. destruct (H w W) as ([_ Lw] & N & Bt). split; [exact N|]. split; [exact Bt|lia]. }
  destruct (C41_round_trip fmt order b d F O B R) as (f & d' & b' & E1 & E2 & E3).
  { intros x. specialize (Bl x). lia. }
  exists d, f, d', b'. auto.
Qed.
Print Assumptions C41_wordacc.

(** C41: the sum of reports is the report of data whose every figure is the sum of the figures
    of the arguments, and there is only one such report. *)
Theorem C41_total : forall fmt order b ds fs,
  pct_ok fmt -> permutes_terms order -> line_buffer b ->
  Forall2 (wreport_of fmt) ds fs -> 2 <= zlen fs ->
  exists d f, wreportable d /\ wtotal_of ds d /\ wordaccsum fmt order b fs = Ok f /\
    write_wacrpt fmt order d = Ok f /\
    (forall order' d', permutes_terms order' -> wreportable d' -> wtotal_of ds d' ->
       write_wacrpt fmt order' d' = Ok f).
Proof.
  intros fmt order b ds fs F O B H L.
  destruct (wordaccsum_total fmt F order b ds fs B H L) as (d & R & T & E).
  destruct (write_wacrpt_text fmt order d R O) as (sa & na & _ & _ & Ew & _).
  exists d, (report_wtext fmt d sa na). split; [exact R|]. split; [exact T|]. split; [congruence|].
  split; [exact Ew|]. intros order' d' O' R' T'. rewrite <- Ew. symmetry.
  apply wwrite_same; auto. now apply (wtotal_same ds ds).
Qed.
Print Assumptions C41_total.

(** C41: the order of the arguments does not matter. *)
Theorem C41_order : forall fmt order order' b b' ds fs fs',
  pct_ok fmt -> permutes_terms order -> permutes_terms order' -> line_buffer b -> line_buffer b' ->
  Forall2 (wreport_of fmt) ds fs -> 2 <= zlen fs -> Permutation fs fs' ->
  wordaccsum fmt order b fs = wordaccsum fmt order' b' fs'.
Proof.
  intros fmt order order' b b' ds fs fs' F O O' B B' H L P.
  assert (exists ds', Permutation ds ds' /\ Forall2 (wreport_of fmt) ds' fs') as (ds' & Pd & H').
  { clear L. revert ds H. induction P as [|f fs fs' P IH|f g fs|fs fs2 fs' P1 IH1 P2 IH2]; intros ds H.
    - exists ds. split; [apply Permutation_refl|exact H].
    - inversion H as [|d ? ds0 ? Hd H0]; subst. destruct (IH ds0 H0) as (ds' & Pd & H').
      exists (d :: ds'). split; [now constructor|now constructor].
    - inversion H as [|d ? ds0 ? Hd H0]; subst. inversion H0 as [|e ? ds1 ? He H1]; subst.
      exists (e :: d :: ds1). split; [apply perm_swap|]. constructor; [exact He|]. constructor; [exact Hd|exact H1].
    - destruct (IH1 ds H) as (ds2 & Pa & Ha). destruct (IH2 ds2 Ha) as (ds' & Pb & Hb).
      exists ds'. split; [now transitivity ds2|exact Hb]. }
  assert (2 <= zlen fs') as L' by (unfold zlen in *; rewrite <- (Permutation_length P); exact L).
  destruct (wordaccsum_total fmt F order b ds fs B H L) as (d & R & T & ->).
  destruct (wordaccsum_total fmt F order' b' ds' fs' B' H' L') as (d' & R' & T' & ->).
  apply wwrite_same; auto. apply (wtotal_same ds ds'); auto. intros x. apply zsum_perm. now apply Permutation_map.
Qed.
Print Assumptions C41_order.

(** The sums of the figures of some data stay below a bound. *)
Definition wsums_below (n : Z) (ds : list wacdata) : Prop := forall x, zsum (map (wfig x) ds) < n.

(** C41: nor does summing some of them first.  Each argument of the second level is either one
    of the reports or the output of wordaccsum on a group of them. *)
Theorem C41_grouping : forall fmt order b (groups : list (list wacdata * list (list Z))) rs,
  pct_ok fmt -> permutes_terms order -> line_buffer b ->
  Forall2 (fun g r =>
      Forall2 (wreport_of fmt) (fst g) (snd g) /\
      (snd g = [r] \/
       2 <= zlen (snd g) /\ wordaccsum fmt order b (snd g) = Ok r /\ wsums_below 100000000 (fst g)))
    groups rs ->
  2 <= zlen rs ->
  wordaccsum fmt order b rs = wordaccsum fmt order b (List.concat (map snd groups)).
Proof.
  intros fmt order b groups rs F O B H L.
  assert (exists ds, Forall2 (wreport_of fmt) ds rs /\
            (forall x, zsum (map (wfig x) ds) = zsum (map (wfig x) (List.concat (map fst groups)))) /\
            Forall2 (wreport_of fmt) (List.concat (map fst groups)) (List.concat (map snd groups)) /\
            zlen rs <= zlen (List.concat (map snd groups))) as (ds & Hd & E & Hc & Lc).
  { clear L. induction H as [|[gd gf] r groups rs [Hg Hr] _ (ds & Hd & E & Hc & Lc)].
    - exists []. split; [constructor|]. split; [reflexivity|]. split; [constructor|apply Z.le_refl].
    - cbn [fst snd] in *.
      assert (exists d, wreport_of fmt d r /\ (forall x, wfig x d = zsum (map (wfig x) gd)) /\ 1 <= zlen gf)
        as (d & Rd & Ed & Lg).
      { destruct Hr as [->|(Lg & Ea & Sb)].
        - inversion Hg as [|d ? ds' ? Hd1 Hn]; subst. inversion Hn; subst. exists d. split; [exact Hd1|].
          split; [|cbn; lia]. intros x. cbn [map]. rewrite zsum_cons. change (zsum []) with 0. lia.
        - destruct (wordaccsum_total fmt F order b gd gf B Hg Lg) as (d & R & T & Ew).
          exists d. split; [|split; [exact T|lia]]. split; [exact R|]. split; [intros x; rewrite T; apply Sb|].
          exists order. split; [exact O|]. congruence. }
      exists (d :: ds). split; [constructor; auto|]. cbn [map List.concat]. split.
      + intros x. cbn [map]. rewrite zsum_cons, map_app, zsum_app, Ed, E. reflexivity.
      + split; [now apply Forall2_app|]. cbn [snd]. rewrite zlen_cons, zlen_app. lia. }
  destruct (wordaccsum_total fmt F order b ds rs B Hd L) as (d & R & T & ->).
  destruct (wordaccsum_total fmt F order b _ _ B Hc ltac:(lia)) as (d' & R' & T' & ->).
  apply wwrite_same; auto. eapply wtotal_same; eauto.
Qed.
Print Assumptions C41_grouping.

Definition long_word_data : wacdata :=
  mkwacdata (mkwac 1 0) (repeat no_wac 51) (mkwac 1 0 :: repeat no_wac 50) (mkwac 1 0 :: mkwac 1 0 :: repeat no_wac 10)
    (no_wac :: mkwac 1 0 :: repeat no_wac 7) [] [mkterm (repeat 97 69) (mkwac 1 0)].

(** The limit of 68 bytes is sharp: a word of 69 letters is read back without the last. *)
Theorem C41_long_words_refuted :
  exists f d' b', write_wacrpt (fun _ _ => bytes "  100.00") (fun l => l) long_word_data = Ok f /\
    read_wacrpt (repeat 0 100) wac_empty f = Ok (d', b') /\
    non_terms d' = [mkterm (repeat 97 68) (mkwac 1 0)].
Proof. eexists _, _, _. split; [vm_compute; reflexivity|]. split; vm_compute; reflexivity. Qed.
Print Assumptions C41_long_words_refuted.

(** C31, word accuracy reports: on any file whatsoever, and whatever the buffer holds, reading
    ends; it fails with "invalid format in" exactly when the file does not start with the
    lines of a report, and otherwise succeeds or writes outside its tables.
    Missing for C31: the last case is possible (see below). *)
Theorem C31_words_partial : forall b D f, line_buffer b ->
  (~ shaped word_header f /\ read_wacrpt b D f = Fail "invalid format in") \/
  (shaped word_header f /\
   ((exists D' b', read_wacrpt b D f = Ok (D', b')) \/ read_wacrpt b D f = UB "wac[index]")).
Proof.
  intros b D f B. destruct (read_wacrpt_any b D f B) as [H|[H [([D' b'] & E & _)|E]]].
  - left. exact H.
  - right. split; [exact H|]. left. eauto.
  - right. auto.
Qed.
Print Assumptions C31_words_partial.

Definition wac_header : list Z := WAC_TITLE ++ WAC_DIVIDER ++ bytes " 1" ++ nl ++ bytes " 0" ++ nl ++ nl ++ nl ++ nl ++ nl.

(** C31 refuted for a report with a row for words of 51 characters. *)
Theorem C31_word_length_refuted : exists f,
  read_wacrpt (repeat 0 100) wac_empty f = UB "wac[index]".
Proof.
  exists (wac_header ++ bytes "       1        0   100.00       51" ++ nl). vm_compute. reflexivity.
Qed.
Print Assumptions C31_word_length_refuted.

Example C31_words_nonvacuous :
  line_buffer (repeat 0 100) /\
  read_wacrpt (repeat 0 100) wac_empty (bytes "not a report" ++ nl) = Fail "invalid format in" /\
  match read_wacrpt (repeat 0 100) wac_empty
          (wac_header ++ bytes "       1        0   100.00       50" ++ nl) with
  | Ok (d, _) => wtotal d = mkwac 1 0 /\ znth (stopword d) 50 = Some (mkwac 1 0) | _ => False end.
Proof. split; [split; reflexivity|]. split; vm_compute; auto. Qed.

(** The hypotheses of C41 hold of the report of the example of C38, twice. *)
Example C41_nonvacuous :
  pct_ok sample_fmt /\ permutes_terms (@rev term) /\ line_buffer (repeat 0 100) /\
  exists d f, wordacc (fun w => streq w (bytes "the") || streq w (bytes "on")) (@rev term) example0 example1 = Ok d /\
    wreport_of sample_fmt d f /\ wsums_below 100000000 [d; d] /\ wfig (WStopword true (bytes "the")) d = 1.
Proof.
  assert (permutes_terms (@rev term)) as O by (intros l; apply Permutation_sym, Permutation_rev).
  split; [exact sample_fmt_ok|]. split; [exact O|]. split; [split; reflexivity|].
  set (stop := fun w => streq w (bytes "the") || streq w (bytes "on")).
  destruct (wordacc_ok stop (@rev term) example0 example1 O) as (marks & d & (L0 & _) & E & Fg & Ph).
  { vm_compute. discriminate. }
  { intros w W. repeat (destruct W as [<- |W]; [vm_compute; split; discriminate|]). destruct W. }
  destruct (wordacc_reportable stop example0 marks d L0) as [R Bl]; [|exact Fg|exact Ph|].
  { intros w W. repeat (destruct W as [<- |W];
      [split; [vm_compute; intuition discriminate|]; split; [repeat constructor|vm_compute; discriminate]|]). destruct W. }
  destruct (write_wacrpt_text sample_fmt (@rev term) d R O) as (sa & na & _ & _ & Ew & _).
  assert (zlen example0 = 6) as L6 by reflexivity.
  exists d, (report_wtext sample_fmt d sa na). split; [exact E|]. split; [|split].
  - split; [exact R|]. split; [intros x; specialize (Bl x); lia|]. exists (@rev term). auto.
  - intros x. specialize (Bl x). cbn [map]. rewrite !zsum_cons. change (zsum []) with 0. lia.
  - assert (wordacc stop (@rev term) example0 example1 = Ok d) as E' by exact E. revert E'. vm_compute. intros [= <-]. reflexivity.
Qed.
