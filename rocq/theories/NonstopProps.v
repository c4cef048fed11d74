(** C54: accuracy of the words left when stopwords are removed. *)
From Coq Require Import String Permutation.
From Verif Require Import Base CLib CLibProof SumProof Utf8Model TextIO TextModel WordModel StopModel AccSpec ReportModel ReportSpec
  ReportProof AccrptSpec WacrptModel WacrptSpec WacrptProof WacrptTop TextProps NonstopModel WacModel.
Local Open Scope Z_scope.
Local Open Scope list_scope.

(** Specification: the occurrences (misses) of a word in the report, and those left of the
    total when each of the first i words has been subtracted. *)
Definition of_word (missed : bool) (d : wacdata) (w : list Z) : Z :=
  wfig (WStopword missed w) d + wfig (WNonStopword missed w) d.
Definition left_after (missed : bool) (d : wacdata) (ws : list (list Z)) (i : nat) : Z :=
  wfig (WWords missed) d - zsum (map (of_word missed d) (firstn i ws)).
(** Line i: its number, and the percentage of the words left that are not missed. *)
Definition curve_line (fmt6 : Z -> Z -> list Z) (d : wacdata) (ws : list (list Z)) (i : nat) : list Z :=
  pad 32 3 (dec (Z.of_nat i)) ++ bytes " " ++
  fmt6 (left_after false d ws i - left_after true d ws i) (left_after false d ws i) ++ [10].
(** The lines up to the first i at which no word is left, or one for each word. *)
Definition is_curve (fmt6 : Z -> Z -> list Z) (d : wacdata) (ws : list (list Z)) (out : list Z) : Prop :=
  exists k : nat, out = List.concat (map (curve_line fmt6 d ws) (seq 0 k)) /\
    (forall i, (i < k)%nat -> left_after false d ws i <> 0) /\
    (k <= List.length ws + 1)%nat /\ (k = (List.length ws + 1)%nat \/ left_after false d ws k = 0).

(** The words of the report that are not among the first i stopwords. *)
Definition not_among (ws : list (list Z)) (i : nat) (t : term) : bool :=
  if in_dec (list_eq_dec Z.eq_dec) (tkey t) (firstn i ws) then false else true.
Definition words_left (missed : bool) (d : wacdata) (ws : list (list Z)) (i : nat) : Z :=
  zsum (map (fun t => wcell missed (twac t)) (filter (not_among ws i) (stop_terms d ++ non_terms d))).

Lemma word_fig_absent m l k : ~ In k (map tkey l) -> word_fig m l k = 0.
Proof.
  unfold word_fig. induction l as [|t l IH]; intros H; [reflexivity|]. cbn [map] in *. rewrite zsum_cons.
  destruct (list_eq_dec Z.eq_dec (tkey t) k) as [E|E]; [exfalso; apply H; left; exact E|].
  rewrite IH; [reflexivity|]. intros I. apply H. now right.
Qed.

Lemma find_fig l k : NoDup (map tkey l) -> forall cm,
  find_stopword l k cm = (fst cm - word_fig false l k, snd cm - word_fig true l k).
Proof.
  intros N cm. unfold find_stopword. induction l as [|t l IH]; cbn [find].
  - unfold word_fig. cbn [map]. change (zsum []) with 0. destruct cm; cbn [fst snd]. f_equal; lia.
  - cbn [map] in N. inversion N as [|? ? N1 N2]; subst. unfold word_fig. cbn [map]. rewrite !zsum_cons.
    fold (word_fig false l k) (word_fig true l k). destruct (streq (tkey t) k) eqn:E.
    + apply streq_spec in E. destruct (list_eq_dec Z.eq_dec (tkey t) k) as [_|X]; [|contradiction].
      rewrite <- E, !word_fig_absent by exact N1. cbn [wcell]. f_equal; lia.
    + destruct (list_eq_dec Z.eq_dec (tkey t) k) as [X|_]; [apply streq_spec in X; congruence|].
      rewrite (IH N2). f_equal; lia.
Qed.

Lemma left_next m d ws i w : nth_error ws i = Some w ->
  left_after m d ws (Datatypes.S i) = left_after m d ws i - of_word m d w.
Proof.
  unfold left_after. revert i. induction ws as [|x ws IH]; intros [|i] H; try discriminate H.
  - injection H as ->. cbn [firstn map]. rewrite zsum_cons. change (zsum []) with 0. lia.
  - cbn [nth_error] in H. specialize (IH i H). change (firstn (Datatypes.S (Datatypes.S i)) (x :: ws)) with (x :: firstn (Datatypes.S i) ws).
    change (firstn (Datatypes.S i) (x :: ws)) with (x :: firstn i ws). cbn [map]. rewrite !zsum_cons. lia.
Qed.

Lemma write_words_ok fmt6 d ws : NoDup (map tkey (stop_terms d)) -> NoDup (map tkey (non_terms d)) ->
  forall rest i, skipn i ws = rest -> (i <= List.length ws)%nat ->
  exists n : nat, write_words fmt6 d rest (Z.of_nat i + 1) (left_after false d ws i, left_after true d ws i) =
      List.concat (map (curve_line fmt6 d ws) (seq (i + 1) n)) /\
    (forall j, (i < j < i + 1 + n)%nat -> left_after false d ws j <> 0) /\
    (i + n <= List.length ws)%nat /\
    ((i + 1 + n = List.length ws + 1)%nat \/ left_after false d ws (i + 1 + n) = 0).
Proof.
  intros N1 N2. induction rest as [|w rest IH]; intros i E L.
  - exists 0%nat. split; [reflexivity|]. split; [intros; lia|]. split; [lia|]. left.
    assert (List.length (skipn i ws) = 0)%nat as X by (rewrite E; reflexivity). rewrite skipn_length in X. lia.
  - assert (nth_error ws i = Some w) as Hn.
    { rewrite <- (Nat.add_0_r i). rewrite <- (firstn_skipn i ws) at 1. rewrite nth_error_app2; rewrite firstn_length; [|lia].
      replace (i + 0 - Nat.min i (List.length ws))%nat with 0%nat by lia. rewrite E. reflexivity. }
    assert (skipn (Datatypes.S i) ws = rest) as E'.
    { clear - E. revert i E. induction ws as [|x ws IH]; intros [|i] E; try discriminate E.
      - cbn in *. congruence.
      - cbn [skipn] in *. now apply IH. }
    assert (i < List.length ws)%nat as L' by (apply nth_error_Some; congruence).
    cbn [write_words]. rewrite !find_fig by assumption. cbn [fst snd].
    assert (forall m, left_after m d ws i - word_fig m (stop_terms d) w - word_fig m (non_terms d) w = left_after m d ws (Datatypes.S i)) as X.
    { intros m. rewrite (left_next m d ws i w Hn). unfold of_word. cbn [wfig]. lia. }
    rewrite !X. destruct (Z.eqb_spec (left_after false d ws (Datatypes.S i)) 0) as [Z0|Z0].
    + exists 0%nat. split; [reflexivity|]. split; [intros; lia|]. split; [lia|]. right.
      now replace (i + 1 + 0)%nat with (Datatypes.S i) by lia.
    + destruct (IH (Datatypes.S i) E' ltac:(lia)) as (n & En & Hj & Hl & Hk).
      exists (Datatypes.S n). cbn [seq map List.concat].
      replace (Z.of_nat i + 1) with (Z.of_nat (Datatypes.S i)) by lia. rewrite En.
      replace (Datatypes.S i + 1)%nat with (Datatypes.S (i + 1)) by lia. replace (i + 1)%nat with (Datatypes.S i) by lia.
      split; [reflexivity|]. split; [|split; [lia|]].
      * intros j Hij. destruct (Nat.eq_dec j (Datatypes.S i)) as [->|Ne]; [exact Z0|]. apply Hj. lia.
      * now replace (Datatypes.S i + Datatypes.S n)%nat with (Datatypes.S i + 1 + n)%nat by lia.
Qed.

(** C54: what is written is the curve. *)
Lemma curve_ok fmt6 d ws : NoDup (map tkey (stop_terms d)) -> NoDup (map tkey (non_terms d)) ->
  is_curve fmt6 d ws (write_results fmt6 d ws).
Proof.
  intros N1 N2. unfold write_results. cbn [fst]. unfold is_curve.
  assert (L0 : forall m, left_after m d ws 0 = wfig (WWords m) d).
  { intros m. unfold left_after. cbn [firstn map]. change (zsum []) with 0. lia. }
  destruct (Z.eqb_spec (wcount (wtotal d)) 0) as [Z0|Z0].
  - exists 0%nat. split; [reflexivity|]. split; [intros; lia|]. split; [lia|]. right. rewrite L0. exact Z0.
  - destruct (write_words_ok fmt6 d ws N1 N2 ws 0 eq_refl ltac:(lia)) as (n & En & Hj & Hl & Hk).
    exists (Datatypes.S n). cbn [seq map List.concat]. change (0 + 1)%nat with 1%nat in En. change (Z.of_nat 0 + 1) with 1 in En.
    rewrite !L0 in En. cbn [wfig wcell] in En. rewrite En. split.
    + f_equal. unfold write_line, curve_line. rewrite !L0. reflexivity.
    + split; [|split; [lia|exact Hk]]. intros i Hi. destruct i; [rewrite L0; exact Z0|]. apply Hj. lia.
Qed.

Lemma curve_figures fmt6 d d' ws out : wsame d d' -> is_curve fmt6 d' ws out -> is_curve fmt6 d ws out.
Proof.
  intros S. assert (L : forall m i, left_after m d' ws i = left_after m d ws i).
  { intros m i. unfold left_after, of_word. rewrite (S (WWords m)). f_equal. f_equal. apply map_ext. intros w.
    now rewrite (S (WStopword m w)), (S (WNonStopword m w)). }
  intros (k & E & A & B & C). exists k. rewrite L in C. split; [|split; [|split; [exact B|exact C]]].
  - rewrite E. f_equal. apply map_ext. intros i. unfold curve_line. now rewrite !L.
  - intros i Hi. rewrite <- L. now apply A.
Qed.

(** C54: for a file of words and a word accuracy report the program writes the curve; other
    numbers of files are an error. *)
Theorem C54_program : forall uc NFC j j4 fmt fmt6 b stopfile text found ws d report,
  pct_ok fmt -> line_buffer b -> wreport_of fmt d report ->
  read_text uc j j4 (mkopt false false 0 true true) [] stopfile = Ok (text, found) ->
  find_words uc NFC [] (map value text) = Ok ws ->
  (exists out, nonstopacc fmt6 uc NFC j j4 b [stopfile; report] = Ok out /\ is_curve fmt6 d ws out) /\
  (forall files, zlen files <> 2 -> nonstopacc fmt6 uc NFC j j4 b files = Fail "invalid number of files").
Proof.
  intros uc NFC j j4 fmt fmt6 b stopfile text found ws d report F B H Et Ew. split.
  - unfold nonstopacc, nonstop_opt. rewrite Et. cbn [obind]. rewrite Ew. cbn [obind].
    destruct (wread_one fmt F b wac_empty d report B H wac_empty_reportable) as (D & b' & E & _ & R & G).
    rewrite E. cbn [obind]. eexists. split; [reflexivity|]. apply curve_figures with D.
    + intros x. rewrite G, wac_empty_fig. lia.
    + apply curve_ok; [apply (wr_stop_terms D R)|apply (wr_non_terms D R)].
  - intros files L. destruct files as [|a [|c [|e files]]]; try reflexivity.
    exfalso. apply L. reflexivity.
Qed.
Print Assumptions C54_program.

Lemma word_fig_split m ws l : NoDup (map tkey l) -> NoDup ws ->
  zsum (map (word_fig m l) ws) =
  zsum (map (fun t => wcell m (twac t)) (filter (fun t => if in_dec (list_eq_dec Z.eq_dec) (tkey t) ws then true else false) l)).
Proof.
  intros N Nw. induction l as [|t l IH].
  - cbn [filter map]. change (word_fig m []) with (fun _ : list Z => 0). clear. induction ws as [|w ws IH]; [reflexivity|].
    cbn [map]. rewrite zsum_cons, IH. reflexivity.
  - cbn [map] in N. inversion N as [|? ? N1 N2]; subst. cbn [filter].
    assert (forall us, NoDup us -> zsum (map (word_fig m (t :: l)) us) =
      (if in_dec (list_eq_dec Z.eq_dec) (tkey t) us then wcell m (twac t) else 0) + zsum (map (word_fig m l) us)) as X.
    { clear. induction us as [|u us IH]; intros Nu; [reflexivity|]. inversion Nu as [|? ? U1 U2]; subst. cbn [map]. rewrite !zsum_cons, (IH U2).
      unfold word_fig at 1. cbn [map]. rewrite zsum_cons. fold (word_fig m l u).
      destruct (list_eq_dec Z.eq_dec (tkey t) u) as [E|E]; destruct (in_dec _ (tkey t) us) as [I|I]; destruct (in_dec _ (tkey t) (u :: us)) as [I'|I'];
        try lia; exfalso.
      - subst u. contradiction.
      - apply I'. left. congruence.
      - apply I'. now left.
      - apply I'. now right.
      - destruct I' as [I'|I']; congruence. }
    rewrite (X ws Nw), (IH N2). destruct (in_dec _ (tkey t) ws); cbn [map]; rewrite ?zsum_cons; reflexivity.
Qed.

(** C54: if no stopword is repeated, what is left after i of them are the occurrences of the
    other words (and likewise their misses, where the report's total of misses is that of its
    words, as it is in the reports of wordacc); never less than none. *)
Theorem C54_words_left_partial : forall d ws i missed,
  wreportable d -> NoDup ws ->
  (missed = true -> wfig (WWords true) d = zsum (map (fun t => wcell true (twac t)) (stop_terms d ++ non_terms d))) ->
  left_after missed d ws i = words_left missed d ws i /\ 0 <= words_left missed d ws i.
Proof.
  intros d ws i m R N Hm.
  pose proof (wr_stop_terms d R) as A. pose proof (wr_non_terms d R) as B.
  assert (T : wfig (WWords m) d = zsum (map (fun t => wcell m (twac t)) (stop_terms d ++ non_terms d))).
  { destruct m; [now apply Hm|]. cbn [wfig wcell]. rewrite (wr_sum d R), (wo_count _ _ A), (wo_count _ _ B), map_app, zsum_app. reflexivity. }
  assert (Ni : NoDup (firstn i ws)).
  { clear - N. revert i. induction N as [|w ws H N IH]; intros [|i]; cbn [firstn]; try constructor; auto.
    intros I. apply H. rewrite <- (firstn_skipn i ws). apply in_or_app. now left. }
  assert (Split : forall l, zsum (map (fun t => wcell m (twac t)) l) =
      zsum (map (fun t => wcell m (twac t)) (filter (fun t => if in_dec (list_eq_dec Z.eq_dec) (tkey t) (firstn i ws) then true else false) l)) +
      zsum (map (fun t => wcell m (twac t)) (filter (not_among ws i) l))).
  { clear. induction l as [|t l IH]; [reflexivity|]. cbn [filter map]. unfold not_among at 1.
    destruct (in_dec _ (tkey t) (firstn i ws)); cbn [map]; rewrite !zsum_cons; lia. }
  split.
  - unfold left_after, words_left. rewrite T, map_app, filter_app, map_app, !zsum_app.
    replace (zsum (map (of_word m d) (firstn i ws))) with
      (zsum (map (word_fig m (stop_terms d)) (firstn i ws)) + zsum (map (word_fig m (non_terms d)) (firstn i ws))).
    + rewrite !word_fig_split by (try exact Ni; first [apply A|apply B]).
      rewrite (Split (stop_terms d)), (Split (non_terms d)). lia.
    + clear. unfold of_word. cbn [wfig]. induction (firstn i ws) as [|w l IH]; [reflexivity|]. cbn [map]. rewrite !zsum_cons. lia.
  - unfold words_left. apply zsum_nonneg. apply Forall_forall. intros x Hx. apply in_map_iff in Hx as (t & <- & Ht).
    apply filter_In in Ht as [Ht _]. apply in_app_or in Ht.
    assert (sane (twac t)) as S.
    { destruct Ht as [Ht|Ht]; [pose proof (wo_sane _ _ A) as S|pose proof (wo_sane _ _ B) as S];
        rewrite Forall_forall in S; apply (S t Ht). }
    unfold sane in S. destruct m; cbn [wcell]; lia.
Qed.
Print Assumptions C54_words_left_partial.

(** C54 refuted for files with repeated words: their occurrences are subtracted each time.
    Here two occurrences of "b" are left after the stopwords "a" and "a", but none
    according to the subtraction, and with a third "a" there would be -2. *)
Theorem C54_repeated_refuted :
  let d := mkwacdata (mkwac 4 1) [] [] [] [] [] [mkterm (bytes "a") (mkwac 2 0); mkterm (bytes "b") (mkwac 2 1)] in
  let ws := [bytes "a"; bytes "a"] in
  words_left false d ws 2 = 2 /\ left_after false d ws 2 = 0 /\
  write_results (fun n d => pad 32 6 (dec (100 * n / d) ++ bytes ".00")) d ws =
    bytes "  0  75.00" ++ [10] ++ bytes "  1  50.00" ++ [10].
Proof. cbv zeta. split; [vm_compute; reflexivity|]. split; vm_compute; reflexivity. Qed.
Print Assumptions C54_repeated_refuted.

(** The same report with the stopwords "x", "a" and "b": the curve ends when no word is left. *)
Example C54_ex :
  let d := mkwacdata (mkwac 4 1) [] [] [] [] [mkterm (bytes "a") (mkwac 2 0)] [mkterm (bytes "b") (mkwac 2 1)] in
  is_curve (fun n d => pad 32 6 (dec (100 * n / d) ++ bytes ".00")) d [bytes "x"; bytes "a"; bytes "b"; bytes "c"]
    (bytes "  0  75.00" ++ [10] ++ bytes "  1  75.00" ++ [10] ++ bytes "  2  50.00" ++ [10]).
Proof.
  cbv zeta. exists 3%nat. split; [vm_compute; reflexivity|]. split; [|split; [cbn; lia|right; vm_compute; reflexivity]].
  intros i Hi. destruct i as [|[|[|i]]]; [vm_compute; discriminate..|lia].
Qed.

(** A file of words as the program reads it (there is a report by C41_wordacc). *)
Example C54_words_ex :
  let uc := mkuc (fun c => if (c =? 32) || (c =? 10) then ZS else LL) (fun c => if (65 <=? c) && (c <=? 90) then c + 32 else c) in
  let text := map (mkchar false) (bytes "of a" ++ [10] ++ bytes "b") in
  read_text uc [] [0; 0; 0; 0] (mkopt false false 0 true true) [] (bytes "Of  a" ++ [10] ++ bytes " b") = Ok (text, false) /\
    find_words uc (fun s => s) [] (map value text) = Ok [bytes "of"; bytes "a"; bytes "b"].
Proof. cbv zeta. split; vm_compute; reflexivity. Qed.
