(** C97: the programs agree about what a file contains. *)
From Coq Require Import String Permutation Sorted.
From Verif Require Import Base CLib AccSpec SumProof Utf8Model TextModel TextSpec TextProps CompareModel SyncModel SyncSpec EditProof TraceProps TransProps
  AccModel AccProof AccCount AccTop AccProps LcsSpec WacModel WacSpec WacProof WacProps StopModel FreqModel FreqSpec FreqProps NgramModel NgramSpec NgramProps
  EdoModel EdoSpec EditopModel EditopSpec EditopProof EditopProps MetricSpec EditBagProps CompareProof AccrptSpec AgreeSpec.
Local Open Scope Z_scope.
Local Open Scope list_scope.

(** ** Characters *)
Lemma sequences_one t : sequences 1 t = map (fun c => [c]) t.
Proof.
  unfold sequences. replace (List.length t + 1 - 1)%nat with (List.length t) by lia.
  induction t as [|c t IH]; [reflexivity|]. cbn [List.length seq map]. f_equal. rewrite <- seq_shift, map_map. exact IH.
Qed.

Lemma count_one (p : list char -> bool) t : count_if p (map (fun c => [c]) t) = num (fun c => p [c]) t.
Proof. unfold count_if, num. induction t as [|c t IH]; [reflexivity|]. cbn [map filter]. destruct (p [c]); rewrite ?zlen_cons, IH; reflexivity. Qed.

Lemma occurs_one v c : occurs_as [v] [c] = (value c =? v).
Proof. unfold occurs_as, word_eqb. cbn [map]. destruct (list_eq_dec Z.eq_dec [v] [value c]) as [E|E], (Z.eqb_spec (value c) v); congruence. Qed.

Lemma num_ext p q (t : list char) : (forall c, p c = q c) -> num p t = num q t.
Proof. intros H. unfold num. f_equal. apply filter_ext. exact H. Qed.

Lemma word_eqb_true a b : word_eqb a b = true <-> a = b.
Proof. unfold word_eqb. destruct (list_eq_dec Z.eq_dec a b); split; congruence. Qed.

Lemma listed_figures t rows v : lists_sequences (sequences 1 t) rows ->
  listed rows v = (num (fun c => value c =? v) t, num (fun c => (value c =? v) && suspect c) t).
Proof.
  intros L. rewrite sequences_one in L. unfold listed.
  assert (Ec : count_of [v] (map (fun c => [c]) t) = num (fun c => value c =? v) t).
  { unfold count_of. rewrite count_one. apply num_ext. intros c. apply occurs_one. }
  assert (Es : suspects_of [v] (map (fun c => [c]) t) = num (fun c => (value c =? v) && suspect c) t).
  { unfold suspects_of. rewrite count_one. apply num_ext. intros c. rewrite occurs_one. cbn [existsb]. now rewrite orb_false_r. }
  destruct (find _ rows) as [[vs [c s]]|] eqn:E.
  - apply find_some in E as [I E]. cbn [fst] in E. apply word_eqb_true in E. subst vs. cbn [snd].
    destruct (ls_figures _ _ L _ _ _ I) as [-> ->]. now rewrite Ec, Es.
  - assert (Z0 : forall c, In c t -> (value c =? v) = false).
    { intros c Hc. destruct (Z.eqb_spec (value c) v) as [Ev|]; [exfalso|reflexivity].
      assert (I : In [v] (map fst rows)) by (apply (ls_values _ _ L); exists [c]; split; [now apply (in_map (fun c => [c]))|cbn [map]; congruence]).
      apply in_map_iff in I as (r & Er & I). pose proof (find_none _ _ E r I) as F. cbv beta in F. rewrite Er in F.
      assert (word_eqb [v] [v] = true) by now apply word_eqb_true. congruence. }
    assert (Zf : forall p, (forall c, In c t -> p c = false) -> num p t = 0).
    { intros p Hp. unfold num. clear - Hp. induction t as [|c t IH]; [reflexivity|]. cbn [filter]. rewrite (Hp c (or_introl eq_refl)). apply IH. intros; apply Hp; now right. }
    rewrite !Zf; [reflexivity| |exact Z0]. intros c Hc. now rewrite (Z0 c Hc).
Qed.

Lemma ngram_one uc order j j4 f t b : marks_wide uc -> nul_hidden uc -> (forall l, Permutation l (order l)) ->
  read_text uc j j4 (mkopt true true 0 true false) [] f = Ok (t, b) -> text_ok t -> zlen t < 2147483648 ->
  exists rows rest, ngram uc order j j4 None [f] = Ok (ngram_listing uc rows (zlen t) (num suspect t) ++ rest) /\
    forall v, listed rows v = (num (fun c => value c =? v) t, num (fun c => (value c =? v) && suspect c) t).
Proof.
  intros W N P R T L.
  destruct (C50_report uc order j j4 None 1 [f] [t] W N P eq_refl) as (out & E & rows & rows2 & L1 & _ & _ & _ & Eo).
  - intros H; discriminate H.
  - constructor; [|constructor]. split; [exists b; exact R|exact T].
  - cbn [flat_map]. rewrite app_nil_r. change (Z.to_nat 1) with 1%nat. rewrite sequences_one. unfold zlen in *. now rewrite map_length.
  - cbn [flat_map] in *. rewrite app_nil_r in *. change (Z.to_nat 1) with 1%nat in *.
    assert (F : zlen (sequences 1 t) = zlen t) by (rewrite sequences_one; unfold zlen; now rewrite map_length).
    assert (M : count_if (existsb suspect) (sequences 1 t) = num suspect t).
    { rewrite sequences_one, count_one. apply num_ext. intros c. cbn [existsb]. apply orb_false_r. }
    exists rows, ([10; 10] ++ seq_listing uc (sequences 1 t) rows2). split; [|intros v; now apply listed_figures].
    rewrite E, Eo. unfold ngram_listing, seq_listing at 1. rewrite F, M. now rewrite <- !app_assoc.
Qed.

Lemma plain_value_eq v c : v <> 126 -> plain_value v c = (value c =? v).
Proof.
  intros H. unfold plain_value, AccSpec.plain, is_tilde. destruct (Z.eqb_spec (value c) v) as [E|E]; [|apply andb_false_r].
  destruct (Z.eqb_spec (value c) 126) as [E'|]; [exfalso; congruence|reflexivity].
Qed.

(** C97: accuracy's figures are those of the listings that ngram makes of the correct file
    (rows [rows0], total [n0]) and of the generated file ([rows1], [n1], [m1] marked). *)
Theorem C97_characters : forall uc order j j4 f0 f1 t0 t1 b0 b1,
  inputs_ok uc t0 t1 -> marks_wide uc -> (forall l, Permutation l (order l)) ->
  read_text uc j j4 (mkopt true true 0 true false) [] f0 = Ok (t0, b0) ->
  read_text uc j j4 (mkopt true true 0 true false) [] f1 = Ok (t1, b1) ->
  zlen t0 < 2147483648 -> zlen t1 < 2147483648 ->
  exists d rows0 n0 m0 rest0 rows1 n1 m1 rest1,
    accuracy_data uc t0 t1 = Ok d /\
    ngram uc order j j4 None [f0] = Ok (ngram_listing uc rows0 n0 m0 ++ rest0) /\
    ngram uc order j j4 None [f1] = Ok (ngram_listing uc rows1 n1 m1 ++ rest1) /\
    characters d = n0 - fst (listed rows0 126) /\
    (forall v, v <> 126 -> ccount (small d v) = fst (listed rows0 v)) /\
    rejects d = fst (listed rows1 126) /\
    suspects d = m1 - snd (listed rows1 126).
Proof.
  intros uc order j j4 f0 f1 t0 t1 b0 b1 I W P R0 R1 L0 L1. pose proof I as (N & T0 & T1 & _).
  destruct (C25_figures uc t0 t1 I) as (d & Ed & Ch & _).
  destruct (C26_character_table uc t0 t1 d I Ed) as (l & _ & Tb). destruct (C27_marks uc t0 t1 d I Ed) as (l2 & _ & Rj & Su & _).
  destruct (ngram_one uc order j j4 f0 t0 b0 W N P R0 T0 L0) as (rows0 & rest0 & G0 & H0).
  destruct (ngram_one uc order j j4 f1 t1 b1 W N P R1 T1 L1) as (rows1 & rest1 & G1 & H1).
  exists d, rows0, (zlen t0), (num suspect t0), rest0, rows1, (zlen t1), (num suspect t1), rest1.
  split; [exact Ed|]. split; [exact G0|]. split; [exact G1|]. rewrite H0, !H1. cbn [fst snd].
  split; [rewrite Ch; pose proof (num_split t0) as S; change (num (fun c => value c =? 126) t0) with (num is_tilde t0); lia|].
  split; [intros v Hv; rewrite (proj1 (Tb v)), H0; cbn [fst]; apply num_ext; intros c; apply plain_value_eq, Hv|].
  split; [exact Rj|]. rewrite Su. clear. induction t1 as [|c t IH]; [reflexivity|]. rewrite !num_cons, IH. unfold plain_suspect, AccSpec.plain, is_tilde. destruct (value c =? 126), (suspect c); cbn [negb andb]; lia.
Qed.
Print Assumptions C97_characters.

(** ** Words *)
Lemma of_word_count w words (marks : list bool) : List.length marks = List.length words -> wcount (of_word w words marks) = occurrences w words.
Proof.
  unfold of_word, tally, occurrences. cbn [wcount]. revert marks. induction words as [|x words IH]; intros [|m marks] L; try discriminate L; [reflexivity|].
  injection L as L. cbn [combine]. unfold count_if in *. cbn [filter fst]. destruct (word_eqb w x); rewrite ?zlen_cons, IH by exact L; reflexivity.
Qed.

(** C97: the rows of the first listing of wordfreq are the words of wordacc's two tables, with
    the same counts; the totals agree, and so does the number of different words. *)
Theorem C97_words : forall order uc NFC j j4 f0 w0 w1 is_stopword order',
  (forall l, Permutation l (order l)) -> (forall l, Permutation (order' l) l) ->
  words_in uc NFC j j4 (mkopt true true 0 true true) f0 = Ok w0 ->
  Forall bytes_ok w0 -> zlen w0 < 2147483648 -> zlen (shared w0 w1) <= 65535 ->
  (forall w, In w w0 -> 1 <= zlen w <= MAX_WORDLENGTH) ->
  exists d rows rest,
    wordacc is_stopword order' w0 w1 = Ok d /\
    wordfreq order uc NFC j j4 [f0] = Ok (listing rows (wcount (wtotal d)) ++ rest) /\
    NoDup (map fst rows) /\
    (forall w c, In (w, c) rows <-> exists t, In t (stop_terms d ++ non_terms d) /\ tkey t = w /\ wcount (twac t) = c) /\
    exists x, znth (distinct d) 0 = Some x /\ wcount x = zlen (filter (fun r => negb (is_stopword (fst r))) rows).
Proof.
  intros order uc NFC j j4 f0 w0 w1 st order' P P' R B L S Hw.
  destruct (C38_figures st order' w0 w1 P' S Hw) as (marks & d & (Lm & _) & Ed & F).
  destruct (C51_report order uc NFC j j4 [f0] [w0] P) as (out & E & rows & rows2 & L1 & _ & _ & _ & Eo).
  { intros H; discriminate H. } { constructor; [exact R|constructor]. } { constructor; [exact B|constructor]. } { cbn [concat]. now rewrite app_nil_r. }
  cbn [concat] in *. rewrite app_nil_r in *. destruct F.
  exists d, rows, ([10; 10] ++ listing rows2 (zlen w0)). split; [exact Ed|]. split; [rewrite E, Eo, fg_words; reflexivity|].
  split; [exact (lw_once _ _ L1)|]. split.
  - intros w c. split.
    + intros I. pose proof (lw_counts _ _ L1 w c I) as Ec. assert (Iw : In w w0) by (apply (lw_words _ _ L1); apply (in_map fst) in I; exact I).
      assert (exists t, In t (stop_terms d ++ non_terms d) /\ tkey t = w /\ twac t = of_word w w0 marks) as (t & It & Et & Ew).
      { destruct (st w) eqn:Es.
        - destruct fg_stop. assert (H : In w (map tkey (stop_terms d))) by (apply cf_words; auto). apply in_map_iff in H as (t & Et & It).
          exists t. split; [apply in_or_app; now left|]. split; [exact Et|]. rewrite <- Et. now apply cf_terms.
        - destruct fg_non. assert (H : In w (map tkey (non_terms d))) by (apply cf_words; rewrite Es; auto). apply in_map_iff in H as (t & Et & It).
          exists t. split; [apply in_or_app; now right|]. split; [exact Et|]. rewrite <- Et. now apply cf_terms. }
      exists t. split; [exact It|]. split; [exact Et|]. rewrite Ew, Ec. now apply of_word_count.
    + intros (t & It & Et & Ec).
      assert (In w w0 /\ twac t = of_word w w0 marks) as [Iw Ew].
      { apply in_app_or in It as [It|It]; [destruct fg_stop|destruct fg_non]; (split; [|rewrite <- Et; now apply cf_terms]);
          (assert (H : In w (map tkey (stop_terms d)) \/ In w (map tkey (non_terms d))) by (rewrite <- Et; first [left; now apply in_map|right; now apply in_map]));
          rewrite <- Et; apply (fun H => proj1 (proj1 (cf_words (tkey t)) H)); now apply in_map. }
      apply (lw_words _ _ L1) in Iw. apply in_map_iff in Iw as ((w', c') & Ef & I). cbn [fst] in Ef. subst w'.
      pose proof (lw_counts _ _ L1 w c' I) as Ec'. rewrite Ew, (of_word_count w w0 marks Lm) in Ec. congruence.
  - eexists. split; [exact fg_distinct|]. unfold tally_distinct. cbn [wcount].
    assert (Pm : Permutation (distinct_words w0) (map fst rows)).
    { apply NoDup_Permutation; [apply NoDup_nodup|exact (lw_once _ _ L1)|]. intros w. unfold distinct_words. rewrite nodup_In. symmetry. apply (lw_words _ _ L1). }
    assert (Q : forall (p : list Z -> bool) a b, Permutation a b -> zlen (filter p a) = zlen (filter p b)).
    { intros p a b H. induction H as [|x a b H IH|x y a|a b c H1 IH1 H2 IH2]; cbn [filter]; [reflexivity| | |congruence].
      - destruct (p x); rewrite ?zlen_cons; lia.
      - destruct (p x), (p y); rewrite ?zlen_cons; lia. }
    rewrite (Q _ _ _ Pm). clear. induction rows as [|r rows IH]; [reflexivity|]. cbn [map filter]. destruct (st (fst r)); cbn [negb]; rewrite ?zlen_cons, IH; reflexivity.
Qed.
Print Assumptions C97_words.

(** ** Insertions and deletions *)
Lemma editop_balance t1 t2 : exists d, edit_operations t1 t2 = Ok d /\
  insertions d - deletions d = zlen (filter (fun c => negb (c =? tilde)) t1) - zlen t2.
Proof.
  destruct (C23_transpose t1 t2) as (l1 & l2 & E & _). destruct (C43_counts t1 t2 l1 l2 E) as (d & Ed & Ei & Ex). exists d. split; [exact Ed|].
  destruct (bags t1 t2 l1 l2 E) as (_ & Bt & _).
  destruct (edit_operations_ok t1 t2 l1 l2 E) as (d' & ls & _ & _ & _ & _ & Mv & _ & _ & _ & C1 & C2 & _).
  pose proof (moved_perm _ _ _ _ Mv) as Pm.
  pose proof (parts_perm t1 l1) as P1. pose proof (parts_perm t2 l2) as P2.
  rewrite (chain_pieces t1 l1 0 ltac:(lia) C1) in P1. rewrite (chain_pieces t2 l2 0 ltac:(lia) C2) in P2. cbn [Z.to_nat skipn] in P1, P2.
  set (p := fun c => negb (c =? tilde)) in *.
  assert (Len : forall a b : list Z, Permutation a b -> zlen a = zlen b) by (intros a b H; unfold zlen; now rewrite (Permutation_length H)).
  assert (Q : forall a b, Permutation a b -> zlen (filter p a) = zlen (filter p b)).
  { intros a b H. induction H as [|x a b H IH|x y a|a b c H1 IH1 H2 IH2]; cbn [filter]; [reflexivity| | |congruence].
    - destruct (p x); rewrite ?zlen_cons; lia.
    - destruct (p x), (p y); rewrite ?zlen_cons; lia. }
  assert (Sp : forall a, zlen a = zlen (filter p a) + times tilde a).
  { unfold times, p. induction a as [|x a IH]; [reflexivity|]. cbn [filter]. rewrite (Z.eqb_sym x tilde). destruct (tilde =? x); cbn [negb]; rewrite ?zlen_cons; lia. }
  pose proof (Q _ _ P1) as Q1. rewrite filter_app, zlen_app in Q1. pose proof (Len _ _ P2) as Q2. rewrite zlen_app in Q2.
  pose proof (times_perm tilde _ _ P2) as Q3. rewrite times_app in Q3. pose proof (Sp (matched_part t2 l2)). pose proof (Q _ _ Pm). lia.
Qed.

(** C97: what accuracy inserts more than it deletes, editop inserts more than it deletes: it
    is by how much the correct text (without '~') is longer. *)
Theorem C97_balance : forall uc t0 t1, inputs_ok uc t0 t1 -> no_reject t0 ->
  exists d e, accuracy_data uc t0 t1 = Ok d /\ edit_operations (map value t0) (map value t1) = Ok e /\
    ins (total_ops d) - del (total_ops d) = zlen t0 - zlen t1 /\
    insertions e - deletions e = zlen t0 - zlen t1.
Proof.
  intros uc t0 t1 I Nt. destruct (editop_balance (map value t0) (map value t1)) as (e & Ee & Be).
  destruct I as (N & T0 & T1 & Tab & L).
  destruct (accuracy_counted uc t0 t1 N T0 T1 Tab L) as (l & d & E & Ed & C & F & P0 & P1 & G & D).
  exists d, e. split; [exact Ed|]. split; [exact Ee|]. split.
  - rewrite (cn_total _ _ _ _ _ C). unfold ops_sum. cbn [ins del]. clear Be.
    apply no_tilde in Nt. rewrite <- P0, num_flat_map in Nt.
    assert (Z0 : forall it, In it l -> num is_tilde (correct t0 it) = 0).
    { intros it Hit. apply (zsum_map_zero_inv (fun it => num is_tilde (correct t0 it)) l); auto. intros; apply num_nonneg. }
    assert (Gd : forall it, In it l -> is_match it = true -> zlen (correct t0 it) = zlen (generated t1 it)).
    { intros it Hit M. unfold matches_genuine in G. rewrite Forall_forall in G, F.
      destruct (genuine_parts t0 t1 it (F it Hit) (G it Hit M)) as [Eq _].
      apply (f_equal zlen) in Eq. unfold zlen in *. now rewrite !map_length in Eq. }
    assert (Len : forall (f : item -> list char), zlen (flat_map f l) = zsum (map (fun it => zlen (f it)) l)).
    { intros f. clear. induction l as [|it l IH]; [reflexivity|]. cbn [flat_map map]. now rewrite zlen_app, zsum_cons, IH. }
    pose proof (Len (correct t0)) as L0. pose proof (Len (generated t1)) as L1. rewrite P0 in L0. rewrite P1 in L1. rewrite L0, L1.
    clear - Z0 Gd. unfold unmatched_items. induction l as [|it l IH]; [reflexivity|].
    specialize (IH (fun x H => Z0 x (or_intror H)) (fun x H => Gd x (or_intror H))).
    cbn [filter map]. pose proof (Z0 it (or_introl eq_refl)) as Zi. pose proof (Gd it (or_introl eq_refl)) as Gi.
    destruct (is_match it); cbn [negb map]; rewrite !zsum_cons; [specialize (Gi eq_refl); lia|].
    assert (ins (group_ops t0 t1 it) - del (group_ops t0 t1 it) = zlen (correct t0 it) - zlen (generated t1 it)); [|lia].
    unfold group_ops. cbn [ins del]. unfold group_chars, group_gen. pose proof (num_split (correct t0 it)). pose proof (zlen_nonneg (generated t1 it)). lia.
  - rewrite Be. assert (M : forall t : list char, zlen (map value t) = zlen t) by (intros t; unfold zlen; now rewrite map_length). rewrite M.
    assert (Ft : filter (fun c => negb (c =? tilde)) (map value t0) = map value t0); [|rewrite Ft, M; reflexivity].
    revert Nt. unfold no_reject. generalize (map value t0) as vs. clear. induction vs as [|v vs IH]; intros H; [reflexivity|]. cbn [filter].
    destruct (Z.eqb_spec v tilde) as [Ev|_]; [exfalso; apply H; left; exact Ev|]. cbn [negb]. f_equal. apply IH. intros H'. apply H. now right.
Qed.
Print Assumptions C97_balance.

(** A case: "ab~a" read as "a^b^~". *)
Definition agree_uc : unicode_data :=
  mkuc (fun c => if c <? 32 then CC else if c =? 32 then ZS else LL) (fun c => if (65 <=? c) && (c <=? 90) then c + 32 else c).
Definition agree_correct : list char := map (mkchar false) (bytes "ab~a").
Definition agree_generated : list char := [mkchar false 97; mkchar true 98; mkchar true 126].

Example C97_ex :
  inputs_ok agree_uc agree_correct agree_generated /\ marks_wide agree_uc /\
  read_text agree_uc (repeat 0 100) [0; 0; 0; 0] (mkopt true true 0 true false) [] (bytes "ab~a") = Ok (agree_correct, false) /\
  read_text agree_uc (repeat 0 100) [0; 0; 0; 0] (mkopt true true 0 true false) [] (bytes "a^b^~") = Ok (agree_generated, false) /\
  (exists rest, ngram agree_uc (fun l => rev l) (repeat 0 100) [0; 0; 0; 0] None [bytes "a^b^~"] =
     Ok (ngram_listing agree_uc [([97], (1, 0)); ([98], (1, 1)); ([126], (1, 1))] 3 2 ++ rest)) /\
  match accuracy_data agree_uc agree_correct agree_generated with
  | Ok d => characters d = 3 /\ rejects d = 1 /\ suspects d = 1 /\ ccount (small d 97) = 2
  | _ => False
  end /\
  words_in agree_uc (fun s => s) (repeat 0 100) [0; 0; 0; 0] (mkopt true true 0 true true) (bytes "The cat the hat") =
    Ok [bytes "the"; bytes "cat"; bytes "the"; bytes "hat"] /\
  match wordacc (fun w => word_eqb w (bytes "the")) (fun l => l) [bytes "the"; bytes "cat"; bytes "the"; bytes "hat"] [bytes "the"; bytes "bat"] with
  | Ok d => wcount (wtotal d) = 4 /\ map (fun t => (tkey t, wcount (twac t))) (stop_terms d) = [(bytes "the", 2)]
  | _ => False
  end.
Proof.
  split; [|split; [|split; [|split; [|split; [|split; [|split]]]]]].
  - repeat apply conj; [reflexivity| | | |vm_compute; discriminate]; unfold text_ok, tabulable, scalar; rewrite ?Forall_forall; intros c Hc; vm_compute in Hc; intuition (subst; cbn [value] in *; lia).
  - intros v _. unfold is_combining, agree_uc. cbn [cat]. destruct (v <? 32); [reflexivity|]. now destruct (v =? 32).
  - vm_compute. reflexivity.
  - vm_compute. reflexivity.
  - exists ([10; 10] ++ ngram_listing agree_uc [([98], (1, 1)); ([126], (1, 1)); ([97], (1, 0))] 3 2). vm_compute. reflexivity.
  - vm_compute. repeat split.
  - vm_compute. reflexivity.
  - vm_compute. repeat split.
Qed.
