(** C95: how much an error changes the frequencies of words and of sequences of characters. *)
From Coq Require Import String Permutation.
From Verif Require Import Base CLib Utf8Model TextModel TextSpec TextProps CompareModel SyncModel SyncSpec EditProof AccSpec WacSpec WordTable WordModel WordSpec
  LcsSpec LcsTop StopModel FreqModel FreqSpec FreqProps NgramModel NgramSpec NgramProps WordProps CompareProof AccSpec AccrptSpec  MetricSpec MetricProof WordErrSpec WordErrProof WordErrProps.
Local Open Scope Z_scope.
Local Open Scope list_scope.

(** ** Words *)

Lemma count_app {A} (P : A -> bool) l l' : count_if P (l ++ l') = count_if P l + count_if P l'.
Proof. unfold count_if. now rewrite filter_app, zlen_app. Qed.
Lemma count_cons {A} (P : A -> bool) x l : count_if P (x :: l) = (if P x then 1 else 0) + count_if P l.
Proof. unfold count_if. cbn [filter]. destruct (P x); [rewrite zlen_cons|]; lia. Qed.
Lemma count_nonneg {A} (P : A -> bool) l : 0 <= count_if P l.
Proof. apply zlen_nonneg. Qed.

Lemma count_subseq {A} (P : A -> bool) c l : subseq c l -> count_if P c <= count_if P l <= count_if P c + (zlen l - zlen c).
Proof.
  induction 1 as [|x c l H IH|x c l H IH]; [unfold count_if, zlen; cbn; lia| |];
    repeat rewrite count_cons; repeat rewrite zlen_cons; destruct (P x); lia.
Qed.

Lemma near_count P k wa wb : near k wa wb -> count_if P wa <= count_if P wb + k.
Proof.
  intros (c & A & B & L). pose proof (count_subseq P _ _ A). pose proof (count_subseq P _ _ B). lia.
Qed.

(** ** Sequences of characters *)

Section Grams.
Variable N : nat.
Hypothesis N1 : (1 <= N)%nat.
Variable P : list Z -> bool.

Definition grams (l : list Z) : list (list Z) := map (fun i => firstn N (skipn i l)) (seq 0 (List.length l + 1 - N)).
Definition cnt (l : list Z) : Z := count_if P (grams l).

Lemma cnt_nil : cnt [] = 0.
Proof. unfold cnt, grams. cbn [List.length]. replace (0 + 1 - N)%nat with 0%nat by lia. reflexivity. Qed.

Lemma cnt_cons c t : cnt (c :: t) = (if (N <=? S (List.length t))%nat then if P (firstn N (c :: t)) then 1 else 0 else 0) + cnt t.
Proof.
  unfold cnt, grams. cbn [List.length]. destruct (Nat.leb_spec N (S (List.length t))).
  - replace (S (List.length t) + 1 - N)%nat with (S (List.length t + 1 - N)) by lia. cbn [seq map]. rewrite count_cons.
    f_equal. rewrite <- seq_shift, map_map. reflexivity.
  - replace (S (List.length t) + 1 - N)%nat with 0%nat by lia. replace (List.length t + 1 - N)%nat with 0%nat by lia. reflexivity.
Qed.

Lemma cnt_short t : (List.length t < N)%nat -> cnt t = 0.
Proof. intros L. unfold cnt, grams. replace (List.length t + 1 - N)%nat with 0%nat by lia. reflexivity. Qed.

Lemma cnt_app u v : cnt u + cnt v <= cnt (u ++ v) <= cnt u + cnt v + Z.of_nat (Nat.min (N - 1) (List.length u)).
Proof.
  induction u as [|c u IH]; [rewrite cnt_nil; cbn [app]; lia|]. cbn [app]. rewrite !cnt_cons.
  destruct (Nat.leb_spec N (S (List.length u))) as [L|L].
  - assert (E : firstn N (c :: u ++ v) = firstn N (c :: u)).
    { change (c :: u ++ v) with ((c :: u) ++ v). rewrite firstn_app. cbn [List.length]. replace (N - S (List.length u))%nat with 0%nat by lia.
      cbn [firstn]. apply app_nil_r. }
    rewrite E, app_length. destruct (Nat.leb_spec N (S (List.length u + List.length v))); [|lia]. cbn [List.length]. lia.
  - rewrite (cnt_short u) in * by lia. destruct (_ <=? _)%nat; [destruct (P _)|]; cbn [List.length]; lia.
Qed.

Lemma cnt_one u x v : (List.length x <= 1)%nat -> cnt u + cnt v <= cnt (u ++ x ++ v) <= cnt u + cnt v + Z.of_nat N.
Proof.
  intros L. pose proof (cnt_app u (x ++ v)). destruct x as [|c [|]]; [cbn [app] in *; lia| |cbn in L; lia].
  cbn [app] in *. rewrite cnt_cons in H. destruct (_ <=? _)%nat; [destruct (P _)|]; lia.
Qed.

Lemma cnt_steps a b n : steps a b n -> forall u, Z.abs (cnt (u ++ a) - cnt (u ++ b)) <= Z.of_nat N * n.
Proof.
  induction 1 as [|x a b c S IH|x y a b c S IH|x a b c S IH|y a b c S IH]; intros u.
  - lia.
  - specialize (IH (u ++ [x])). rewrite <- !app_assoc in IH. exact IH.
  - specialize (IH (u ++ [y])). rewrite <- !app_assoc in IH. cbn [app] in IH.
    pose proof (cnt_one u [x] a ltac:(cbn; lia)). pose proof (cnt_one u [y] a ltac:(cbn; lia)). cbn [app] in *. lia.
  - specialize (IH u). pose proof (cnt_one u [x] a ltac:(cbn; lia)). pose proof (cnt_one u [] a ltac:(cbn; lia)). cbn [app] in *. lia.
  - specialize (IH (u ++ [y])). rewrite <- !app_assoc in IH. cbn [app] in IH.
    pose proof (cnt_one u [] a ltac:(cbn; lia)). pose proof (cnt_one u [y] a ltac:(cbn; lia)). cbn [app] in *. lia.
Qed.
End Grams.

Lemma count_map {A B} (f : A -> B) (P : B -> bool) l : count_if (fun x => P (f x)) l = count_if P (map f l).
Proof. induction l as [|x l IH]; [reflexivity|]. cbn [map]. rewrite !count_cons, IH. reflexivity. Qed.

Lemma sequences_grams N t : map (map value) (sequences N t) = grams N (map value t).
Proof.
  unfold sequences, grams. rewrite map_map, map_length. apply map_ext. intros i. now rewrite skipn_map, firstn_map.
Qed.

(** C95: whatever set of words is considered, [n] errors in a text change the number of their occurrences by at
    most 3 [n]. *)
Theorem C95_words : forall uc NFC a b n wa wb, separators uc -> Forall scalar a -> Forall scalar b -> edits a b n ->
  find_words uc NFC [] a = Ok wa -> find_words uc NFC [] b = Ok wb ->
  forall among, Z.abs (count_if among wa - count_if among wb) <= 3 * n.
Proof.
  intros uc NFC a b n wa wb S Sa Sb E Fa Fb P.
  assert (Q : forall t, Forall scalar t -> points (map (fun c => c) t)) by (intros t T; rewrite map_id; now apply scalars).
  assert (X : near (3 * n) wa wb) by (apply (edits_three uc NFC (fun c => c) a b n wa wb S (Q a Sa) (Q b Sb) E); rewrite map_id; assumption).
  assert (Y : near (3 * n) wb wa) by (apply (edits_three uc NFC (fun c => c) b a n wb wa S (Q b Sb) (Q a Sa) (edits_sym _ _ _ E)); rewrite map_id; assumption).
  pose proof (near_count P _ _ _ X). pose proof (near_count P _ _ _ Y). lia.
Qed.
Print Assumptions C95_words.

(** C95: whatever set of sequences of [N] characters is considered, [n] errors change the number of their
    occurrences by at most [N] times [n]. *)
Theorem C95_sequences : forall N t t' n, (1 <= N)%nat -> edits (map value t) (map value t') n ->
  forall among, Z.abs (count_if (fun w => among (map value w)) (sequences N t) - count_if (fun w => among (map value w)) (sequences N t'))
                <= Z.of_nat N * n.
Proof.
  intros N t t' n N1 E P. rewrite !(count_map (map value) P), !sequences_grams.
  pose proof (edits_steps (fun c => c) _ _ _ E) as S. rewrite !map_id in S. exact (cnt_steps N N1 P _ _ _ S []).
Qed.
Print Assumptions C95_sequences.

(** Counts in reports: [c] and [c'] say how often something is listed with its count, not at all being zero times. *)
Definition listed {R} (rows : list (R * Z)) (r : R) (c : Z) : Prop :=
  In (r, c) rows \/ (~ In r (map fst rows) /\ c = 0).

Lemma listed_words words rows w c : lists_words words rows -> listed rows w c -> c = count_if (word_eqb w) words.
Proof.
  intros [_ Lw Lc] [I|[I ->]]; [exact (Lc w c I)|]. rewrite Lw in I. symmetry. clear - I. induction words as [|x l IH]; [reflexivity|].
  rewrite count_cons, IH by (intros H; apply I; now right). unfold word_eqb. destruct (list_eq_dec _ _ _) as [E|]; [|reflexivity].
  exfalso. apply I. left. now symmetry.
Qed.

(** C95: wordfreq, run on files of which one is replaced by a text with [n] errors: no count of a word, nor the
    total, changes by more than 3 [n]; nor do all those that get larger, or all that get smaller, together. *)
Theorem C95_wordfreq : forall order uc NFC line buf before after before_words after_words f f' t t' h h' w w' n,
  (forall l, Permutation l (order l)) -> separators uc ->
  Forall2 (fun f ws => words_in uc NFC line buf (mkopt true true 0 true true) f = Ok ws) before before_words ->
  Forall2 (fun f ws => words_in uc NFC line buf (mkopt true true 0 true true) f = Ok ws) after after_words ->
  read_text uc line buf (mkopt true true 0 true true) [] f = Ok (t, h) -> text_ok t ->
  read_text uc line buf (mkopt true true 0 true true) [] f' = Ok (t', h') -> text_ok t' ->
  edits (map value t) (map value t') n ->
  find_words uc NFC [] (map value t) = Ok w -> find_words uc NFC [] (map value t') = Ok w' ->
  let words := concat before_words ++ w ++ concat after_words in
  let words' := concat before_words ++ w' ++ concat after_words in
  Forall bytes_ok words -> Forall bytes_ok words' -> zlen words < 2147483648 -> zlen words' < 2147483648 ->
  exists out out',
    wordfreq order uc NFC line buf (before ++ f :: after) = Ok out /\ frequency_report words out /\
    wordfreq order uc NFC line buf (before ++ f' :: after) = Ok out' /\ frequency_report words' out' /\
    Z.abs (zlen words - zlen words') <= 3 * n /\
    (forall among, Z.abs (count_if among words - count_if among words') <= 3 * n) /\
    (forall rows rows' x c c', lists_words words rows -> lists_words words' rows' -> listed rows x c -> listed rows' x c' ->
       Z.abs (c - c') <= 3 * n).
Proof.
  intros order uc NFC line buf before after bw aw f f' t t' h h' w w' n Ho S Hb Ha R T R' T' E Fw Fw' words words' B B' L L'.
  assert (X : forall g tg hg wg, read_text uc line buf (mkopt true true 0 true true) [] g = Ok (tg, hg) -> find_words uc NFC [] (map value tg) = Ok wg ->
    Forall bytes_ok (concat bw ++ wg ++ concat aw) -> zlen (concat bw ++ wg ++ concat aw) < 2147483648 ->
    exists out, wordfreq order uc NFC line buf (before ++ g :: after) = Ok out /\ frequency_report (concat bw ++ wg ++ concat aw) out).
  { intros g tg hg wg Rg Fg Bg Lg. replace (concat bw ++ wg ++ concat aw) with (concat (bw ++ wg :: aw)) in * by (rewrite concat_app; reflexivity).
    apply (C51_report order uc NFC line buf _ (bw ++ wg :: aw)); [exact Ho| | | |exact Lg].
    - intros Z. apply (f_equal (@List.length _)) in Z. rewrite app_length in Z. cbn [List.length] in Z. lia.
    - apply Forall2_app; [exact Hb|]. constructor; [|exact Ha]. unfold words_in. rewrite Rg. cbn [obind]. exact Fg.
    - clear - Bg. induction (bw ++ wg :: aw) as [|x l IH]; [constructor|]. cbn [concat] in Bg. apply Forall_app in Bg as [B1 B2]. constructor; auto. }
  destruct (X f t h w R Fw B L) as (out & O1 & O2). destruct (X f' t' h' w' R' Fw' B' L') as (out' & O1' & O2').
  exists out, out'. split; [exact O1|]. split; [exact O2|]. split; [exact O1'|]. split; [exact O2'|].
  assert (V : forall tg, text_ok tg -> Forall scalar (map value tg)) by (intros tg Tg; rewrite Forall_map; exact Tg).
  assert (C : forall among, Z.abs (count_if among words - count_if among words') <= 3 * n).
  { intros P. unfold words, words'. rewrite !count_app.
    pose proof (C95_words uc NFC _ _ n w w' S (V t T) (V t' T') E Fw Fw' P). lia. }
  split.
  { pose proof (C (fun _ => true)) as Q. unfold count_if in Q.
    assert (A : forall l : list (list Z), filter (fun _ => true) l = l) by (induction l as [|x l IH]; [reflexivity|cbn; now rewrite IH]).
    rewrite !A in Q. exact Q. }
  split; [exact C|]. intros rows rows' x c c' Lr Lr' I I'. rewrite (listed_words _ _ _ _ Lr I), (listed_words _ _ _ _ Lr' I'). apply C.
Qed.
Print Assumptions C95_wordfreq.

Lemma listed_sequences ws rows vs c : lists_sequences ws rows -> listed (map (fun r : seqrow => (fst r, fst (snd r))) rows) vs c -> c = count_of vs ws.
Proof.
  intros [_ Lv Lf] [I|[I ->]].
  - apply in_map_iff in I as ([vs' [c' s']] & E & I). cbn [fst snd] in E. injection E as -> ->. exact (proj1 (Lf _ _ _ I)).
  - rewrite map_map in I. cbn [fst] in I. change (map (fun x : seqrow => fst x) rows) with (map fst rows) in I. rewrite Lv in I. symmetry.
    unfold count_of. clear - I. induction ws as [|x l IH]; [reflexivity|].
    rewrite count_cons, IH by (intros (w & H1 & H2); apply I; exists w; split; [now right|exact H2]).
    unfold occurs_as, word_eqb. destruct (list_eq_dec _ _ _) as [E|]; [|reflexivity].
    exfalso. apply I. exists x. split; [now left|now symmetry].
Qed.

(** C95: ngram, in the same way. *)
Theorem C95_ngram : forall uc order line buf nstring N before after before_texts after_texts f f' t t' h h' n,
  marks_wide uc -> nul_hidden uc -> (forall l, Permutation l (order l)) -> get_n nstring = Ok N ->
  Forall2 (fun f t => (exists h, read_text uc line buf (mkopt true true 0 true false) [] f = Ok (t, h)) /\ text_ok t) before before_texts ->
  Forall2 (fun f t => (exists h, read_text uc line buf (mkopt true true 0 true false) [] f = Ok (t, h)) /\ text_ok t) after after_texts ->
  read_text uc line buf (mkopt true true 0 true false) [] f = Ok (t, h) -> text_ok t ->
  read_text uc line buf (mkopt true true 0 true false) [] f' = Ok (t', h') -> text_ok t' ->
  edits (map value t) (map value t') n ->
  let found := flat_map (sequences (Z.to_nat N)) (before_texts ++ t :: after_texts) in
  let found' := flat_map (sequences (Z.to_nat N)) (before_texts ++ t' :: after_texts) in
  zlen found < 2147483648 -> zlen found' < 2147483648 ->
  exists out out',
    ngram uc order line buf nstring (before ++ f :: after) = Ok out /\ ngram_report uc found out /\
    ngram uc order line buf nstring (before ++ f' :: after) = Ok out' /\ ngram_report uc found' out' /\
    Z.abs (zlen found - zlen found') <= N * n /\
    (forall among, Z.abs (count_if (fun s => among (map value s)) found - count_if (fun s => among (map value s)) found') <= N * n) /\
    (forall rows rows' x c c', lists_sequences found rows -> lists_sequences found' rows' ->
       listed (map (fun r : seqrow => (fst r, fst (snd r))) rows) x c -> listed (map (fun r : seqrow => (fst r, fst (snd r))) rows') x c' ->
       Z.abs (c - c') <= N * n).
Proof.
  intros uc order line buf nstring N before after bt at_ f f' t t' h h' n W Nh Ho Hn Hb Ha R T R' T' E found found' L L'.
  assert (BN : 1 <= N).
  { destruct nstring as [s|]; [|injection Hn as <-; lia]. unfold get_n in Hn.
    destruct (rd _ (s ++ [0]) 0) as [c|?|?|]; cbn [obind] in Hn; try discriminate Hn.
    destruct (Z.leb_spec 49 c); cbn [andb] in Hn; [|discriminate Hn]. destruct (c <=? 48 + MAX_N); [|discriminate Hn].
    destruct (rd _ (s ++ [0]) 1) as [d|?|?|]; cbn [obind] in Hn; try discriminate Hn.
    destruct (d =? 0); [injection Hn as <-; lia|discriminate Hn]. }
  assert (X : forall g tg hg, read_text uc line buf (mkopt true true 0 true false) [] g = Ok (tg, hg) -> text_ok tg ->
    zlen (flat_map (sequences (Z.to_nat N)) (bt ++ tg :: at_)) < 2147483648 ->
    exists out, ngram uc order line buf nstring (before ++ g :: after) = Ok out /\ ngram_report uc (flat_map (sequences (Z.to_nat N)) (bt ++ tg :: at_)) out).
  { intros g tg hg Rg Tg Lg. apply (C50_report uc order line buf nstring N _ (bt ++ tg :: at_)); try assumption.
    - intros Z. apply (f_equal (@List.length _)) in Z. rewrite app_length in Z. cbn [List.length] in Z. lia.
    - apply Forall2_app; [exact Hb|]. constructor; [|exact Ha]. split; [exists hg; exact Rg|exact Tg]. }
  destruct (X f t h R T L) as (out & O1 & O2). destruct (X f' t' h' R' T' L') as (out' & O1' & O2').
  exists out, out'. split; [exact O1|]. split; [exact O2|]. split; [exact O1'|]. split; [exact O2'|].
  assert (C : forall among, Z.abs (count_if (fun s => among (map value s)) found - count_if (fun s => among (map value s)) found') <= N * n).
  { intros P. unfold found, found'. rewrite !flat_map_app. cbn [flat_map]. rewrite !count_app.
    pose proof (C95_sequences (Z.to_nat N) t t' n ltac:(lia) E P) as Q. rewrite Z2Nat.id in Q by lia. lia. }
  split.
  { pose proof (C (fun _ => true)) as Q. unfold count_if in Q. cbv beta in Q.
    assert (A : forall l : list (list char), filter (fun _ => true) l = l) by (induction l as [|x l IH]; [reflexivity|cbn; now rewrite IH]).
    rewrite !A in Q. exact Q. }
  split; [exact C|]. intros rows rows' x c c' Lr Lr' I I'. rewrite (listed_sequences _ _ _ _ Lr I), (listed_sequences _ _ _ _ Lr' I').
  exact (C (word_eqb x)).
Qed.
Print Assumptions C95_ngram.

(** The bounds are reached: one error, three sequences of three characters, three words. *)
Theorem C95_sequences_needed : exists t t' among, edits (map value t) (map value t') 1 /\
  count_if (fun w => among (map value w)) (sequences 3 t) - count_if (fun w => among (map value w)) (sequences 3 t') = 3.
Proof.
  exists (map (mkchar false) [97; 97; 97; 97; 97]), (map (mkchar false) [97; 97; 98; 97; 97]), (word_eqb [97; 97; 97]).
  split; [|reflexivity]. cbn. do 2 (apply edits_keep; [discriminate|]). apply (edits_subst 97 98 [97; 97] [97; 97] 0).
  do 2 (apply edits_keep; [discriminate|]). constructor.
Qed.
Print Assumptions C95_sequences_needed.

(** Files that meet the hypotheses, and reach the bound for words. *)
Example C95_ex :
  let f := [97; 230; 188; 162; 98] in let f' := [97; 98] in
  let t := map (mkchar false) [97; 28450; 98] in let t' := map (mkchar false) [97; 98] in
  let w := [[97]; [230; 188; 162]; [98]] in let w' := [[97; 98]] in
  separators err_uc /\
  read_text err_uc (repeat 0 100) [0; 0; 0; 0] (mkopt true true 0 true true) [] f = Ok (t, false) /\ text_ok t /\
  read_text err_uc (repeat 0 100) [0; 0; 0; 0] (mkopt true true 0 true true) [] f' = Ok (t', false) /\ text_ok t' /\
  edits (map value t) (map value t') 1 /\
  find_words err_uc (fun s => s) [] (map value t) = Ok w /\ find_words err_uc (fun s => s) [] (map value t') = Ok w' /\
  Forall bytes_ok w /\ Forall bytes_ok w' /\
  count_if (fun x => negb (word_eqb [97; 98] x)) w - count_if (fun x => negb (word_eqb [97; 98] x)) w' = 3.
Proof.
  cbv zeta. split; [exact C93_ex|]. split; [vm_compute; reflexivity|]. split; [unfold text_ok; repeat constructor; unfold scalar; cbn; lia|].
  split; [vm_compute; reflexivity|]. split; [unfold text_ok; repeat constructor; unfold scalar; cbn; lia|].
  split. { cbn. apply edits_keep; [discriminate|]. apply (edits_delete 28450 [98] [98] 0). apply edits_keep; [discriminate|]. constructor. }
  split; [vm_compute; reflexivity|]. split; [vm_compute; reflexivity|].
  split; [unfold bytes_ok; repeat constructor; lia|]. split; [unfold bytes_ok; repeat constructor; lia|]. reflexivity.
Qed.
