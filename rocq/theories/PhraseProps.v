(** C39: how the accuracy of phrases follows from that of words. *)
From Coq Require Import String Permutation.
From Verif Require Import Base CLib LcsModel LcsSpec LcsTop WacModel WacSpec WacProof.
Local Open Scope Z_scope.
Local Open Scope list_scope.

(** The phrases of [n] words that begin at each word; whether one is missed. *)
Fixpoint windows (n : nat) (l : list bool) : list (list bool) :=
  match l with
  | [] => []
  | _ :: l' => if Nat.leb n (List.length l) then firstn n l :: windows n l' else []
  end.
Definition broken (p : list bool) : bool := negb (forallb (fun r => r) p).
Definition breaks (l : list bool) : Z := count_if negb l.

Lemma windows_short n l : (List.length l < n)%nat -> windows n l = [].
Proof. destruct l as [|b l]; intros H; [reflexivity|]. cbn [windows]. destruct (Nat.leb_spec n (List.length (b :: l))); [lia|reflexivity]. Qed.

Lemma zrange_shift lo : forall k, zrange (lo + 1) k = map (fun i => i + 1) (zrange lo k).
Proof. intros k. revert lo. induction k as [|k IH]; intros lo; [reflexivity|]. cbn [zrange map]. now rewrite IH. Qed.

Lemma zrange_pos : forall k lo i, In i (zrange lo k) -> lo <= i.
Proof. induction k as [|k IH]; intros lo i H; [destruct H|]. destruct H as [<-|H]; [lia|]. apply IH in H. lia. Qed.

Lemma phrase_windows len marks : 1 <= len -> phrase_marks len marks = windows (Z.to_nat len) marks.
Proof.
  intros H. unfold phrase_marks. induction marks as [|b l IH].
  - change (zlen []) with 0. replace (Z.to_nat (0 - len + 1)) with 0%nat by lia. reflexivity.
  - cbn [windows]. destruct (Nat.leb_spec (Z.to_nat len) (List.length (b :: l))) as [L|L].
    + replace (Z.to_nat (zlen (b :: l) - len + 1)) with (S (Z.to_nat (zlen l - len + 1))) by (unfold zlen in *; cbn [List.length] in *; lia).
      cbn [zrange map]. f_equal. rewrite zrange_shift, map_map, <- IH. apply map_ext_in. intros i Hi. apply zrange_pos in Hi.
      replace (Z.to_nat (i + 1)) with (S (Z.to_nat i)) by lia. reflexivity.
    + replace (Z.to_nat (zlen (b :: l) - len + 1)) with 0%nat by (unfold zlen in *; lia). reflexivity.
Qed.

Lemma broken_grows n : forall l, (n < List.length l)%nat ->
  (if broken (firstn (S n) l) then 1 else 0) + breaks (skipn (S n) l) <= (if broken (firstn n l) then 1 else 0) + breaks (skipn n l) /\
  (broken (firstn n l) = true -> broken (firstn (S n) l) = true).
Proof.
  induction n as [|n IH]; intros [|b l] H; cbn [List.length] in H; try lia.
  - cbn [firstn skipn]. unfold broken, breaks. rewrite count_if_cons. destruct b; cbn; split; (lia || discriminate).
  - destruct (IH l ltac:(lia)) as [A B]. cbn [skipn] in *.
    change (firstn (S (S n)) (b :: l)) with (b :: firstn (S n) l). change (firstn (S n) (b :: l)) with (b :: firstn n l).
    unfold broken in *. cbn [forallb]. destruct b; cbn [andb negb]; [split; [exact A|exact B]|].
    split; [|reflexivity]. assert (breaks (skipn (S n) l) <= breaks (skipn n l)); [|cbn [skipn] in *; lia]. clear.
    revert l. induction n as [|n IH]; intros [|b l]; try (cbn; lia). { cbn [skipn]. unfold breaks. rewrite count_if_cons. destruct (negb b); lia. } cbn [skipn] in *. apply IH.
Qed.

Lemma missed_grows n : forall l, (1 <= n)%nat ->
  count_if broken (windows (S n) l) <= count_if broken (windows n l) + breaks (skipn n l) /\
  count_if (fun p => negb (broken p)) (windows (S n) l) <= count_if (fun p => negb (broken p)) (windows n l).
Proof.
  induction l as [|b l IH]; intros Hn.
  - cbn [windows]. unfold count_if, breaks, zlen. cbn. destruct n; cbn; lia.
  - destruct (IH Hn) as [A B]. cbn [windows]. destruct (Nat.leb_spec (S n) (List.length (b :: l))) as [L|L].
    + destruct (Nat.leb_spec n (List.length (b :: l))); [|lia]. rewrite !count_if_cons. destruct (broken_grows n (b :: l) ltac:(lia)) as [G M].
      destruct n as [|n]; [lia|]. cbn [skipn] in *. split; [lia|]. destruct (broken (firstn (S n) (b :: l))) eqn:E; [rewrite M by reflexivity; cbn [negb]; lia|].
      destruct (broken (firstn (S (S n)) (b :: l))); cbn [negb]; lia.
    + change (count_if broken []) with 0. change (count_if (fun p => negb (broken p)) []) with 0.
      pose proof (count_if_nonneg negb (skipn n (b :: l))). unfold breaks.
      destruct (Nat.leb_spec n (List.length (b :: l))); [|split; apply count_if_nonneg || (pose proof (count_if_nonneg broken (@nil (list bool))); lia)].
      split; [pose proof (count_if_nonneg broken (firstn n (b :: l) :: windows n l)); lia|apply count_if_nonneg].
Qed.

Lemma breaks_skipn n : forall l, breaks (skipn n l) <= breaks l.
Proof. induction n as [|n IH]; intros [|b l]; try (cbn; lia). cbn [skipn]. unfold breaks in *. rewrite count_if_cons. specialize (IH l). destruct (negb b); lia. Qed.

Lemma missed_one l : count_if broken (windows 1 l) = breaks l.
Proof.
  induction l as [|b l IH]; [reflexivity|]. cbn [windows]. destruct (Nat.leb_spec 1 (List.length (b :: l))) as [L|L]; [|cbn [List.length] in L; lia].
  unfold breaks in *. rewrite !count_if_cons, IH. destruct b; reflexivity.
Qed.

Lemma missed_bound n l : (1 <= n)%nat -> count_if broken (windows n l) <= Z.of_nat n * breaks l.
Proof.
  induction n as [|n IH]; intros H; [lia|]. destruct n as [|n]; [rewrite missed_one; lia|].
  destruct (missed_grows (S n) l ltac:(lia)) as [A _]. pose proof (breaks_skipn (S n) l). specialize (IH ltac:(lia)). lia.
Qed.

Lemma windows_len n l : (1 <= n)%nat -> zlen (windows n l) = Z.max 0 (zlen l - Z.of_nat n + 1).
Proof.
  intros H. induction l as [|b l IH]; [cbn; lia|]. cbn [windows]. destruct (Nat.leb_spec n (List.length (b :: l))) as [L|L].
  - assert (E : forall (x : list bool) t, zlen (x :: t) = 1 + zlen t) by (intros; unfold zlen; cbn [List.length]; lia). rewrite E, IH. unfold zlen in *. cbn [List.length] in *. lia.
  - unfold zlen in *. cbn [List.length] in *. lia.
Qed.

Lemma missed_words : forall marks (words : list (list Z)), List.length marks = List.length words -> breaks marks = zlen words - zlen (select marks words).
Proof.
  induction marks as [|b marks IH]; intros [|w words] H; try discriminate H; [reflexivity|]. injection H as H.
  unfold breaks in *. rewrite count_if_cons, (IH words H). destruct b; cbn [select negb]; unfold zlen; cbn [List.length]; lia.
Qed.

(** C39: phrases of one word are the words; a missed word spoils at most [len] phrases of [len]
    words; and of longer phrases no more are right than of shorter ones. *)
Theorem C39_bounds : forall stop order words0 words1,
  (forall l, Permutation (order l) l) -> zlen (shared words0 words1) <= 65535 ->
  (forall w, In w words0 -> 1 <= zlen w <= MAX_WORDLENGTH) ->
  exists d, wordacc stop order words0 words1 = Ok d /\
    znth (phrase d) 1 = Some (wtotal d) /\
    (forall len p, 1 <= len <= MAX_PHRASELENGTH -> znth (phrase d) len = Some p ->
       0 <= wmissed p <= wcount p /\ wmissed p <= len * wmissed (wtotal d)) /\
    (forall len p q, 1 <= len -> len + 1 <= MAX_PHRASELENGTH ->
       znth (phrase d) len = Some p -> znth (phrase d) (len + 1) = Some q ->
       wcount q - wmissed q <= wcount p - wmissed p /\ wmissed q <= wmissed p + wmissed (wtotal d)).
Proof.
  intros stop order w0 w1 P Sh W. destruct (wordacc_ok stop order w0 w1 P Sh W) as (marks & d & L & E & F & Ph).
  exists d. split; [exact E|].
  assert (T : wtotal d = mkwac (zlen marks) (breaks marks)).
  { pose proof (fg_words _ _ _ _ F) as A. pose proof (fg_missed _ _ _ _ F) as B. rewrite (missed_words marks w0 (proj1 L)).
    destruct (wtotal d) as [c m]. cbn [wcount wmissed] in *. subst. f_equal. unfold zlen. now rewrite (proj1 L). }
  assert (Fig : forall len p, 1 <= len <= MAX_PHRASELENGTH -> znth (phrase d) len = Some p ->
    p = mkwac (zlen (windows (Z.to_nat len) marks)) (count_if broken (windows (Z.to_nat len) marks))).
  { intros len p H Hp. rewrite (ph_len _ _ Ph len H) in Hp. injection Hp as <-. unfold phrase_figures. rewrite phrase_windows, windows_len by lia.
    rewrite Z2Nat.id by lia. reflexivity. }
  assert (Rt : forall l : list (list bool), zlen l - count_if broken l = count_if (fun p => negb (broken p)) l).
  { induction l as [|x l IH]; [reflexivity|]. rewrite !count_if_cons, <- IH. unfold zlen. cbn [List.length]. destruct (broken x); cbn [negb]; lia. }
  split.
  { rewrite (ph_len _ _ Ph 1) by (unfold MAX_PHRASELENGTH; lia). rewrite T. unfold phrase_figures. rewrite phrase_windows by lia.
    change (Z.to_nat 1) with 1%nat. f_equal. f_equal; [pose proof (zlen_nonneg marks); lia|apply missed_one]. }
  split.
  - intros len p H Hp. rewrite (Fig len p H Hp), T. cbn [wcount wmissed]. pose proof (missed_bound (Z.to_nat len) marks ltac:(lia)) as B.
    rewrite Z2Nat.id in B by lia. specialize (Rt (windows (Z.to_nat len) marks)).
    pose proof (count_if_nonneg broken (windows (Z.to_nat len) marks)). pose proof (count_if_nonneg (fun p => negb (broken p)) (windows (Z.to_nat len) marks)). lia.
  - intros len p q H H' Hp Hq. rewrite (Fig len p ltac:(lia) Hp), (Fig (len + 1) q ltac:(lia) Hq), T. cbn [wcount wmissed].
    replace (Z.to_nat (len + 1)) with (S (Z.to_nat len)) by lia. rewrite !Rt. destruct (missed_grows (Z.to_nat len) marks ltac:(lia)) as [A B].
    pose proof (breaks_skipn (Z.to_nat len) marks). lia.
Qed.
Print Assumptions C39_bounds.

(** C39: the bound is reached: of five words the third is missed, and with it three of the three
    phrases of three words, two of the four of two. *)
Example C39_bounds_ex :
  let w i := [97 + i] in
  (let! d := wordacc (fun _ => false) (fun l => l) [w 0; w 1; w 2; w 3; w 4] [w 0; w 1; w 3; w 4] in
   Ok (wtotal d, firstn 4 (phrase d))) =
  Ok (mkwac 5 1, [mkwac 0 0; mkwac 5 1; mkwac 4 2; mkwac 3 3]).
Proof. reflexivity. Qed.

(** C37: words added to the generated text never cost a word, words left out never gain one; and
    with the correct text among them all words are recognized. *)
Theorem C37_more_words : forall stop order words0 words1 words1',
  (forall l, Permutation (order l) l) -> subseq words1 words1' ->
  zlen (shared words0 words1) <= 65535 -> zlen (shared words0 words1') <= 65535 ->
  (forall w, In w words0 -> 1 <= zlen w <= MAX_WORDLENGTH) ->
  exists d d', wordacc stop order words0 words1 = Ok d /\ wordacc stop order words0 words1' = Ok d' /\
    wcount (wtotal d') = wcount (wtotal d) /\ wmissed (wtotal d') <= wmissed (wtotal d) /\
    wmissed (wtotal d) <= wmissed (wtotal d') + (zlen words1' - zlen words1) /\
    (subseq words0 words1 -> wmissed (wtotal d) = 0).
Proof.
  intros stop order w0 w1 w1' P S Sh Sh' W. destruct (wordacc_ok stop order w0 w1 P Sh W) as (marks & d & L & E & F & _).
  destruct (wordacc_ok stop order w0 w1' P Sh' W) as (marks' & d' & L' & E' & F' & _). exists d, d'. split; [exact E|]. split; [exact E'|].
  rewrite (fg_words _ _ _ _ F), (fg_words _ _ _ _ F'), (fg_missed _ _ _ _ F), (fg_missed _ _ _ _ F').
  destruct L as (Lm & Ls & Lo), L' as (Lm' & Ls' & Lo'). split; [reflexivity|]. split; [|split].
  - assert (zlen (select marks w0) <= zlen (select marks' w0)); [|lia]. apply Lo'; [apply subseq_select|]. now apply (subseq_trans _ w1).
  - assert (G : exists c, subseq c w1 /\ subseq c (select marks' w0) /\ zlen (select marks' w0) - zlen c <= zlen w1' - zlen w1).
    { clear - S Ls'. revert Ls'. generalize (select marks' w0) as u. clear w0. induction S as [|x c l S IH|x c l S IH]; intros u H.
      - inversion H; subst. exists []. split; [constructor|]. split; [constructor|]. apply Z.le_refl.
      - inversion H as [|? c' ? H1|? ? ? H1]; subst.
        + destruct (IH _ H1) as (k & K1 & K2 & K3). exists (x :: k). split; [now constructor|]. split; [now constructor|]. unfold zlen in *. cbn [List.length] in *. lia.
        + destruct (IH _ H1) as (k & K1 & K2 & K3). exists k. split; [now constructor|]. split; [exact K2|]. unfold zlen in *. cbn [List.length] in *. lia.
      - inversion H as [|? c' ? H1|? ? ? H1]; subst.
        + destruct (IH _ H1) as (k & K1 & K2 & K3). exists k. split; [exact K1|]. split; [now constructor|]. unfold zlen in *. cbn [List.length] in *. lia.
        + destruct (IH _ H1) as (k & K1 & K2 & K3). exists k. split; [exact K1|]. split; [exact K2|]. unfold zlen in *. cbn [List.length] in *. lia. }
    destruct G as (c & G1 & G2 & G3). assert (zlen c <= zlen (select marks w0)); [|lia].
    apply Lo; [|exact G1]. apply (subseq_trans _ (select marks' w0)); [exact G2|apply subseq_select].
  - intros H. assert (R : subseq w0 w0) by (clear; induction w0; constructor; assumption). specialize (Lo w0 R H).
    assert (zlen (select marks w0) <= zlen w0); [|lia]. clear. revert w0. induction marks as [|b m IH]; intros [|w l]; try (destruct b); unfold zlen in *; cbn [select List.length]; try lia; specialize (IH l); lia.
Qed.
Print Assumptions C37_more_words.

Example C37_more_words_ex :
  let a := [97] in let b := [98] in let c := [99] in
  subseq [b] [b; c] /\
  (let! d := wordacc (fun _ => false) (fun l => l) [a; b; c] [b] in Ok (wtotal d)) = Ok (mkwac 3 2) /\
  (let! d := wordacc (fun _ => false) (fun l => l) [a; b; c] [b; c] in Ok (wtotal d)) = Ok (mkwac 3 1).
Proof. split; [repeat constructor|]. split; reflexivity. Qed.
