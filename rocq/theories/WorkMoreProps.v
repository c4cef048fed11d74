(** C92: the work of sorting and of recognizing words. *)
From Coq Require Import String Permutation.
From Verif Require Import Base CLib SortModel SortSpec SortProof SortProps LcsModel LcsSpec LcsTop WacProof EdoProof MetricProof MarkProps WorkProof SortWorkModel SortWorkProof WordWorkModel WordWorkProof WordWorkTop.
Local Open Scope Z_scope.
Local Open Scope list_scope.

(** ** Sorting *)

(** Forgetting the count gives the program. *)
Theorem C92_sort_erased : forall A (cmp : A -> A -> Z) num a,
  sort cmp num a = (let! (a', _) := sort_counted cmp num a in Ok a').
Proof. intros. symmetry. apply erase_sort. Qed.
Print Assumptions C92_sort_erased.

Lemma sort_count A (cmp : A -> A -> Z) a : exists a' c, sort_counted cmp (zlen a) a = Ok (a', c) /\
  zlen a - 1 <= c /\ 0 <= c /\ 2 * c <= zlen a * (zlen a - 1) /\
  ((forall p q x y, p < q -> znth a p = Some x -> znth a q = Some y -> cmp x y < 0) -> 2 * c = zlen a * (zlen a - 1)) /\
  ((forall x y, In x a -> In y a -> cmp x y = 0) -> c <= zlen a * Z.log2 (zlen a)).
Proof.
  unfold sort_counted. pose proof (zlen_nonneg a). destruct (Z.ltb_spec (zlen a) 2) as [L|L].
  - exists a, 0. split; [reflexivity|]. assert (zlen a = 0 \/ zlen a = 1) as [E|E] by lia; rewrite E; cbn; lia.
  - destruct (quicksort_count cmp (Z.to_nat (zlen a)) a 0 (zlen a - 1) 0) as (a' & c & E & _ & _ & C1 & C2 & S & Q); [lia..|].
    exists a', c. split; [rewrite E; reflexivity|]. replace (zlen a - 1 - 0 + 1) with (zlen a) in * by lia. replace (zlen a - 1 - 0) with (zlen a - 1) in * by lia.
    split; [lia|]. split; [lia|]. split; [lia|]. split.
    + intros Inc. apply S. intros p q x y _ Hpq _. apply Inc. exact Hpq.
    + intros Eq. specialize (Q Eq). pose proof (Z.log2_nonneg (zlen a)). nia.
Qed.

(** The comparison routine is called at most n (n - 1) / 2 times for n elements, and at least n - 1
    times, whatever it returns. *)
Theorem C92_sort : forall A (cmp : A -> A -> Z) a, exists a' calls,
  sort_counted cmp (zlen a) a = Ok (a', calls) /\ zlen a - 1 <= calls /\ 2 * calls <= zlen a * (zlen a - 1).
Proof. intros A cmp a. destruct (sort_count A cmp a) as (a' & c & E & H1 & _ & H2 & _). exists a', c. auto. Qed.
Print Assumptions C92_sort.

(** The bound is met by every array that is sorted already (each element before all later ones): *)
Theorem C92_sort_sorted : forall A (cmp : A -> A -> Z) a,
  (forall p q x y, p < q -> znth a p = Some x -> znth a q = Some y -> cmp x y < 0) ->
  exists a' calls, sort_counted cmp (zlen a) a = Ok (a', calls) /\ 2 * calls = zlen a * (zlen a - 1).
Proof. intros A cmp a Inc. destruct (sort_count A cmp a) as (a' & c & E & _ & _ & _ & S & _). exists a', c. auto. Qed.
Print Assumptions C92_sort_sorted.

(** elements that are all the same to the comparison routine need n log2 n calls at most. *)
Theorem C92_sort_equal : forall A (cmp : A -> A -> Z) a,
  (forall x y, In x a -> In y a -> cmp x y = 0) ->
  exists a' calls, sort_counted cmp (zlen a) a = Ok (a', calls) /\ calls <= zlen a * Z.log2 (zlen a).
Proof. intros A cmp a Eq. destruct (sort_count A cmp a) as (a' & c & E & _ & _ & _ & _ & Q). exists a', c. auto. Qed.
Print Assumptions C92_sort_equal.

(** So "at most c n log2 n calls" is false for every constant c. *)
Theorem C92_sort_n_log_n_refuted : forall c, exists a a' calls,
  sort_counted Z.sub (zlen a) a = Ok (a', calls) /\ c * (zlen a * Z.log2 (zlen a)) < calls.
Proof.
  intros c0. set (c := Z.max 1 c0).
  assert (G : forall k, 0 <= k -> k * k <= 4 * 2 ^ k).
  { apply natlike_ind; [cbn; lia|]. intros k Hk IH. rewrite Z.pow_succ_r by lia. destruct (Z.le_gt_cases 3 k); [nia|].
    assert (k = 0 \/ k = 1 \/ k = 2) as [-> | [-> | ->]] by lia; cbn; lia. }
  (* n = 2^k with k = 8 c + 2 *)
  set (k := 8 * c + 2). assert (Hk : 0 <= k) by lia.
  set (a := zrange 0 (Z.to_nat (2 ^ k))).
  assert (La : zlen a = 2 ^ k) by (unfold a, zlen; rewrite zrange_length; pose proof (Z.pow_nonneg 2 k ltac:(lia)); lia).
  destruct (C92_sort_sorted Z Z.sub a) as (a' & w & E & W).
  { intros p q x y Hpq Hx Hy. assert (Q : forall i z, znth a i = Some z -> z = i).
    { intros i z Hz. unfold a in Hz. pose proof (znth_Some_lt _ _ _ Hz) as Hi. fold a in Hi.
      rewrite EdoProof.znth_zrange in Hz by (unfold a, zlen in Hi; rewrite zrange_length in Hi; lia). injection Hz as <-. lia. }
    apply Q in Hx, Hy. lia. }
  exists a, a', w. split; [exact E|]. rewrite La, Z.log2_pow2 in * by lia.
  pose proof (G k Hk) as Gk. assert (1 <= 2 ^ k) by (pose proof (Z.pow_pos_nonneg 2 k ltac:(lia) ltac:(lia)); lia).
  assert (c0 * (2 ^ k * k) <= c * (2 ^ k * k)) by nia.
  assert (2 * (c * k) < 2 ^ k - 1); [|nia].
  assert (8 * (c * k) + 2 * k = k * k) by (unfold k; ring). nia.
Qed.
Print Assumptions C92_sort_n_log_n_refuted.

Example C92_sort_ex :
  sort_counted Z.sub 4 [3; 1; 4; 2] = Ok ([1; 2; 3; 4], 4) /\ sort_counted Z.sub 4 [1; 2; 3; 4] = Ok ([1; 2; 3; 4], 6) /\
  sort_counted Z.sub 4 [7; 7; 7; 7] = Ok ([7; 7; 7; 7], 4).
Proof. repeat split. Qed.

(** ** Recognizing words *)

(** The numbers held by a list of rows. *)
Definition numbers (rows : list path) : Z := fold_right (fun r t => zlen (snd r) + t) 0 rows.

(** Forgetting the rows and the count gives the program. *)
Theorem C92_words_erased : forall w0 w1, recognize w0 w1 = (let! (marks, _, _) := recognize_counted w0 w1 in Ok marks).
Proof. exact erase_recognize. Qed.
Print Assumptions C92_words_erased.

(** Only words that occur in both texts count: with n0 and n1 of them and r recognized, let D = n0 + n1 - 2 r.  There are
    D + 1 rows with (D + 1) (D + 2) / 2 numbers in all, and at least r and at most (2 D + 1) * min(n0, n1) comparisons. *)
Theorem C92_words : forall w0 w1, zlen (shared w0 w1) <= 65535 ->
  exists marks rows comparisons, recognize_counted w0 w1 = Ok (marks, rows, comparisons) /\ lcs_marks marks w0 w1 /\
    let D := zlen (shared w0 w1) + zlen (shared w1 w0) - 2 * zlen (select marks w0) in
    0 <= D /\ zlen rows = D + 1 /\ 2 * numbers rows = (D + 1) * (D + 2) /\
    zlen (select marks w0) <= comparisons <= (2 * D + 1) * Z.min (zlen (shared w0 w1)) (zlen (shared w1 w0)).
Proof.
  intros w0 w1 H. rewrite <- !common_shared in *. destruct (recognize_counted_ok w0 w1 H) as (marks & l & w & D & E & ED & D0 & Z1 & Z2 & W & Lw).
  exists marks, l, w. split; [exact E|]. split.
  - destruct (proj2 (recognize_ok w0 w1) H) as (marks' & E' & L). pose proof (erase_recognize w0 w1) as X. rewrite E, E' in X. cbn [obind] in X. injection X as ->. exact L.
  - cbv zeta. rewrite <- ED. assert (N : numbers l = kept l). { clear. induction l as [|[q f] l IH]; [reflexivity|]. cbn [numbers fold_right kept snd]. fold (numbers l). now rewrite IH. }
    rewrite N. auto.
Qed.
Print Assumptions C92_words.

(** A text recognized without errors: one row of one number, and one comparison for each word. *)
Theorem C92_words_equal : forall w, zlen w <= 65535 ->
  exists rows comparisons, recognize_counted w w = Ok (repeat true (List.length w), rows, comparisons) /\ zlen rows = 1 /\ numbers rows = 1 /\ comparisons = zlen w.
Proof.
  intros w H. assert (S : shared w w = w).
  { unfold shared. apply filter_all. intros x Hx. destruct (in_dec _ x w); [reflexivity|contradiction]. }
  destruct (C92_words w w) as (marks & rows & c & E & (L & Sb & M) & D0 & Z1 & Z2 & W); [now rewrite S|]. rewrite S in *.
  pose proof (M w (subseq_refl w) (subseq_refl w)) as M1. assert (zlen (select marks w) = zlen w) as Es by lia.
  rewrite Es in *. replace (zlen w + zlen w - 2 * zlen w) with 0 in * by lia. exists rows, c. split; [|lia].
  rewrite E. do 3 f_equal. clear - Es L. revert w Es L. induction marks as [|[|] marks IH]; intros [|x w] Es L; cbn [List.length repeat] in *; try (exfalso; clear - L; lia); [reflexivity| |].
  - f_equal. apply IH; [|lia]. cbn [select] in Es. rewrite !zlen_cons in Es. lia.
  - exfalso. cbn [select] in Es. rewrite zlen_cons in Es. pose proof (subseq_zlen _ _ (subseq_select marks w)). lia.
Qed.
Print Assumptions C92_words_equal.

(** A case: "a b c" read as "a x c b": "x" does not count. *)
Example C92_words_ex :
  recognize_counted [[97]; [98]; [99]] [[97]; [120]; [99]; [98]] =
    Ok ([true; true; false], [(2, [0; 3; 0]); (1, [3; 2]); (0, [1])], 4) /\
  zlen (shared [[97]; [98]; [99]] [[97]; [120]; [99]; [98]]) = 3.
Proof. split; reflexivity. Qed.
