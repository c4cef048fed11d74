(** The number of comparisons made by sort. *)
From Coq Require Import String.
From Verif Require Import Base SortModel SortProof SortWorkModel WorkProof.
Local Open Scope Z_scope.
Local Open Scope list_scope.

Section Sort.
Context {A : Type}.
Variable cmp : A -> A -> Z.

(** *** Without the count: SortModel *)
Lemma erase_scan_down : forall fuel (a : list A) ref i j w, erase (scan_down_counted cmp fuel a ref i j w) = scan_down cmp fuel a ref i j.
Proof.
  induction fuel as [|f IH]; intros a ref i j w; cbn [scan_down_counted scan_down]; (destruct (i <? j); [|reflexivity]);
    (destruct (rd _ a j); cbn [obind]; [|reflexivity..]); (destruct (_ <? 0); [|reflexivity]); [reflexivity|apply IH].
Qed.
Lemma erase_scan_up : forall fuel (a : list A) ref i j w, erase (scan_up_counted cmp fuel a ref i j w) = scan_up cmp fuel a ref i j.
Proof.
  induction fuel as [|f IH]; intros a ref i j w; cbn [scan_up_counted scan_up]; (destruct (i <? j); [|reflexivity]);
    (destruct (rd _ a i); cbn [obind]; [|reflexivity..]); (destruct (0 <? _); [|reflexivity]); [reflexivity|apply IH].
Qed.
Lemma erase_partition : forall fuel (a : list A) ref i j w, erase (partition_counted cmp fuel a ref i j w) = partition_loop cmp fuel a ref i j.
Proof.
  induction fuel as [|f IH]; intros a ref i j w; cbn [partition_counted partition_loop]; (destruct (i <? j); [|reflexivity]); [reflexivity|].
  rewrite <- (erase_scan_down _ a ref i j w). destruct (scan_down_counted _ _ a ref i j w) as [[j' w']| | |]; cbn [obind erase]; [|reflexivity..].
  match goal with |- erase (obind ?x _) = _ => destruct x as [[a1 i1]| | |]; cbn [obind erase]; [|reflexivity..] end.
  rewrite <- (erase_scan_up _ a1 ref i1 j' w'). destruct (scan_up_counted _ _ a1 ref i1 j' w') as [[i2 w2]| | |]; cbn [obind erase]; [|reflexivity..].
  match goal with |- erase (obind ?x _) = _ => destruct x as [[a2 j2]| | |]; cbn [obind erase]; [|reflexivity..] end.
  apply IH.
Qed.
Lemma erase_quicksort : forall fuel (a : list A) left right w, erase (quicksort_counted cmp fuel a left right w) = quicksort cmp fuel a left right.
Proof.
  induction fuel as [|f IH]; intros a left right w; [reflexivity|]. cbn [quicksort_counted quicksort].
  destruct (rd _ a left) as [ref| | |]; cbn [obind]; [|reflexivity..].
  rewrite <- (erase_partition _ a ref left right w). destruct (partition_counted _ _ a ref left right w) as [[[[a1 i1] j1] w1]| | |]; cbn [obind erase]; [|reflexivity..].
  destruct (wr _ a1 j1 ref) as [a2| | |]; cbn [obind]; [|reflexivity..].
  destruct (left <? j1 - 1).
  - rewrite <- (IH a2 left (j1 - 1) w1). destruct (quicksort_counted _ f a2 left (j1 - 1) w1) as [[a3 w3]| | |]; cbn [obind erase]; [|reflexivity..].
    destruct (_ <? right); [apply IH|reflexivity].
  - cbn [obind]. destruct (_ <? right); [apply IH|reflexivity].
Qed.
Lemma erase_sort num (a : list A) : erase (sort_counted cmp num a) = sort cmp num a.
Proof. unfold sort_counted, sort. destruct (num <? 2); [reflexivity|apply erase_quicksort]. Qed.

(** *** The count *)
Lemma down_count fuel : forall (a : list A) ref i j w, 0 <= i -> i <= j < zlen a -> j - i <= Z.of_nat fuel ->
  exists j', scan_down_counted cmp fuel a ref i j w = Ok (j', w + (j - j') + (if i <? j' then 1 else 0)) /\ i <= j' <= j /\
    (i < j' -> exists x, znth a j' = Some x /\ 0 <= cmp ref x) /\
    (forall p x, j' < p <= j -> znth a p = Some x -> cmp ref x < 0).
Proof.
  induction fuel as [|f IH]; intros a ref i j w Hi Hj Hf; cbn [scan_down_counted].
  - destruct (Z.ltb_spec i j); [lia|]. exists j. split; [do 2 f_equal; destruct (Z.ltb_spec i j); lia|]. split; [lia|]. split; lia.
  - destruct (Z.ltb_spec i j) as [L|L].
    + destruct (rd_in "sort index" a j) as (x & Ex & ->); [lia|]. cbn [obind]. destruct (Z.ltb_spec (cmp ref x) 0) as [C|C].
      * destruct (IH a ref i (j - 1) (w + 1)) as (j' & E & R & H1 & H2); [lia..|]. exists j'. rewrite E. split; [do 2 f_equal; lia|]. split; [lia|]. split; [exact H1|].
        intros p y Hp Hy. destruct (Z.eq_dec p j) as [->|]; [congruence|]. apply (H2 p y); [lia|exact Hy].
      * exists j. split; [do 2 f_equal; destruct (Z.ltb_spec i j); lia|]. split; [lia|]. split; [intros _; exists x; split; [exact Ex|lia]|lia].
    + exists j. split; [do 2 f_equal; destruct (Z.ltb_spec i j); lia|]. split; [lia|]. split; lia.
Qed.
Lemma up_count fuel : forall (a : list A) ref i j w, 0 <= i -> i <= j < zlen a -> j - i <= Z.of_nat fuel ->
  exists i', scan_up_counted cmp fuel a ref i j w = Ok (i', w + (i' - i) + (if i' <? j then 1 else 0)) /\ i <= i' <= j /\
    (forall p x, i <= p < i' -> znth a p = Some x -> 0 < cmp ref x).
Proof.
  induction fuel as [|f IH]; intros a ref i j w Hi Hj Hf; cbn [scan_up_counted].
  - destruct (Z.ltb_spec i j); [lia|]. exists i. split; [do 2 f_equal; destruct (Z.ltb_spec i j); lia|]. split; lia.
  - destruct (Z.ltb_spec i j) as [L|L].
    + destruct (rd_in "sort index" a i) as (x & Ex & ->); [lia|]. cbn [obind]. destruct (Z.ltb_spec 0 (cmp ref x)) as [C|C].
      * destruct (IH a ref (i + 1) j (w + 1)) as (i' & E & R & H2); [lia..|]. exists i'. rewrite E. split; [do 2 f_equal; lia|]. split; [lia|].
        intros p y Hp Hy. destruct (Z.eq_dec p i) as [->|]; [congruence|]. apply (H2 p y); [lia|exact Hy].
      * exists i. split; [do 2 f_equal; destruct (Z.ltb_spec i j); lia|]. split; lia.
    + exists i. split; [do 2 f_equal; destruct (Z.ltb_spec i j); lia|]. split; lia.
Qed.

Lemma wr_incl (a a' : list A) i x : wr "sort index" a i x = Ok a' -> In x a -> 0 <= i < zlen a -> incl a' a.
Proof.
  intros E Hx Hi y Hy. destruct (wr_in "sort index" a i x Hi) as (a1 & E1 & L & R). rewrite E in E1. injection E1 as <-.
  apply In_znth in Hy as (p & Hp & Ep). rewrite R in Ep. destruct (p =? i); [injection Ep as <-; exact Hx|]. eapply znth_In; eauto.
Qed.

(** As many comparisons as there are other elements.  An element smaller than all others stays where it is; equal elements are halved. *)
Lemma partition_count fuel : forall (a : list A) ref i j w, 0 <= i -> i <= j < zlen a -> j - i <= Z.of_nat fuel ->
  exists a' k, partition_counted cmp fuel a ref i j w = Ok (a', k, k, w + (j - i)) /\ i <= k <= j /\ zlen a' = zlen a /\ incl a' a /\
    ((forall p x, i < p <= j -> znth a p = Some x -> cmp ref x < 0) -> a' = a /\ k = i) /\
    ((forall x, In x a -> cmp ref x = 0) -> k = (i + j + 1) / 2).
Proof.
  assert (Stop : forall f (a : list A) ref i j w, i = j -> exists a' k, partition_counted cmp f a ref i j w = Ok (a', k, k, w + (j - i)) /\ i <= k <= j /\ zlen a' = zlen a /\ incl a' a /\
    ((forall p x, i < p <= j -> znth a p = Some x -> cmp ref x < 0) -> a' = a /\ k = i) /\
    ((forall x, In x a -> cmp ref x = 0) -> k = (i + j + 1) / 2)).
  { intros f a ref i j w <-. exists a, i. split; [destruct f; cbn [partition_counted]; (destruct (Z.ltb_spec i i); [lia|]); do 2 f_equal; lia|]. split; [lia|]. split; [reflexivity|]. split; [apply incl_refl|].
    split; [auto|]. intros _. apply Z.div_unique with 1; lia. }
  induction fuel as [|f IH]; intros a ref i j w Hi Hj Hf; [apply Stop; lia|].
  destruct (Z.eq_dec i j) as [E|N]; [apply Stop; exact E|]. cbn [partition_counted]. destruct (Z.ltb_spec i j) as [L|L]; [|lia].
  destruct (down_count (Z.to_nat (j - i)) a ref i j w) as (j1 & Ej & Rj & Hs & Hd); [lia..|]. rewrite Ej. cbn [obind].
  destruct (Z.eqb_spec i j1) as [<-|Ne].
  - cbn [obind]. destruct (up_count (Z.to_nat (i - i)) a ref i i (w + (j - i) + (if i <? i then 1 else 0))) as (i2 & Ei & Ri & _); [lia..|]. rewrite Ei. cbn [obind].
    assert (i2 = i) as -> by lia. rewrite Z.eqb_refl. cbn [obind]. rewrite Z.ltb_irrefl.
    destruct (Stop f a ref i i (w + (j - i) + 0 + (i - i) + 0) eq_refl) as (a' & k & E & Rk & R). exists a', k. rewrite E. split; [do 2 f_equal; lia|]. split; [lia|].
    destruct R as (R1 & R2 & R3 & R4). split; [exact R1|]. split; [exact R2|]. split; [intros _; apply R3; lia|]. intros Eq. exfalso.
    destruct (znth_lt_Some a j) as [x Ex]; [lia|]. specialize (Hd j x ltac:(lia) Ex). rewrite (Eq x) in Hd by (eapply znth_In; exact Ex). lia.
  - destruct (rd_in "sort index" a j1) as (x & Ex & ->); [lia|]. cbn [obind]. destruct (wr_in "sort index" a i x) as (a1 & Ea & La & Ra); [lia|]. rewrite Ea. cbn [obind].
    pose proof (wr_incl a a1 i x Ea (znth_In _ _ _ Ex) ltac:(lia)) as Ia.
    destruct (Z.ltb_spec i j1) as [L1|L1]; [|lia]. destruct (Hs L1) as (x' & Ex' & Cx). rewrite Ex in Ex'. injection Ex' as <-.
    destruct (up_count (Z.to_nat (j1 - (i + 1))) a1 ref (i + 1) j1 (w + (j - j1) + 1)) as (i2 & Ei & Ri & Hu); [lia..|]. rewrite Ei. cbn [obind].
    assert (Sm : (forall p x, i < p <= j -> znth a p = Some x -> cmp ref x < 0) -> False) by (intros S; specialize (S j1 x ltac:(lia) Ex); lia).
    assert (Eqs : (forall x, In x a -> cmp ref x = 0) -> j1 = j /\ i2 = i + 1).
    { intros Eq. split.
      - destruct (Z.eq_dec j1 j) as [|Nj]; [assumption|]. exfalso. destruct (znth_lt_Some a j) as [y Ey]; [lia|]. specialize (Hd j y ltac:(lia) Ey). rewrite (Eq y) in Hd by (eapply znth_In; exact Ey). lia.
      - destruct (Z.eq_dec i2 (i + 1)) as [|Ni]; [assumption|]. exfalso. destruct (znth_lt_Some a1 (i + 1)) as [y Ey]; [lia|]. specialize (Hu (i + 1) y ltac:(lia) Ey). rewrite (Eq y) in Hu by (apply Ia; eapply znth_In; exact Ey). lia. }
    destruct (Z.eqb_spec i2 j1) as [->|N2].
    + cbn [obind]. rewrite Z.ltb_irrefl. destruct (Stop f a1 ref j1 j1 (w + (j - j1) + 1 + (j1 - (i + 1)) + 0) eq_refl) as (a' & k & E & Rk & R1 & R2 & _ & _).
      exists a', k. rewrite E. split; [do 2 f_equal; lia|]. split; [lia|]. split; [lia|]. split; [eapply incl_tran; eauto|]. split; [intros S; destruct (Sm S)|].
      intros Eq. destruct (Eqs Eq) as [E1 E2]. apply Z.div_unique with 0; lia.
    + destruct (rd_in "sort index" a1 i2) as (y & Ey & ->); [lia|]. cbn [obind]. destruct (wr_in "sort index" a1 j1 y) as (a2 & Eb & Lb & Rb); [lia|]. rewrite Eb. cbn [obind].
      pose proof (wr_incl a1 a2 j1 y Eb (znth_In _ _ _ Ey) ltac:(lia)) as Ib. destruct (Z.ltb_spec i2 j1) as [L2|L2]; [|lia].
      destruct (IH a2 ref i2 (j1 - 1) (w + (j - j1) + 1 + (i2 - (i + 1)) + 1)) as (a' & k & E & Rk & R1 & R2 & _ & R4); [lia..|].
      exists a', k. rewrite E. split; [do 2 f_equal; lia|]. split; [lia|]. split; [lia|]. split; [eapply incl_tran; [exact R2|eapply incl_tran; eauto]|]. split; [intros S; destruct (Sm S)|].
      intros Eq. destruct (Eqs Eq) as [E1 E2]. rewrite R4 by (intros z Hz; apply Eq, Ia, Ib, Hz). subst. f_equal. lia.
Qed.

(** [l + r] other elements, neither part more than half: the logarithm goes down by one. *)
Lemma log_part n l : 1 <= l -> 2 * l <= n -> Z.log2 l <= Z.log2 n - 1.
Proof.
  intros H1 H2. assert (Z.log2 (2 * l) <= Z.log2 n) by (apply Z.log2_le_mono; lia). rewrite Z.log2_double in H by lia. lia.
Qed.

Definition increasing (a : list A) (left right : Z) : Prop :=
  forall p q x y, left <= p -> p < q -> q <= right -> znth a p = Some x -> znth a q = Some y -> cmp x y < 0.

Lemma quicksort_count fuel : forall (a : list A) left right w, 0 <= left <= right -> right < zlen a -> right - left < Z.of_nat fuel ->
  exists a' c, quicksort_counted cmp fuel a left right w = Ok (a', w + c) /\ zlen a' = zlen a /\ incl a' a /\
    right - left <= c /\ 2 * c <= (right - left + 1) * (right - left) /\
    (increasing a left right -> a' = a /\ 2 * c = (right - left + 1) * (right - left)) /\
    ((forall x y, In x a -> In y a -> cmp x y = 0) -> c <= (right - left) * Z.log2 (right - left + 1)).
Proof.
  induction fuel as [|f IH]; intros a left right w Hl Hr Hf; [lia|]. cbn [quicksort_counted].
  destruct (rd_in "sort index" a left) as (ref & Er & ->); [lia|]. cbn [obind].
  destruct (partition_count (Z.to_nat (right - left)) a ref left right w) as (a1 & k & E1 & Rk & L1 & I1 & S1 & Q1); [lia..|]. rewrite E1. cbn [obind].
  destruct (wr_in "sort index" a1 k ref) as (a2 & E2 & L2 & R2); [lia|]. rewrite E2. cbn [obind].
  pose proof (znth_In _ _ _ Er) as Hr0.
  assert (I2 : incl a2 a).
  { intros y Hy. apply In_znth in Hy as (p & Hp & Ep). rewrite R2 in Ep. destruct (p =? k); [injection Ep as <-; exact Hr0|]. apply I1. eapply znth_In; eauto. }
  assert (S2 : increasing a left right -> a2 = a /\ k = left).
  { intros Inc. destruct S1 as [-> ->].
    - intros p x Hp Hx. apply (Inc left p ref x); auto; lia.
    - split; [|reflexivity]. apply znth_ext; [lia|]. intros p _. rewrite R2. destruct (Z.eqb_spec p left) as [->|]; auto. }
  assert (B : exists a3 c3, (if left <? k - 1 then quicksort_counted cmp f a2 left (k - 1) (w + (right - left)) else Ok (a2, w + (right - left))) = Ok (a3, w + (right - left) + c3) /\
    zlen a3 = zlen a /\ incl a3 a /\ 0 <= c3 /\ 2 * c3 <= (k - left) * (k - left - 1) /\ (increasing a left right -> a3 = a /\ c3 = 0) /\
    ((forall x y, In x a -> In y a -> cmp x y = 0) -> c3 <= (k - left) * (Z.log2 (right - left + 1) - 1) \/ (k - left <= 1 /\ c3 = 0))).
  { destruct (Z.ltb_spec left (k - 1)) as [Lk|Lk].
    - destruct (IH a2 left (k - 1) (w + (right - left))) as (a3 & c3 & E3 & L3 & I3 & C3 & D3 & _ & Q3); [lia..|].
      exists a3, c3. split; [exact E3|]. split; [lia|]. split; [eapply incl_tran; eauto|]. split; [lia|]. split; [lia|]. split; [intros Inc; destruct (S2 Inc); lia|].
      intros Eq. left. specialize (Q1 ltac:(intros; now apply Eq)). specialize (Q3 ltac:(intros; apply Eq; now apply I2)).
      replace (k - 1 - left + 1) with (k - left) in Q3 by lia.
      assert (Z.log2 (k - left) <= Z.log2 (right - left + 1) - 1) as Lg.
      { apply log_part; [lia|]. subst k. pose proof (Z.div_mod (left + right + 1) 2 ltac:(lia)). pose proof (Z.mod_pos_bound (left + right + 1) 2 ltac:(lia)). lia. }
      pose proof (Z.log2_nonneg (k - left)). nia.
    - exists a2, 0. split; [do 2 f_equal; lia|]. split; [lia|]. split; [exact I2|]. split; [lia|]. split; [nia|]. split; [intros Inc; now destruct (S2 Inc)|]. intros _. right. lia. }
  destruct B as (a3 & c3 & E3 & L3 & I3 & C3 & D3 & S3 & Q3). rewrite E3. cbn [obind].
  assert (N0 : (forall x y, In x a -> In y a -> cmp x y = 0) -> 0 <= left /\ k - left <= right - k + 1 /\ right - k <= k - left /\ 2 * (k - left) <= right - left + 1).
  { intros Eq. specialize (Q1 ltac:(intros; now apply Eq)). subst k. pose proof (Z.div_mod (left + right + 1) 2 ltac:(lia)). pose proof (Z.mod_pos_bound (left + right + 1) 2 ltac:(lia)). lia. }
  assert (Lg0 : 0 <= Z.log2 (right - left + 1)) by apply Z.log2_nonneg.
  assert (Lg1 : left < right -> 1 <= Z.log2 (right - left + 1)).
  { intros L. apply (Z.log2_le_mono 2). lia. }
  destruct (Z.ltb_spec (k + 1) right) as [Lk|Lk].
  - destruct (IH a3 (k + 1) right (w + (right - left) + c3)) as (a4 & c4 & E4 & L4 & I4 & C4 & D4 & S4 & Q4); [lia..|].
    exists a4, (right - left + c3 + c4). rewrite E4. split; [do 2 f_equal; lia|]. split; [lia|]. split; [eapply incl_tran; eauto|]. split; [lia|]. split; [nia|]. split.
    + intros Inc. destruct (S2 Inc) as [-> ->]. destruct (S3 Inc) as [-> ->]. destruct S4 as [-> S4].
      * intros p q x y H1 H2 H3. apply Inc; lia.
      * split; [reflexivity|]. nia.
    + intros Eq. destruct (N0 Eq) as (_ & H1 & H2 & H3). specialize (Q4 ltac:(intros; apply Eq; now apply I3)). replace (right - (k + 1) + 1) with (right - k) in Q4 by lia.
      assert (Z.log2 (right - k) <= Z.log2 (right - left + 1) - 1) as Lg by (apply log_part; lia).
      pose proof (Z.log2_nonneg (right - k)).
      destruct (Q3 Eq) as [Q|[Q ->]]; nia.
  - exists a3, (right - left + c3). split; [do 2 f_equal; lia|]. split; [lia|]. split; [exact I3|]. split; [lia|]. split; [nia|]. split.
    + intros Inc. destruct (S2 Inc) as [-> ->]. destruct (S3 Inc) as [-> ->]. split; [reflexivity|]. nia.
    + intros Eq. destruct (N0 Eq) as (_ & H1 & H2 & H3). destruct (Q3 Eq) as [Q|[Q ->]].
      * nia.
      * destruct (Z.eq_dec left right) as [->|]; [nia|]. specialize (Lg1 ltac:(lia)). nia.
Qed.
End Sort.
