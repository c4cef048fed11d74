(** C06: sort on a part of an array, and what it knows about the elements. *)
From Coq Require Import String Permutation.
From Verif Require Import Base SortModel SortSpec SortProof SortProps.
Local Open Scope Z_scope.
Local Open Scope list_scope.

(** Two runs in step: arrays [a] and [b ++ rest] with related elements. *)
Section Step.
Context {A B : Type} (R : A -> B -> Prop) (ca : A -> A -> Z) (cb : B -> B -> Z) (rest : list B).
Hypothesis Lt : forall x x' y y', R x x' -> R y y' -> (ca x y <? 0) = (cb x' y' <? 0).
Hypothesis Gt : forall x x' y y', R x x' -> R y y' -> (0 <? ca x y) = (0 <? cb x' y').

Let same (a : list A) (b : list B) : Prop := exists b0, b = b0 ++ rest /\ Forall2 R a b0.

Lemma rd_same m a b i x : same a b -> rd m a i = Ok x -> exists x', rd m b i = Ok x' /\ R x x'.
Proof.
  intros (b0 & -> & F) E. unfold rd, znth in *. destruct (i <? 0); [discriminate|].
  destruct (nth_error a (Z.to_nat i)) as [y|] eqn:N; [|discriminate]. injection E as ->.
  revert b0 F N. generalize (Z.to_nat i). induction a as [|z a IH]; intros n b0 F N; [destruct n; discriminate|].
  inversion F as [|? z' ? b1 Hz Hb]; subst. destruct n as [|n]; cbn [nth_error app] in *.
  - injection N as ->. eauto.
  - exact (IH n b1 Hb N).
Qed.

Lemma wr_same m a b i x x' a1 : same a b -> R x x' -> wr m a i x = Ok a1 -> exists b1, wr m b i x' = Ok b1 /\ same a1 b1.
Proof.
  intros (b0 & -> & F) X E. unfold wr, zset in *. destruct (i <? 0); [discriminate|].
  destruct (set_nth a (Z.to_nat i) x) as [y|] eqn:N; [|discriminate]. injection E as ->.
  assert (exists b1, set_nth (b0 ++ rest) (Z.to_nat i) x' = Some (b1 ++ rest) /\ Forall2 R a1 b1) as (b1 & -> & F1).
  { revert a1 b0 F N. generalize (Z.to_nat i). induction a as [|z a IH]; intros n a1 b0 F N; [destruct n; discriminate|].
    inversion F as [|? z' ? b1 Hz Hb]; subst. destruct n as [|n]; cbn [set_nth app] in *.
    - injection N as <-. exists (x' :: b1). split; [reflexivity|]. now constructor.
    - destruct (set_nth a n x) as [t|] eqn:T; [|discriminate]. injection N as <-.
      destruct (IH n t b1 Hb T) as (b2 & -> & F2). exists (z' :: b2). split; [reflexivity|]. now constructor. }
  exists (b1 ++ rest). split; [reflexivity|]. exists b1. auto.
Qed.

Lemma down_same fuel : forall a b x x' i j k, same a b -> R x x' -> scan_down ca fuel a x i j = Ok k -> scan_down cb fuel b x' i j = Ok k.
Proof.
  induction fuel as [|fuel IH]; intros a b x x' i j k S X E; cbn [scan_down] in *; (destruct (i <? j); [|exact E]);
    (destruct (rd "sort index" a j) as [y|s|s|] eqn:D; try discriminate); cbn [obind] in E; destruct (rd_same _ _ _ _ _ S D) as (y' & -> & Y); cbn [obind];
    rewrite <- (Lt x x' y y' X Y); destruct (ca x y <? 0); try exact E; try discriminate. exact (IH _ _ _ _ _ _ _ S X E).
Qed.

Lemma up_same fuel : forall a b x x' i j k, same a b -> R x x' -> scan_up ca fuel a x i j = Ok k -> scan_up cb fuel b x' i j = Ok k.
Proof.
  induction fuel as [|fuel IH]; intros a b x x' i j k S X E; cbn [scan_up] in *; (destruct (i <? j); [|exact E]);
    (destruct (rd "sort index" a i) as [y|s|s|] eqn:D; try discriminate); cbn [obind] in E; destruct (rd_same _ _ _ _ _ S D) as (y' & -> & Y); cbn [obind];
    rewrite <- (Gt x x' y y' X Y); destruct (0 <? ca x y); try exact E; try discriminate. exact (IH _ _ _ _ _ _ _ S X E).
Qed.

Lemma put_same a b i j (k l : Z) a1 : same a b ->
  (if i =? j then Ok (a, l) else let! x := rd "sort index" a i in let! a := wr "sort index" a j x in Ok (a, k)) = Ok a1 ->
  exists b1, (if i =? j then Ok (b, l) else let! x := rd "sort index" b i in let! b := wr "sort index" b j x in Ok (b, k)) = Ok (b1, snd a1) /\ same (fst a1) b1.
Proof.
  intros S E. destruct (i =? j); [injection E as <-; exists b; auto|]. destruct (rd "sort index" a i) as [y|s|s|] eqn:D; try discriminate. cbn [obind] in E.
  destruct (rd_same _ _ _ _ _ S D) as (y' & -> & Y). cbn [obind]. destruct (wr "sort index" a j y) as [t|s|s|] eqn:W; try discriminate. cbn [obind] in E. injection E as <-.
  destruct (wr_same _ _ _ _ _ _ _ S Y W) as (b1 & -> & S1). exists b1. auto.
Qed.

Lemma partition_same fuel : forall a b x x' i j a1 i1 j1, same a b -> R x x' -> partition_loop ca fuel a x i j = Ok (a1, i1, j1) ->
  exists b1, partition_loop cb fuel b x' i j = Ok (b1, i1, j1) /\ same a1 b1.
Proof.
  induction fuel as [|fuel IH]; intros a b x x' i j a1 i1 j1 S X E; cbn [partition_loop] in *; (destruct (i <? j); [|injection E as <- <- <-; exists b; auto]); [discriminate|].
  destruct (scan_down ca (Z.to_nat (j - i)) a x i j) as [k|s|s|] eqn:D; try discriminate. cbn [obind] in E. rewrite (down_same _ _ _ _ _ _ _ _ S X D). cbn [obind].
  match type of E with obind ?t _ = _ => destruct t as [[a2 i2]|s|s|] eqn:T; try discriminate end. cbn [obind] in E.
  rewrite Z.eqb_sym in T. destruct (put_same _ _ _ _ _ _ _ S T) as (b2 & T' & S2). rewrite Z.eqb_sym in T'. rewrite T'. cbn [obind fst snd] in *. clear T T'.
  destruct (scan_up ca (Z.to_nat (k - i2)) a2 x i2 k) as [l|s|s|] eqn:U; try discriminate. cbn [obind] in E. rewrite (up_same _ _ _ _ _ _ _ _ S2 X U). cbn [obind].
  match type of E with obind ?t _ = _ => destruct t as [[a3 j3]|s|s|] eqn:T; try discriminate end. cbn [obind] in E.
  destruct (put_same _ _ _ _ _ _ _ S2 T) as (b3 & -> & S3). cbn [obind fst snd] in *. exact (IH _ _ _ _ _ _ _ _ _ S3 X E).
Qed.

Lemma quicksort_same fuel : forall a b left right a1, same a b -> quicksort ca fuel a left right = Ok a1 ->
  exists b1, quicksort cb fuel b left right = Ok b1 /\ same a1 b1.
Proof.
  induction fuel as [|fuel IH]; intros a b left right a1 S E; cbn [quicksort] in *; [discriminate|].
  destruct (rd "sort index" a left) as [x|s|s|] eqn:D; try discriminate. cbn [obind] in E. destruct (rd_same _ _ _ _ _ S D) as (x' & -> & X). cbn [obind].
  destruct (partition_loop ca (Z.to_nat (right - left)) a x left right) as [[[a2 i] j]|s|s|] eqn:T; try discriminate. cbn [obind] in E.
  destruct (partition_same _ _ _ _ _ _ _ _ _ _ S X T) as (b2 & -> & S2). cbn [obind].
  destruct (wr "sort index" a2 j x) as [a3|s|s|] eqn:W; try discriminate. cbn [obind] in E. destruct (wr_same _ _ _ _ _ _ _ S2 X W) as (b3 & -> & S3). cbn [obind].
  match type of E with obind ?t _ = _ => destruct t as [a4|s|s|] eqn:Q; try discriminate end. cbn [obind] in E.
  assert (exists b4, (if left <? j - 1 then quicksort cb fuel b3 left (j - 1) else Ok b3) = Ok b4 /\ same a4 b4) as (b4 & -> & S4).
  { destruct (left <? j - 1); [exact (IH _ _ _ _ _ S3 Q)|]. injection Q as <-. exists b3. auto. }
  cbn [obind]. destruct (i + 1 <? right); [exact (IH _ _ _ _ _ S4 E)|]. injection E as <-. exists b4. auto.
Qed.

Lemma sort_same n a b a1 : Forall2 R a b -> sort ca n a = Ok a1 -> exists b1, sort cb n (b ++ rest) = Ok (b1 ++ rest) /\ Forall2 R a1 b1.
Proof.
  intros F E. unfold sort in *. destruct (n <? 2); [injection E as <-; exists b; auto|].
  destruct (quicksort_same _ _ (b ++ rest) _ _ _ (ex_intro _ b (conj eq_refl F)) E) as (b1 & -> & b2 & -> & F2). exists b2. auto.
Qed.
End Step.

Lemma eq_forall2 {A} (a b : list A) : Forall2 eq a b -> a = b.
Proof. induction 1; congruence. Qed.
Lemma forall2_eq {A} (a : list A) : Forall2 eq a a.
Proof. induction a; auto. Qed.

(** C06: asked to sort the first elements of a longer array, sort sorts these and neither moves nor
    looks at the others: whatever stands behind them, the result is the same. *)
Theorem C06_part : forall (A : Type) (cmp : A -> A -> Z) (a rest : list A),
  exists a', sort cmp (zlen a) (a ++ rest) = Ok (a' ++ rest) /\ sort cmp (zlen a) a = Ok a' /\ Permutation a a' /\
    (forall P : A -> Prop, preorder_on P cmp -> (forall x, In x a -> P x) -> sorted cmp a').
Proof.
  intros A cmp a rest. destruct (C06_sort A cmp a) as (a' & E & Pm & S). exists a'. split; [|auto].
  destruct (sort_same eq cmp cmp rest) with (n := zlen a) (a := a) (b := a) (a1 := a') as (b & Eb & F); [congruence|congruence|apply forall2_eq|exact E|].
  now rewrite (eq_forall2 _ _ F).
Qed.
Print Assumptions C06_part.

(** C06: sort knows of the elements only the signs of their comparisons.  If the elements are
    replaced by others whose comparisons have the same signs, the result is the replaced result. *)
Theorem C06_only_signs : forall (A B : Type) (f : A -> B) (cmp : A -> A -> Z) (cmp2 : B -> B -> Z) (a : list A),
  (forall x y, In x a -> In y a -> Z.sgn (cmp2 (f x) (f y)) = Z.sgn (cmp x y)) ->
  exists a', sort cmp (zlen a) a = Ok a' /\ sort cmp2 (zlen a) (map f a) = Ok (map f a').
Proof.
  intros A B f cmp cmp2 a H. destruct (C06_sort A cmp a) as (a' & E & _ & _). exists a'. split; [exact E|].
  assert (Ra : Forall2 (fun x y => In x a /\ y = f x) a (map f a)).
  { assert (G : forall l, (forall x, In x l -> In x a) -> Forall2 (fun x y => In x a /\ y = f x) l (map f l)); [|now apply G].
    induction l as [|x l IH]; intros Hl; constructor; [split; [apply Hl; now left|reflexivity]|apply IH; intros; apply Hl; now right]. }
  destruct (sort_same (fun x y => In x a /\ y = f x) cmp cmp2 []) with (n := zlen a) (a := a) (b := map f a) (a1 := a') as (b & Eb & F).
  - intros x x' y y' (Hx & ->) (Hy & ->). specialize (H x y Hx Hy). destruct (Z.ltb_spec (cmp x y) 0), (Z.ltb_spec (cmp2 (f x) (f y)) 0); lia.
  - intros x x' y y' (Hx & ->) (Hy & ->). specialize (H x y Hx Hy). destruct (Z.ltb_spec 0 (cmp x y)), (Z.ltb_spec 0 (cmp2 (f x) (f y))); lia.
  - exact Ra.
  - exact E.
  - rewrite !app_nil_r in Eb. rewrite Eb. f_equal. clear - F. induction F as [|x y l l' (_ & ->) F IH]; [reflexivity|]. cbn [map]. now rewrite IH.
Qed.
Print Assumptions C06_only_signs.

(** C06: sort is not stable: elements that compare equal may change places, so a caller may only
    rely on the order of equal elements when the routine tells them apart. *)
Theorem C06_stable_refuted :
  ~ (forall (a : list (Z * Z)) a', sort (fun x y => fst x - fst y) (zlen a) a = Ok a' ->
       forall k, filter (fun x => fst x =? k) a' = filter (fun x => fst x =? k) a).
Proof.
  intros H. specialize (H [(1, 0); (1, 1)] [(1, 1); (1, 0)] eq_refl 1). discriminate.
Qed.
Print Assumptions C06_stable_refuted.

(** The hypothesis of [C06_only_signs]: the elements scaled and shifted. *)
Example C06_only_signs_ex :
  (forall x y, In x [7; 3; 5] -> In y [7; 3; 5] -> Z.sgn ((10 * x + 1) - (10 * y + 1)) = Z.sgn (x - y)) /\
  sort Z.sub 3 [7; 3; 5] = Ok [3; 5; 7] /\ sort Z.sub 3 (map (fun x => 10 * x + 1) [7; 3; 5] ++ [0]) = Ok [31; 51; 71; 0].
Proof. split; [intros; lia|split; reflexivity]. Qed.
