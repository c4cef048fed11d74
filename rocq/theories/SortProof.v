From Verif Require Import Base SortModel SortSpec.
From Coq Require Import Permutation FinFun String.
Local Open Scope string_scope.
Local Open Scope list_scope.
Local Open Scope Z_scope.

Section Sort.
Context {A : Type}.
Variable cmp : A -> A -> Z.
Variable P : A -> Prop.

Definition allP (a : list A) : Prop := forall x, In x a -> P x.

Definition rperm (l r : Z) (a a' : list A) : Prop :=
  zlen a' = zlen a /\
  exists f : Z -> Z,
    (forall p q, f p = f q -> p = q) /\
    (forall p, ~ (l <= p <= r) -> f p = p) /\
    (forall p, l <= p <= r -> l <= f p <= r) /\
    (forall p, znth a' p = znth a (f p)).

Lemma rperm_refl l r a : rperm l r a a.
Proof. split; [reflexivity|]. exists (fun p => p). repeat split; auto; lia. Qed.

Lemma rperm_trans l r a b c : rperm l r a b -> rperm l r b c -> rperm l r a c.
Proof.
  intros [L1 (f & f1 & f2 & f3 & f4)] [L2 (g & g1 & g2 & g3 & g4)].
  split; [congruence|]. exists (fun p => f (g p)). split; [|split; [|split]].
  - auto.
  - intros p Hp. rewrite g2 by auto. auto.
  - intros p Hp. auto.
  - intros p. rewrite g4. auto.
Qed.

Lemma rperm_weaken l r l' r' a b : l' <= l -> r <= r' -> rperm l r a b -> rperm l' r' a b.
Proof.
  intros Hl Hr [L (f & f1 & f2 & f3 & f4)]. split; [auto|]. exists f. split; [auto|].
  split; [|split; [|auto]].
  - intros p Hp. apply f2. lia.
  - intros p Hp.
    destruct (Z_lt_ge_dec p l); [rewrite f2; lia|].
    destruct (Z_lt_ge_dec r p); [rewrite f2; lia|]. specialize (f3 p). lia.
Qed.

Lemma rperm_swap l r i j a b :
  l <= i <= r -> l <= j <= r -> zlen b = zlen a ->
  znth b i = znth a j -> znth b j = znth a i ->
  (forall p, p <> i -> p <> j -> znth b p = znth a p) -> rperm l r a b.
Proof.
  intros Hi Hj HL E1 E2 E3. split; [auto|].
  exists (fun p => if p =? i then j else if p =? j then i else p). split; [|split; [|split]].
  - intros p q. destruct (Z.eqb_spec p i), (Z.eqb_spec p j), (Z.eqb_spec q i), (Z.eqb_spec q j); lia.
  - intros p Hp. destruct (Z.eqb_spec p i), (Z.eqb_spec p j); lia.
  - intros p Hp. destruct (Z.eqb_spec p i), (Z.eqb_spec p j); lia.
  - intros p. destruct (Z.eqb_spec p i) as [->|]; [auto|].
    destruct (Z.eqb_spec p j) as [->|]; auto.
Qed.

Lemma rperm_Permutation l r a b :
  0 <= l -> rperm l r a b -> Permutation a b.
Proof.
  intros Hl [HL (f & f1 & f2 & f3 & f4)]. apply Permutation_nth_error.
  assert (forall p, 0 <= p -> 0 <= f p) as Hpos.
  { intros p Hp. destruct (Z_lt_ge_dec p l); [rewrite f2; lia|].
    destruct (Z_lt_ge_dec r p); [rewrite f2; lia|]. specialize (f3 p). lia. }
  split; [unfold zlen in HL; lia|].
  exists (fun n => Z.to_nat (f (Z.of_nat n))). split.
  - intros p q H. pose proof (Hpos (Z.of_nat p)). pose proof (Hpos (Z.of_nat q)).
    assert (f (Z.of_nat p) = f (Z.of_nat q)) as E by lia. apply f1 in E. lia.
  - intros n. specialize (f4 (Z.of_nat n)). rewrite znth_nth in f4. rewrite f4.
    pose proof (Hpos (Z.of_nat n)). unfold znth.
    destruct (Z.ltb_spec (f (Z.of_nat n)) 0); [lia|reflexivity].
Qed.

Lemma rd_in msg (a : list A) i : 0 <= i < zlen a -> exists x, znth a i = Some x /\ rd msg a i = Ok x.
Proof. intros H. destruct (znth_lt_Some a i H) as [x E]. exists x. unfold rd. now rewrite E. Qed.

Lemma wr_in msg (a : list A) i x : 0 <= i < zlen a ->
  exists a', wr msg a i x = Ok a' /\ zlen a' = zlen a /\
    (forall p, znth a' p = if p =? i then Some x else znth a p).
Proof.
  intros H. destruct (zset_lt_Some a i x H) as [a' E]. exists a'. unfold wr. rewrite E.
  split; [auto|]. split; [eapply zset_zlen; eauto|eapply zset_znth; eauto].
Qed.

Lemma scan_down_spec fuel a ref i j :
  0 <= i -> i <= j < zlen a -> j - i <= Z.of_nat fuel ->
  exists j', scan_down cmp fuel a ref i j = Ok j' /\ i <= j' <= j /\
    (forall p x, j' < p <= j -> znth a p = Some x -> cmp ref x < 0) /\
    (i < j' -> exists x, znth a j' = Some x /\ 0 <= cmp ref x).
Proof.
  revert j; induction fuel as [|fuel IH]; intros j Hi Hj Hf; cbn [scan_down];
    (destruct (Z.ltb_spec i j);
      [|exists j; split; [reflexivity|]; split; [lia|]; split; [lia|lia]]).
  - lia.
  - destruct (rd_in "sort index" a j) as (x & Ex & ->); [lia|]. cbn [obind].
    destruct (Z.ltb_spec (cmp ref x) 0).
    + destruct (IH (j - 1)) as (j' & E & Hr & H1 & H2); [lia|lia|lia|].
      exists j'. split; [exact E|]. split; [lia|]. split; [|exact H2].
      intros p y Hp Ey. destruct (Z.eq_dec p j) as [->|]; [congruence|].
      apply (H1 p y); [lia|exact Ey].
    + exists j. split; [reflexivity|]. split; [lia|]. split; [lia|].
      intros _. exists x. split; [exact Ex|lia].
Qed.

Lemma scan_up_spec fuel a ref i j :
  0 <= i -> i <= j < zlen a -> j - i <= Z.of_nat fuel ->
  exists i', scan_up cmp fuel a ref i j = Ok i' /\ i <= i' <= j /\
    (forall p x, i <= p < i' -> znth a p = Some x -> 0 < cmp ref x) /\
    (i' < j -> exists x, znth a i' = Some x /\ cmp ref x <= 0).
Proof.
  revert i; induction fuel as [|fuel IH]; intros i Hi Hj Hf; cbn [scan_up];
    (destruct (Z.ltb_spec i j);
      [|exists i; split; [reflexivity|]; split; [lia|]; split; [lia|lia]]).
  - lia.
  - destruct (rd_in "sort index" a i) as (x & Ex & ->); [lia|]. cbn [obind].
    destruct (Z.ltb_spec 0 (cmp ref x)).
    + destruct (IH (i + 1)) as (i' & E & Hr & H1 & H2); [lia|lia|lia|].
      exists i'. split; [exact E|]. split; [lia|]. split; [|exact H2].
      intros p y Hp Ey. destruct (Z.eq_dec p i) as [->|]; [congruence|].
      apply (H1 p y); [lia|exact Ey].
    + exists i. split; [reflexivity|]. split; [lia|]. split; [lia|].
      intros _. exists x. split; [exact Ex|lia].
Qed.

(** [b] is the array with the reference element put back into the hole. *)
Definition filled (a : list A) (hole : Z) (ref : A) (b : list A) : Prop :=
  zlen b = zlen a /\ forall p, znth b p = if p =? hole then Some ref else znth a p.

Lemma partition_loop_spec fuel a ref i j left right b :
  0 <= left <= i -> i <= j <= right -> right < zlen a -> j - i <= Z.of_nat fuel ->
  filled a i ref b ->
  (forall p x, left <= p < i -> znth a p = Some x -> 0 <= cmp ref x) ->
  (forall p x, j < p <= right -> znth a p = Some x -> cmp ref x <= 0) ->
  exists a' k b', partition_loop cmp fuel a ref i j = Ok (a', k, k) /\
    left <= k <= right /\ zlen a' = zlen a /\ filled a' k ref b' /\ rperm left right b b' /\
    (forall p x, left <= p < k -> znth a' p = Some x -> 0 <= cmp ref x) /\
    (forall p x, k < p <= right -> znth a' p = Some x -> cmp ref x <= 0).
Proof.
  revert a i j b; induction fuel as [|fuel IH]; intros a i j b Hi Hj Hr Hf Fb Hlo Hhi;
    cbn [partition_loop];
    (destruct (Z.ltb_spec i j) as [Hij|Hij];
      [|assert (j = i) as -> by lia; exists a, i, b;
        repeat (split; [first [reflexivity|lia|assumption|apply rperm_refl]|]); assumption]).
  { lia. }
  destruct (scan_down_spec (Z.to_nat (j - i)) a ref i j) as (j1 & E1 & Hj1 & D1 & D2); [lia|lia|lia|].
  rewrite E1. cbn [obind].
  destruct (Z.eqb_spec i j1) as [Eij|Nij].
  - (* everything to the right is bigger: done *)
    subst j1. cbn [obind].
    replace (scan_up cmp (Z.to_nat (i - i)) a ref i i) with (@Ok Z i)
      by (rewrite Z.sub_diag; cbn; now rewrite Z.ltb_irrefl).
    cbn [obind]. rewrite Z.eqb_refl. cbn [obind].
    destruct (IH a i i b) as (a' & k & b' & E & R); auto; try lia.
    { intros p x Hp Ex. destruct (Z_lt_ge_dec j p).
      - apply (Hhi p x); [lia|exact Ex].
      - assert (cmp ref x < 0) by (apply (D1 p x); [lia|exact Ex]). lia. }
    exists a', k, b'. split; [exact E|exact R].
  - destruct D2 as (y & Ey & Hy); [lia|].
    unfold rd at 1. rewrite Ey. cbn [obind].
    destruct (wr_in "sort index" a i y) as (a1 & W1 & L1 & Z1); [lia|].
    rewrite W1. cbn [obind].
    destruct (scan_up_spec (Z.to_nat (j1 - (i + 1))) a1 ref (i + 1) j1)
      as (i1 & E2 & Hi1 & U1 & U2); [lia|rewrite L1; lia|lia|].
    rewrite E2. cbn [obind].
    (* array with the hole moved to j1 *)
    destruct Fb as [FbL Fb].
    assert (exists b1, filled a1 j1 ref b1 /\ rperm left right b b1) as (b1 & Fb1 & P1).
    { destruct (wr_in "" a1 j1 ref) as (b1 & _ & Lb1 & Zb1); [lia|].
      exists b1. split; [split; [lia|exact Zb1]|].
      apply (rperm_swap left right i j1); try lia.
      - rewrite Zb1, Z1, Fb. destruct (Z.eqb_spec i j1); [lia|]. rewrite Z.eqb_refl.
        destruct (Z.eqb_spec j1 i); [lia|]. now rewrite Ey.
      - rewrite Zb1, Fb, !Z.eqb_refl. reflexivity.
      - intros p Hp1 Hp2. rewrite Zb1, Z1, Fb.
        destruct (Z.eqb_spec p j1), (Z.eqb_spec p i); congruence. }
    assert (forall p x, left <= p < i1 -> znth a1 p = Some x -> 0 <= cmp ref x) as Hlo1.
    { intros p x Hp Ex. destruct (Z_lt_ge_dec p (i + 1)).
      - rewrite Z1 in Ex. destruct (Z.eqb_spec p i); [congruence|].
        apply (Hlo p x); [lia|exact Ex].
      - assert (0 < cmp ref x) by (apply (U1 p x); [lia|exact Ex]). lia. }
    assert (forall p x, j1 < p <= right -> znth a1 p = Some x -> cmp ref x <= 0) as Hhi1.
    { intros p x Hp Ex. rewrite Z1 in Ex. destruct (Z.eqb_spec p i); [lia|].
      destruct (Z_lt_ge_dec j p).
      - apply (Hhi p x); [lia|exact Ex].
      - assert (cmp ref x < 0) by (apply (D1 p x); [lia|exact Ex]). lia. }
    destruct (Z.eqb_spec i1 j1) as [Eij|Nij1].
    + subst i1. cbn [obind].
      destruct (IH a1 j1 j1 b1) as (a' & k & b' & E & R1 & R2 & R3 & R4 & R5); auto; try lia.
      exists a', k, b'. split; [exact E|]. split; [lia|]. split; [lia|]. split; [auto|].
      split; [eapply rperm_trans; eauto|exact R5].
    + destruct U2 as (z & Ez & Hz); [lia|]. unfold rd at 1. rewrite Ez. cbn [obind].
      destruct (wr_in "sort index" a1 j1 z) as (a2 & W2 & L2 & Z2); [lia|].
      rewrite W2. cbn [obind].
      destruct Fb1 as [Fb1L Fb1].
      assert (exists b2, filled a2 i1 ref b2 /\ rperm left right b1 b2) as (b2 & Fb2 & P2).
      { destruct (wr_in "" a2 i1 ref) as (b2 & _ & Lb2 & Zb2); [lia|].
        exists b2. split; [split; [lia|exact Zb2]|].
        apply (rperm_swap left right j1 i1); try lia.
        - rewrite Zb2, Z2, Fb1. destruct (Z.eqb_spec j1 i1); [lia|]. rewrite Z.eqb_refl.
          destruct (Z.eqb_spec i1 j1); [lia|]. now rewrite Ez.
        - rewrite Zb2, Fb1, !Z.eqb_refl. reflexivity.
        - intros p Hp1 Hp2. rewrite Zb2, Z2, Fb1.
          destruct (Z.eqb_spec p i1), (Z.eqb_spec p j1); congruence. }
      destruct (IH a2 i1 (j1 - 1) b2) as (a' & k & b' & E & R1 & R2 & R3 & R4 & R5); auto; try lia.
      { intros p x Hp Ex. rewrite Z2 in Ex. destruct (Z.eqb_spec p j1); [lia|].
        apply (Hlo1 p x); [lia|exact Ex]. }
      { intros p x Hp Ex. rewrite Z2 in Ex. destruct (Z.eqb_spec p j1) as [|].
        - congruence.
        - apply (Hhi1 p x); [lia|exact Ex]. }
      exists a', k, b'. split; [exact E|]. split; [lia|]. split; [lia|]. split; [auto|].
      split; [|exact R5]. eapply rperm_trans; [exact P1|]. eapply rperm_trans; eauto.
Qed.

Lemma allP_rperm l r a b : 0 <= l -> rperm l r a b -> allP a -> allP b.
Proof.
  intros Hl H Ha x Hx. apply Ha. eapply Permutation_in; [|exact Hx].
  apply Permutation_sym. eapply rperm_Permutation; eauto.
Qed.

Definition sorted_range (l r : Z) (a : list A) : Prop :=
  forall p q x y, l <= p -> p < q -> q <= r -> znth a p = Some x -> znth a q = Some y ->
    cmp x y <= 0.

Lemma quicksort_spec fuel a left right :
  0 <= left <= right -> right < zlen a -> right - left < Z.of_nat fuel ->
  exists a', quicksort cmp fuel a left right = Ok a' /\ rperm left right a a' /\
    (preorder_on P cmp -> allP a -> sorted_range left right a').
Proof.
  revert a left right; induction fuel as [|fuel IH]; intros a left right Hl Hr Hf; [lia|].
  cbn [quicksort]. destruct (rd_in "sort index" a left) as (ref & Er & ->); [lia|]. cbn [obind].
  destruct (partition_loop_spec (Z.to_nat (right - left)) a ref left right left right a)
    as (a1 & k & b & E1 & Hk & L1 & [Fl F] & P1 & Hlo & Hhi); try lia.
  { split; [reflexivity|]. intros p. destruct (Z.eqb_spec p left) as [->|]; auto. }
  rewrite E1. cbn [obind].
  destruct (wr_in "sort index" a1 k ref) as (b' & W & Lb & Zb); [lia|].
  rewrite W. cbn [obind].
  assert (b' = b) as ->.
  { apply znth_ext; [lia|]. intros p Hp. rewrite Zb, F. reflexivity. }
  assert (forall p x, left <= p < k -> znth b p = Some x -> 0 <= cmp ref x) as Hlo1.
  { intros p x Hp Ex. rewrite F in Ex. destruct (Z.eqb_spec p k); [lia|]. eauto. }
  assert (forall p x, k < p <= right -> znth b p = Some x -> cmp ref x <= 0) as Hhi1.
  { intros p x Hp Ex. rewrite F in Ex. destruct (Z.eqb_spec p k); [lia|]. eauto. }
  assert (znth b k = Some ref) as Ek by (rewrite F, Z.eqb_refl; reflexivity).
  (* left part *)
  assert (exists b1, (if left <? k - 1 then quicksort cmp fuel b left (k - 1) else Ok b) = Ok b1 /\
            rperm left (k - 1) b b1 /\ (preorder_on P cmp -> allP a -> sorted_range left (k - 1) b1))
    as (b1 & Eb1 & P2 & S1).
  { destruct (Z.ltb_spec left (k - 1)).
    - destruct (IH b left (k - 1)) as (b1 & E & Pm & S); [lia|lia|lia|].
      exists b1. split; [exact E|]. split; [exact Pm|]. intros Pre Ha. apply (S Pre).
      eapply allP_rperm; [|exact P1|exact Ha]; lia.
    - exists b. split; [reflexivity|]. split; [apply rperm_refl|].
      intros _ _ p q x y ? ? ?. lia. }
  rewrite Eb1. cbn [obind].
  assert (exists b2, (if k + 1 <? right then quicksort cmp fuel b1 (k + 1) right else Ok b1) = Ok b2 /\
            rperm (k + 1) right b1 b2 /\ (preorder_on P cmp -> allP a -> sorted_range (k + 1) right b2))
    as (b2 & Eb2 & P3 & S2).
  { destruct (Z.ltb_spec (k + 1) right).
    - pose proof P2 as [Lp _].
      destruct (IH b1 (k + 1) right) as (b2 & E & Pm & S); [lia|lia|lia|].
      exists b2. split; [exact E|]. split; [exact Pm|]. intros Pre Ha. apply (S Pre).
      eapply allP_rperm; [|exact P2|]; [lia|].
      eapply allP_rperm; [|exact P1|exact Ha]; lia.
    - exists b1. split; [reflexivity|]. split; [apply rperm_refl|].
      intros _ _ p q x y ? ? ?. lia. }
  exists b2. split; [exact Eb2|]. split.
  - eapply rperm_trans; [exact P1|].
    eapply rperm_trans; [eapply rperm_weaken; [| |exact P2]; lia|].
    eapply rperm_weaken; [| |exact P3]; lia.
  - intros Pre Ha p q x y Hp Hpq Hq Ex Ey.
    assert (allP b2) as Hb2.
    { eapply allP_rperm; [|exact P3|]; [lia|]. eapply allP_rperm; [|exact P2|]; [lia|].
      eapply allP_rperm; [|exact P1|exact Ha]; lia. }
    assert (P ref) as Pref by (apply Ha; eapply znth_In; eauto).
    assert (P x) as Px by (apply Hb2; eapply znth_In; eauto).
    assert (P y) as Py by (apply Hb2; eapply znth_In; eauto).
    destruct P2 as [_ (f & f1 & f2 & f3 & f4)]. destruct P3 as [_ (g & g1 & g2 & g3 & g4)].
    assert (forall p x, left <= p < k -> znth b2 p = Some x -> cmp x ref <= 0) as HL.
    { intros p' x' Hp' E'.
      assert (P x') as Px' by (apply Hb2; eapply znth_In; eauto).
      rewrite g4, (g2 p') in E' by lia. rewrite f4 in E'.
      specialize (f3 p'). assert (0 <= cmp ref x') as Hc by (apply (Hlo1 (f p')); [lia|exact E']).
      pose proof (proj2 (cmp_flip _ _ Pre ref x' Pref Px')). lia. }
    assert (forall p x, k < p <= right -> znth b2 p = Some x -> cmp ref x <= 0) as HR.
    { intros p' x' Hp' E'. specialize (g3 p'). rewrite g4 in E'.
      rewrite f4, (f2 (g p')) in E' by lia. apply (Hhi1 (g p')); [lia|exact E']. }
    assert (znth b2 k = Some ref) as Ek2.
    { rewrite g4, (g2 k), f4, (f2 k) by lia. exact Ek. }
    destruct (Z_lt_ge_dec q k) as [Hqk|Hqk].
    + apply (S1 Pre Ha p q); try lia.
      * rewrite g4, (g2 p) in Ex by lia. exact Ex.
      * rewrite g4, (g2 q) in Ey by lia. exact Ey.
    + destruct (Z_lt_ge_dec k p) as [Hkp|Hkp].
      * apply (S2 Pre Ha p q); auto; lia.
      * assert (cmp x ref <= 0) as H1.
        { destruct (Z.eq_dec p k) as [->|].
          - rewrite Ek2 in Ex. injection Ex as <-.
            pose proof (cmp_flip _ _ Pre ref ref Pref Pref). lia.
          - apply (HL p); [lia|exact Ex]. }
        assert (cmp ref y <= 0) as H2.
        { destruct (Z.eq_dec q k) as [->|].
          - rewrite Ek2 in Ey. injection Ey as <-.
            pose proof (cmp_flip _ _ Pre ref ref Pref Pref). lia.
          - apply (HR q); [lia|exact Ey]. }
        apply (cmp_trans _ _ Pre x ref y); auto.
Qed.

Lemma sort_spec a :
  exists a', sort cmp (zlen a) a = Ok a' /\ Permutation a a' /\ (preorder_on P cmp -> allP a -> sorted cmp a').
Proof.
  unfold sort. destruct (Z.ltb_spec (zlen a) 2).
  - exists a. split; [reflexivity|]. split; [reflexivity|].
    intros _ _ p q x y Hpq Ex Ey. exfalso.
    assert (nth_error a q <> None) as Hn by congruence. apply nth_error_Some in Hn.
    unfold zlen in *. lia.
  - destruct (quicksort_spec (Z.to_nat (zlen a)) a 0 (zlen a - 1)) as (a' & E & Pm & S);
      [lia|lia|lia|].
    exists a'. split; [exact E|]. split; [eapply rperm_Permutation; [|exact Pm]; lia|].
    intros Pre Ha p q x y Hpq Ex Ey.
    apply (S Pre Ha (Z.of_nat p) (Z.of_nat q)); rewrite ?znth_nth; auto; try lia.
    destruct Pm as [L _]. assert (nth_error a' q <> None) as Hn by congruence.
    apply nth_error_Some in Hn. unfold zlen in *. lia.
Qed.
End Sort.

(** Sorted permutations of one another are equal when distinct elements never compare equal. *)
Lemma sorted_tail {A} (cmp : A -> A -> Z) x l : sorted cmp (x :: l) -> sorted cmp l.
Proof. intros H p q y z Hpq Ey Ez. apply (H (S p) (S q)); auto. lia. Qed.

Lemma sorted_head {A} (cmp : A -> A -> Z) x l y : sorted cmp (x :: l) -> In y l -> cmp x y <= 0.
Proof.
  intros H Hy. apply In_nth_error in Hy. destruct Hy as [n Hn].
  apply (H 0%nat (S n)); auto. lia.
Qed.

Lemma sorted_unique {A} (P : A -> Prop) (cmp : A -> A -> Z) (l1 l2 : list A) :
  preorder_on P cmp -> (forall x, In x l1 -> P x) ->
  (forall x y, In x l1 -> In y l1 -> cmp x y = 0 -> x = y) ->
  Permutation l1 l2 -> sorted cmp l1 -> sorted cmp l2 -> l1 = l2.
Proof.
  intros Pre. revert l2; induction l1 as [|x l1 IH]; intros l2 HP Hinj Pm S1 S2.
  - apply Permutation_nil in Pm. now subst.
  - destruct l2 as [|y l2]; [apply Permutation_sym, Permutation_nil in Pm; discriminate|].
    assert (In y (x :: l1)) as Hy by (eapply Permutation_in; [apply Permutation_sym; exact Pm|now left]).
    assert (In x (y :: l2)) as Hx by (eapply Permutation_in; [exact Pm|now left]).
    assert (x = y) as ->.
    { destruct Hy as [->|Hy]; [reflexivity|]. destruct Hx as [->|Hx]; [reflexivity|].
      pose proof (sorted_head cmp x l1 y S1 Hy). pose proof (sorted_head cmp y l2 x S2 Hx).
      apply Hinj; [now left|now right|].
      pose proof (cmp_flip _ _ Pre x y (HP x (or_introl eq_refl)) (HP y (or_intror Hy))). lia. }
    f_equal. apply IH.
    + intros z Hz. apply HP. now right.
    + intros a b Ha Hb. apply Hinj; now right.
    + eapply Permutation_cons_inv; eauto.
    + eapply sorted_tail; eauto.
    + eapply sorted_tail; eauto.
Qed.
