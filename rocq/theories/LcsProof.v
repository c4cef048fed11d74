(** Furthest reaching paths: correctness of compute_pathlist and obtain_matches. *)
From Coq Require Import String.
From Verif Require Import Base CLib LcsModel LcsSpec.
Local Open Scope Z_scope.
Local Open Scope list_scope.

Section Lcs.
Variables a b : list Z.
Local Notation m := (zlen a).
Local Notation n := (zlen b).

(** The point (i, j) is reached with [p] insertions and deletions. *)
Inductive reach : Z -> Z -> Z -> Prop :=
| reach_start : reach 0 0 0
| reach_diag p i j x : reach p i j -> znth a i = Some x -> znth b j = Some x -> reach p (i + 1) (j + 1)
| reach_del p i j : reach p i j -> i < m -> reach (p + 1) (i + 1) j
| reach_ins p i j : reach p i j -> j < n -> reach (p + 1) i (j + 1).

Lemma reach_range p i j : reach p i j -> 0 <= p /\ 0 <= i <= m /\ 0 <= j <= n.
Proof.
  induction 1 as [|p i j x H IH E0 E1|p i j H IH L|p i j H IH L];
    pose proof (zlen_nonneg a); pose proof (zlen_nonneg b); try lia.
  apply znth_Some_lt in E0, E1. lia.
Qed.

Lemma reach_diff p i j : reach p i j -> - p <= j - i <= p /\ (j - i + p) mod 2 = 0.
Proof.
  induction 1 as [|p i j x H IH E0 E1|p i j H IH L|p i j H IH L]; try (cbn; lia);
    Z.to_euclidean_division_equations; lia.
Qed.

(** Equal stretches along a diagonal. *)
Definition run (k i0 i1 : Z) : Prop :=
  forall i, i0 <= i < i1 -> exists x, znth a i = Some x /\ znth b (i + k) = Some x.

Lemma reach_run p k i0 i1 : reach p i0 (i0 + k) -> i0 <= i1 -> run k i0 i1 -> reach p i1 (i1 + k).
Proof.
  intros R L H. replace i1 with (i0 + Z.of_nat (Z.to_nat (i1 - i0))) in * by lia.
  revert H. generalize (Z.to_nat (i1 - i0)). clear L. intros c.
  induction c as [|c IH]; intros H; [now rewrite Z.add_0_r|].
  destruct (H (i0 + Z.of_nat c) ltac:(lia)) as (x & E0 & E1).
  replace (i0 + Z.of_nat (S c)) with (i0 + Z.of_nat c + 1) by lia.
  replace (i0 + Z.of_nat c + 1 + k) with (i0 + Z.of_nat c + k + 1) by lia.
  eapply reach_diag; eauto. apply IH. intros i Hi. apply H. lia.
Qed.

(** The last insertion or deletion. *)
Lemma reach_last p i j : reach p i j ->
  exists i0, i0 <= i /\ run (j - i) i0 i /\
    ((p = 0 /\ i0 = 0 /\ j - i = 0) \/
     (reach (p - 1) i0 (i0 + (j - i) - 1)) \/
     (reach (p - 1) (i0 - 1) (i0 + (j - i)))).
Proof.
  induction 1 as [|p i j x H (i0 & L & Rn & C) E0 E1|p i j H _ L|p i j H _ L].
  - exists 0. split; [lia|]. split; [intros i Hi; lia|]. left. lia.
  - exists i0. split; [lia|]. replace (j + 1 - (i + 1)) with (j - i) by lia. split; [|exact C].
    intros i' Hi. destruct (Z.eq_dec i' i) as [->|]; [|apply Rn; lia].
    exists x. split; [exact E0|]. now replace (i + (j - i)) with j by lia.
  - exists (i + 1). split; [lia|]. split; [intros i' Hi; lia|]. right. right.
    replace (p + 1 - 1) with p by lia. replace (i + 1 - 1) with i by lia.
    now replace (i + 1 + (j - (i + 1))) with j by lia.
  - exists i. split; [lia|]. split; [intros i' Hi; lia|]. right. left.
    replace (p + 1 - 1) with p by lia. now replace (i + (j + 1 - i) - 1) with j by lia.
Qed.

(** ** Computing along a diagonal *)

Lemma snake_ok fuel k : forall i, (Z.to_nat (m - i) <= fuel)%nat -> 0 <= i <= m -> 0 <= i + k <= n ->
  exists i', snake a b fuel i (i + k) = Ok i' /\ i <= i' <= m /\ i' + k <= n /\ run k i i' /\
    (i' = m \/ i' + k = n \/ exists x y, znth a i' = Some x /\ znth b (i' + k) = Some y /\ x <> y).
Proof.
  induction fuel as [|fu IH]; intros i F I J; cbn [snake];
    destruct (Z.ltb_spec i m); destruct (Z.ltb_spec (i + k) n); cbn [andb];
    try (exists i; split; [reflexivity|]; split; [lia|]; split; [lia|]; split; [intros i' Hi; lia|];
         ((left; lia) || (right; left; lia))).
  - lia.
  - destruct (znth_lt_Some a i ltac:(lia)) as (x & Ex). destruct (znth_lt_Some b (i + k) ltac:(lia)) as (y & Ey).
    unfold rd. rewrite Ex, Ey. cbn [obind]. destruct (Z.eqb_spec x y) as [->|N].
    + destruct (IH (i + 1) ltac:(lia) ltac:(lia) ltac:(lia)) as (i' & E & B & J' & Rn & C).
      replace (i + k + 1) with (i + 1 + k) by lia. exists i'. split; [exact E|]. split; [lia|]. split; [lia|].
      split; [|exact C]. intros q Hq. destruct (Z.eq_dec q i) as [->|]; [eauto|apply Rn; lia].
    + exists i. split; [reflexivity|]. split; [lia|]. split; [lia|]. split; [intros i' Hi; lia|].
      right. right. exists x, y. auto.
Qed.

(** A diagonal of row [p] between [L] and [U]. *)
Definition on (p L U k : Z) : Prop := L <= k <= U /\ (k + p) mod 2 = 0.
Definition cell (p : Z) (f : list Z) (k v : Z) : Prop := znth f ((k + p) / 2) = Some v.

(** Value [v] is the furthest point on diagonal [k] with [p] steps. *)
Definition furthest (p k v : Z) : Prop :=
  0 <= v <= m /\ 0 <= v + k <= n /\ reach p v (v + k) /\ forall i, reach p i (i + k) -> i <= v.

Record row (p L U : Z) (f : list Z) : Prop := {
  row_p : 0 <= p;
  row_len : zlen f = p + 1;
  row_L : on p (- p) p L;
  row_U : on p L p U;
  row_cells : forall k, on p L U k -> exists v, cell p f k v /\ furthest p k v;
  row_low : L = - p \/ cell p f L m;
  row_high : U = p \/ cell p f U (n - U) }.

Lemma cell_fun p f k v v' : cell p f k v -> cell p f k v' -> v = v'.
Proof. unfold cell. congruence. Qed.

Lemma shift_half z : Z.shiftr z 1 = z / 2.
Proof. rewrite Z.shiftr_div_pow2 by lia. reflexivity. Qed.

(** What initial_f finds when the neighbours have been computed. *)
Lemma initial_ok p L U f k : row p L U f -> (k + p) mod 2 = 1 -> - p - 1 <= k <= p + 1 ->
  (L <= k - 1 \/ k - 1 < - p) -> (k + 1 <= U \/ p < k + 1) -> L - 1 <= k <= U + 1 ->
  exists s pk, initial_f k (Some (p, f)) = Ok (s, Some pk) /\
    on p L U pk /\
    ((pk = k - 1 /\ cell p f (k - 1) s) \/ (pk = k + 1 /\ cell p f (k + 1) (s - 1))) /\
    (forall v, - p <= k - 1 -> cell p f (k - 1) v -> v <= s) /\
    (forall v, k + 1 <= p -> cell p f (k + 1) v -> v + 1 <= s).
Proof.
  intros R Par K Lo Hi Mid. unfold initial_f. rewrite !shift_half.
  pose proof (row_p _ _ _ _ R). destruct (row_L _ _ _ _ R) as [BL _]. destruct (row_U _ _ _ _ R) as [BU _].
  assert (forall q, q mod 2 = 1 -> (q - 1) mod 2 = 0 /\ (q + 1) mod 2 = 0) as PM
    by (intros; Z.to_euclidean_division_equations; lia).
  assert (- p <= k - 1 -> exists v, cell p f (k - 1) v /\ furthest p (k - 1) v) as C0.
  { intros. apply (row_cells _ _ _ _ R). split; [lia|]. replace (k - 1 + p) with (k + p - 1) by lia. now apply PM. }
  assert (k + 1 <= p -> exists v, cell p f (k + 1) v /\ furthest p (k + 1) v) as C1.
  { intros. apply (row_cells _ _ _ _ R). split; [lia|]. replace (k + 1 + p) with (k + p + 1) by lia. now apply PM. }
  assert (k <> - p /\ k <> p) as [Kn Kp] by (split; intros ->; Z.to_euclidean_division_equations; lia).
  assert ((k - 1 + p) mod 2 = 0 /\ (k + 1 + p) mod 2 = 0) as [M0 M1].
  { replace (k - 1 + p) with (k + p - 1) by lia. replace (k + 1 + p) with (k + p + 1) by lia. now apply PM. }
  destruct (Z.ltb_spec (- p) k) as [G0|G0].
  - destruct (C0 ltac:(lia)) as (v0 & E0 & F0). unfold rd at 1. unfold cell in E0. rewrite E0. cbn [obind].
    destruct (Z.ltb_spec k p) as [G1|G1].
    + destruct (C1 ltac:(lia)) as (v1 & E1 & F1). unfold rd. unfold cell in E1. rewrite E1. cbn [obind].
      destruct (Z.leb_spec v0 (v1 + 1)).
      * exists (v1 + 1), (k + 1). split; [reflexivity|]. split; [split; [lia|exact M1]|].
        split; [right; split; [reflexivity|unfold cell; rewrite E1; f_equal; lia]|].
        split; intros v Hv Cv; unfold cell in Cv; [rewrite E0 in Cv|rewrite E1 in Cv]; injection Cv; lia.
      * exists v0, (k - 1). split; [reflexivity|]. split; [split; [lia|exact M0]|].
        split; [left; split; [reflexivity|exact E0]|].
        split; intros v Hv Cv; unfold cell in Cv; [rewrite E0 in Cv|rewrite E1 in Cv]; injection Cv; lia.
    + exists v0, (k - 1). split; [reflexivity|]. split; [split; [lia|exact M0]|].
      split; [left; split; [reflexivity|exact E0]|].
      split; intros v Hv Cv; unfold cell in Cv; [rewrite E0 in Cv; injection Cv; lia|lia].
  - cbn [obind]. destruct (Z.ltb_spec k p) as [G1|G1]; [|lia].
    destruct (C1 ltac:(lia)) as (v1 & E1 & F1). unfold rd. unfold cell in E1. rewrite E1. cbn [obind].
    destruct F1 as ((F1 & _) & _). destruct (Z.leb_spec 0 (v1 + 1)); [|lia].
    exists (v1 + 1), (k + 1). split; [reflexivity|]. split; [split; [lia|exact M1]|].
    split; [right; split; [reflexivity|unfold cell; rewrite E1; f_equal; lia]|].
    split; intros v Hv Cv; unfold cell in Cv; [lia|rewrite E1 in Cv; injection Cv; lia].
Qed.

(** The two sides of the current range, after row [p] has been computed. *)
Definition low_side (p L U : Z) (f : list Z) (min_k : Z) : Prop :=
  (min_k = - m /\ forall k, on p L U k -> ~ cell p f k m) \/
  (exists k, on p L U k /\ cell p f k m /\ min_k = k + 1 /\
     forall k', on p L U k' -> cell p f k' m -> k' <= k).
Definition high_side (p L U : Z) (f : list Z) (max_k : Z) : Prop :=
  (max_k = n /\ forall k, on p L U k -> ~ cell p f k (n - k)) \/
  (cell p f U (n - U) /\ max_k = U - 1 /\
     forall k, on p L U k -> cell p f k (n - k) -> k = U).

(** ** One diagonal *)

(** Where the path to the point (s, s + k) comes from. *)
Definition from (prev : option path) (ok : Z -> Prop) (k s : Z) (pk : option Z) : Prop :=
  match prev with
  | None => k = 0 /\ s = 0 /\ pk = None
  | Some (p, f) => exists k', pk = Some k' /\ ok k' /\
      ((k' = k - 1 /\ cell p f k' s) \/ (k' = k + 1 /\ cell p f k' (s - 1)))
  end.

(** The limits [A], [B] of the diagonals visited in row [p]. *)
Record range (p : Z) (prev : option path) (ok : Z -> Prop) (min_k max_k A B : Z) : Prop := {
  rg_p : 0 <= p;
  rg_A : on p (- p) p A;
  rg_B : on p A p B;
  rg_below : forall k, on p (- p) p k -> k < A -> k < min_k;
  rg_above : forall k, on p (- p) p k -> B < k -> max_k < k;
  rg_in : forall k, A <= k <= B -> min_k <= k <= max_k;
  rg_val : forall k, on p A B k -> exists s pk v,
    initial_f k prev = Ok (s, pk) /\ from prev ok k s pk /\
    snake a b (List.length a) s (s + k) = Ok v /\ furthest p k v /\ s <= v /\ run k s v;
  rg_low : (A = - p /\ min_k = - m) \/ forall v, furthest p A v -> v = m;
  rg_high : (B = p /\ max_k = n) \/ forall v, furthest p B v -> v = n - B }.

Lemma furthest_fun p k v v' : furthest p k v -> furthest p k v' -> v = v'.
Proof.
  intros (_ & _ & R & M) (_ & _ & R' & M'). apply M in R'. apply M' in R. lia.
Qed.

Lemma furthest_of p k s v : 0 <= s <= m -> 0 <= s + k <= n -> reach p s (s + k) ->
  (forall i0, (reach (p - 1) i0 (i0 + k - 1) -> i0 <= s) /\ (reach (p - 1) (i0 - 1) (i0 + k) -> i0 <= s) /\
              (p = 0 -> i0 = 0 -> i0 <= s)) ->
  snake a b (List.length a) s (s + k) = Ok v -> furthest p k v.
Proof.
  intros S K R C E.
  destruct (snake_ok (List.length a) k s ltac:(unfold zlen; lia) S K) as (v' & E' & B & J & Rn & St).
  assert (v' = v) by congruence. subst v'.
  split; [lia|]. split; [lia|]. split; [eapply reach_run; [exact R|lia|exact Rn]|].
  intros i Ri. destruct (reach_last _ _ _ Ri) as (i0 & L0 & Rn0 & Cs). replace (i + k - i) with k in * by lia.
  assert (i0 <= s) as I0.
  { destruct (C i0) as (C1 & C2 & C3). destruct Cs as [(P & I & _)|[H|H]]; [now apply C3|now apply C1|now apply C2]. }
  destruct (Z_le_gt_dec i v) as [|G]; [assumption|]. exfalso.
  destruct (Rn0 v ltac:(lia)) as (x & E0 & E1).
  destruct St as [Em|[En|(y & z & Ey & Ez & N)]].
  - apply znth_Some_lt in E0. lia.
  - apply znth_Some_lt in E1. lia.
  - congruence.
Qed.

Lemma range_first : range 0 None (fun _ => False) (- m) n 0 0.
Proof.
  pose proof (zlen_nonneg a). pose proof (zlen_nonneg b).
  constructor; try (split; [lia|reflexivity]); try lia; try (intros k [? ?]; lia).
  - intros k [K _]. assert (k = 0) by lia. subst k.
    destruct (snake_ok (List.length a) 0 0 ltac:(unfold zlen; lia) ltac:(lia) ltac:(lia)) as (v & E & Bv & _ & Rv & _).
    exists 0, None, v. split; [reflexivity|]. split; [repeat split|]. split; [exact E|].
    split; [|split; [lia|exact Rv]].
    apply (furthest_of 0 0 0 v); try lia; [apply reach_start| |exact E].
    intros i0. split; [|split]; [intros R; apply reach_range in R; lia| |lia].
    intros R; apply reach_range in R; lia.
Qed.

Lemma range_next p L U f min_k max_k :
  row p L U f -> low_side p L U f min_k -> high_side p L U f max_k -> min_k <= n - m ->
  exists A B, range (p + 1) (Some (p, f)) (on p L U) min_k max_k A B.
Proof.
  intros R Lo Hi ND.
  pose proof (row_p _ _ _ _ R) as P0. destruct (row_L _ _ _ _ R) as [BL PL]. destruct (row_U _ _ _ _ R) as [BU PU].
  pose proof (zlen_nonneg a). pose proof (zlen_nonneg b).
  assert (forall k v, on p L U k -> cell p f k v -> furthest p k v) as CF.
  { intros k v O C. destruct (row_cells _ _ _ _ R k O) as (v' & C' & F). now rewrite (cell_fun _ _ _ _ _ C C'). }
  (* lower limit *)
  assert (exists A, on (p + 1) (- (p + 1)) (p + 1) A /\
    (forall k, on (p + 1) (- (p + 1)) (p + 1) k -> k < A -> k < min_k) /\ min_k <= A /\
    (forall k, A <= k -> L <= k - 1 \/ k - 1 < - p) /\ L - 1 <= A /\
    ((A = - (p + 1) /\ min_k = - m) \/ (on p L U (A - 1) /\ cell p f (A - 1) m))) as (A & OA & A1 & A2 & A3 & A3' & A4).
  { destruct Lo as [(-> & N)|(k0 & O & C & -> & Mx)].
    - assert (L = - p) as ->.
      { destruct (row_low _ _ _ _ R) as [E|C]; [exact E|]. exfalso. apply (N L); [|exact C]. split; [lia|exact PL]. }
      exists (- (p + 1)). split; [split; [lia|]|].
      { replace (- (p + 1) + (p + 1)) with 0 by lia. reflexivity. }
      split; [intros k [? _]; lia|]. split; [|split; [intros k; lia|split; [lia|left; lia]]].
      assert (on p (- p) U (- p)) as O by (split; [lia|exact PL]).
      destruct (row_cells _ _ _ _ R (- p) O) as (v & C & (V1 & V2 & _)).
      assert (v <> m) by (intros ->; now apply (N (- p))). lia.
    - exists (k0 + 1). destruct O as [O1 O2]. split; [split; [lia|]|].
      { replace (k0 + 1 + (p + 1)) with (k0 + p + 1 * 2) by lia. now rewrite Z.mod_add. }
      split; [intros; lia|]. split; [lia|]. split; [intros; lia|]. split; [lia|]. right.
      replace (k0 + 1 - 1) with k0 by lia. split; [split; [lia|exact O2]|exact C]. }
  assert (exists B, on (p + 1) (- (p + 1)) (p + 1) B /\
    (forall k, on (p + 1) (- (p + 1)) (p + 1) k -> B < k -> max_k < k) /\ B <= max_k /\
    (forall k, k <= B -> k + 1 <= U \/ p < k + 1) /\ B <= U + 1 /\
    ((B = p + 1 /\ max_k = n) \/ (B + 1 = U /\ on p L U (B + 1) /\ cell p f (B + 1) (n - (B + 1)))))
    as (B & OB & B1 & B2 & B3 & B3' & B4).
  { destruct Hi as [(-> & N)|(C & -> & Mx)].
    - assert (U = p) as ->.
      { destruct (row_high _ _ _ _ R) as [E|C]; [exact E|]. exfalso. apply (N U); [|exact C]. split; [lia|exact PU]. }
      exists (p + 1). split; [split; [lia|]|].
      { replace (p + 1 + (p + 1)) with ((p + 1) * 2) by lia. now rewrite Z.mod_mul. }
      split; [intros k [? _]; lia|]. split; [|split; [intros k; lia|split; [lia|left; lia]]].
      assert (on p L p p) as O by (split; [lia|exact PU]).
      destruct (row_cells _ _ _ _ R p O) as (v & C & (V1 & V2 & _)).
      assert (v <> n - p) by (intros ->; now apply (N p)). lia.
    - exists (U - 1). split; [split; [lia|]|].
      { replace (U - 1 + (p + 1)) with (U + p) by lia. exact PU. }
      split; [intros; lia|]. split; [lia|]. split; [intros; lia|]. split; [lia|]. right.
      replace (U - 1 + 1) with U by lia. split; [lia|]. split; [split; [lia|exact PU]|exact C]. }
  assert (A <= B) as AB.
  { destruct OA as [OA PA], OB as [OB PB].
    destruct A4 as [[-> _]|[OA' CA]]; [lia|].
    destruct B4 as [[-> _]|(EU & OB' & CB)]; [lia|].
    destruct OA' as [OA1 PA1].
    assert (A - 1 <> U).
    { intros E. rewrite E in CA. rewrite EU in CB. pose proof (cell_fun _ _ _ _ _ CA CB). 
      destruct Lo as [(-> & N)|(k0 & O & C & -> & Mx)].
      - apply (N U); [split; [lia|exact PU]|exact CA].
      - assert (U <= k0) by (apply Mx; [split; [lia|exact PU]|exact CA]). lia. }
    assert (A - 1 < U) by lia. assert (exists x, U + p = 2 * x) as (x & Ex) by (exists ((U + p) / 2); Z.to_euclidean_division_equations; lia).
    assert (exists y, A - 1 + p = 2 * y) as (y & Ey) by (exists ((A - 1 + p) / 2); Z.to_euclidean_division_equations; lia). lia. }
  assert (forall k, on (p + 1) A B k -> exists s pk v,
    initial_f k (Some (p, f)) = Ok (s, Some pk) /\ from (Some (p, f)) (on p L U) k s (Some pk) /\ snake a b (List.length a) s (s + k) = Ok v /\ furthest (p + 1) k v /\
    (forall v, - p <= k - 1 -> cell p f (k - 1) v -> v <= s) /\
    (forall v, k + 1 <= p -> cell p f (k + 1) v -> v + 1 <= s) /\ s <= v /\ run k s v) as V.
  { intros k [K PK]. destruct OA as [OA PA], OB as [OB PB].
    assert ((k + p) mod 2 = 1) as PK' by (Z.to_euclidean_division_equations; lia).
    destruct (initial_ok p L U f k R PK' ltac:(lia) (A3 k ltac:(lia)) (B3 k ltac:(lia)) ltac:(lia))
      as (s & pk & E & Opk & Cs & M0 & M1).
    assert (0 <= s <= m /\ 0 <= s + k <= n /\ reach (p + 1) s (s + k)) as (S1 & S2 & S3).
    { destruct Cs as [[-> C]|[-> C]].
      - destruct (CF _ _ Opk C) as (V1 & V2 & Rc & _).
        assert (s + (k - 1) <> n).
        { intros En. replace s with (n - (k - 1)) in C by lia.
          destruct Hi as [(_ & N)|(_ & -> & Mx)]; [now apply (N (k - 1))|].
          specialize (Mx (k - 1) Opk C). lia. }
        split; [lia|]. split; [lia|]. replace (s + k) with (s + (k - 1) + 1) by lia. apply reach_ins; [exact Rc|lia].
      - destruct (CF _ _ Opk C) as (V1 & V2 & Rc & _).
        assert (s - 1 <> m).
        { intros Em. rewrite Em in C. destruct Lo as [(_ & N)|(k0 & _ & _ & -> & Mx)]; [now apply (N (k + 1))|].
          specialize (Mx (k + 1) Opk C). lia. }
        split; [lia|]. split; [lia|]. replace s with (s - 1 + 1) at 1 by lia.
        replace (s + k) with (s - 1 + (k + 1)) by lia. apply reach_del; [exact Rc|lia]. }
    destruct (snake_ok (List.length a) k s ltac:(unfold zlen; lia) S1 S2) as (v & Ev & Bv & _ & Rv & _).
    exists s, pk, v. split; [exact E|]. split.
    { exists pk. split; [reflexivity|]. split; [exact Opk|]. destruct Cs as [[-> C]|[-> C]]; [left|right]; auto. }
    split; [exact Ev|]. split; [|split; [exact M0|split; [exact M1|split; [lia|exact Rv]]]].
    apply (furthest_of (p + 1) k s v S1 S2 S3); [|exact Ev].
    intros i0. replace (p + 1 - 1) with p by lia. split; [|split; [|lia]].
    - intros Ri. pose proof (reach_diff _ _ _ Ri) as [D1 D2].
      assert (on p L U (k - 1)) as O.
      { split; [|now replace (k - 1 + p) with (i0 + k - 1 - i0 + p) by lia].
        destruct (A3 k ltac:(lia)); lia. }
      destruct (row_cells _ _ _ _ R _ O) as (v' & C' & (_ & _ & _ & Mx)).
      specialize (Mx i0). replace (i0 + (k - 1)) with (i0 + k - 1) in Mx by lia. specialize (Mx Ri).
      specialize (M0 v' ltac:(lia) C'). lia.
    - intros Ri. pose proof (reach_diff _ _ _ Ri) as [D1 D2].
      assert (on p L U (k + 1)) as O.
      { split; [|now replace (k + 1 + p) with (i0 + k - (i0 - 1) + p) by lia].
        destruct (B3 k ltac:(lia)); lia. }
      destruct (row_cells _ _ _ _ R _ O) as (v' & C' & (_ & _ & _ & Mx)).
      specialize (Mx (i0 - 1)). replace (i0 - 1 + (k + 1)) with (i0 + k) in Mx by lia. specialize (Mx Ri).
      specialize (M1 v' ltac:(lia) C'). lia. }
  exists A, B. destruct OA as [OA PA], OB as [OB PB]. constructor.
  - lia.
  - split; [lia|exact PA].
  - split; [lia|exact PB].
  - exact A1.
  - exact B1.
  - intros k K. lia.
  - intros k O. destruct (V k O) as (s & pk & v & E & Fr & Ev & F & _ & _ & Sv & Rv).
    exists s, (Some pk), v. auto 10.
  - destruct A4 as [H4|[O4 C4]]; [now left|]. right. intros v F.
    destruct (V A ltac:(split; [lia|exact PA])) as (s & pk & v' & E & _ & Ev & F' & M0 & _ & Sv & _).
    rewrite (furthest_fun _ _ _ _ F F'). destruct O4 as [O4 _].
    specialize (M0 m ltac:(lia) C4). destruct F' as (? & _). lia.
  - destruct B4 as [H4|(E4 & O4 & C4)]; [now left|]. right. intros v F.
    destruct (V B ltac:(split; [lia|exact PB])) as (s & pk & v' & E & _ & Ev & F' & _ & M1 & Sv & _).
    rewrite (furthest_fun _ _ _ _ F F'). destruct O4 as [O4 _].
    specialize (M1 _ ltac:(lia) C4). destruct F' as (? & ? & _). lia.
Qed.

(** ** One row *)

Hypothesis small : m <= 65535.

Lemma visit_in p prev ok min_k max_k A B k mn mx f : range p prev ok min_k max_k A B -> on p A B k ->
  mn <= k <= mx -> zlen f = p + 1 ->
  exists s pk v f', initial_f k prev = Ok (s, pk) /\ from prev ok k s pk /\ s <= v /\ run k s v /\ furthest p k v /\
    visit a b p prev (mn, mx, f) k =
      Ok ((if v =? m then k + 1 else mn), (if v + k =? n then k - 1 else mx), f') /\
    zlen f' = p + 1 /\ cell p f' k v /\
    (forall k' v', (k' + p) mod 2 = 0 -> - p <= k' <= p -> k' <> k -> (cell p f' k' v' <-> cell p f k' v')).
Proof.
  intros R O K Lf. destruct (rg_val _ _ _ _ _ _ _ R k O) as (s & pk & v & E & Fr & Ev & F & Sv & Rv).
  pose proof (rg_p _ _ _ _ _ _ _ R). destruct (rg_A _ _ _ _ _ _ _ R) as [OA _].
  destruct (rg_B _ _ _ _ _ _ _ R) as [OB _]. destruct O as [O PO].
  assert (0 <= (k + p) / 2 < zlen f) as I by (Z.to_euclidean_division_equations; lia).
  destruct (zset_lt_Some f ((k + p) / 2) v I) as (f' & Ef).
  exists s, pk, v, f'. split; [exact E|]. split; [exact Fr|]. split; [exact Sv|]. split; [exact Rv|]. split; [exact F|].
  split; [|split; [|split]].
  - unfold visit. rewrite (proj2 (Z.leb_le mn k)), (proj2 (Z.leb_le k mx)) by lia. cbn [andb].
    unfold compute_f. rewrite E. cbn [obind]. rewrite Ev. cbn [obind]. rewrite shift_half.
    destruct F as (F0 & F1 & _). rewrite Z.mod_small by lia. unfold wr. rewrite Ef. reflexivity.
  - now rewrite (zset_zlen _ _ _ _ Ef).
  - unfold cell. rewrite (zset_znth _ _ _ _ Ef). now rewrite Z.eqb_refl.
  - intros k' v' P' B' N. unfold cell. rewrite (zset_znth _ _ _ _ Ef).
    destruct (Z.eqb_spec ((k' + p) / 2) ((k + p) / 2)) as [D|D]; [|reflexivity].
    exfalso. apply N. Z.to_euclidean_division_equations; lia.
Qed.

(** The values stored on the diagonals between [A] and [U], and where they come from. *)
Definition link (p : Z) (f : list Z) (prev : option path) (ok : Z -> Prop) (k : Z) : Prop :=
  exists s pk v, initial_f k prev = Ok (s, pk) /\ from prev ok k s pk /\ cell p f k v /\
    s <= v /\ run k s v /\ furthest p k v.

Definition low_part (p A U : Z) (f : list Z) (min_k mn : Z) : Prop :=
  (mn = min_k /\ forall k, on p A U k -> ~ cell p f k m) \/
  (exists k, on p A U k /\ cell p f k m /\ mn = k + 1 /\ forall k', on p A U k' -> cell p f k' m -> k' <= k).

(** The state of the inner loop before diagonal [k]. *)
Definition before (p : Z) (prev : option path) (ok : Z -> Prop) (min_k max_k A B k : Z) (st : Z * Z * list Z) : Prop :=
  let '(mn, mx, f) := st in
  zlen f = p + 1 /\
  ((k <= A /\ mn = min_k /\ mx = max_k) \/
   (A < k /\ exists U, on p A B U /\ U < k /\
     (forall k', on p A U k' -> link p f prev ok k') /\ low_part p A U f min_k mn /\
     ((mx = max_k /\ (forall k', on p A U k' -> ~ cell p f k' (n - k')) /\ (U = k - 2 \/ U = B)) \/
      (cell p f U (n - U) /\ mx = U - 1 /\ forall k', on p A U k' -> cell p f k' (n - k') -> k' = U)))).

Lemma ofold_count {T} (f : T -> Z -> outcome T) (P : Z -> T -> Prop) (g : Z -> Z) c : forall lo s,
  P lo s ->
  (forall i s, lo <= i < lo + Z.of_nat c -> P i s -> exists s', f s (g i) = Ok s' /\ P (i + 1) s') ->
  exists s', ofold f (map g (zrange lo c)) s = Ok s' /\ P (lo + Z.of_nat c) s'.
Proof.
  induction c as [|c IH]; intros lo s H St; cbn [zrange map ofold].
  - exists s. split; [reflexivity|]. now rewrite Z.add_0_r.
  - destruct (St lo s ltac:(lia) H) as (s1 & E1 & H1). rewrite E1. cbn [obind].
    destruct (IH (lo + 1) s1 H1 ltac:(intros; apply St; [lia|assumption])) as (s' & E' & H').
    exists s'. split; [exact E'|]. now replace (lo + Z.of_nat (S c)) with (lo + 1 + Z.of_nat c) by lia.
Qed.

Lemma before_step p prev ok min_k max_k A B k st : range p prev ok min_k max_k A B -> on p (- p) p k ->
  before p prev ok min_k max_k A B k st ->
  exists st', visit a b p prev st k = Ok st' /\ before p prev ok min_k max_k A B (k + 2) st'.
Proof.
  intros R O H. destruct st as [[mn mx] f]. destruct H as (Lf & H).
  pose proof (rg_p _ _ _ _ _ _ _ R) as P0. destruct (rg_A _ _ _ _ _ _ _ R) as [OA PA].
  destruct (rg_B _ _ _ _ _ _ _ R) as [OB PB]. pose proof (rg_in _ _ _ _ _ _ _ R) as IN.
  destruct O as [O PO].
  assert (mn <= k <= mx \/ ~ (mn <= k <= mx)) as [In|Out] by lia.
  2: { exists (mn, mx, f). split.
       { unfold visit. destruct (Z.leb_spec mn k), (Z.leb_spec k mx); cbn [andb]; [lia|reflexivity..]. }
       split; [exact Lf|].
       destruct H as [(K & -> & ->)|(K & U & OU & UK & Ln & Lw & Hi)].
       - left. split; [|auto]. destruct (Z.eq_dec k A) as [->|]; [exfalso; apply Out, IN; lia|].
         Z.to_euclidean_division_equations; lia.
       - right. split; [lia|]. exists U. split; [exact OU|]. split; [lia|]. split; [exact Ln|]. split; [exact Lw|].
         destruct Hi as [(-> & N & E)|Hi]; [left|right; exact Hi].
         split; [reflexivity|]. split; [exact N|]. right. destruct OU as [OU PU].
         destruct E as [E|E]; [|exact E].
         destruct (Z_le_gt_dec k B) as [KB|]; [|Z.to_euclidean_division_equations; lia].
         exfalso. apply Out. specialize (IN k ltac:(lia)). split; [|lia].
         destruct Lw as [(-> & _)|(k0 & (O0 & _) & _ & -> & _)]; lia. }
  (* the values before [k] *)
  assert (exists U', on p A B k /\ (U' = k - 2 /\ (forall k', on p A U' k' -> link p f prev ok k') /\
    low_part p A U' f min_k mn /\ mx = max_k /\ (forall k', on p A U' k' -> ~ cell p f k' (n - k'))))
    as (U & Ok_ & EU & Ln & Lw & Emx & N).
  { destruct H as [(K & -> & ->)|(K & U & (OU & PU) & UK & Ln & Lw & Hi)].
    - exists (k - 2). assert (k = A) as ->.
      { destruct (Z_lt_ge_dec k A) as [Q|]; [|lia].
        assert (k < min_k) by (apply (rg_below _ _ _ _ _ _ _ R); [split; [lia|exact PO]|exact Q]). lia. }
      split; [split; [lia|exact PO]|]. split; [reflexivity|].
      split; [intros k' (Q & _); lia|]. split; [|split; [reflexivity|intros k' (Q & _); lia]].
      left. split; [reflexivity|intros k' (Q & _); lia].
    - exists U. destruct Hi as [(-> & N & E)|(C & -> & _)]; [|lia].
      assert (k <= B).
      { destruct (Z_lt_ge_dec B k) as [Q|]; [|lia].
        assert (max_k < k) by (apply (rg_above _ _ _ _ _ _ _ R); [split; [lia|exact PO]|exact Q]). lia. }
      split; [split; [lia|exact PO]|]. split; [lia|]. auto. }
  destruct (visit_in p prev ok min_k max_k A B k mn mx f R Ok_ In Lf)
    as (s & pk & v & f' & E & Fr & Sv & Rv & F & Ev & Lf' & C & Ch).
  assert (forall k', on p A k k' -> k' <> k -> on p A U k') as OLD.
  { intros k' (Q & P') Nk. split; [|exact P']. Z.to_euclidean_division_equations; lia. }
  assert (forall k' v', on p A U k' -> (cell p f' k' v' <-> cell p f k' v')) as CH.
  { intros k' v' (Q & P'). apply Ch; [exact P'|lia|lia]. }
  assert (forall v', cell p f' k v' -> v' = v) as CV by (intros v' C'; exact (cell_fun _ _ _ _ _ C' C)).
  eexists. split; [exact Ev|]. split; [exact Lf'|]. right. destruct Ok_ as [Ok1 Ok2]. split; [lia|].
  exists k. split; [split; [lia|exact Ok2]|]. split; [lia|]. split; [|split].
  - intros k' O'. destruct (Z.eq_dec k' k) as [->|Nk].
    + exists s, pk, v. auto 10.
    + destruct (Ln k' (OLD k' O' Nk)) as (s' & pk' & v' & E' & Fr' & C' & Q').
      exists s', pk', v'. split; [exact E'|]. split; [exact Fr'|]. split; [|exact Q']. now apply CH; [apply OLD|].
  - destruct (Z.eqb_spec v m) as [->|Nv].
    + right. exists k. split; [split; [lia|exact Ok2]|]. split; [exact C|]. split; [reflexivity|].
      intros k' (Q & _) _. lia.
    + destruct Lw as [(-> & Nm)|(k0 & (O0 & P0') & C0 & -> & Mx)]; [left|right].
      * split; [reflexivity|]. intros k' O' C'. destruct (Z.eq_dec k' k) as [->|Nk].
        -- apply CV in C'. lia.
        -- apply (Nm k' (OLD k' O' Nk)). now apply CH; [apply OLD|].
      * exists k0. split; [split; [lia|exact P0']|]. split; [apply CH; [split; [lia|exact P0']|exact C0]|].
        split; [reflexivity|]. intros k' O' C'. destruct (Z.eq_dec k' k) as [->|Nk].
        -- apply CV in C'. lia.
        -- apply (Mx k' (OLD k' O' Nk)). now apply CH; [apply OLD|].
  - destruct (Z.eqb_spec (v + k) n) as [En|Nn].
    + right. split; [now replace (n - k) with v by lia|]. split; [reflexivity|].
      intros k' O' C'. destruct (Z.eq_dec k' k) as [->|Nk]; [reflexivity|].
      exfalso. apply (N k' (OLD k' O' Nk)). now apply CH; [apply OLD|].
    + left. split; [exact Emx|]. split; [|left; lia].
      intros k' O' C'. destruct (Z.eq_dec k' k) as [->|Nk].
      * apply CV in C'. lia.
      * apply (N k' (OLD k' O' Nk)). now apply CH; [apply OLD|].
Qed.

Lemma repeat_zlen {T} (x : T) c : zlen (repeat x c) = Z.of_nat c.
Proof. unfold zlen. now rewrite repeat_length. Qed.

Lemma row_ok p prev ok min_k max_k A B : range p prev ok min_k max_k A B ->
  exists mn mx f U,
    ofold (visit a b p prev) (diagonals p) (min_k, max_k, repeat 0 (Z.to_nat (p + 1))) = Ok (mn, mx, f) /\
    row p A U f /\ low_side p A U f mn /\ high_side p A U f mx /\
    (forall k, on p A U k -> link p f prev ok k).
Proof.
  intros R. pose proof (rg_p _ _ _ _ _ _ _ R) as P0. destruct (rg_A _ _ _ _ _ _ _ R) as [OA PA].
  destruct (rg_B _ _ _ _ _ _ _ R) as [OB PB].
  unfold diagonals.
  destruct (ofold_count (visit a b p prev)
    (fun i st => before p prev ok min_k max_k A B (- p + 2 * i) st) (fun i => - p + 2 * i) (Z.to_nat (p + 1)) 0
    (min_k, max_k, repeat 0 (Z.to_nat (p + 1)))) as (((mn & mx) & f) & E & H).
  - split; [rewrite repeat_zlen; lia|]. left. lia.
  - intros i st Hi H. replace (- p + 2 * (i + 1)) with (- p + 2 * i + 2) by lia.
    apply before_step; [exact R| |exact H]. split; [lia|].
    replace (- p + 2 * i + p) with (i * 2) by lia. apply Z.mod_mul. lia.
  - exists mn, mx, f. replace (- p + 2 * (0 + Z.of_nat (Z.to_nat (p + 1)))) with (p + 2) in H by lia.
    destruct H as (Lf & [(K & _)|(_ & U & (OU & PU) & UK & Ln & Lw & Hi)]); [lia|].
    exists U. split; [exact E|].
    assert (link p f prev ok A) as LA by (apply Ln; split; [lia|exact PA]).
    assert (link p f prev ok U) as LU by (apply Ln; split; [lia|exact PU]).
    destruct LA as (sA & pkA & vA & _ & _ & CA & _ & _ & FA).
    destruct LU as (sU & pkU & vU & _ & _ & CU & _ & _ & FU).
    assert ((A = - p /\ min_k = - m) \/ cell p f A m) as LowA.
    { destruct (rg_low _ _ _ _ _ _ _ R) as [Q|Q]; [now left|right]. now rewrite <- (Q _ FA). }
    assert ((U = p /\ mx = n) \/ cell p f U (n - U) /\ mx = U - 1) as HighU.
    { destruct Hi as [(-> & N & EU)|(C & -> & _)]; [left|right; auto].
      assert (U = B) as -> by lia.
      destruct (rg_high _ _ _ _ _ _ _ R) as [Q|Q]; [exact Q|]. exfalso.
      apply (N B); [split; [lia|exact PU]|]. now rewrite <- (Q _ FU). }
    split; [|split; [|split]].
    + constructor.
      * exact P0.
      * exact Lf.
      * split; [lia|exact PA].
      * split; [lia|exact PU].
      * intros k O. destruct (Ln k O) as (s & pk & v & _ & _ & C & _ & _ & F). exists v. auto.
      * destruct LowA as [[Q _]|Q]; auto.
      * destruct HighU as [[Q _]|[Q _]]; auto.
    + destruct Lw as [(-> & N)|Lw]; [left|right; exact Lw].
      split; [|exact N]. destruct LowA as [[_ Q]|Q]; [exact Q|].
      exfalso. apply (N A); [split; [lia|exact PA]|exact Q].
    + destruct Hi as [(-> & N & EU)|Hi]; [left|right; exact Hi].
      split; [|exact N]. destruct HighU as [[_ Q]|[Q _]]; [exact Q|].
      exfalso. apply (N U); [split; [lia|exact PU]|exact Q].
    + exact Ln.
Qed.

(** ** All rows *)

Lemma reach_common la lb c : subseq c la -> forall lb', lb' = lb -> subseq c lb' -> forall p pa pb,
  a = pa ++ la -> b = pb ++ lb -> reach p (zlen pa) (zlen pb) ->
  reach (p + zlen la + zlen lb - 2 * zlen c) m n.
Proof.
  intros Sa lb' -> Sb. remember (List.length la + List.length lb)%nat as N eqn:EN.
  revert la lb c Sa Sb EN. induction N as [N IH] using lt_wf_ind. intros la lb c Sa Sb -> p pa pb Ea Eb R.
  assert (m = zlen pa + zlen la) as Em by (rewrite Ea at 1; apply zlen_app).
  assert (n = zlen pb + zlen lb) as En by (rewrite Eb at 1; apply zlen_app).
  inversion Sa as [E0 E1|x c' l S E0 E1|x c' l S E0 E1]; subst.
  - inversion Sb as [E0 E1|x c' l S E0 E1|x c' l S E0 E1]; subst.
    + change (zlen (@nil Z)) with 0 in *. rewrite !Z.add_0_r in *. rewrite Em, En. replace (p - 2 * 0) with p by lia. exact R.
    + assert (reach (p + 1) (zlen pa) (zlen (pb ++ [x]))) as R'.
      { rewrite zlen_app. cbn [zlen List.length Z.of_nat]. apply reach_ins; [exact R|].
        rewrite En, zlen_cons. pose proof (zlen_nonneg l). lia. }
      pose proof (IH (0 + List.length l)%nat ltac:(cbn; lia) [] l [] Sa S ltac:(reflexivity) _ pa (pb ++ [x])
        Ea ltac:(rewrite <- app_assoc; assumption) R') as Q.
      rewrite (zlen_cons x l). 
      replace (p + zlen (@nil Z) + (zlen l + 1) - 2 * zlen (@nil Z)) with (p + 1 + zlen (@nil Z) + zlen l - 2 * zlen (@nil Z)) by lia. exact Q.
  - (* la = x :: l keeps x *)
    inversion Sb as [E0 E1|y d l' S' E0 E1|y d l' S' E0 E1]; subst.
    + assert (reach p (zlen (pa ++ [x])) (zlen (pb ++ [x]))) as R'.
      { rewrite !zlen_app. apply reach_diag with x; [exact R| |]; [rewrite Ea|rewrite Eb]; rewrite znth_app2, Z.sub_diag by lia; reflexivity. }
      pose proof (IH (List.length l + List.length l')%nat ltac:(cbn; lia) l l' c' S S' ltac:(reflexivity) _ (pa ++ [x]) (pb ++ [x])
        ltac:(rewrite <- app_assoc; assumption) ltac:(rewrite <- app_assoc; assumption) R') as Q.
      rewrite !zlen_cons. replace (p + (zlen l + 1) + (zlen l' + 1) - 2 * (zlen c' + 1)) with (p + zlen l + zlen l' - 2 * zlen c') by lia. exact Q.
    + assert (reach (p + 1) (zlen pa) (zlen (pb ++ [y]))) as R'.
      { rewrite (zlen_app pb). apply reach_ins; [exact R|]. rewrite En, zlen_cons. pose proof (zlen_nonneg l'). lia. }
      pose proof (IH (List.length (x :: l) + List.length l')%nat ltac:(cbn; lia) (x :: l) l' (x :: c') Sa S' ltac:(reflexivity) _ pa (pb ++ [y])
        Ea ltac:(rewrite <- app_assoc; assumption) R') as Q.
      rewrite (zlen_cons y l'). replace (p + zlen (x :: l) + (zlen l' + 1) - 2 * zlen (x :: c')) with (p + 1 + zlen (x :: l) + zlen l' - 2 * zlen (x :: c')) by lia. exact Q.
  - assert (reach (p + 1) (zlen (pa ++ [x])) (zlen pb)) as R'.
    { rewrite (zlen_app pa). apply reach_del; [exact R|]. rewrite Em, zlen_cons. pose proof (zlen_nonneg l). lia. }
    pose proof (IH (List.length l + List.length lb)%nat ltac:(cbn; lia) l lb c S Sb ltac:(reflexivity) _ (pa ++ [x]) pb
      ltac:(rewrite <- app_assoc; assumption) Eb R') as Q.
    rewrite (zlen_cons x l). replace (p + (zlen l + 1) + zlen lb - 2 * zlen c) with (p + 1 + zlen l + zlen lb - 2 * zlen c) by lia. exact Q.
Qed.

(** The rows computed, last first. *)
Inductive chain : list path -> Z -> list Z -> Z -> Z -> Prop :=
| chain_first f L U : row 0 L U f -> (forall k, on 0 L U k -> link 0 f None (fun _ => False) k) ->
    chain [(0, f)] 0 f L U
| chain_next l p f L U f' L' U' : chain l p f L U -> row (p + 1) L' U' f' -> 
    (forall k, on (p + 1) L' U' k -> link (p + 1) f' (Some (p, f)) (on p L U) k) ->
    chain ((p + 1, f') :: l) (p + 1) f' L' U'.

Lemma chain_hd l p f L U : chain l p f L U -> hd_error l = Some (p, f) /\ row p L U f.
Proof. destruct 1; split; auto. Qed.

Lemma done_at p L U f min_k : row p L U f -> low_side p L U f min_k -> n - m < min_k ->
  on p L U (n - m) /\ cell p f (n - m) m /\ reach p m n.
Proof.
  intros R Lo D. pose proof (zlen_nonneg a). pose proof (zlen_nonneg b).
  destruct Lo as [(-> & _)|(k0 & O & C & -> & _)]; [lia|].
  destruct (row_cells _ _ _ _ R k0 O) as (v & C' & (F0 & F1 & F2 & _)).
  rewrite (cell_fun _ _ _ _ _ C' C) in *. assert (k0 = n - m) as -> by lia.
  split; [exact O|]. split; [exact C|]. now replace (m + (n - m)) with n in F2 by lia.
Qed.

Lemma not_done p L U f min_k : row p L U f -> low_side p L U f min_k -> min_k <= n - m -> ~ reach p m n.
Proof.
  intros R Lo D Re. destruct (reach_diff _ _ _ Re) as [B P].
  destruct (row_L _ _ _ _ R) as [OL PL]. destruct (row_U _ _ _ _ R) as [OU PU].
  assert (on p L U (n - m)) as O.
  { split; [|exact P]. split.
    - destruct (row_low _ _ _ _ R) as [->|C]; [lia|].
      destruct (row_cells _ _ _ _ R L) as (v & C' & (F0 & F1 & _)); [split; [lia|exact PL]|].
      rewrite (cell_fun _ _ _ _ _ C' C) in *. lia.
    - destruct (row_high _ _ _ _ R) as [->|C]; [lia|].
      destruct (row_cells _ _ _ _ R U) as (v & C' & (F0 & F1 & _)); [split; [lia|exact PU]|].
      rewrite (cell_fun _ _ _ _ _ C' C) in *. lia. }
  destruct (row_cells _ _ _ _ R _ O) as (v & C & (F0 & F1 & F2 & F3)).
  assert (v = m) as ->.
  { specialize (F3 m). replace (m + (n - m)) with n in F3 by lia. specialize (F3 Re). lia. }
  destruct Lo as [(_ & N)|(k0 & _ & _ & -> & Mx)]; [exact (N _ O C)|]. specialize (Mx _ O C). lia.
Qed.

Lemma paths_ok D0 : reach D0 m n -> forall fuel p f L U min_k max_k l,
  chain l p f L U -> low_side p L U f min_k -> high_side p L U f max_k ->
  (forall D, reach D m n -> p <= D) -> D0 - p <= Z.of_nat fuel ->
  exists l' p' f' L' U', paths a b fuel p min_k max_k l = Ok l' /\ chain l' p' f' L' U' /\
    on p' L' U' (n - m) /\ cell p' f' (n - m) m /\ forall D, reach D m n -> p' <= D.
Proof.
  intros RD. induction fuel as [|fu IH]; intros p f L U min_k max_k l Ch Lo Hi Min Fu; cbn [paths];
    destruct (chain_hd _ _ _ _ _ Ch) as [Hd R]; destruct (Z.leb_spec min_k (n - m)) as [ND|Dn].
  - exfalso. apply (not_done _ _ _ _ _ R Lo ND). specialize (Min _ RD). now replace p with D0 by lia.
  - destruct (done_at _ _ _ _ _ R Lo Dn) as (O & C & Re). exists l, p, f, L, U. auto.
  - destruct (range_next _ _ _ _ _ _ R Lo Hi ND) as (A & B & Rg).
    destruct (row_ok _ _ _ _ _ _ _ Rg) as (mn & mx & f' & U' & E & R' & Lo' & Hi' & Ln).
    rewrite Hd, E. cbn [obind].
    destruct (IH (p + 1) f' A U' mn mx ((p + 1, f') :: l)) as (l' & H); auto.
    + econstructor; eauto.
    + intros D ReD. specialize (Min _ ReD). assert (D <> p); [|lia].
      intros ->. exact (not_done _ _ _ _ _ R Lo ND ReD).
    + lia.
    + exists l'. exact H.
  - destruct (done_at _ _ _ _ _ R Lo Dn) as (O & C & Re). exists l, p, f, L, U. auto.
Qed.

Lemma subseq_nil_l {T} (l : list T) : subseq [] l.
Proof. induction l; now constructor. Qed.

Lemma reach_all c : subseq c a -> subseq c b -> reach (m + n - 2 * zlen c) m n.
Proof.
  intros Sa Sb. apply (reach_common a b c Sa b eq_refl Sb 0 [] []); try reflexivity. apply reach_start.
Qed.

Lemma compute_pathlist_ok : exists l p f L U,
  compute_pathlist a b = Ok l /\ chain l p f L U /\
  on p L U (n - m) /\ cell p f (n - m) m /\ forall D, reach D m n -> p <= D.
Proof.
  unfold compute_pathlist. cbn [paths]. pose proof (zlen_nonneg a). pose proof (zlen_nonneg b).
  destruct (Z.leb_spec (- m) (n - m)) as [_|]; [|lia].
  destruct (row_ok _ _ _ _ _ _ _ range_first) as (mn & mx & f & U & E & R & Lo & Hi & Ln).
  change (-1 + 1) with 0. cbn [hd_error]. rewrite E. cbn [obind].
  destruct (paths_ok (m + n - 2 * zlen (@nil Z)) (reach_all [] (subseq_nil_l a) (subseq_nil_l b))
    (List.length a + List.length b) 0 f 0 U mn mx [(0, f)]) as (l' & p' & f' & L' & U' & E' & H').
  - now constructor.
  - exact Lo.
  - exact Hi.
  - intros D Re. now apply reach_range in Re.
  - unfold zlen. cbn. lia.
  - exists l', p', f', L', U'. split; [exact E'|]. exact H'.
Qed.

(** ** Going back along the paths *)

Definition tk {T} (i : Z) (l : list T) : list T := firstn (Z.to_nat i) l.

Lemma tk_snoc {T} (l : list T) i x : znth l i = Some x -> tk (i + 1) l = tk i l ++ [x].
Proof.
  intros E. pose proof (znth_Some_lt _ _ _ E) as B. unfold tk, znth in *.
  destruct (Z.ltb_spec i 0); [lia|]. replace (Z.to_nat (i + 1)) with (S (Z.to_nat i)) by lia.
  clear -E. revert l E. generalize (Z.to_nat i). intros c. induction c as [|c IH]; intros [|y l] E; cbn in *; try discriminate.
  - now injection E as ->.
  - now rewrite <- IH.
Qed.

Lemma tk_next {T} (l : list T) i : exists r, tk (i + 1) l = tk i l ++ r.
Proof.
  destruct (znth l i) as [x|] eqn:E; [exists [x]; now apply tk_snoc|].
  exists []. rewrite app_nil_r. unfold tk. unfold znth in E. destruct (Z.ltb_spec i 0).
  - now replace (Z.to_nat (i + 1)) with (Z.to_nat i) by lia.
  - apply nth_error_None in E. rewrite !firstn_all2; [reflexivity|lia|lia].
Qed.

Lemma tk_all {T} (l : list T) : tk (zlen l) l = l.
Proof. unfold tk, zlen. rewrite Nat2Z.id. apply firstn_all. Qed.

Lemma tk_zlen {T} (l : list T) i : 0 <= i <= zlen l -> zlen (tk i l) = i.
Proof. intros. unfold tk, zlen in *. rewrite firstn_length. lia. Qed.

Lemma subseq_app {T} (c l r : list T) : subseq c l -> subseq c (l ++ r).
Proof. induction 1; cbn; [apply subseq_nil_l|now constructor..]. Qed.

Lemma subseq_snoc {T} (c l : list T) x : subseq c l -> subseq (c ++ [x]) (l ++ [x]).
Proof. induction 1; cbn; repeat constructor; auto. Qed.

Lemma select_app {T} (s s' : list bool) (l l' : list T) : List.length s = List.length l ->
  select (s ++ s') (l ++ l') = select s l ++ select s' l'.
Proof.
  revert l. induction s as [|[|] s IH]; intros [|x l] E; cbn in *; try lia; auto.
  - f_equal. apply IH. lia.
Qed.

(** Indices of [a] chosen among the first [v], matched with the first [v + k] of [b]. *)
Definition chosen (p k v : Z) (sel : list bool) : Prop :=
  zlen sel = v /\ subseq (select sel (tk v a)) (tk (v + k) b) /\
  2 * zlen (select sel (tk v a)) = 2 * v + k - p.

Lemma chosen_run p k s v sel : 0 <= s <= v -> v <= m -> run k s v -> chosen p k s sel ->
  chosen p k v (sel ++ repeat true (Z.to_nat (v - s))).
Proof.
  intros B Vm Rn Ch. replace v with (s + Z.of_nat (Z.to_nat (v - s))) in Rn, Vm |- * at 1 by lia.
  revert Rn Vm. clear B. generalize (Z.to_nat (v - s)). intros c. induction c as [|c IH]; intros Rn Vm.
  - cbn. rewrite app_nil_r, Z.add_0_r. exact Ch.
  - destruct IH as (Ls & Sb & Ct); [intros i Hi; apply Rn; lia|lia|].
    destruct (Rn (s + Z.of_nat c) ltac:(lia)) as (x & E0 & E1).
    replace (s + Z.of_nat (S c)) with (s + Z.of_nat c + 1) by lia.
    replace (repeat true (S c)) with (repeat true c ++ [true]) by (symmetry; apply (repeat_cons c true)).
    rewrite app_assoc. set (q := s + Z.of_nat c) in *. set (sl := sel ++ repeat true c) in *.
    pose proof (znth_Some_lt _ _ _ E0).
    assert (select (sl ++ [true]) (tk (q + 1) a) = select sl (tk q a) ++ [x]) as Es.
    { rewrite (tk_snoc _ _ _ E0), select_app; [reflexivity|].
      pose proof (tk_zlen a q ltac:(lia)). unfold zlen in *. lia. }
    unfold chosen. rewrite Es, !zlen_app, Ls. replace (q + 1 + k) with (q + k + 1) by lia. rewrite (tk_snoc _ _ _ E1).
    split; [reflexivity|]. split; [now apply subseq_snoc|]. change (zlen [x]) with 1. lia.
Qed.

(** The marks set. *)
Definition marked (pos : list Z) (P : Z -> Prop) (marks marks' : list bool) : Prop :=
  zlen marks' = zlen marks /\
  forall q, znth marks' q = Some true <-> znth marks q = Some true \/ exists i, P i /\ znth pos i = Some q.

Lemma mark_list pos (l : list Z) : forall marks,
  (forall i, In i l -> exists q, znth pos i = Some q /\ 0 <= q < zlen marks) ->
  exists marks', ofold (fun marks i => let! q := rd "a" pos i in wr "symbol" marks q true) l marks = Ok marks' /\
    marked pos (fun i => In i l) marks marks'.
Proof.
  induction l as [|i l IH]; intros marks H; cbn [ofold].
  - exists marks. split; [reflexivity|]. split; [reflexivity|]. intros q. split; [auto|].
    intros [Q|(i & [] & _)]. exact Q.
  - destruct (H i (or_introl eq_refl)) as (q & Eq & Bq). unfold rd at 1. rewrite Eq. cbn [obind]. unfold wr at 1.
    destruct (zset_lt_Some marks q true Bq) as (m1 & E1). rewrite E1. cbn [obind].
    pose proof (zset_zlen _ _ _ _ E1) as L1.
    destruct (IH m1) as (m2 & E2 & L2 & M2).
    { intros j Hj. rewrite L1. apply H. now right. }
    exists m2. split; [exact E2|]. split; [congruence|]. intros q'. rewrite M2, (zset_znth _ _ _ _ E1).
    destruct (Z.eqb_spec q' q) as [->|N]; split; intros [Q|(j & Hj & Ej)].
    + right. exists i. split; [now left|exact Eq].
    + right. exists j. split; [now right|exact Ej].
    + left. reflexivity.
    + left. reflexivity.
    + left. exact Q.
    + right. exists j. split; [now right|exact Ej].
    + left. exact Q.
    + destruct Hj as [<-|Hj]; [rewrite Eq in Ej; congruence|]. right. exists j. auto.
Qed.

Lemma mark_range_ok pos s v marks : 0 <= s <= v -> v <= zlen pos ->
  (forall i q, znth pos i = Some q -> 0 <= q < zlen marks) ->
  exists marks', mark_range pos s v marks = Ok marks' /\ marked pos (fun i => s <= i < v) marks marks'.
Proof.
  intros S V H. unfold mark_range.
  destruct (mark_list pos (rev (zrange s (Z.to_nat (v - s)))) marks) as (m' & E & L & M).
  - intros i Hi. rewrite <- in_rev, In_zrange in Hi. destruct (znth_lt_Some pos i ltac:(lia)) as (q & Eq).
    exists q. split; [exact Eq|exact (H _ _ Eq)].
  - exists m'. split; [exact E|]. split; [exact L|]. intros q. rewrite M.
    split; (intros [Q|(i & Hi & Ei)]; [left; exact Q|right; exists i; split; [|exact Ei]]).
    + rewrite <- in_rev, In_zrange in Hi. lia.
    + rewrite <- in_rev, In_zrange. lia.
Qed.

Lemma obtain_ok pos l p f L U : chain l p f L U -> zlen pos = m -> forall k v marks,
  on p L U k -> cell p f k v -> (forall i q, znth pos i = Some q -> 0 <= q < zlen marks) ->
  exists sel marks', chosen p k v sel /\ obtain pos k l marks = Ok marks' /\
    marked pos (fun i => znth sel i = Some true) marks marks'.
Proof.
  intros Ch Lp. 
  assert (forall c (s : list bool) i, znth (s ++ repeat true c) i = Some true <->
            znth s i = Some true \/ zlen s <= i < zlen s + Z.of_nat c) as ZR.
  { intros c s i. destruct (Z_lt_ge_dec i (zlen s)).
    - rewrite znth_app1 by lia. split; [auto|]. intros [Q|Q]; [exact Q|lia].
    - rewrite znth_app2 by lia. split.
      + intros Q. right. apply znth_Some_lt in Q. rewrite repeat_zlen in Q. lia.
      + intros [Q|Q]; [apply znth_Some_lt in Q; lia|].
        destruct (znth_lt_Some (repeat true c) (i - zlen s)) as (x & Ex); [rewrite repeat_zlen; lia|].
        rewrite Ex. f_equal. apply (repeat_spec c true). unfold znth in Ex. destruct (_ <? 0); [discriminate|].
        eapply nth_error_In; exact Ex. }
  induction Ch as [f L U R Ln|l p f L U f' L' U' Ch IH R' Ln]; intros k v marks O C Hp.
  - destruct (Ln k O) as (s & pk & v' & E & (-> & -> & ->) & C' & Sv & Rn & (F0 & F1 & _)).
    rewrite (cell_fun _ _ _ _ _ C' C) in *.
    destruct (mark_range_ok pos 0 v marks ltac:(lia) ltac:(lia) Hp) as (marks' & Em & Lm & Mm).
    exists (repeat true (Z.to_nat (v - 0))), marks'. split; [|split].
    + apply (chosen_run 0 0 0 v []); [lia|lia|exact Rn|]. split; [reflexivity|].
      split; [apply subseq_nil_l|]. cbn. lia.
    + cbn [obtain]. rewrite shift_half. unfold rd at 1. unfold cell in C. rewrite C. cbn [obind hd_error].
      rewrite E. cbn [obind]. rewrite Em. reflexivity.
    + split; [exact Lm|]. intros q. rewrite Mm.
      split; (intros [Q|(i & Hi & Ei)]; [left; exact Q|right; exists i; split; [|exact Ei]]).
      * apply (ZR _ [] i). right. cbn. lia.
      * apply (ZR _ [] i) in Hi. destruct Hi as [Q|Q]; [apply znth_Some_lt in Q|]; cbn in Q; lia.
  - destruct (Ln k O) as (s & pk & v' & E & (k' & -> & Ok' & Cs) & C' & Sv & Rn & (F0 & F1 & _)).
    rewrite (cell_fun _ _ _ _ _ C' C) in *. clear C' v'.
    destruct (chain_hd _ _ _ _ _ Ch) as [Hd R].
    assert (exists vp, cell p f k' vp /\ ((k' = k - 1 /\ s = vp) \/ (k' = k + 1 /\ s = vp + 1))) as (vp & Cp & Cs').
    { destruct Cs as [[-> Q]|[-> Q]]; [exists s|exists (s - 1)]; (split; [exact Q|]); lia. }
    destruct (row_cells _ _ _ _ R k' Ok') as (vp' & Cp' & (G0 & G1 & _)).
    rewrite (cell_fun _ _ _ _ _ Cp' Cp) in *. clear Cp' vp'.
    assert (0 <= s) by lia.
    destruct (mark_range_ok pos s v marks ltac:(lia) ltac:(lia) Hp) as (m1 & Em & Lm & Mm).
    destruct (IH k' vp m1 Ok' Cp) as (sel & marks' & (Sl & Ss & Sc) & Eo & Lo & Mo).
    { intros i q Hq. rewrite Lm. exact (Hp i q Hq). }
    assert (exists sel', chosen (p + 1) k s sel' /\ forall i, znth sel' i = Some true <-> znth sel i = Some true)
      as (sel' & Cs1 & Cs2).
    { destruct Cs' as [[-> ->]|[-> ->]].
      - exists sel. split; [|reflexivity]. split; [exact Sl|]. split; [|lia].
        replace (vp + k) with (vp + (k - 1) + 1) by lia. destruct (tk_next b (vp + (k - 1))) as (r & Er). rewrite Er.
        now apply subseq_app.
      - exists (sel ++ [false]). split.
        + destruct (znth_lt_Some a vp ltac:(lia)) as (x & Ex).
          assert (select (sel ++ [false]) (tk (vp + 1) a) = select sel (tk vp a)) as Es.
          { rewrite (tk_snoc _ _ _ Ex), select_app; [apply app_nil_r|].
            pose proof (tk_zlen a vp ltac:(lia)). unfold zlen in *. lia. }
          split; [rewrite zlen_app, Sl; reflexivity|]. rewrite Es. split; [|lia].
          now replace (vp + 1 + k) with (vp + (k + 1)) by lia.
        + intros i. destruct (Z_lt_ge_dec i (zlen sel)); [now rewrite znth_app1 by lia|].
          rewrite znth_app2 by lia. split; intros Q.
          * exfalso. destruct (Z.eq_dec i (zlen sel)) as [->|].
            -- rewrite Z.sub_diag in Q. discriminate.
            -- apply znth_Some_lt in Q. cbn in Q. lia.
          * apply znth_Some_lt in Q. lia. }
    exists (sel' ++ repeat true (Z.to_nat (v - s))), marks'. split; [|split].
    + apply chosen_run; [lia|lia|exact Rn|exact Cs1].
    + cbn [obtain]. rewrite shift_half. unfold rd at 1. unfold cell in C. rewrite C. cbn [obind]. rewrite Hd, E.
      cbn [obind]. rewrite Em. cbn [obind]. exact Eo.
    + split; [congruence|]. intros q. rewrite Mo, Mm. destruct Cs1 as (Sl' & _).
      assert (forall i, znth (sel' ++ repeat true (Z.to_nat (v - s))) i = Some true <->
                znth sel i = Some true \/ s <= i < v) as Z1.
      { intros i. rewrite ZR, Cs2, Sl'. split; (intros [Q|Q]; [left; exact Q|right; lia]). }
      split.
      * intros [[Q|(i & Hi & Ei)]|(i & Hi & Ei)]; [left; exact Q|right; exists i..]; (split; [|exact Ei]); apply Z1; auto.
      * intros [Q|(i & Hi & Ei)]; [left; left; exact Q|]. apply Z1 in Hi. destruct Hi as [Hi|Hi].
        -- right. exists i. auto.
        -- left. right. exists i. auto.
Qed.
End Lcs.
