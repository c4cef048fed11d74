(** Rounding errors of compute_ci. *)
From Flocq Require Import Core IEEE754.BinarySingleNaN Relative.
From Coq Require Import Reals Lra Psatz.
From Coq Require Import String.
From Verif Require Import Base AccSpec SumProof DoubleModel DoubleProof CiModel CiProof CiSpec.
Local Open Scope Z_scope.
Local Open Scope list_scope.

Local Notation u := (/ 9007199254740992)%R.
Local Notation h := (/ 1208925819614629174706176)%R.

Lemma rnd_err z : (Rabs (rnd z - z) <= u * Rabs z + h)%R.
Proof.
  unfold rnd. rewrite fexp64_eq. destruct (error_N_FLT radix2 (-1074) 53 ltac:(lia) (fun x => negb (Z.even x)) z) as (eps & eta & He & Ht & _ & E).
  rewrite E. replace (z * (1 + eps) + eta - z)%R with (z * eps + eta)%R by ring.
  apply Rle_trans with (1 := Rabs_triang _ _). rewrite Rabs_mult.
  change (bpow radix2 (- (53) + 1)) with (/ 4503599627370496)%R in He.
  assert (bpow radix2 (-1074) <= bpow radix2 (-80))%R as B by (apply bpow_le; lia).
  change (bpow radix2 (-80)) with h in B. pose proof (Rabs_pos z). 
  assert (Rabs z * Rabs eps <= Rabs z * u)%R by (apply Rmult_le_compat_l; lra). lra.
Qed.

(** [x] is finite and within [e] of [r]. *)
Definition near (e : R) (x : double) (r : R) : Prop := exists v, dval x v /\ (Rabs (v - r) <= e)%R.

Lemma near_abs e x r : near e x r -> exists v, dval x v /\ (Rabs (v - r) <= e)%R /\ (Rabs v <= Rabs r + e)%R.
Proof.
  intros (v & D & H). exists v. split; [exact D|]. split; [exact H|].
  replace v with (r + (v - r))%R at 1 by ring. apply Rle_trans with (1 := Rabs_triang _ _). lra.
Qed.
Lemma near_int z : Z.abs z <= 2 ^ 53 -> near 0 (of_int z) (IZR z).
Proof. intros H. exists (IZR z). split; [now apply of_int_exact|]. rewrite Rminus_diag_eq, Rabs_R0; [lra|reflexivity]. Qed.
Lemma near_weaken e e' x r : near e x r -> (e <= e')%R -> near e' x r.
Proof. intros (v & D & H) L. exists v. split; [exact D|lra]. Qed.

Local Notation big := 1208925819614629174706176%R.
Lemma big_bpow : big = bpow radix2 80.
Proof. reflexivity. Qed.

(** A rounded value [rnd z] with [z] within [e] of [r]. *)
Lemma rnd_near z r A e e' : (Rabs (z - r) <= e)%R -> (Rabs r <= A)%R ->
  (e + u * (A + e) + h <= e')%R -> (Rabs (rnd z - r) <= e')%R.
Proof.
  intros Hz Hr He. replace (rnd z - r)%R with ((rnd z - z) + (z - r))%R by ring.
  apply Rle_trans with (1 := Rabs_triang _ _). pose proof (rnd_err z).
  assert (Rabs z <= A + e)%R.
  { replace z with (r + (z - r))%R by ring. apply Rle_trans with (1 := Rabs_triang _ _). lra. }
  lra.
Qed.
Lemma abs_big z r A e : (Rabs (z - r) <= e)%R -> (Rabs r <= A)%R -> (A + e <= big)%R -> (Rabs z <= bpow radix2 80)%R.
Proof.
  intros Hz Hr H. rewrite <- big_bpow. replace z with (r + (z - r))%R by ring.
  apply Rle_trans with (1 := Rabs_triang _ _). lra.
Qed.

Lemma near_add x y a b e1 e2 A e : near e1 x a -> near e2 y b -> (Rabs (a + b) <= A)%R -> (A + (e1 + e2) <= big)%R ->
  ((e1 + e2) + u * (A + (e1 + e2)) + h <= e)%R -> near e (fadd x y) (a + b).
Proof.
  intros (v & Dv & Hv) (w & Dw & Hw) HA B He.
  assert (Z : (Rabs ((v + w) - (a + b)) <= e1 + e2)%R).
  { replace ((v + w) - (a + b))%R with ((v - a) + (w - b))%R by ring. apply Rle_trans with (1 := Rabs_triang _ _). lra. }
  exists (rnd (v + w)). split; [|now apply (rnd_near _ _ A (e1 + e2))].
  apply (fadd_ok _ _ _ _ 80); auto; [lia|]. now apply (abs_big _ (a + b) A (e1 + e2)).
Qed.
Lemma near_sub x y a b e1 e2 A e : near e1 x a -> near e2 y b -> (Rabs (a - b) <= A)%R -> (A + (e1 + e2) <= big)%R ->
  ((e1 + e2) + u * (A + (e1 + e2)) + h <= e)%R -> near e (fsub x y) (a - b).
Proof.
  intros (v & Dv & Hv) (w & Dw & Hw) HA B He.
  assert (Z : (Rabs ((v - w) - (a - b)) <= e1 + e2)%R).
  { replace ((v - w) - (a - b))%R with ((v - a) - (w - b))%R by ring. unfold Rminus at 1. apply Rle_trans with (1 := Rabs_triang _ _). rewrite Rabs_Ropp. lra. }
  exists (rnd (v - w)). split; [|now apply (rnd_near _ _ A (e1 + e2))].
  apply (fsub_ok _ _ _ _ 80); auto; [lia|]. now apply (abs_big _ (a - b) A (e1 + e2)).
Qed.
(** By an exact factor *)
Lemma near_scale x y a b e2 A e : dval x a -> (0 <= a)%R -> near e2 y b -> (Rabs (a * b) <= A)%R -> (A + a * e2 <= big)%R ->
  (a * e2 + u * (A + a * e2) + h <= e)%R -> near e (fmul x y) (a * b).
Proof.
  intros Dx Pa (w & Dw & Hw) HA B He.
  assert (Z : (Rabs (a * w - a * b) <= a * e2)%R).
  { rewrite <- Rmult_minus_distr_l, Rabs_mult, (Rabs_pos_eq a) by lra. now apply Rmult_le_compat_l. }
  exists (rnd (a * w)). split; [|now apply (rnd_near _ _ A (a * e2))].
  apply (fmul_ok _ _ _ _ 80); auto; [lia|]. now apply (abs_big _ (a * b) A (a * e2)).
Qed.
Lemma near_div x y a b e1 A e : near e1 x a -> dval y b -> (1 <= b)%R -> (Rabs (a / b) <= A)%R -> (A + e1 / b <= big)%R ->
  (e1 / b + u * (A + e1 / b) + h <= e)%R -> near e (fdiv x y) (a / b).
Proof.
  intros (v & Dv & Hv) Dy Pb HA B He.
  assert (Z : (Rabs (v / b - a / b) <= e1 / b)%R).
  { replace (v / b - a / b)%R with ((v - a) / b)%R by (field; lra). unfold Rdiv. rewrite Rabs_mult, Rabs_inv, (Rabs_pos_eq b) by lra.
    apply Rmult_le_compat_r; [|exact Hv]. apply Rlt_le, Rinv_0_lt_compat. lra. }
  exists (rnd (v / b)). split; [|now apply (rnd_near _ _ A (e1 / b))].
  apply (fdiv_ok _ _ _ _ 80); auto; [lra|lia|]. now apply (abs_big _ (a / b) A (e1 / b)).
Qed.

Lemma div_le a b c : (0 < b)%R -> (a <= c * b)%R -> (a / b <= c)%R.
Proof. intros P H. apply Rmult_le_reg_r with b; [exact P|]. unfold Rdiv. rewrite Rmult_assoc, Rinv_l, Rmult_1_r by lra. exact H. Qed.
Lemma abs_div a b c : (0 < b)%R -> (Rabs a <= c * b)%R -> (Rabs (a / b) <= c)%R.
Proof.
  intros P H. unfold Rdiv. rewrite Rabs_mult, Rabs_inv, (Rabs_pos_eq b) by lra. now apply div_le.
Qed.

(** A percentage *)
Local Notation E0 := (/ 35184372088832)%R.
Lemma percentage_near n d : 1 <= d <= 2 ^ 53 -> Z.abs n <= d ->
  near E0 (percentage n d) (100 * IZR n / IZR d) /\ (Rabs (100 * IZR n / IZR d) <= 100)%R.
Proof.
  intros Hd Hn. assert (1 <= IZR d <= 9007199254740992)%R as Pd by (split; apply IZR_le; lia).
  assert (Rabs (IZR n) <= IZR d)%R as An by (rewrite <- abs_IZR; apply IZR_le; exact Hn).
  assert (A : (Rabs (100 * IZR n / IZR d) <= 100)%R).
  { apply abs_div; [lra|]. rewrite Rabs_mult, (Rabs_pos_eq 100) by lra. lra. }
  split; [|exact A]. unfold percentage.
  assert (Hd1 : (IZR d / IZR d = 1)%R) by (field; lra).
  apply (near_div _ _ _ _ (100 * u * IZR d + h) 100).
  - apply (near_scale _ _ _ _ 0 (100 * IZR d)).
    + apply (of_int_exact 100); lia.
    + lra.
    + apply near_int. lia.
    + rewrite Rabs_mult, (Rabs_pos_eq 100) by lra. lra.
    + lra.
    + lra.
  - apply of_int_exact. lia.
  - lra.
  - exact A.
  - assert ((100 * u * IZR d + h) / IZR d <= 200)%R; [|lra]. apply div_le; lra.
  - assert ((100 * u * IZR d + h) / IZR d <= 100 * u + h)%R; [|lra]. apply div_le; [lra|]. nra.
Qed.

(** * The sums of the squares *)
Lemma sqrt_sqr_abs a : sqrt (a * a) = Rabs a.
Proof. exact (sqrt_Rsqr_abs a). Qed.

Lemma le_sqrt_of x y : (0 <= y)%R -> (x <= y * y)%R -> (sqrt x <= y)%R.
Proof. intros P H. rewrite <- (sqrt_square y) by exact P. now apply sqrt_le_1_alt. Qed.

(** The norm of a vector and a component *)
Lemma norm_step X Y a b : (0 <= X)%R -> (0 <= Y)%R ->
  (sqrt (X + a * a) <= sqrt (Y + b * b) + Rabs (sqrt X - sqrt Y) + Rabs (a - b))%R.
Proof.
  intros PX PY. set (x := sqrt X). set (y := sqrt Y).
  assert (Ex : X = (x * x)%R) by (symmetry; now apply sqrt_sqrt).
  assert (Ey : Y = (y * y)%R) by (symmetry; now apply sqrt_sqrt).
  assert (Px : (0 <= x)%R) by apply sqrt_pos. assert (Py : (0 <= y)%R) by apply sqrt_pos.
  set (r := sqrt (Y + b * b)). assert (Pr : (0 <= r)%R) by apply sqrt_pos.
  assert (Er : (r * r = Y + b * b)%R) by (apply sqrt_sqrt; nra).
  set (d := Rabs (x - y)). set (e := Rabs (a - b)).
  assert (Pd : (0 <= d)%R) by apply Rabs_pos. assert (Pe : (0 <= e)%R) by apply Rabs_pos.
  assert (Hx : (x <= y + d)%R) by (pose proof (Rle_abs (x - y)); fold d in H; lra).
  assert (Ha : (Rabs a <= Rabs b + e)%R).
  { replace a with (b + (a - b))%R at 1 by ring. apply Rabs_triang. }
  assert (Ry : (y <= r)%R). { apply le_sqrt_of; [exact Pr|]. rewrite Er. nra. }
  assert (Rb : (Rabs b <= r)%R).
  { rewrite <- sqrt_sqr_abs. apply le_sqrt_of; [exact Pr|]. rewrite Er. nra. }
  apply le_sqrt_of; [lra|]. rewrite Ex.
  assert (x * x <= (y + d) * (y + d))%R by (apply Rmult_le_compat; lra).
  assert (a * a <= (Rabs b + e) * (Rabs b + e))%R.
  { replace (a * a)%R with (Rabs a * Rabs a)%R by (rewrite <- Rabs_mult; apply Rabs_pos_eq; nra).
    pose proof (Rabs_pos a). apply Rmult_le_compat; lra. }
  assert (Rabs b * Rabs b = b * b)%R by (rewrite <- Rabs_mult; apply Rabs_pos_eq; nra).
  pose proof (Rabs_pos b).
  assert (y * d <= r * d)%R by (apply Rmult_le_compat_r; lra).
  assert (Rabs b * e <= r * e)%R by (apply Rmult_le_compat_r; lra).
  assert (0 <= d * e)%R by (apply Rmult_le_pos; lra).
  assert (0 <= r * d)%R by (apply Rmult_le_pos; lra). assert (0 <= r * e)%R by (apply Rmult_le_pos; lra). nra.
Qed.

Definition sq (l : list R) : R := rsum (map Rsqr l).
Lemma sq_cons a l : sq (a :: l) = (a * a + sq l)%R.
Proof. reflexivity. Qed.
Lemma sq_pos l : (0 <= sq l)%R.
Proof. induction l as [|a l IH]; [apply Rle_refl|]. rewrite sq_cons. nra. Qed.

Lemma norm_near d : forall l l', Forall2 (fun a b => (Rabs (a - b) <= d)%R) l l' ->
  (Rabs (sqrt (sq l) - sqrt (sq l')) <= IZR (zlen l) * d)%R.
Proof.
  intros l l' H. induction H as [|a b l l' Hab H IH].
  - rewrite Rminus_diag_eq, Rabs_R0 by reflexivity. change (zlen []) with 0. lra.
  - rewrite !sq_cons, zlen_cons, plus_IZR. pose proof (sq_pos l) as P1. pose proof (sq_pos l') as P2.
    pose proof (norm_step _ _ a b P1 P2) as N1. pose proof (norm_step _ _ b a P2 P1) as N2.
    rewrite (Rabs_minus_sym (sqrt (sq l'))), (Rabs_minus_sym b) in N2.
    rewrite (Rplus_comm (a * a)), (Rplus_comm (b * b)). apply Rabs_le. lra.
Qed.

(** The sum of squares as computed *)
Lemma squares_near J jv A k0 : dval J jv -> (1 <= A <= 1073741824)%R -> 0 <= k0 ->
  forall js vs sum s T,
  Forall2 (fun j v => exists w, dval j w /\ v = rnd (w - jv) /\ (Rabs (w - jv) <= A)%R) js vs ->
  k0 + zlen js <= 16384 -> dval sum s -> (0 <= s)%R -> (0 <= T <= 2 * (IZR k0 * (A * A)))%R ->
  (Rabs (s - T) <= 4 * u * IZR k0 * T + 4 * IZR k0 * h)%R ->
  exists s', dval (fold_left (fun s j => fadd s (fmul (fsub j J) (fsub j J))) js sum) s' /\ (0 <= s')%R /\
    (Rabs (s' - (T + sq vs)) <= 4 * u * IZR (k0 + zlen js) * (T + sq vs) + 4 * IZR (k0 + zlen js) * h)%R.
Proof.
  intros DJ HA. intros K js. revert k0 K. induction js as [|j js IH]; intros k0 K vs sum s T F Hl Ds Ps HT Hs.
  - inversion F; subst. exists s. cbn [fold_left]. split; [exact Ds|]. split; [exact Ps|]. change (sq []) with 0%R. change (zlen (@nil double)) with 0; rewrite Z.add_0_r, Rplus_0_r. exact Hs.
  - inversion F as [|? v ? vs' (w & Dw & Ev & Hw) F']; subst. rewrite zlen_cons in *. pose proof (zlen_nonneg js). cbn [fold_left].
    assert (Wd : dval (fsub j J) (rnd (w - jv))).
    { apply (fsub_ok _ _ _ _ 80); auto; [lia|]. rewrite <- big_bpow. lra. }
    set (v := rnd (w - jv)) in *.
    assert (Hv : (Rabs v <= A + A * u + h)%R).
    { replace v with ((w - jv) + (v - (w - jv)))%R by ring. apply Rle_trans with (1 := Rabs_triang _ _).
      pose proof (rnd_err (w - jv)) as R. fold v in R. assert (u * Rabs (w - jv) <= u * A)%R by (apply Rmult_le_compat_l; lra). lra. }
    assert (Hvv : (0 <= v * v <= 2 * (A * A))%R).
    { split; [nra|]. replace (v * v)%R with (Rabs v * Rabs v)%R by (rewrite <- Rabs_mult; apply Rabs_pos_eq; nra).
      pose proof (Rabs_pos v). assert (Rabs v <= 1.1 * A)%R by lra. nra. }
    assert (AA : (1 <= A * A <= 1152921504606846976)%R) by nra.
    assert (Dq : dval (fmul (fsub j J) (fsub j J)) (rnd (v * v))).
    { apply (fmul_ok _ _ _ _ 80); auto; [lia|]. rewrite <- big_bpow, Rabs_pos_eq by lra. lra. }
    pose proof (rnd_err (v * v)) as Rq. rewrite (Rabs_pos_eq (v * v)) in Rq by lra. set (q := rnd (v * v)) in *.
    assert (K1 : (0 <= IZR k0 <= 16384)%R) by (split; apply IZR_le; lia).
    assert (KA : (IZR k0 * (A * A) <= 16384 * (A * A))%R) by (apply Rmult_le_compat_r; lra).
    assert (UT : (0 <= IZR k0 * T <= 16384 * T)%R) by (split; [apply Rmult_le_pos; lra|apply Rmult_le_compat_r; lra]).
    assert (Pq : (0 <= q)%R) by (apply rnd_ge_format; [apply generic_format_0|lra]).
    set (S := (T + v * v)%R).
    assert (Z : (Rabs ((s + q) - S) <= 4 * u * (IZR k0 * T) + 4 * IZR k0 * h + u * (v * v) + h)%R).
    { replace ((s + q) - S)%R with ((s - T) + (q - v * v))%R by (unfold S; ring). apply Rle_trans with (1 := Rabs_triang _ _). lra. }
    assert (PS : (0 <= S)%R) by (unfold S; lra).
    destruct (IH (k0 + 1) ltac:(lia) vs' (fadd sum (fmul (fsub j J) (fsub j J))) (rnd (s + q)) S) as (s' & D & P' & R).
    + exact F'.
    + lia.
    + apply (fadd_ok _ _ _ _ 80); auto; [lia|].
      apply (abs_big (s + q) S S _ Z); [rewrite Rabs_pos_eq; lra|]. unfold S. lra.
    + apply rnd_ge_format; [apply generic_format_0|lra].
    + rewrite plus_IZR. unfold S. lra.
    + rewrite plus_IZR. eapply rnd_near; [exact Z|rewrite Rabs_pos_eq by exact PS; apply Rle_refl|]. unfold S in *.
      assert (0 <= IZR k0 * (v * v))%R by (apply Rmult_le_pos; lra). lra.
    + exists s'. split; [exact D|]. split; [exact P'|]. rewrite sq_cons. replace (k0 + (zlen js + 1)) with (k0 + 1 + zlen js) by lia.
      unfold S in R. replace (T + (v * v + sq vs'))%R with (T + v * v + sq vs')%R by ring. exact R.
Qed.

Lemma sqrt_near x y e t : (0 <= x)%R -> (0 <= y)%R -> (0 <= e <= / 2)%R -> (0 <= t)%R ->
  (Rabs (x - y) <= e * y + t * t)%R -> (Rabs (sqrt x - sqrt y) <= e * sqrt y + 2 * t)%R.
Proof.
  intros Px Py He Pt H. apply Rabs_le_inv in H. set (a := sqrt x). set (b := sqrt y).
  assert (Ea : (a * a = x)%R) by now apply sqrt_sqrt. assert (Eb : (b * b = y)%R) by now apply sqrt_sqrt.
  assert (Pa : (0 <= a)%R) by apply sqrt_pos. assert (Pb : (0 <= b)%R) by apply sqrt_pos.
  assert (0 <= e * b)%R by (apply Rmult_le_pos; lra).
  assert (0 <= t * b)%R by (apply Rmult_le_pos; lra). assert (0 <= t * (e * b))%R by (apply Rmult_le_pos; lra).
  apply Rabs_le. split.
  - (* b <= a + e b + 2 t *)
    destruct (Rle_lt_dec b (a + (e * b + 2 * t))) as [L|L]; [lra|exfalso].
    assert (a < b * (1 - e) - 2 * t)%R by lra. assert (0 < b)%R by lra.
    assert (a * a <= (b * (1 - e) - 2 * t) * (b * (1 - e) - 2 * t))%R by (apply Rmult_le_compat; lra).
    rewrite Ea in *. assert (b * (1 - e) - 2 * t > 0)%R by lra. 
    assert (2 * t < b)%R by nra. assert (2 * t * t <= t * b)%R by nra.
    assert (0 <= e * (b * b) <= / 2 * (b * b))%R by nra.
    assert (e * (e * (b * b)) <= / 2 * (e * (b * b)))%R by nra.
    assert (t * (e * b) <= / 2 * (t * b))%R by nra.
    nra.
  - destruct (Rle_lt_dec a (b + (e * b + 2 * t))) as [L|L]; [lra|exfalso].
    assert ((b + (e * b + 2 * t)) * (b + (e * b + 2 * t)) <= a * a)%R by (apply Rmult_le_compat; lra).
    rewrite Ea in *. assert (0 <= (e * b) * (e * b))%R by nra. nra.
Qed.

Lemma rsum_app a b : rsum (a ++ b) = (rsum a + rsum b)%R.
Proof. induction a as [|x a IH]; [change (rsum []) with 0%R; cbn [app]; ring|]. change (x + rsum (a ++ b) = x + rsum a + rsum b)%R. rewrite IH. ring. Qed.
Lemma rsum_cons x l : rsum (x :: l) = (x + rsum l)%R.
Proof. reflexivity. Qed.
Lemma rsum_affine {X} (f : X -> R) a b l : rsum (map (fun x => (a - b * f x)%R) l) = (IZR (zlen l) * a - b * rsum (map f l))%R.
Proof.
  induction l as [|x l IH]; cbn [map].
  - change (rsum []) with 0%R. change (zlen (@nil X)) with 0. ring.
  - rewrite !rsum_cons, IH, zlen_cons, plus_IZR. ring.
Qed.

(** Pseudovalues and the sum of the accuracies *)
Lemma pseudovalues_near tc tm n nt ntx (N := IZR n) : 2 <= n <= 10000 -> near (N * (2 * E0)) nt ntx -> (Rabs ntx <= 100 * N)%R ->
  forall l sum s i,
  (forall o, In o l -> 1 <= tc - fst o <= 2 ^ 53 /\ Z.abs ((tc - fst o) - (tm - snd o)) <= tc - fst o) ->
  0 <= i -> i + zlen l <= n -> (Rabs s <= 100 * IZR i)%R -> near (IZR i * N * (2 * E0)) sum s ->
  let theta o := (100 * IZR ((tc - fst o) - (tm - snd o)) / IZR (tc - fst o))%R in
  exists js sum', pseudovalues tc tm n nt l sum = Ok (js, sum') /\
    near (IZR (i + zlen l) * N * (2 * E0)) sum' (s + rsum (map theta l)) /\
    (Rabs (s + rsum (map theta l)) <= 100 * IZR (i + zlen l))%R /\
    Forall2 (fun j o => near (N * (8 * E0)) j (ntx - (N - 1) * theta o) /\ (Rabs (ntx - (N - 1) * theta o) <= 200 * N)%R) js l.
Proof.
  intros Hn Hnt Ant. assert (PN : (2 <= N <= 10000)%R) by (split; apply IZR_le; lia).
  induction l as [|[c m] l IH]; intros sum s i Ho Hi Hl As Ns theta.
  - exists [], sum. change (rsum (map theta [])) with 0%R. change (zlen (@nil obs)) with 0. rewrite Z.add_0_r, Rplus_0_r. repeat split; auto.
  - destruct (Ho (c, m) (or_introl eq_refl)) as [H1 H2]. cbn [fst snd] in H1, H2.
    destruct (percentage_near ((tc - c) - (tm - m)) (tc - c) H1 H2) as [Nt At].
    cbn [pseudovalues]. unfold accuracy. replace (tc - c =? 0) with false by lia. cbn [obind].
    rewrite zlen_cons in *. pose proof (zlen_nonneg l). set (p := percentage _ _) in *.
    assert (Et : theta (c, m) = (100 * IZR (tc - c - (tm - m)) / IZR (tc - c))%R) by reflexivity. rewrite <- Et in Nt, At. set (t := theta (c, m)) in *.
    assert (Pi : (0 <= IZR i /\ IZR i + 1 <= N)%R).
    { split; [apply IZR_le; lia|]. rewrite <- plus_IZR. apply IZR_le. lia. }
    assert (Ast : (Rabs (s + t) <= 100 * IZR (i + 1))%R).
    { apply Rle_trans with (1 := Rabs_triang _ _). rewrite plus_IZR. lra. }
    assert (0 <= IZR i * N <= 10000 * N)%R by nra.
    destruct (IH (fadd sum p) (s + t)%R (i + 1)) as (js & sum' & E & Ns' & As' & F).
    + intros o Hoo. apply Ho. now right.
    + lia.
    + lia.
    + exact Ast.
    + rewrite plus_IZR in *. apply (near_add _ _ _ _ (IZR i * N * (2 * E0)) E0 (100 * N)); auto; lra.
    + rewrite E. cbn [obind]. exists (fsub nt (fmul (of_int (n - 1)) p) :: js), sum'. cbn [map]. rewrite rsum_cons, <- Rplus_assoc.
      change (theta (c, m)) with t. replace (i + (zlen l + 1)) with (i + 1 + zlen l) by lia.
      split; [reflexivity|]. split; [exact Ns'|]. split; [exact As'|]. constructor; [|exact F]. change (theta (c, m)) with t.
      assert (A1 : (Rabs ((N - 1) * t) <= 100 * N)%R).
      { rewrite Rabs_mult, (Rabs_pos_eq (N - 1)) by lra. pose proof (Rabs_pos t). nra. }
      assert (A2 : (Rabs (ntx - (N - 1) * t) <= 200 * N)%R).
      { unfold Rminus at 1. apply Rle_trans with (1 := Rabs_triang _ _). rewrite Rabs_Ropp. lra. }
      split; [|exact A2].
      apply (near_sub _ _ _ _ (N * (2 * E0)) (N * (2 * E0)) (200 * N)); auto; try lra.
      apply (near_scale _ _ _ _ E0 (100 * N)); auto; try lra.
      unfold N. rewrite <- minus_IZR. apply of_int_exact. lia.
Qed.

Lemma rel_div x y b e t : (0 <= y)%R -> (1 <= b)%R -> (0 <= e <= / 2)%R -> (0 <= t)%R -> (Rabs (x - y) <= e * y + t)%R ->
  (Rabs (rnd (x / b) - y / b) <= (e + 2 * u) * (y / b) + (2 * t + h))%R.
Proof.
  intros Py Pb He Pt H. assert (PY : (0 <= y / b)%R) by (apply Rmult_le_pos; [exact Py|apply Rlt_le, Rinv_0_lt_compat; lra]).
  assert (Ey : ((y / b) * b = y)%R) by (field; lra). set (Y := (y / b)%R) in *.
  assert (Z : (Rabs (x / b - Y) <= e * Y + t)%R).
  { replace (x / b - Y)%R with ((x - y) / b)%R by (unfold Y; field; lra). apply abs_div; [lra|]. apply Rle_trans with (1 := H). rewrite <- Ey. nra. }
  apply (rnd_near _ _ Y _ _ Z); [rewrite Rabs_pos_eq; lra|].
  assert (e * Y <= / 2 * Y)%R by (apply Rmult_le_compat_r; lra). lra.
Qed.

Lemma fsqrt_ok x r k : dval x r -> (0 <= r <= bpow radix2 k)%R -> 0 <= k <= 1023 -> dval (fsqrt x) (rnd (sqrt r)).
Proof.
  intros D [P A] K. destruct (sqrt_within k x r) as (s & [Ds _] & _); auto.
  { split; [exact D|]. now rewrite Rabs_pos_eq. }
  split; [apply Ds|]. destruct (@Bsqrt_correct 53 1024 Hp Hm mode_NE x) as (E & _). destruct D as [_ V]. now rewrite <- V.
Qed.

Lemma sq_le B l : (0 <= B)%R -> Forall (fun v => (Rabs v <= B)%R) l -> (sq l <= IZR (zlen l) * (B * B))%R.
Proof.
  intros PB F. induction F as [|v l Hv F IH]; [change (sq []) with 0%R; change (zlen (@nil R)) with 0; lra|].
  rewrite sq_cons, zlen_cons, plus_IZR. assert (v * v <= B * B)%R; [|lra].
  replace (v * v)%R with (Rabs v * Rabs v)%R by (rewrite <- Rabs_mult; apply Rabs_pos_eq; nra).
  pose proof (Rabs_pos v). apply Rmult_le_compat; lra.
Qed.

Lemma cut_near a b e : (Rabs (a - b) <= e)%R -> (Rabs (cut a - cut b) <= e)%R.
Proof.
  intros H. apply Rabs_le_inv in H. unfold cut, Rmax, Rmin. apply Rabs_le.
  destruct (Rle_dec 100 a), (Rle_dec 100 b); repeat match goal with |- context [Rle_dec 0 ?x] => destruct (Rle_dec 0 x) end; lra.
Qed.

Lemma compute_near l (n := zlen l) (tc := zsum (map fst l)) (tm := zsum (map snd l)) :
  valid_obslist l = true -> 2 <= n <= 10000 -> 1 <= tc <= 2 ^ 53 -> Z.abs (tc - tm) <= tc ->
  (forall o, In o l -> 1 <= tc - fst o <= 2 ^ 53 /\ Z.abs ((tc - fst o) - (tm - snd o)) <= tc - fst o) ->
  exists lower upper, compute_ci l = Ok (lower, upper) /\
    near (/ 1000) lower (exact_lower l) /\ near (/ 1000) upper (exact_upper l).
Proof.
  intros Va Hn Htc Htm Ho. unfold compute_ci. rewrite Va. cbn [negb]. cbv zeta. rewrite obs_count_sum, obs_missed_sum. fold tc tm n.
  unfold accuracy at 1. replace (tc =? 0) with false by lia. cbn [obind].
  set (N := IZR n). assert (PN : (2 <= N <= 10000)%R) by (split; apply IZR_le; lia).
  assert (DN : dval (of_int n) N) by (apply of_int_exact; lia).
  assert (DN1 : dval (of_int (n - 1)) (N - 1)) by (unfold N; rewrite <- minus_IZR; apply of_int_exact; lia).
  destruct (percentage_near (tc - tm) tc Htc Htm) as [Nt At]. set (th := (100 * IZR (tc - tm) / IZR tc)%R) in *.
  assert (An : (Rabs (N * th) <= 100 * N)%R) by (rewrite Rabs_mult, (Rabs_pos_eq N) by lra; nra).
  assert (Nn : near (N * (2 * E0)) (fmul (of_int n) (percentage (tc - tm) tc)) (N * th)).
  { apply (near_scale _ _ _ _ E0 (100 * N)); auto; lra. }
  set (nt := fmul (of_int n) _) in *.
  destruct (pseudovalues_near tc tm n nt (N * th) Hn Nn An l (of_int 0) 0%R 0 Ho) as (js & sum & E & Ns & As & F).
  { lia. } { fold n. lia. } { rewrite Rabs_R0. lra. }
  { replace (IZR 0 * IZR n * (2 * E0))%R with 0%R by ring. apply (near_int 0). lia. }
  rewrite E. cbn [obind]. clear E. fold n in Ns, As. fold N in Ns, As, F. rewrite Z.add_0_l, Rplus_0_l in Ns, As. fold N in Ns, As.
  set (theta := fun o : Z * Z => (100 * IZR (tc - fst o - (tm - snd o)) / IZR (tc - fst o))%R) in *.
  set (S := rsum (map theta l)) in *.
  (* the exact figures *)
  assert (Eo : overall l = th).
  { unfold overall, accuracy_of, th. fold tc tm. now rewrite minus_IZR. }
  assert (Ep : forall o, pseudovalue l o = (N * th - (N - 1) * theta o)%R).
  { intros o. unfold pseudovalue, without, accuracy_of, theta. rewrite Eo. fold tc tm n N. now rewrite (minus_IZR (tc - fst o)). }
  assert (Ee : estimate l = (N * th - (N - 1) * S / N)%R).
  { unfold estimate, mean. rewrite (map_ext _ _ Ep), rsum_affine. replace (zlen (map _ l)) with n by (unfold n, zlen; now rewrite map_length). change (rsum (map theta l)) with S; change (IZR (zlen l)) with N.
    change (IZR n) with N. field. lra. }
  set (J := (N * th - (N - 1) * S / N)%R) in *.
  (* the estimate *)
  assert (A1 : (Rabs ((N - 1) * S) <= 100 * N * N)%R).
  { rewrite Rabs_mult, (Rabs_pos_eq (N - 1)) by lra. pose proof (Rabs_pos S). nra. }
  assert (A2 : (Rabs ((N - 1) * S / N) <= 100 * N)%R) by (apply abs_div; lra).
  assert (AJ : (Rabs J <= 200 * N)%R).
  { unfold J, Rminus at 1. apply Rle_trans with (1 := Rabs_triang _ _). rewrite Rabs_Ropp. lra. }
  assert (N2 : (2 * N <= N * N <= 10000 * N)%R) by nra.
  assert (N3 : (2 * (N * N) <= N * (N * N) <= 10000 * (N * N))%R) by nra.
  set (jd := fsub nt _).
  assert (NJ : near (N * N * (5 * E0)) jd J).
  { apply (near_sub _ _ _ _ (N * (2 * E0)) (N * N * (3 * E0)) (200 * N)); auto; try lra.
    assert (En : (N * (N * N) * (2 * E0) / N = N * N * (2 * E0))%R) by (field; lra).
    apply (near_div _ _ _ _ (N * (N * N) * (2 * E0)) (100 * N)); auto; try lra; try (rewrite En; lra).
    apply (near_scale _ _ _ _ (N * N * (2 * E0)) (100 * N * N)); auto; lra. }
  destruct NJ as (jv & DJ & HJ).
  (* the differences *)
  assert (exists vs, Forall2 (fun j v => exists w, dval j w /\ v = rnd (w - jv) /\ (Rabs (w - jv) <= 400 * N + 1)%R) js vs /\
           Forall2 (fun v d => (Rabs (v - d) <= N * N * (12 * E0))%R) vs (map (fun o => (pseudovalue l o - estimate l)%R) l) /\
           Forall (fun v => (Rabs v <= 401 * N)%R) vs) as (vs & F1 & F2 & F3).
  { rewrite Ee. clearbody J. clear Ee As Ns Ho Va A1 A2 DJ Eo.
    set (f := fun o => (pseudovalue l o - J)%R).
    assert (G : forall js0 l0, Forall2 (fun j o => near (N * (8 * E0)) j (N * th - (N - 1) * theta o) /\ (Rabs (N * th - (N - 1) * theta o) <= 200 * N)%R) js0 l0 ->
      exists vs, Forall2 (fun j v => exists w, dval j w /\ v = rnd (w - jv) /\ (Rabs (w - jv) <= 400 * N + 1)%R) js0 vs /\
           Forall2 (fun v d => (Rabs (v - d) <= N * N * (12 * E0))%R) vs (map f l0) /\
           Forall (fun v => (Rabs v <= 401 * N)%R) vs); [|exact (G _ _ F)].
    clear F. intros js0 l0 F. induction F as [|j o js0 l0 [(w & Dw & Hw) Ao] F IH].
    - exists []. repeat split; constructor.
    - destruct IH as (vs & I1 & I2 & I3). exists (rnd (w - jv) :: vs). rewrite <- Ep in Hw, Ao. cbn [map].
      assert (Ad : (Rabs (pseudovalue l o - J) <= 400 * N)%R).
      { unfold Rminus at 1. apply Rle_trans with (1 := Rabs_triang _ _). rewrite Rabs_Ropp. lra. }
      assert (Z : (Rabs ((w - jv) - (pseudovalue l o - J)) <= N * N * (9 * E0))%R).
      { replace ((w - jv) - (pseudovalue l o - J))%R with ((w - pseudovalue l o) - (jv - J))%R by ring.
        unfold Rminus at 1. apply Rle_trans with (1 := Rabs_triang _ _). rewrite Rabs_Ropp. lra. }
      assert (R : (Rabs (rnd (w - jv) - (pseudovalue l o - J)) <= N * N * (12 * E0))%R) by (apply (rnd_near _ _ (400 * N) _ _ Z Ad); lra).
      split; [|split].
      + constructor; [|exact I1]. exists w. split; [exact Dw|]. split; [reflexivity|].
        replace (w - jv)%R with ((pseudovalue l o - J) + ((w - jv) - (pseudovalue l o - J)))%R by ring.
        apply Rle_trans with (1 := Rabs_triang _ _). lra.
      + constructor; assumption.
      + constructor; [|exact I3].
        replace (rnd (w - jv)) with ((pseudovalue l o - J) + (rnd (w - jv) - (pseudovalue l o - J)))%R by ring.
        apply Rle_trans with (1 := Rabs_triang _ _). lra. }
  assert (Lj : zlen js = n).
  { unfold n, zlen. f_equal. clear - F. revert F. generalize l as l0. intros l0 F. induction F; cbn; congruence. }
  assert (Lv : zlen vs = n).
  { rewrite <- Lj. unfold zlen. f_equal. clear - F1. induction F1; cbn; congruence. }
  destruct (squares_near jd jv (400 * N + 1) 0 DJ ltac:(lra) ltac:(lia) js vs (of_int 0) 0%R 0%R F1) as (q & Dq & Pq & Hq).
  { lia. } { apply (of_int_exact 0). lia. } { lra. } { lra. } { rewrite Rminus_diag_eq, Rabs_R0 by reflexivity. lra. }
  rewrite Rplus_0_l, Z.add_0_l, Lj in Hq. fold N in Hq. set (Q := fold_left _ js _) in *.
  pose proof (sq_pos vs) as PT. set (T := sq vs) in *.
  assert (HT : (T <= N * ((401 * N) * (401 * N)))%R).
  { unfold T, N at 1. rewrite <- Lv. apply sq_le; [lra|exact F3]. }
  assert (HT' : (T <= 10000 * (401 * 10000 * (401 * 10000)))%R) by nra.
  (* the standard error *)
  assert (Q1 : (Rabs (rnd (q / (N - 1)) - T / (N - 1)) <= (4 * u * N + 2 * u) * (T / (N - 1)) + (2 * (4 * N * h) + h))%R).
  { apply rel_div; lra. }
  assert (P1 : (0 <= T / (N - 1))%R) by (apply Rmult_le_pos; [exact PT|apply Rlt_le, Rinv_0_lt_compat; lra]).
  assert (Q2 : (Rabs (rnd (rnd (q / (N - 1)) / N) - T / (N - 1) / N) <= (4 * u * N + 2 * u + 2 * u) * (T / (N - 1) / N) + (2 * (2 * (4 * N * h) + h) + h))%R).
  { apply rel_div; lra. }
  set (V := (T / (N - 1) / N)%R) in *.
  assert (PV : (0 <= V)%R) by (apply Rmult_le_pos; [exact P1|apply Rlt_le, Rinv_0_lt_compat; lra]).
  assert (HV : (V <= 57000 * 57000)%R).
  { apply Rle_trans with (401 * 401 * (2 * N))%R; [|lra]. unfold V. apply div_le; [lra|]. apply div_le; [lra|]. nra. }
  assert (Pr : forall a b, (0 <= a)%R -> (1 <= b)%R -> (0 <= rnd (a / b))%R).
  { intros a b Ha Hb. apply rnd_ge_format; [apply generic_format_0|]. apply Rmult_le_pos; [exact Ha|].
    apply Rlt_le, Rinv_0_lt_compat. lra. }
  set (v2 := rnd (rnd (q / (N - 1)) / N)) in *.
  assert (P2 : (0 <= v2)%R) by (apply Pr; [apply Pr; lra|lra]).
  assert (UV : (0 <= N * V <= 10000 * V)%R) by (split; [apply Rmult_le_pos; lra|apply Rmult_le_compat_r; lra]).
  assert (B2 : (v2 <= 57001 * 57001)%R).
  { apply Rabs_le_inv in Q2. lra. }
  assert (T1 : (T / (N - 1) <= 10000 * (401 * 10000 * (401 * 10000)))%R) by (apply div_le; [lra|nra]).
  assert (Bq : (Rabs q <= 2 * (10000 * (401 * 10000 * (401 * 10000))) + 1)%R).
  { assert (0 <= N * T <= 10000 * T)%R by (split; [apply Rmult_le_pos; lra|apply Rmult_le_compat_r; lra]).
    apply Rabs_le_inv in Hq. apply Rabs_le. lra. }
  assert (D1 : dval (fdiv Q (of_int (n - 1))) (rnd (q / (N - 1)))).
  { apply (fdiv_ok _ _ _ _ 80); auto; [lra|lia|]. rewrite <- big_bpow. apply abs_div; lra. }
  assert (B1 : (Rabs (rnd (q / (N - 1))) <= bpow radix2 80)%R).
  { apply (rnd_small _ 80); [lia|]. rewrite <- big_bpow. apply abs_div; lra. }
  assert (D2 : dval (fdiv (fdiv Q (of_int (n - 1))) (of_int n)) v2).
  { apply (fdiv_ok _ _ _ _ 80); auto; [lra|lia|]. rewrite <- big_bpow in *. apply abs_div; lra. }
  assert (D3 : dval (fsqrt (fdiv (fdiv Q (of_int (n - 1))) (of_int n))) (rnd (sqrt v2))).
  { apply (fsqrt_ok _ _ 80); auto; [|lia]. rewrite <- big_bpow. lra. }
  set (sd := fsqrt _) in *.
  assert (S1 : (Rabs (sqrt v2 - sqrt V) <= / 100000000000 * sqrt V + 2 * / 1000000000)%R).
  { apply sqrt_near; try lra. }
  pose proof (sqrt_pos V) as PsV. assert (BsV : (sqrt V <= 57000)%R) by (apply le_sqrt_of; lra).
  assert (S2 : (Rabs (rnd (sqrt v2) - sqrt V) <= / 1000000)%R).
  { apply (rnd_near _ _ 57000 (/ 1500000)); [lra|rewrite Rabs_pos_eq; lra|lra]. }
  (* from the computed differences to the exact ones *)
  assert (Es : standard_error l = sqrt (sq (map (fun o => (pseudovalue l o - estimate l)%R) l) / (N - 1) / N)).
  { unfold standard_error, variance, sq. now rewrite map_map. }
  pose proof (norm_near _ _ _ F2) as Nn2. rewrite Lv in Nn2. fold N T in Nn2.
  set (D := sq (map (fun o : page => (pseudovalue l o - estimate l)%R) l)) in *. assert (PD : (0 <= D)%R) by apply sq_pos.
  assert (Sq : forall X, (0 <= X)%R -> (sqrt (X / (N - 1) / N) = sqrt X / sqrt ((N - 1) * N))%R).
  { intros X PX. rewrite <- sqrt_div_alt by nra. f_equal. field. lra. }
  assert (Pm : (N / 2 <= sqrt ((N - 1) * N))%R).
  { rewrite <- (sqrt_square (N / 2)) by lra. apply sqrt_le_1_alt. nra. }
  assert (S3 : (Rabs (sqrt V - standard_error l) <= N * N * (24 * E0))%R).
  { rewrite Es. unfold V. rewrite !Sq by assumption.
    replace (sqrt T / sqrt ((N - 1) * N) - sqrt D / sqrt ((N - 1) * N))%R with ((sqrt T - sqrt D) / sqrt ((N - 1) * N))%R by (field; lra).
    apply abs_div; [lra|]. apply Rle_trans with (1 := Nn2).
    assert (0 <= N * N * (24 * E0))%R by lra. nra. }
  set (se := standard_error l) in *.
  assert (Pse : (0 <= se)%R) by apply sqrt_pos.
  assert (S4 : (Rabs (rnd (sqrt v2) - se) <= / 14000)%R).
  { replace (rnd (sqrt v2) - se)%R with ((rnd (sqrt v2) - sqrt V) + (sqrt V - se))%R by ring.
    apply Rle_trans with (1 := Rabs_triang _ _). lra. }
  assert (Bse : (se <= 57001)%R) by (apply Rabs_le_inv in S3; lra).
  (* the half-width *)
  assert (Dc : dval c196 (rnd (196 / 100))).
  { apply (fdiv_ok _ _ _ _ 80); [apply (of_int_exact 196); lia|apply (of_int_exact 100); lia|lra|lia|]. rewrite <- big_bpow, Rabs_pos_eq; lra. }
  assert (Hc : (Rabs (rnd (196 / 100) - 196 / 100) <= 2 * u + h)%R).
  { eapply Rle_trans; [apply rnd_err|]. rewrite Rabs_pos_eq; lra. }
  apply Rabs_le_inv in Hc. set (c := rnd (196 / 100)) in *.
  assert (NW : near (/ 7000) (fmul c196 sd) (c * se)).
  { assert (c * / 14000 <= 2 * / 14000)%R by (apply Rmult_le_compat_r; lra).
    apply (near_scale _ _ _ _ (/ 14000) 120000); try assumption; try lra; [exists (rnd (sqrt v2)); auto|].
    rewrite Rabs_pos_eq by (apply Rmult_le_pos; lra). nra. }
  assert (NW' : near (/ 6000) (fmul c196 sd) (196 / 100 * se)).
  { destruct NW as (w & Dw & Hw). exists w. split; [exact Dw|].
    replace (w - 196 / 100 * se)%R with ((w - c * se) + (c - 196 / 100) * se)%R by ring.
    apply Rle_trans with (1 := Rabs_triang _ _).
    assert (Rabs ((c - 196 / 100) * se) <= (2 * u + h) * 57001)%R; [|lra].
    rewrite Rabs_mult, (Rabs_pos_eq se) by exact Pse. apply Rmult_le_compat; try lra; [apply Rabs_pos|]. apply Rabs_le. lra. }
  set (w := fmul c196 sd) in *.
  assert (NJ : near (/ 50000) jd J) by (exists jv; split; [exact DJ|lra]).
  assert (Aw : (Rabs (196 / 100 * se) <= 120000)%R) by (rewrite Rabs_pos_eq; lra).
  assert (NL : near (/ 1000) (fsub jd w) (J - 196 / 100 * se)).
  { apply (near_sub _ _ _ _ (/ 50000) (/ 6000) 3000000); auto; try lra.
    unfold Rminus. apply Rle_trans with (1 := Rabs_triang _ _). rewrite Rabs_Ropp. lra. }
  assert (NU : near (/ 1000) (fadd jd w) (J + 196 / 100 * se)).
  { apply (near_add _ _ _ _ (/ 50000) (/ 6000) 3000000); auto; try lra.
    apply Rle_trans with (1 := Rabs_triang _ _). lra. }
  do 2 eexists. split; [reflexivity|]. unfold exact_lower, exact_upper. rewrite Ee. fold J se.
  split; [destruct NL as (r & Dr & Hr)|destruct NU as (r & Dr & Hr)]; exists (cut r); (split; [exact (clamp_ok _ _ Dr)|now apply cut_near]).
Qed.
