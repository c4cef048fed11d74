(** Values of double expressions. *)
From Flocq Require Import Core IEEE754.BinarySingleNaN.
From Coq Require Import ZArith Bool Reals Lra Lia.
From Verif Require Import DoubleModel.
Local Open Scope Z_scope.

Definition fexp64 := SpecFloat.fexp 53 1024.
Definition rnd (r : R) : R := round radix2 fexp64 ZnearestE r.
Definition format64 (r : R) : Prop := generic_format radix2 fexp64 r.
(** [x] is finite and its value is [r]. *)
Definition dval (x : double) (r : R) : Prop := is_finite x = true /\ B2R x = r.

#[local] Instance fexp64_valid : Valid_exp fexp64.
Proof. exact (fexp_correct 53 1024 Hp). Qed.
#[local] Instance fexp64_monotone : Monotone_exp fexp64.
Proof. exact (fexp_monotone 53 1024). Qed.

Lemma fexp64_eq : fexp64 = FLT_exp (-1074) 53.
Proof. reflexivity. Qed.

(** Numbers of at most 53 bits are represented exactly. *)
Lemma format_int m e : Z.abs m <= 2 ^ 53 -> -1074 <= e -> format64 (IZR m * bpow radix2 e).
Proof.
  intros H He. unfold format64. rewrite fexp64_eq.
  destruct (Z.eq_dec (Z.abs m) (2 ^ 53)) as [E|N].
  - assert (IZR m * bpow radix2 e = IZR (Z.sgn m) * bpow radix2 (e + 53))%R as ->.
    { rewrite bpow_plus. change (bpow radix2 53) with (IZR (2 ^ 53)). rewrite <- E.
      replace (IZR (Z.sgn m) * (bpow radix2 e * IZR (Z.abs m)))%R
        with (IZR (Z.sgn m) * IZR (Z.abs m) * bpow radix2 e)%R by ring.
      rewrite <- mult_IZR. f_equal. f_equal. lia. }
    apply generic_format_FLT. exists (Float radix2 (Z.sgn m) (e + 53)); [reflexivity| |cbn; lia].
    cbn [Fnum]. change (Zpower radix2 53) with 9007199254740992. lia.
  - apply generic_format_FLT. exists (Float radix2 m e); [reflexivity| |cbn; lia].
    cbn [Fnum]. change (Zpower radix2 53) with (2 ^ 53). lia.
Qed.
Lemma format_Z m : Z.abs m <= 2 ^ 53 -> format64 (IZR m).
Proof. intros H. pose proof (format_int m 0 H ltac:(lia)) as G. now rewrite Rmult_1_r in G. Qed.
Lemma format_bpow k : -1074 <= k -> format64 (bpow radix2 k).
Proof. intros H. pose proof (format_int 1 k ltac:(lia) H) as G. now rewrite Rmult_1_l in G. Qed.

Lemma rnd_exact r : format64 r -> rnd r = r.
Proof. intros H. apply round_generic; [typeclasses eauto|exact H]. Qed.
Lemma rnd_le x y : (x <= y)%R -> (rnd x <= rnd y)%R.
Proof. intros H. apply round_le; [typeclasses eauto|typeclasses eauto|exact H]. Qed.
Lemma rnd_le_format x y : format64 y -> (x <= y)%R -> (rnd x <= y)%R.
Proof. intros F H. rewrite <- (rnd_exact y F). now apply rnd_le. Qed.
Lemma rnd_ge_format x y : format64 x -> (x <= y)%R -> (x <= rnd y)%R.
Proof. intros F H. rewrite <- (rnd_exact x F). now apply rnd_le. Qed.
Lemma rnd_abs_format x y : format64 y -> (Rabs x <= y)%R -> (Rabs (rnd x) <= y)%R.
Proof.
  intros F H. apply Rabs_le_inv in H. apply Rabs_le. split.
  - apply rnd_ge_format; [now apply generic_format_opp|lra].
  - apply rnd_le_format; [exact F|lra].
Qed.
Lemma rnd_small x k : -1074 <= k <= 1023 -> (Rabs x <= bpow radix2 k)%R ->
  (Rabs (rnd x) <= bpow radix2 k)%R /\ (Rabs (rnd x) < bpow radix2 1024)%R.
Proof.
  intros K H. assert (Rabs (rnd x) <= bpow radix2 k)%R as B by (apply rnd_abs_format; [apply format_bpow; lia|exact H]).
  split; [exact B|]. apply Rle_lt_trans with (1 := B). apply bpow_lt. lia.
Qed.

Ltac fits k H :=
  let B := fresh "B" in
  pose proof (proj2 (rnd_small _ k ltac:(lia) H)) as B;
  unfold rnd, fexp64 in B.

Lemma fadd_ok x y a b k : dval x a -> dval y b -> -1074 <= k <= 1023 -> (Rabs (a + b) <= bpow radix2 k)%R ->
  dval (fadd x y) (rnd (a + b)).
Proof.
  intros [Fx <-] [Fy <-] K H. fits k H. pose proof (@Bplus_correct 53 1024 Hp Hm mode_NE x y Fx Fy) as C.
  cbn [round_mode] in C. rewrite Rlt_bool_true in C by exact B. destruct C as (E & F & _). split; assumption.
Qed.
Lemma fsub_ok x y a b k : dval x a -> dval y b -> -1074 <= k <= 1023 -> (Rabs (a - b) <= bpow radix2 k)%R ->
  dval (fsub x y) (rnd (a - b)).
Proof.
  intros [Fx <-] [Fy <-] K H. fits k H. pose proof (@Bminus_correct 53 1024 Hp Hm mode_NE x y Fx Fy) as C.
  cbn [round_mode] in C. rewrite Rlt_bool_true in C by exact B. destruct C as (E & F & _). split; assumption.
Qed.
Lemma fmul_ok x y a b k : dval x a -> dval y b -> -1074 <= k <= 1023 -> (Rabs (a * b) <= bpow radix2 k)%R ->
  dval (fmul x y) (rnd (a * b)).
Proof.
  intros [Fx <-] [Fy <-] K H. fits k H. pose proof (@Bmult_correct 53 1024 Hp Hm mode_NE x y) as C.
  cbn [round_mode] in C. rewrite Rlt_bool_true in C by exact B. destruct C as (E & F & _). split; [|assumption].
  unfold fmul. now rewrite F, Fx, Fy.
Qed.
Lemma fdiv_ok x y a b k : dval x a -> dval y b -> b <> 0%R -> -1074 <= k <= 1023 -> (Rabs (a / b) <= bpow radix2 k)%R ->
  dval (fdiv x y) (rnd (a / b)).
Proof.
  intros [Fx <-] [Fy <-] N K H. fits k H. pose proof (@Bdiv_correct 53 1024 Hp Hm mode_NE x y N) as C.
  cbn [round_mode] in C. rewrite Rlt_bool_true in C by exact B. destruct C as (E & F & _). split; [|assumption].
  unfold fdiv. now rewrite F, Fx.
Qed.
Lemma of_int_ok z k : -1074 <= k <= 1023 -> (Rabs (IZR z) <= bpow radix2 k)%R -> dval (of_int z) (rnd (IZR z)).
Proof.
  intros K H. fits k H. pose proof (@binary_normalize_correct 53 1024 Hp Hm mode_NE z 0 false) as C.
  cbn [round_mode] in C. replace (F2R (Float radix2 z 0)) with (IZR z) in C by (unfold F2R; cbn; ring).
  rewrite Rlt_bool_true in C by exact B. destruct C as (E & F & _). split; assumption.
Qed.
Lemma of_int_exact z : Z.abs z <= 2 ^ 53 -> dval (of_int z) (IZR z).
Proof.
  intros H. rewrite <- (rnd_exact (IZR z)) by (now apply format_Z). apply (of_int_ok z 53); [lia|].
  rewrite <- abs_IZR. change (bpow radix2 53) with (IZR (2 ^ 53)). now apply IZR_le.
Qed.
Lemma fle_ok x y a b : dval x a -> dval y b -> fle x y = Rle_bool a b.
Proof. intros [Fx <-] [Fy <-]. now apply Bleb_correct. Qed.
Lemma flt_ok x y a b : dval x a -> dval y b -> flt x y = Rlt_bool a b.
Proof. intros [Fx <-] [Fy <-]. now apply Bltb_correct. Qed.
Lemma dval_format x r : dval x r -> format64 r.
Proof. intros [_ <-]. apply generic_format_B2R. Qed.

Lemma bpow_IZR k : 0 <= k -> bpow radix2 k = IZR (2 ^ k).
Proof. intros H. rewrite <- (IZR_Zpower radix2) by exact H. reflexivity. Qed.

(** The percentage of [n] in [d] is at least [i] as computed iff it is so exactly. *)
Lemma percentage_ge n d i : 0 < d <= 2 ^ 46 -> Z.abs n < 2 ^ 64 -> n <= 2 ^ 46 -> 0 <= i <= 101 ->
  fle (of_int i) (percentage n d) = (i * d <=? 100 * n).
Proof.
  intros Hd Hn Hn2 Hi.
  assert (Dd : dval (of_int d) (IZR d)) by (apply of_int_exact; lia).
  assert (Di : dval (of_int i) (IZR i)) by (apply of_int_exact; lia).
  assert (D100 : dval (of_int 100) 100) by (apply of_int_exact; lia).
  assert (0 < IZR d)%R as Pd by (apply IZR_lt; lia).
  assert (1 <= IZR d)%R as Pd1 by (apply IZR_le; lia).
  assert (IZR d <= IZR (2 ^ 46))%R as Pd2 by (apply IZR_le; lia).
  assert (An : (Rabs (IZR n) <= bpow radix2 64)%R).
  { rewrite bpow_IZR by lia. rewrite <- abs_IZR. apply IZR_le. lia. }
  pose proof (of_int_ok n 64 ltac:(lia) An) as Dn.
  destruct (rnd_small (IZR n) 64 ltac:(lia) An) as [Bn _]. set (n' := rnd (IZR n)) in *.
  assert (Am : (Rabs (100 * n') <= bpow radix2 71)%R).
  { rewrite Rabs_mult, (Rabs_pos_eq 100) by lra. change 71 with (7 + 64). rewrite (bpow_plus radix2 7 64). change (bpow radix2 7) with 128%R.
    pose proof (bpow_gt_0 radix2 64). pose proof (Rabs_pos n'). nra. }
  pose proof (fmul_ok _ _ _ _ 71 D100 Dn ltac:(lia) Am) as Dm.
  destruct (rnd_small (100 * n') 71 ltac:(lia) Am) as [Bm _]. set (m := rnd (100 * n')) in *.
  assert (Aq : (Rabs (m / IZR d) <= bpow radix2 71)%R).
  { unfold Rdiv. rewrite Rabs_mult, Rabs_inv, (Rabs_pos_eq (IZR d)) by lra.
    apply Rmult_le_reg_r with (IZR d); [exact Pd|]. rewrite Rmult_assoc, Rinv_l by lra.
    pose proof (bpow_gt_0 radix2 71). pose proof (Rabs_pos m). nra. }
  assert (Dq : dval (percentage n d) (rnd (m / IZR d))).
  { apply (fdiv_ok _ _ m (IZR d) 71); auto; [lra|lia]. }
  rewrite (fle_ok _ _ _ _ Di Dq).
  destruct (Z.le_gt_cases 0 n) as [P|P].
  - (* the numerator is exact *)
    assert (n' = IZR n) as En by (apply rnd_exact, format_Z; lia).
    assert (m = 100 * IZR n)%R as Em.
    { subst m. rewrite En, <- mult_IZR. apply rnd_exact, format_Z. lia. }
    rewrite Em. destruct (Z.leb_spec (i * d) (100 * n)) as [H|H].
    + apply Rle_bool_true. apply rnd_ge_format; [apply format_Z; lia|].
      apply Rmult_le_reg_r with (IZR d); [exact Pd|]. unfold Rdiv. rewrite Rmult_assoc, Rinv_l by lra.
      rewrite Rmult_1_r, <- !mult_IZR. now apply IZR_le.
    + apply Rle_bool_false.
      assert (format64 (IZR i - bpow radix2 (-46))) as F.
      { replace (IZR i - bpow radix2 (-46))%R with (IZR (i * 2 ^ 46 - 1) * bpow radix2 (-46))%R.
        - apply format_int; lia.
        - rewrite minus_IZR, mult_IZR. change (IZR (2 ^ 46)) with (bpow radix2 46).
          assert (bpow radix2 46 * bpow radix2 (-46) = 1)%R as E by (rewrite <- bpow_plus; reflexivity).
          rewrite Rmult_minus_distr_r, Rmult_assoc, E. ring. }
      apply Rle_lt_trans with (IZR i - bpow radix2 (-46))%R.
      2:{ pose proof (bpow_gt_0 radix2 (-46)). lra. }
      apply rnd_le_format; [exact F|].
      apply Rmult_le_reg_r with (IZR d); [exact Pd|]. unfold Rdiv. rewrite Rmult_assoc, Rinv_l by lra.
      assert (100 * IZR n + 1 <= IZR i * IZR d)%R as H' by (rewrite <- !mult_IZR, <- plus_IZR; apply IZR_le; lia).
      assert (bpow radix2 (-46) * IZR d <= 1)%R as H2.
      { apply Rle_trans with (bpow radix2 (-46) * IZR (2 ^ 46))%R.
        - apply Rmult_le_compat_l; [apply bpow_ge_0|exact Pd2].
        - change (IZR (2 ^ 46)) with (bpow radix2 46). rewrite <- bpow_plus. cbn. lra. }
      lra.
  - (* negative *)
    replace (i * d <=? 100 * n) with false by (symmetry; apply Z.leb_gt; nia).
    apply Rle_bool_false. apply Rlt_le_trans with 0%R; [|apply IZR_le; lia].
    assert (n' <= -1)%R as N1.
    { apply rnd_le_format; [apply (format_Z (-1)); lia|]. apply IZR_le. lia. }
    assert (m <= -100)%R as N2.
    { apply rnd_le_format; [apply (format_Z (-100)); lia|]. lra. }
    apply Rle_lt_trans with (- bpow radix2 (-46))%R.
    2:{ pose proof (bpow_gt_0 radix2 (-46)). lra. }
    apply rnd_le_format; [apply generic_format_opp, format_bpow; lia|].
    apply Rmult_le_reg_r with (IZR d); [exact Pd|]. unfold Rdiv. rewrite Rmult_assoc, Rinv_l by lra.
    assert (bpow radix2 (-46) * IZR d <= 1)%R as H2.
    { apply Rle_trans with (bpow radix2 (-46) * IZR (2 ^ 46))%R.
      - apply Rmult_le_compat_l; [apply bpow_ge_0|exact Pd2].
      - change (IZR (2 ^ 46)) with (bpow radix2 46). rewrite <- bpow_plus. cbn. lra. }
    lra.
Qed.
