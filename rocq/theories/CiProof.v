(** The double arithmetic of compute_ci stays finite. *)
From Flocq Require Import Core IEEE754.BinarySingleNaN.
From Coq Require Import Reals Lra.
From Coq Require Import String.
From Verif Require Import Base AccSpec SumProof DoubleModel DoubleProof CiModel.
Local Open Scope Z_scope.
Local Open Scope list_scope.

Lemma bp_le k j : k <= j -> (bpow radix2 k <= bpow radix2 j)%R.
Proof. apply bpow_le. Qed.

Lemma abs_mult_le a b j k : (Rabs a <= bpow radix2 j)%R -> (Rabs b <= bpow radix2 k)%R ->
  (Rabs (a * b) <= bpow radix2 (j + k))%R.
Proof.
  intros Ha Hb. rewrite Rabs_mult, bpow_plus. apply Rmult_le_compat; auto using Rabs_pos.
Qed.
Lemma abs_plus_le a b k : (Rabs a <= bpow radix2 k)%R -> (Rabs b <= bpow radix2 k)%R ->
  (Rabs (a + b) <= bpow radix2 (k + 1))%R.
Proof.
  intros Ha Hb. rewrite bpow_plus. change (bpow radix2 1) with 2%R.
  apply Rle_trans with (1 := Rabs_triang a b). lra.
Qed.
Lemma abs_minus_le a b k : (Rabs a <= bpow radix2 k)%R -> (Rabs b <= bpow radix2 k)%R ->
  (Rabs (a - b) <= bpow radix2 (k + 1))%R.
Proof. intros Ha Hb. unfold Rminus. apply abs_plus_le; [exact Ha|]. now rewrite Rabs_Ropp. Qed.
Lemma abs_div_le a b k : (1 <= b)%R -> (Rabs a <= bpow radix2 k)%R -> (Rabs (a / b) <= bpow radix2 k)%R.
Proof.
  intros Hb Ha. unfold Rdiv. rewrite Rabs_mult, Rabs_inv, (Rabs_pos_eq b) by lra.
  apply Rmult_le_reg_r with b; [lra|]. rewrite Rmult_assoc, Rinv_l by lra.
  pose proof (bpow_gt_0 radix2 k). pose proof (Rabs_pos a). nra.
Qed.
Lemma abs_weaken a j k : j <= k -> (Rabs a <= bpow radix2 j)%R -> (Rabs a <= bpow radix2 k)%R.
Proof. intros H Ha. apply Rle_trans with (1 := Ha). now apply bpow_le. Qed.
Lemma abs_IZR_le z k : 0 <= k -> Z.abs z <= 2 ^ k -> (Rabs (IZR z) <= bpow radix2 k)%R.
Proof. intros K H. rewrite bpow_IZR by exact K. rewrite <- abs_IZR. now apply IZR_le. Qed.

(** A finite double whose value is at most 2^k. *)
Definition within (k : Z) (x : double) (r : R) : Prop := dval x r /\ (Rabs r <= bpow radix2 k)%R.

Lemma within_weaken j k x r : j <= k -> within j x r -> within k x r.
Proof. intros H [D A]. split; [exact D|]. now apply (abs_weaken r j). Qed.
Lemma within_mul j k x y a b : within j x a -> within k y b -> -1074 <= j + k <= 1023 ->
  within (j + k) (fmul x y) (rnd (a * b)).
Proof.
  intros [Dx Ax] [Dy Ay] H. pose proof (abs_mult_le _ _ _ _ Ax Ay) as A.
  split; [now apply (fmul_ok _ _ _ _ (j + k))|]. now apply (rnd_small _ (j + k)).
Qed.
Lemma within_sub k x y a b : within k x a -> within k y b -> -1074 <= k <= 1022 ->
  within (k + 1) (fsub x y) (rnd (a - b)).
Proof.
  intros [Dx Ax] [Dy Ay] H. pose proof (abs_minus_le _ _ _ Ax Ay) as A.
  split; [apply (fsub_ok _ _ _ _ (k + 1)); auto; lia|]. apply (rnd_small _ (k + 1)); [lia|exact A].
Qed.
Lemma within_add k x y a b : within k x a -> within k y b -> -1074 <= k <= 1022 ->
  within (k + 1) (fadd x y) (rnd (a + b)).
Proof.
  intros [Dx Ax] [Dy Ay] H. pose proof (abs_plus_le _ _ _ Ax Ay) as A.
  split; [apply (fadd_ok _ _ _ _ (k + 1)); auto; lia|]. apply (rnd_small _ (k + 1)); [lia|exact A].
Qed.
Lemma within_div k x y a b : within k x a -> dval y b -> (1 <= b)%R -> -1074 <= k <= 1023 ->
  within k (fdiv x y) (rnd (a / b)).
Proof.
  intros [Dx Ax] Dy Hb H. pose proof (abs_div_le _ _ _ Hb Ax) as A.
  split; [apply (fdiv_ok _ _ _ _ k); auto; lra|]. now apply (rnd_small _ k).
Qed.
Lemma within_int z k : 0 <= k <= 1023 -> Z.abs z <= 2 ^ k -> within k (of_int z) (rnd (IZR z)).
Proof.
  intros K H. pose proof (abs_IZR_le z k ltac:(lia) H) as A. split; [apply (of_int_ok z k); auto; lia|].
  apply (rnd_small _ k); [lia|exact A].
Qed.
Lemma rnd_IZR_ge1 z : 1 <= z -> (1 <= rnd (IZR z))%R.
Proof. intros H. apply rnd_ge_format; [apply (format_Z 1); lia|]. now apply IZR_le. Qed.

Lemma percentage_within n d : Z.abs n <= 2 ^ 64 -> 1 <= d <= 2 ^ 64 ->
  exists r, within 71 (percentage n d) r.
Proof.
  intros Hn Hd. eexists. unfold percentage.
  apply (within_div 71) with (b := rnd (IZR d)); [|apply (within_int d 64); lia|apply rnd_IZR_ge1; lia|lia].
  apply (within_mul 7 64); [apply within_int; lia|apply within_int; lia|lia].
Qed.

Lemma sqrt_within k x r : within k x r -> (0 <= r)%R -> 0 <= k <= 1023 ->
  exists s, within k (fsqrt x) s /\ (0 <= s)%R.
Proof.
  intros [[F V] A] H K. destruct (@Bsqrt_correct 53 1024 Hp Hm mode_NE x) as (E & Fs & _).
  exists (rnd (sqrt r)). split; [split; [split|]|].
  - unfold fsqrt. rewrite Fs. destruct x as [s|s| |s m e B]; try reflexivity; try discriminate F.
    destruct s; [|reflexivity]. exfalso. cbn [B2R cond_Zopp] in V.
    assert (r < 0)%R; [|lra]. rewrite <- V. apply F2R_lt_0. cbn. lia.
  - rewrite <- V. exact E.
  - apply (rnd_small _ k); [lia|]. rewrite Rabs_pos_eq by apply sqrt_pos.
    rewrite Rabs_pos_eq in A by exact H. assert (1 <= bpow radix2 k)%R as B1 by (apply (bpow_le radix2 0 k); lia).
    destruct (Rle_lt_dec r 1) as [L|L].
    + apply Rle_trans with 1%R; [|exact B1]. rewrite <- sqrt_1. now apply sqrt_le_1_alt.
    + apply Rle_trans with r; [|exact A]. rewrite <- (sqrt_square r) at 2 by lra. apply sqrt_le_1_alt. nra.
  - apply rnd_ge_format; [apply generic_format_0|apply sqrt_pos].
Qed.

Lemma sqrt_zero x : dval x 0 -> dval (fsqrt x) 0.
Proof.
  intros [F V]. destruct (@Bsqrt_correct 53 1024 Hp Hm mode_NE x) as (E & Fs & _). split.
  - unfold fsqrt. rewrite Fs. destruct x as [s|s| |s m e B]; try reflexivity; try discriminate F.
    exfalso. cbn [B2R] in V.
    pose proof (F2R_gt_0 radix2 (Float radix2 (Zpos m) e) ltac:(cbn; lia)) as G1.
    pose proof (F2R_lt_0 radix2 (Float radix2 (Zneg m) e) ltac:(cbn; lia)) as G2.
    destruct s; cbn [SpecFloat.cond_Zopp Z.opp] in *; lra.
  - unfold fsqrt. rewrite E, V, sqrt_0. apply rnd_exact. apply generic_format_0.
Qed.
Lemma c196_within : exists c, within 1 c196 c /\ (0 <= c)%R.
Proof.
  exists (rnd (196 / 100)). split.
  - assert (dval (of_int 196) 196) as D1 by (apply (of_int_exact 196); lia).
    assert (dval (of_int 100) 100) as D2 by (apply (of_int_exact 100); lia).
    assert (Rabs (196 / 100) <= bpow radix2 1)%R as A.
    { change (bpow radix2 1) with 2%R. rewrite Rabs_pos_eq; lra. }
    split; [apply (fdiv_ok _ _ _ _ 1); auto; try lra; try lia|]. apply (rnd_small _ 1); [lia|exact A].
  - apply rnd_ge_format; [apply generic_format_0|lra].
Qed.

(** Clamping to 0 .. 100 *)
Definition clamp (r : R) : R := Rmax 0 (Rmin 100 r).
Lemma clamp_ok x r : dval x r -> dval (fmax (of_int 0) (fmin (of_int 100) x)) (clamp r).
Proof.
  intros D. assert (dval (of_int 0) 0) as D0 by (apply (of_int_exact 0); lia).
  assert (dval (of_int 100) 100) as D1 by (apply (of_int_exact 100); lia).
  assert (dval (fmin (of_int 100) x) (Rmin 100 r)) as Dm.
  { unfold fmin. rewrite (flt_ok _ _ _ _ D1 D). destruct (Rlt_bool_spec 100 r).
    - now rewrite Rmin_left by lra.
    - now rewrite Rmin_right by lra. }
  unfold fmax, clamp. rewrite (flt_ok _ _ _ _ Dm D0). destruct (Rlt_bool_spec (Rmin 100 r) 0).
  - now rewrite Rmax_left by lra.
  - now rewrite Rmax_right by lra.
Qed.
Lemma clamp_range r : (0 <= clamp r <= 100)%R.
Proof. unfold clamp, Rmax, Rmin. destruct (Rle_dec 100 r), (Rle_dec 0 _); lra. Qed.
Lemma clamp_le a b : (a <= b)%R -> (clamp a <= clamp b)%R.
Proof.
  intros H. unfold clamp. apply Rle_max_compat_l. apply Rle_min_compat_l. exact H.
Qed.

(** The observations: sums and validity. *)
Lemma obs_count_sum l : obs_count l = zsum (map fst l).
Proof.
  unfold obs_count. assert (forall s, fold_left (fun s o => s + @fst Z Z o) l s = s + zsum (map fst l)) as H.
  { induction l as [|o l IH]; intros s; cbn [fold_left map]; [change (zsum []) with 0; lia|]. rewrite IH, zsum_cons. lia. }
  rewrite H. lia.
Qed.
Lemma obs_missed_sum l : obs_missed l = zsum (map snd l).
Proof.
  unfold obs_missed. assert (forall s, fold_left (fun s o => s + @snd Z Z o) l s = s + zsum (map snd l)) as H.
  { induction l as [|o l IH]; intros s; cbn [fold_left map]; [change (zsum []) with 0; lia|]. rewrite IH, zsum_cons. lia. }
  rewrite H. lia.
Qed.

(** Pseudovalues *)
Lemma pseudovalues_ok tc tm n ntheta nt : 1 <= n <= 2 ^ 31 -> within 102 ntheta nt ->
  forall l sum s i, 
  (forall o, In o l -> 1 <= tc - fst o <= 2 ^ 64 /\ Z.abs ((tc - fst o) - (tm - snd o)) <= 2 ^ 64) ->
  0 <= i -> i + zlen l <= 2 ^ 31 -> dval sum s -> (Rabs s <= IZR i * bpow radix2 71)%R ->
  exists js sum' s', pseudovalues tc tm n ntheta l sum = Ok (js, sum') /\ dval sum' s' /\
    (Rabs s' <= IZR (i + zlen l) * bpow radix2 71)%R /\ List.length js = List.length l /\
    Forall (fun j => exists r, within 103 j r) js.
Proof.
  intros Hn Hnt. induction l as [|[c m] l IH]; intros sum s i Ho Hi Hl Ds As.
  - exists [], sum, s. split; [reflexivity|]. split; [exact Ds|]. split; [|split; [reflexivity|constructor]].
    now replace (i + zlen []) with i by (unfold zlen; cbn; lia).
  - destruct (Ho (c, m) (or_introl eq_refl)) as [H1 H2]. cbn [fst snd] in H1, H2.
    destruct (percentage_within ((tc - c) - (tm - m)) (tc - c) H2 H1) as (th & Wt).
    cbn [pseudovalues]. unfold accuracy. replace (tc - c =? 0) with false by lia. cbn [obind].
    rewrite zlen_cons in Hl. pose proof (zlen_nonneg l).
    assert (Abs : (Rabs (s + th) <= IZR (i + 1) * bpow radix2 71)%R).
    { apply Rle_trans with (1 := Rabs_triang _ _). rewrite plus_IZR. destruct Wt as [_ Wt]. lra. }
    assert (Fm : format64 (IZR (i + 1) * bpow radix2 71)) by (apply format_int; lia).
    assert (Abs' : (Rabs (s + th) <= bpow radix2 102)%R).
    { apply Rle_trans with (1 := Abs). change (bpow radix2 102) with (bpow radix2 (31 + 71)). rewrite bpow_plus.
      apply Rmult_le_compat_r; [apply bpow_ge_0|]. rewrite bpow_IZR by lia. apply IZR_le. lia. }
    destruct (IH (fadd sum (percentage (tc - c - (tm - m)) (tc - c))) (rnd (s + th)) (i + 1)) as (js & sum' & s' & E & D & A & L & F).
    + intros o Hoo. apply Ho. now right.
    + lia.
    + lia.
    + apply (fadd_ok _ _ _ _ 102); [exact Ds|apply Wt|lia|exact Abs'].
    + now apply rnd_abs_format.
    + rewrite E. cbn [obind]. exists (fsub ntheta (fmul (of_int (n - 1)) (percentage (tc - c - (tm - m)) (tc - c))) :: js), sum', s'.
      split; [reflexivity|]. split; [exact D|]. split; [rewrite zlen_cons; now replace (i + (zlen l + 1)) with (i + 1 + zlen l) by lia|].
      split; [cbn; now f_equal|]. constructor; [|exact F].
      eexists. apply (within_sub 102); [exact Hnt| |lia].
      apply (within_mul 31 71); [apply within_int; lia|exact Wt|lia].
Qed.

Lemma squares_ok J jr : within 134 J jr -> forall js sum s i,
  Forall (fun j => exists r, within 103 j r) js -> 0 <= i -> i + zlen js <= 2 ^ 31 ->
  dval sum s -> (0 <= s <= IZR i * bpow radix2 270)%R ->
  exists s', dval (fold_left (fun s j => fadd s (fmul (fsub j J) (fsub j J))) js sum) s' /\
    (0 <= s' <= IZR (i + zlen js) * bpow radix2 270)%R.
Proof.
  intros WJ. induction js as [|j js IH]; intros sum s i F Hi Hl Ds As.
  - exists s. cbn [fold_left]. split; [exact Ds|]. now replace (i + zlen []) with i by (unfold zlen; cbn; lia).
  - apply Forall_cons_iff in F as [(r & Wr) F]. cbn [fold_left]. rewrite zlen_cons in *. pose proof (zlen_nonneg js).
    pose proof (within_sub 134 _ _ _ _ (within_weaken 103 134 _ _ ltac:(lia) Wr) WJ ltac:(lia)) as Wd.
    change (134 + 1) with 135 in Wd. set (d := rnd (r - jr)) in *.
    pose proof (within_mul 135 135 _ _ _ _ Wd Wd ltac:(lia)) as [Dq Aq]. change (135 + 135) with 270 in Aq.
    assert (0 <= rnd (d * d))%R as Pq by (apply rnd_ge_format; [apply generic_format_0|nra]).
    rewrite Rabs_pos_eq in Aq by exact Pq. set (q := rnd (d * d)) in *.
    assert (Abs : (0 <= s + q <= IZR (i + 1) * bpow radix2 270)%R) by (rewrite plus_IZR; lra).
    assert (Abs' : (Rabs (s + q) <= bpow radix2 301)%R).
    { rewrite Rabs_pos_eq by lra. apply Rle_trans with (1 := proj2 Abs). change (bpow radix2 301) with (bpow radix2 (31 + 270)).
      rewrite bpow_plus. apply Rmult_le_compat_r; [apply bpow_ge_0|]. rewrite bpow_IZR by lia. apply IZR_le. lia. }
    destruct (IH (fadd sum (fmul (fsub j J) (fsub j J))) (rnd (s + q)) (i + 1)) as (s' & D & A).
    + exact F.
    + lia.
    + lia.
    + apply (fadd_ok _ _ _ _ 301); [exact Ds|exact Dq|lia|exact Abs'].
    + split; [apply rnd_ge_format; [apply generic_format_0|lra]|].
      apply rnd_le_format; [apply format_int; lia|lra].
    + exists s'. split; [exact D|]. now replace (i + (zlen js + 1)) with (i + 1 + zlen js) by lia.
Qed.
