(** Halves of integers in float and double arithmetic. *)
From Flocq Require Import Core IEEE754.BinarySingleNaN.
From Coq Require Import ZArith Bool Reals Lra Lia.
From Verif Require Import Base CLib DoubleModel PctModel VoteSelModel VoteFloatModel.
Local Open Scope Z_scope.

Section Halves.
Variables prec emax : Z.
Context (Pp : Prec_gt_0 prec) (Pe : Prec_lt_emax prec emax).
Local Notation fl := (binary_float prec emax).
Local Notation fexp := (SpecFloat.fexp prec emax).

(** [x] is half of [k]; there is no negative zero. *)
Definition half (x : fl) (k : Z) : Prop :=
  is_finite x = true /\ B2R x = (IZR k / 2)%R /\ Bsign x = (k <? 0).

Hypothesis emin_small : SpecFloat.emin prec emax <= -1.

Lemma half_format k : Z.abs k < 2 ^ prec -> generic_format radix2 fexp (IZR k / 2).
Proof.
  intros H. change fexp with (FLT_exp (SpecFloat.emin prec emax) prec). apply generic_format_FLT.
  exists (Float radix2 k (-1)); [|exact H|exact emin_small].
  unfold F2R. cbn [Fnum Fexp bpow radix_val radix2]. change (Z.pow_pos 2 1) with 2. reflexivity.
Qed.

Lemma half_round k : Z.abs k < 2 ^ prec -> round radix2 fexp ZnearestE (IZR k / 2) = (IZR k / 2)%R.
Proof. intros H. apply round_generic; [apply valid_rnd_N|now apply half_format]. Qed.

Lemma half_bound k : Z.abs k < 2 ^ prec -> (Rabs (IZR k / 2) < bpow radix2 emax)%R.
Proof.
  intros H. assert (0 <= prec) by (unfold Prec_gt_0 in Pp; lia).
  apply Rlt_le_trans with (bpow radix2 prec); [|apply bpow_le; unfold Prec_lt_emax in Pe; lia].
  rewrite <- (IZR_Zpower radix2) by assumption. unfold Rdiv. rewrite Rabs_mult, <- abs_IZR, Rabs_inv, (Rabs_pos_eq 2) by lra.
  apply IZR_lt in H. change (Zpower radix2 prec) with (2 ^ prec).
  assert (0 <= IZR (Z.abs k))%R by (apply IZR_le; lia). lra.
Qed.

Lemma half_compare k : Rcompare (IZR k / 2) 0 = Z.compare k 0.
Proof.
  rewrite <- (Rcompare_IZR k 0). destruct (Rcompare_spec (IZR k) 0); destruct (Rcompare_spec (IZR k / 2) 0); try reflexivity; lra.
Qed.

(** Uniqueness *)
Lemma half_fun x y k : half x k -> half y k -> x = y.
Proof.
  intros (F1 & V1 & S1) (F2 & V2 & S2). apply B2R_Bsign_inj; congruence.
Qed.

Lemma half_normal m e k s : F2R (Float radix2 m e) = (IZR k / 2)%R -> Z.abs k < 2 ^ prec -> (m = 0 -> s = false) ->
  half (@binary_normalize prec emax Pp Pe mode_NE m e s) k.
Proof.
  intros V H Z0. pose proof (@binary_normalize_correct prec emax Pp Pe mode_NE m e s) as C. rewrite V in C. cbn [round_mode] in C.
  rewrite half_round in C by exact H. rewrite Rlt_bool_true in C by (now apply half_bound). destruct C as (C1 & C2 & C3).
  split; [exact C2|]. split; [exact C1|]. rewrite C3, half_compare. destruct (Z.compare_spec k 0) as [E|E|E].
  - assert (m = 0) as Em.
    { apply eq_IZR. assert (IZR m * bpow radix2 e = 0)%R as X by (unfold F2R in V; cbn [Fnum Fexp] in V; rewrite V, E; lra).
      pose proof (bpow_gt_0 radix2 e). apply Rmult_integral in X as [X|X]; [exact X|lra]. }
    rewrite (Z0 Em), E. reflexivity.
  - symmetry. now apply Z.ltb_lt.
  - symmetry. apply Z.ltb_ge. lia.
Qed.

Lemma half_int z : Z.abs (2 * z) < 2 ^ prec -> half (@binary_normalize prec emax Pp Pe mode_NE z 0 false) (2 * z).
Proof.
  intros H. apply half_normal; auto. unfold F2R. cbn [Fnum Fexp bpow]. rewrite mult_IZR. lra.
Qed.

Lemma half_add x y a b : half x a -> half y b -> Z.abs (a + b) < 2 ^ prec ->
  half (@Bplus prec emax Pp Pe mode_NE x y) (a + b).
Proof.
  intros (F1 & V1 & S1) (F2 & V2 & S2) H. pose proof (@Bplus_correct prec emax Pp Pe mode_NE x y F1 F2) as C.
  rewrite V1, V2 in C. replace (IZR a / 2 + IZR b / 2)%R with (IZR (a + b) / 2)%R in C by (rewrite plus_IZR; lra).
  cbn [round_mode] in C. rewrite half_round in C by exact H. rewrite Rlt_bool_true in C by (now apply half_bound).
  destruct C as (C1 & C2 & C3). split; [exact C2|]. split; [exact C1|]. rewrite C3, half_compare, S1, S2.
  destruct (Z.compare_spec (a + b) 0), (Z.ltb_spec (a + b) 0), (Z.ltb_spec a 0), (Z.ltb_spec b 0); cbn; try reflexivity; lia.
Qed.

Lemma half_sub x y a b : half x a -> half y b -> Z.abs (a - b) < 2 ^ prec ->
  half (@Bminus prec emax Pp Pe mode_NE x y) (a - b).
Proof.
  intros (F1 & V1 & S1) (F2 & V2 & S2) H. pose proof (@Bminus_correct prec emax Pp Pe mode_NE x y F1 F2) as C.
  rewrite V1, V2 in C. replace (IZR a / 2 - IZR b / 2)%R with (IZR (a - b) / 2)%R in C by (rewrite minus_IZR; lra).
  cbn [round_mode] in C. rewrite half_round in C by exact H. rewrite Rlt_bool_true in C by (now apply half_bound).
  destruct C as (C1 & C2 & C3). split; [exact C2|]. split; [exact C1|]. rewrite C3, half_compare, S1, S2.
  destruct (Z.compare_spec (a - b) 0), (Z.ltb_spec (a - b) 0), (Z.ltb_spec a 0), (Z.ltb_spec b 0); cbn; try reflexivity; lia.
Qed.

Lemma half_div2 x y n : half x (2 * n) -> half y 4 -> Z.abs n < 2 ^ prec ->
  half (@Bdiv prec emax Pp Pe mode_NE x y) n.
Proof.
  intros (F1 & V1 & S1) (F2 & V2 & S2) H.
  assert (B2R y <> 0%R) as Ny by (rewrite V2; lra).
  pose proof (@Bdiv_correct prec emax Pp Pe mode_NE x y Ny) as C.
  rewrite V1, V2 in C. replace (IZR (2 * n) / 2 / (4 / 2))%R with (IZR n / 2)%R in C by (rewrite mult_IZR; field).
  cbn [round_mode] in C. rewrite half_round in C by exact H. rewrite Rlt_bool_true in C by (now apply half_bound).
  destruct C as (C1 & C2 & C3). split; [congruence|]. split; [exact C1|]. rewrite C3, S1, S2.
  - destruct (Z.ltb_spec (2 * n) 0), (Z.ltb_spec n 0); try reflexivity; lia.
  - assert (is_finite (@Bdiv prec emax Pp Pe mode_NE x y) = true) as F by congruence. destruct (Bdiv mode_NE x y); try reflexivity. discriminate F.
Qed.

Lemma half_opp x k : half x k -> k <> 0 -> half (Bopp x) (- k).
Proof.
  intros (F & V & S) N. split; [now rewrite is_finite_Bopp|]. split.
  - rewrite B2R_Bopp, V, opp_IZR. lra.
  - rewrite Bsign_Bopp, S by (destruct x; try reflexivity; discriminate F).
    destruct (Z.ltb_spec k 0), (Z.ltb_spec (- k) 0); try reflexivity; lia.
Qed.

Lemma half_lt x y a b : half x a -> half y b -> Bltb x y = (a <? b).
Proof.
  intros (F1 & V1 & _) (F2 & V2 & _). rewrite Bltb_correct by assumption. rewrite V1, V2.
  destruct (Z.ltb_spec a b) as [H|H].
  - apply Rlt_bool_true. apply IZR_lt in H. lra.
  - apply Rlt_bool_false. apply IZR_le in H. lra.
Qed.
Lemma half_eq x y a b : half x a -> half y b -> Beqb x y = (a =? b).
Proof.
  intros (F1 & V1 & _) (F2 & V2 & _). rewrite Beqb_correct by assumption. rewrite V1, V2.
  destruct (Z.eqb_spec a b) as [->|H].
  - now apply Req_bool_true.
  - apply Req_bool_false. intros X. apply H, eq_IZR. lra.
Qed.
End Halves.

Notation dhalf := (half 53 1024).
Notation shalf := (half 24 128).

Lemma of_int_half z : Z.abs z < 2 ^ 52 -> dhalf (of_int z) (2 * z).
Proof. intros H. apply half_int; [cbn; lia|]. change (2 ^ 53) with (2 * 2 ^ 52). lia. Qed.
Lemma single_int_half z : Z.abs z < 2 ^ 23 -> shalf (single_of_int z) (2 * z).
Proof. intros H. apply half_int; [cbn; lia|]. change (2 ^ 24) with (2 * 2 ^ 23). lia. Qed.

Lemma finite_value prec emax s m e Q k : half prec emax (B754_finite s m e Q) k ->
  F2R (Float radix2 (cond_Zopp s (Zpos m)) e) = (IZR k / 2)%R.
Proof. intros (_ & V & _). exact V. Qed.
Lemma zero_value prec emax s k : half prec emax (B754_zero s) k -> k = 0 /\ s = false.
Proof.
  intros (_ & V & S). cbn in V, S. assert (k = 0) as -> by (apply eq_IZR; lra). auto.
Qed.

Lemma to_single_half x k : dhalf x k -> Z.abs k < 2 ^ 24 -> shalf (to_single x) k.
Proof.
  intros H B. destruct x as [s|s| |s m e Q].
  - apply zero_value in H as [-> ->]. split; [reflexivity|]. split; [cbn; lra|reflexivity].
  - destruct H as [F _]. discriminate F.
  - destruct H as [F _]. discriminate F.
  - apply finite_value in H. unfold to_single. apply half_normal; [cbn; lia|exact H|exact B|]. destruct s; discriminate.
Qed.
Lemma to_double_half x k : shalf x k -> Z.abs k < 2 ^ 53 -> dhalf (to_double x) k.
Proof.
  intros H B. destruct x as [s|s| |s m e Q].
  - apply zero_value in H as [-> ->]. split; [reflexivity|]. split; [cbn; lra|reflexivity].
  - destruct H as [F _]. discriminate F.
  - destruct H as [F _]. discriminate F.
  - apply finite_value in H. unfold to_double. apply half_normal; [cbn; lia|exact H|exact B|]. destruct s; discriminate.
Qed.

Lemma ssub_half x y a b : shalf x a -> shalf y b -> Z.abs (a - b) < 2 ^ 24 -> shalf (ssub x y) (a - b).
Proof. apply half_sub. cbn; lia. Qed.
Lemma fadd_half x y a b : dhalf x a -> dhalf y b -> Z.abs (a + b) < 2 ^ 53 -> dhalf (fadd x y) (a + b).
Proof. apply half_add. cbn; lia. Qed.
Lemma fdiv2_half x n : dhalf x (2 * n) -> Z.abs n < 2 ^ 53 -> dhalf (fdiv x (of_int 2)) n.
Proof. intros H B. apply half_div2; [cbn; lia|exact H|apply (of_int_half 2); lia|exact B]. Qed.

(** Printed with one decimal *)
Lemma round_even_half m e Q k : dhalf (B754_finite false m e Q) k -> round_even (10 * Zpos m) e = 5 * k.
Proof.
  intros H. apply finite_value in H. cbn [cond_Zopp] in H. unfold F2R in H. cbn [Fnum Fexp] in H. unfold round_even.
  destruct (Z.leb_spec 0 e) as [L|L].
  - rewrite <- (IZR_Zpower radix2) in H by exact L. change (Zpower radix2 e) with (2 ^ e) in H.
    assert (2 * (Zpos m * 2 ^ e) = k) as <-; [|ring]. apply eq_IZR. rewrite !mult_IZR. lra.
  - assert (2 * Zpos m = k * 2 ^ (- e)) as E.
    { apply eq_IZR. rewrite !mult_IZR. change (2 ^ (- e)) with (Zpower radix2 (- e)). rewrite (IZR_Zpower radix2) by lia.
      replace (IZR k) with (2 * (IZR (Zpos m) * bpow radix2 e))%R by lra.
      transitivity (2 * IZR (Zpos m) * (bpow radix2 e * bpow radix2 (- e)))%R; [|ring].
      rewrite <- bpow_plus. replace (e + - e) with 0 by lia. cbn [bpow]. ring. }
    replace (10 * Zpos m) with (5 * k * 2 ^ (- e)) by lia.
    assert (0 < 2 ^ (- e)) by (apply Z.pow_pos_nonneg; lia).
    rewrite Z.div_mul, Z.mod_mul by lia. destruct (Z.ltb_spec (2 * 0) (2 ^ (- e))); [reflexivity|lia].
Qed.

Lemma print_half x k : dhalf x k -> 0 <= k -> print11_1 x = dec11_1 k.
Proof.
  intros H K. unfold print11_1, print_fixed, dec11_1, fixed. change (10 ^ 1) with 10. destruct x as [s|s| |s m e Q].
  - apply zero_value in H as [-> ->]. reflexivity.
  - destruct H as [F _]. discriminate F.
  - destruct H as [F _]. discriminate F.
  - pose proof H as (_ & _ & S). cbn [Bsign] in S. destruct (Z.ltb_spec k 0); [lia|]. subst s.
    rewrite (round_even_half _ _ _ _ H). cbn [app]. f_equal. f_equal.
    + f_equal. Z.to_euclidean_division_equations. lia.
    + rewrite (Z.div_mod k 2) at 1 by lia. rewrite Zmod_odd. destruct (Z.odd k).
      * replace ((5 * (2 * (k / 2) + 1)) mod 10) with 5 by (Z.to_euclidean_division_equations; lia). reflexivity.
      * replace ((5 * (2 * (k / 2) + 0)) mod 10) with 0 by (Z.to_euclidean_division_equations; lia). reflexivity.
Qed.
