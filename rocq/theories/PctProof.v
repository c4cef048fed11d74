(** Facts about printed percentages. *)
From Flocq Require Import Core IEEE754.BinarySingleNaN Relative.
From Coq Require Import String ZArith Bool Reals Lra Lia.
From Verif Require Import Base CLib CLibProof ReportProof DoubleModel DoubleProof PctModel PctSpec.
Local Open Scope Z_scope.
Local Open Scope list_scope.

#[local] Instance fexp64_v : Valid_exp fexp64.
Proof. exact (fexp_correct 53 1024 Hp). Qed.

(** *** Rounding to an integer *)
Lemma round_even_near k e : 0 <= k -> 0 <= round_even k e /\
  (Rabs (IZR (round_even k e) - IZR k * bpow radix2 e) <= / 2)%R.
Proof.
  intros K. unfold round_even. destruct (Z.leb_spec 0 e) as [L|L].
  - assert (0 < 2 ^ e) by (apply Z.pow_pos_nonneg; lia). split; [nia|].
    rewrite mult_IZR, bpow_IZR by exact L. rewrite Rminus_diag_eq, Rabs_R0 by reflexivity. lra.
  - assert (0 < 2 ^ (- e)) as Pb by (apply Z.pow_pos_nonneg; lia).
    assert (bpow radix2 e = / IZR (2 ^ (- e)))%R as ->.
    { rewrite <- bpow_IZR by lia. rewrite <- bpow_opp. f_equal. lia. }
    set (b := 2 ^ (- e)) in *. clearbody b. clear L e.
    pose proof (Z.div_mod k b ltac:(lia)) as D. pose proof (Z.mod_pos_bound k b Pb) as M. pose proof (Z.div_pos k b K Pb) as Q.
    set (q := k / b) in *. set (r := k mod b) in *. clearbody q r.
    assert (forall z, 2 * Z.abs (z * b - k) <= b -> (Rabs (IZR z - IZR k * / IZR b) <= / 2)%R) as G.
    { intros z Hz. assert (0 < IZR b)%R as Pr by (apply IZR_lt; lia).
      replace (IZR z - IZR k * / IZR b)%R with ((IZR z * IZR b - IZR k) * / IZR b)%R by (field; lra).
      rewrite Rabs_mult, Rabs_inv, (Rabs_pos_eq (IZR b)) by lra.
      apply Rmult_le_reg_r with (IZR b); [exact Pr|]. rewrite Rmult_assoc, Rinv_l by lra.
      rewrite <- mult_IZR, <- minus_IZR, <- abs_IZR. apply IZR_le in Hz. rewrite mult_IZR in Hz. lra. }
    destruct (Z.ltb_spec (2 * r) b); [|destruct (Z.ltb_spec b (2 * r)); [|destruct (Z.even q)]]; (split; [lia|apply G; nia]).
Qed.

(** *** Decimals *)
Lemma dec_small n : 0 <= n < 10 -> dec n = [48 + n].
Proof.
  intros H. assert (n = 0 \/ n = 1 \/ n = 2 \/ n = 3 \/ n = 4 \/ n = 5 \/ n = 6 \/ n = 7 \/ n = 8 \/ n = 9) as C by lia.
  repeat destruct C as [->|C]; try reflexivity. subst n. reflexivity.
Qed.
Lemma fixed_two k : 0 <= k -> fixed 2 k = two_decimals k.
Proof.
  intros K. unfold fixed, two_decimals. change (10 ^ 2) with 100. f_equal. cbn [app]. f_equal.
  change (Z.to_nat 2) with 2%nat.
  replace (k / 10 mod 10) with (k mod 100 / 10) by (Z.to_euclidean_division_equations; lia).
  replace (k mod 10) with (k mod 100 mod 10) by (Z.to_euclidean_division_equations; lia).
  pose proof (Z.mod_pos_bound k 100 ltac:(lia)) as B. revert B. generalize (k mod 100). clear. intros m B.
  assert (forall n, (n < 100)%nat -> pad 48 2 (dec (Z.of_nat n)) = [48 + Z.of_nat n / 10; 48 + Z.of_nat n mod 10]) as H.
  { intros n Hn. do 100 (destruct n as [|n]; [reflexivity|]). lia. }
  specialize (H (Z.to_nat m) ltac:(lia)). now rewrite Z2Nat.id in H by lia.
Qed.

(** *** A finite double *)
Definition hundredths (x : double) : Z :=
  match x with B754_finite s m e _ => round_even (100 * Zpos m) e | _ => 0 end.

Lemma print_value w x r : dval x r ->
  0 <= hundredths x /\ (Rabs (IZR (hundredths x) - 100 * Rabs r) <= / 2)%R /\
  print_fixed w 2 x = pad 32 w ((if Bsign x then [45] else []) ++ two_decimals (hundredths x)) /\ (r = 0%R -> hundredths x = 0).
Proof.
  intros [F V]. destruct x as [s|s| |s m e Q]; try discriminate F; cbn [hundredths].
  - cbn in V. subst r. split; [lia|]. split; [rewrite Rabs_R0, Rmult_0_r, Rminus_0_r, Rabs_R0; lra|].
    split; reflexivity.
  - destruct (round_even_near (100 * Zpos m) e ltac:(lia)) as [P E]. split; [exact P|].
    assert (Rabs r = IZR (Zpos m) * bpow radix2 e)%R as A.
    { subst r. unfold B2R, F2R. cbn [Fnum Fexp]. rewrite Rabs_mult, (Rabs_pos_eq (bpow radix2 e)) by apply bpow_ge_0.
      rewrite <- abs_IZR. f_equal. f_equal. now destruct s. }
    split; [|split].
    + rewrite A. rewrite mult_IZR in E. replace (100 * (IZR (Zpos m) * bpow radix2 e))%R with (100 * IZR (Zpos m) * bpow radix2 e)%R by ring. exact E.
    + unfold print_fixed. cbn [Bsign]. now rewrite fixed_two by exact P.
    + intros Z0. exfalso. rewrite Z0, Rabs_R0 in A. pose proof (bpow_gt_0 radix2 e).
      assert (0 < IZR (Zpos m))%R by (apply IZR_lt; lia). nra.
Qed.

Lemma hundredths_le x y a b : dval x a -> dval y b -> Bsign x = false -> Bsign y = false -> (0 <= a <= b)%R ->
  hundredths x <= hundredths y.
Proof.
  intros X Y Sx Sy L. destruct (Req_dec a b) as [E|N].
  - assert (x = y) as ->; [|lia]. destruct X as [Fx Vx], Y as [Fy Vy]. apply B2R_Bsign_inj; congruence.
  - destruct (print_value 0 _ _ X) as (_ & Ex & _). destruct (print_value 0 _ _ Y) as (_ & Ey & _).
    rewrite (Rabs_pos_eq a) in Ex by lra. rewrite (Rabs_pos_eq b) in Ey by lra. apply Rabs_le_inv in Ex, Ey.
    assert (IZR (hundredths x) < IZR (hundredths y + 1))%R as G by (rewrite plus_IZR; lra). apply lt_IZR in G. lia.
Qed.

(** *** Percentages *)
Lemma percentage_val n d : Z.abs n < 2 ^ 46 -> 0 < d <= 2 ^ 53 ->
  dval (percentage n d) (rnd (100 * IZR n / IZR d)) /\ Bsign (percentage n d) = (n <? 0).
Proof.
  intros Hn Hd.
  assert (dval (of_int d) (IZR d)) as Dd by (apply of_int_exact; lia).
  assert (dval (of_int 100) 100) as D1 by (apply of_int_exact; lia).
  assert (dval (of_int n) (IZR n)) as Dn by (apply of_int_exact; lia).
  assert (1 <= IZR d)%R as Pd by (apply IZR_le; lia).
  assert (Rabs (100 * IZR n) <= bpow radix2 53)%R as B.
  { rewrite <- mult_IZR, <- abs_IZR, bpow_IZR by lia. apply IZR_le. lia. }
  assert (dval (fmul (of_int 100) (of_int n)) (100 * IZR n)) as Dm.
  { pose proof (fmul_ok _ _ _ _ 53 D1 Dn ltac:(lia) B) as G. rewrite rnd_exact in G; [exact G|].
    rewrite <- mult_IZR. apply format_Z. lia. }
  assert (Rabs (100 * IZR n / IZR d) <= bpow radix2 53)%R as B2.
  { unfold Rdiv. rewrite Rabs_mult, Rabs_inv, (Rabs_pos_eq (IZR d)) by lra.
    apply Rmult_le_reg_r with (IZR d); [lra|]. rewrite Rmult_assoc, Rinv_l by lra. pose proof (bpow_gt_0 radix2 53). nra. }
  assert (dval (percentage n d) (rnd (100 * IZR n / IZR d))) as Dq by (apply (fdiv_ok _ _ _ _ 53 Dm Dd); [lra|lia|exact B2]).
  split; [exact Dq|].
  (* signs *)
  assert (forall z, Z.abs z <= 2 ^ 53 -> Bsign (of_int z) = (z <? 0)) as Si.
  { intros z Hz. pose proof (@binary_normalize_correct 53 1024 Hp Hm mode_NE z 0 false) as C. cbn [round_mode] in C.
    replace (F2R (Float radix2 z 0)) with (IZR z) in C by (unfold F2R; cbn; ring).
    assert (Rabs (IZR z) <= bpow radix2 53)%R as Bz by (rewrite <- abs_IZR, bpow_IZR by lia; apply IZR_le; lia).
    pose proof (proj2 (rnd_small _ 53 ltac:(lia) Bz)) as Bx. unfold rnd, fexp64 in Bx. rewrite Rlt_bool_true in C by exact Bx.
    destruct C as (_ & _ & S). unfold of_int. rewrite S. change 0%R with (IZR 0). rewrite Rcompare_IZR.
    destruct (Z.compare_spec z 0); destruct (Z.ltb_spec z 0); try lia; reflexivity. }
  assert (Bsign (fmul (of_int 100) (of_int n)) = (n <? 0)) as Sm.
  { pose proof (@Bmult_correct 53 1024 Hp Hm mode_NE (of_int 100) (of_int n)) as C. cbn [round_mode] in C.
    destruct D1 as [F1 V1], Dn as [Fn Vn]. rewrite V1, Vn in C.
    pose proof (proj2 (rnd_small _ 53 ltac:(lia) B)) as Bx. unfold rnd, fexp64 in Bx. rewrite Rlt_bool_true in C by exact Bx.
    destruct C as (_ & _ & S). unfold fmul. rewrite S; [|destruct Dm as [Fm _]; unfold fmul in Fm; now destruct (Bmult _ _ _)].
    rewrite (Si 100), (Si n) by lia. now destruct (n <? 0). }
  pose proof (@Bdiv_correct 53 1024 Hp Hm mode_NE (fmul (of_int 100) (of_int n)) (of_int d)) as C. cbn [round_mode] in C.
  destruct Dm as [Fm Vm], Dd as [Fd Vd]. rewrite Vm, Vd in C. specialize (C ltac:(lra)).
  pose proof (proj2 (rnd_small _ 53 ltac:(lia) B2)) as Bx. unfold rnd, fexp64 in Bx. rewrite Rlt_bool_true in C by exact Bx.
  destruct C as (_ & _ & S). unfold percentage, fdiv.
  rewrite S; [|destruct Dq as [Fq _]; unfold percentage, fdiv in Fq; now destruct (Bdiv _ _ _)].
  rewrite Sm, (Si d) by lia. destruct (Z.ltb_spec d 0); [lia|]. now destruct (n <? 0).
Qed.

(** What is printed is the nearest number of hundredths. *)
Lemma percentage_prints w n d : Z.abs n < 2 ^ 38 -> 0 < d <= 2 ^ 53 ->
  let k := hundredths (percentage n d) in
  0 <= k /\ nearest k (10000 * Z.abs n) d /\
  print_fixed w 2 (percentage n d) = pad 32 w ((if n <? 0 then [45] else []) ++ two_decimals k).
Proof.
  intros Hn Hd. destruct (percentage_val n d) as [V S]; [lia|lia|].
  destruct (print_value w _ _ V) as (K & E & P & Z0). rewrite S in P. set (k := hundredths _) in *. cbv zeta. split; [exact K|].
  split; [|exact P]. clearbody k.
  set (q := (100 * IZR n / IZR d)%R) in *. assert (1 <= IZR d)%R as Pd by (apply IZR_le; lia).
  unfold nearest.
  destruct (Z.eq_dec n 0) as [->|Nz].
  { assert (q = 0%R) as Q by (unfold q; rewrite Rmult_0_r; unfold Rdiv; ring).
    rewrite Q, rnd_exact in Z0 by (apply (format_Z 0); lia). rewrite (Z0 eq_refl). lia. }
  assert (Rabs (rnd q - q) <= / 2 * bpow radix2 (-53 + 1) * Rabs q)%R as Rel.
  { apply (relative_error_N_FLT radix2 (-1074) 53 ltac:(lia) (fun x => negb (Z.even x))).
    apply Rle_trans with (bpow radix2 (-53)); [apply bpow_le; lia|].
    unfold q, Rdiv. rewrite Rabs_mult, Rabs_inv, (Rabs_pos_eq (IZR d)) by lra.
    assert (1 <= Rabs (IZR n))%R as An by (rewrite <- abs_IZR; apply IZR_le; lia). rewrite Rabs_mult, (Rabs_pos_eq 100) by lra.
    assert (IZR d <= bpow radix2 53)%R as D53 by (rewrite bpow_IZR by lia; apply IZR_le; lia).
    apply Rle_trans with (/ IZR d)%R.
    - change (-53) with (- (53)). rewrite (bpow_opp radix2 53). apply Rinv_le; lra.
    - assert (0 < / IZR d)%R by (apply Rinv_0_lt_compat; lra). nra. }
  assert (100 * Rabs q = 10000 * IZR (Z.abs n) / IZR d)%R as Aq.
  { unfold q, Rdiv. rewrite !Rabs_mult, Rabs_inv, (Rabs_pos_eq (IZR d)), (Rabs_pos_eq 100) by lra. rewrite abs_IZR. ring. }
  assert (Rabs (Rabs (rnd q) - Rabs q) <= / 2 * bpow radix2 (-52) * Rabs q)%R as Rel2.
  { eapply Rle_trans; [apply Rabs_triang_inv2|]. exact Rel. }
  change (bpow radix2 (-52)) with (/ IZR (2 ^ 52))%R in Rel2.
  assert (IZR (Z.abs n) < IZR (2 ^ 38))%R as Nb by (apply IZR_lt; lia).
  assert (0 <= IZR (Z.abs n))%R as Np by (apply IZR_le; lia).
  assert (Rabs (IZR k - 10000 * IZR (Z.abs n) / IZR d) < / 2 + / (2 * IZR d))%R as Tot.
  { replace (IZR k - 10000 * IZR (Z.abs n) / IZR d)%R
      with ((IZR k - 100 * Rabs (rnd q)) + 100 * (Rabs (rnd q) - Rabs q))%R by (rewrite <- Aq; ring).
    eapply Rle_lt_trans; [apply Rabs_triang|]. apply Rplus_le_lt_compat; [exact E|].
    rewrite Rabs_mult, (Rabs_pos_eq 100) by lra.
    apply Rle_lt_trans with (/ 2 * / IZR (2 ^ 52) * (10000 * IZR (Z.abs n) / IZR d))%R; [rewrite <- Aq; lra|].
    rewrite Rinv_mult. unfold Rdiv. assert (0 < / IZR d)%R as Id by (apply Rinv_0_lt_compat; lra).
    assert (/ IZR (2 ^ 52) * (10000 * IZR (Z.abs n)) < 1)%R as G; [|nra].
    apply Rmult_lt_reg_l with (IZR (2 ^ 52)); [apply IZR_lt; lia|].
    rewrite <- Rmult_assoc, Rinv_r by (apply IZR_neq; lia). rewrite Rmult_1_l, Rmult_1_r.
    rewrite <- mult_IZR. apply IZR_lt. lia. }
  assert (Rabs (IZR (2 * (k * d - 10000 * Z.abs n))) < IZR (d + 1))%R as Fin.
  { replace (IZR (2 * (k * d - 10000 * Z.abs n))) with ((IZR k - 10000 * IZR (Z.abs n) / IZR d) * (2 * IZR d))%R
      by (rewrite mult_IZR, minus_IZR, !mult_IZR; field; lra).
    rewrite Rabs_mult, (Rabs_pos_eq (2 * IZR d)) by lra. rewrite plus_IZR.
    apply Rlt_le_trans with ((/ 2 + / (2 * IZR d)) * (2 * IZR d))%R; [apply Rmult_lt_compat_r; [lra|exact Tot]|].
    right. field. lra. }
  rewrite <- abs_IZR in Fin. apply lt_IZR in Fin. lia.
Qed.

Lemma percentage_le n1 d1 n2 d2 : 0 <= n1 < 2 ^ 38 -> 0 <= n2 < 2 ^ 38 -> 0 < d1 <= 2 ^ 53 -> 0 < d2 <= 2 ^ 53 -> n1 * d2 <= n2 * d1 ->
  hundredths (percentage n1 d1) <= hundredths (percentage n2 d2).
Proof.
  intros N1 N2 D1 D2 L. destruct (percentage_val n1 d1) as [V1 S1]; [lia|lia|]. destruct (percentage_val n2 d2) as [V2 S2]; [lia|lia|].
  apply (hundredths_le _ _ _ _ V1 V2); [rewrite S1; lia|rewrite S2; lia|].
  assert (0 < IZR d1)%R by (apply IZR_lt; lia). assert (0 < IZR d2)%R by (apply IZR_lt; lia).
  assert (0 <= IZR n1)%R by (apply IZR_le; lia). split.
  - apply rnd_ge_format; [apply (format_Z 0); lia|]. apply Rmult_le_reg_r with (IZR d1); [lra|]. unfold Rdiv. rewrite Rmult_assoc, Rinv_l by lra. lra.
  - apply rnd_le. apply Rmult_le_reg_r with (IZR d1 * IZR d2)%R; [nra|].
    replace (100 * IZR n1 / IZR d1 * (IZR d1 * IZR d2))%R with (100 * (IZR n1 * IZR d2))%R by (field; lra).
    replace (100 * IZR n2 / IZR d2 * (IZR d1 * IZR d2))%R with (100 * (IZR n2 * IZR d1))%R by (field; lra).
    rewrite <- !mult_IZR. apply IZR_le. lia.
Qed.

(** *** Columns *)
Lemma pad_zlen w s : zlen s <= Z.of_nat w -> zlen (pad 32 w s) = Z.of_nat w.
Proof. intros H. unfold pad. rewrite zlen_app. unfold zlen in *. rewrite repeat_length. lia. Qed.
Lemma pad_zlen_le w s : zlen (pad 32 w s) <= Z.max (Z.of_nat w) (zlen s).
Proof. unfold pad. rewrite zlen_app. unfold zlen. rewrite repeat_length. lia. Qed.
Lemma pad_In w s c : In c (pad 32 w s) -> c = 32 \/ In c s.
Proof. unfold pad. intros H. apply in_app_iff in H as [H|H]; [apply repeat_spec in H|]; auto. Qed.
Lemma dec_In n c : 0 <= n -> In c (dec n) -> 48 <= c <= 57.
Proof.
  intros H I. unfold dec in I. destruct (Z.ltb_spec n 0); [lia|]. pose proof (dec_digits n H) as F. rewrite Forall_forall in F.
  apply F in I. unfold is_digit in I. lia.
Qed.
Lemma two_decimals_In k c : 0 <= k -> In c (two_decimals k) -> 46 <= c <= 57.
Proof.
  intros K I. unfold two_decimals in I. apply in_app_iff in I as [I|I].
  - apply dec_In in I; [lia|]. apply Z.div_pos; lia.
  - pose proof (Z.mod_pos_bound (k / 10) 10 ltac:(lia)). pose proof (Z.mod_pos_bound k 10 ltac:(lia)).
    destruct I as [<-|[<-|[<-|[]]]]; lia.
Qed.

Lemma two_decimals_len k m : 0 <= k < 100 * 10 ^ Z.of_nat (S m) -> zlen (two_decimals k) <= Z.of_nat m + 4.
Proof.
  intros K. unfold two_decimals. rewrite zlen_app. change (zlen [46; 48 + k / 10 mod 10; 48 + k mod 10]) with 3.
  assert (0 <= k / 100 < 10 ^ Z.of_nat (S m)) as B by (split; [apply Z.div_pos; lia|apply Z.div_lt_upper_bound; lia]).
  unfold dec. destruct (Z.ltb_spec (k / 100) 0); [lia|]. pose proof (digits_len 10 (k / 100) m ltac:(lia) B).
  unfold zlen. rewrite map_length. lia.
Qed.
