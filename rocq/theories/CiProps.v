(** C53: confidence intervals. *)
From Flocq Require Import Core IEEE754.BinarySingleNaN.
From Coq Require Import Reals Lra.
From Coq Require Import String.
From Verif Require Import Base CLib CLibProof SumProof Utf8Model AccModel AccSpec ReportModel ReportSpec ReportProof
  AccrptModel AccrptSpec AccrptTop WacModel WacrptModel WacrptSpec WacrptTop WacSpec WacProof DoubleModel DoubleProof
  CiModel CiProof CiSpec CiError.
Local Open Scope Z_scope.
Local Open Scope list_scope.

(** How many observations are not empty. *)
Definition nonempty_obs (l : list (Z * Z)) : Z := count_if (fun o => 0 <? fst o) l.

Lemma valid_spec l : valid_obslist l = (1 <? nonempty_obs l).
Proof.
  unfold valid_obslist, nonempty_obs. f_equal.
  assert (forall n, fold_left (fun n (o : obs) => if 0 <? fst o then n + 1 else n) l n = n + count_if (fun o => 0 <? fst o) l) as H.
  { induction l as [|o l IH]; intros n; cbn [fold_left]; [change (count_if _ []) with 0; lia|].
    rewrite IH, count_if_cons. destruct (0 <? fst o); lia. }
  rewrite H. lia.
Qed.

(** Without the figures of one observation something is left. *)
Lemma rest_positive l : (forall o, In o l -> 0 <= fst o) -> 1 < nonempty_obs l ->
  forall o, In o l -> 1 <= zsum (map fst l) - fst o.
Proof.
  assert (A : forall l : list (Z * Z), (forall o, In o l -> 0 <= fst o) -> 0 <= zsum (map fst l) /\ nonempty_obs l <= zsum (map fst l)).
  { clear l. induction l as [|o l IH]; intros H; [cbn; lia|]. cbn [map]. rewrite zsum_cons. unfold nonempty_obs in *.
    rewrite count_if_cons. destruct IH as [I1 I2]; [intros; apply H; now right|]. specialize (H o (or_introl eq_refl)).
    destruct (Z.ltb_spec 0 (fst o)); lia. }
  intros H V o Ho. apply in_split in Ho as (l1 & l2 & ->).
  rewrite map_app. cbn [map]. rewrite zsum_app, zsum_cons. unfold nonempty_obs in V. rewrite count_if_app, count_if_cons in V.
  destruct (A l1) as [B1 B2]; [intros; apply H; apply in_or_app; now left|].
  destruct (A l2) as [C1 C2]; [intros; apply H; apply in_or_app; right; now right|].
  unfold nonempty_obs in *. destruct (0 <? fst o); lia.
Qed.

(** C53: fewer than two non-empty observations are an error; otherwise no division by zero
    occurs and the interval is made of two numbers (no NaN, no infinity) with
    0 <= lower <= upper <= 100. *)
Theorem C53_interval : forall l : list (Z * Z),
  (forall count missed, In (count, missed) l -> 0 <= count /\ 0 <= missed) ->
  zsum (map fst l) <= 2 ^ 63 -> zsum (map snd l) <= 2 ^ 63 -> zlen l <= 2 ^ 31 ->
  (nonempty_obs l < 2 -> compute_ci l = Fail "not enough observations") /\
  (2 <= nonempty_obs l -> exists lower upper L U, compute_ci l = Ok (lower, upper) /\
     is_finite lower = true /\ B2R lower = L /\ is_finite upper = true /\ B2R upper = U /\
     (0 <= L <= U /\ U <= 100)%R).
Proof.
  intros l Hp Hc Hm Hn.
  assert (Pos : forall o, In o l -> 0 <= fst o /\ 0 <= snd o) by (intros [c m] H; exact (Hp c m H)).
  split.
  { intros H. unfold compute_ci. rewrite valid_spec. now replace (1 <? nonempty_obs l) with false by lia. }
  intros V. unfold compute_ci. rewrite valid_spec. replace (1 <? nonempty_obs l) with true by lia. cbn [negb].
  cbv zeta. rewrite obs_count_sum, obs_missed_sum. set (tc := zsum (map fst l)) in *. set (tm := zsum (map snd l)) in *.
  set (n := zlen l) in *.
  assert (Rest : forall o, In o l -> 1 <= tc - fst o).
  { intros o Ho. apply rest_positive; [intros x Hx; apply Pos, Hx|lia|exact Ho]. }
  assert (Part : forall o, In o l -> snd o <= tm).
  { intros o Ho. apply in_split in Ho as (l1 & l2 & E). subst tm. rewrite E, map_app. cbn [map].
    rewrite zsum_app, zsum_cons.
    assert (0 <= zsum (map snd l1)).
    { apply zsum_nonneg. apply Forall_forall. intros x Hx. apply in_map_iff in Hx as (y & <- & Hy). apply Pos.
      rewrite E. apply in_or_app. now left. }
    assert (0 <= zsum (map snd l2)).
    { apply zsum_nonneg. apply Forall_forall. intros x Hx. apply in_map_iff in Hx as (y & <- & Hy). apply Pos.
      rewrite E. apply in_or_app. right. now right. }
    lia. }
  assert (Pm : 0 <= tm).
  { apply zsum_nonneg. apply Forall_forall. intros x Hx. apply in_map_iff in Hx as (y & <- & Hy). now apply Pos. }
  assert (N1 : 2 <= n).
  { assert (nonempty_obs l <= zlen l); [|lia]. unfold nonempty_obs. clear. induction l as [|o l IH]; [reflexivity|].
    rewrite count_if_cons, zlen_cons. destruct (0 <? fst o); lia. }
  assert (Tc : 1 <= tc).
  { destruct l as [|o l']; [unfold n, zlen in N1; cbn in N1; lia|]. specialize (Rest o (or_introl eq_refl)).
    specialize (Pos o (or_introl eq_refl)). lia. }
  unfold accuracy at 1. replace (tc =? 0) with false by lia. cbn [obind].
  destruct (percentage_within (tc - tm) tc ltac:(lia) ltac:(lia)) as (th & Wt).
  pose proof (within_mul 31 71 _ _ _ _ (within_int n 31 ltac:(lia) ltac:(lia)) Wt ltac:(lia)) as Wnt.
  change (31 + 71) with 102 in Wnt.
  destruct (pseudovalues_ok tc tm n _ _ ltac:(lia) Wnt l (of_int 0) 0%R 0) as (js & sum & s & E & Ds & As & Lj & Fj).
  { intros o Ho. specialize (Rest o Ho). specialize (Part o Ho). specialize (Pos o Ho). lia. }
  { lia. } { fold n. lia. } { apply (of_int_exact 0); lia. } { rewrite Rabs_R0. lra. }
  rewrite E. cbn [obind].
  assert (Ws : within 102 sum s).
  { split; [exact Ds|]. apply Rle_trans with (1 := As). change (bpow radix2 102) with (bpow radix2 (31 + 71)). rewrite bpow_plus.
    apply Rmult_le_compat_r; [apply bpow_ge_0|]. rewrite bpow_IZR by lia. apply IZR_le. fold n. lia. }
  pose proof (within_mul 31 102 _ _ _ _ (within_int (n - 1) 31 ltac:(lia) ltac:(lia)) Ws ltac:(lia)) as Wp.
  change (31 + 102) with 133 in Wp.
  pose proof (within_div 133 _ _ _ _ Wp (proj1 (within_int n 31 ltac:(lia) ltac:(lia))) (rnd_IZR_ge1 n ltac:(lia)) ltac:(lia)) as Wq.
  pose proof (within_sub 133 _ _ _ _ (within_weaken 102 133 _ _ ltac:(lia) Wnt) Wq ltac:(lia)) as WJ.
  change (133 + 1) with 134 in WJ.
  set (J := fsub _ (fdiv _ _)) in *. set (jr := rnd (_ - _)) in WJ.
  assert (Ljs : zlen js = n) by (unfold n, zlen; lia).
  destruct (squares_ok J jr WJ js (of_int 0) 0%R 0 Fj) as (q & Dq & Aq).
  { lia. } { lia. } { apply (of_int_exact 0); lia. } { lra. }
  set (Q := fold_left _ js _) in *.
  assert (Wq2 : within 301 Q q).
  { split; [exact Dq|]. rewrite Rabs_pos_eq by lra. apply Rle_trans with (1 := proj2 Aq).
    change (bpow radix2 301) with (bpow radix2 (31 + 270)). rewrite bpow_plus.
    apply Rmult_le_compat_r; [apply bpow_ge_0|]. rewrite bpow_IZR by lia. apply IZR_le. lia. }
  pose proof (within_div 301 _ _ _ _ Wq2 (proj1 (within_int (n - 1) 31 ltac:(lia) ltac:(lia))) (rnd_IZR_ge1 (n - 1) ltac:(lia)) ltac:(lia)) as W1.
  pose proof (within_div 301 _ _ _ _ W1 (proj1 (within_int n 31 ltac:(lia) ltac:(lia))) (rnd_IZR_ge1 n ltac:(lia)) ltac:(lia)) as W2.
  assert (Dp : forall a b, (0 <= a)%R -> (1 <= b)%R -> (0 <= rnd (a / b))%R).
  { intros a b Ha Hb. apply rnd_ge_format; [apply generic_format_0|]. apply Rmult_le_pos; [exact Ha|].
    apply Rlt_le, Rinv_0_lt_compat. lra. }
  pose proof (Dp q _ (proj1 Aq) (rnd_IZR_ge1 (n - 1) ltac:(lia))) as P1.
  pose proof (Dp _ _ P1 (rnd_IZR_ge1 n ltac:(lia))) as P2.
  destruct (sqrt_within 301 _ _ W2 P2 ltac:(lia)) as (sq & Wsq & Psq).
  destruct c196_within as (c & Wc & Pc).
  pose proof (within_mul 1 301 _ _ _ _ Wc Wsq ltac:(lia)) as Ww. change (1 + 301) with 302 in Ww.
  assert (Pw : (0 <= rnd (c * sq))%R) by (apply rnd_ge_format; [apply generic_format_0|now apply Rmult_le_pos]).
  set (w := rnd (c * sq)) in *. set (W := fmul c196 _) in *.
  pose proof (within_sub 302 _ _ _ _ (within_weaken 134 302 _ _ ltac:(lia) WJ) Ww ltac:(lia)) as [Dl _].
  pose proof (within_add 302 _ _ _ _ (within_weaken 134 302 _ _ ltac:(lia) WJ) Ww ltac:(lia)) as [Du _].
  assert (Fj' : format64 jr) by (destruct WJ as [D _]; apply (dval_format _ _ D)).
  assert (Le : (rnd (jr - w) <= rnd (jr + w))%R) by (apply rnd_le; lra).
  destruct (clamp_ok _ _ Dl) as [Fl Vl]. destruct (clamp_ok _ _ Du) as [Fu Vu].
  do 4 eexists. split; [reflexivity|]. split; [exact Fl|]. split; [exact Vl|]. split; [exact Fu|]. split; [exact Vu|].
  pose proof (clamp_range (rnd (jr - w))). pose proof (clamp_range (rnd (jr + w))). pose proof (clamp_le _ _ Le). lra.
Qed.
Print Assumptions C53_interval.

(** Exact values *)
Lemma exact_mul x y a b : dval x (IZR a) -> dval y (IZR b) -> Z.abs (a * b) <= 2 ^ 53 -> dval (fmul x y) (IZR (a * b)).
Proof.
  intros Dx Dy H. rewrite <- (rnd_exact (IZR (a * b))) by (now apply format_Z). rewrite mult_IZR.
  apply (fmul_ok _ _ _ _ 53); auto; [lia|]. rewrite <- mult_IZR. now apply abs_IZR_le.
Qed.
Lemma exact_sub x y a b : dval x (IZR a) -> dval y (IZR b) -> Z.abs (a - b) <= 2 ^ 53 -> dval (fsub x y) (IZR (a - b)).
Proof.
  intros Dx Dy H. rewrite <- (rnd_exact (IZR (a - b))) by (now apply format_Z). rewrite minus_IZR.
  apply (fsub_ok _ _ _ _ 53); auto; [lia|]. rewrite <- minus_IZR. now apply abs_IZR_le.
Qed.
Lemma exact_add x y a b : dval x (IZR a) -> dval y (IZR b) -> Z.abs (a + b) <= 2 ^ 53 -> dval (fadd x y) (IZR (a + b)).
Proof.
  intros Dx Dy H. rewrite <- (rnd_exact (IZR (a + b))) by (now apply format_Z). rewrite plus_IZR.
  apply (fadd_ok _ _ _ _ 53); auto; [lia|]. rewrite <- plus_IZR. now apply abs_IZR_le.
Qed.
Lemma exact_div x y a b : b <> 0 -> dval x (IZR (a * b)) -> dval y (IZR b) -> Z.abs a <= 2 ^ 53 -> dval (fdiv x y) (IZR a).
Proof.
  intros N Dx Dy H. assert (IZR b <> 0)%R as N' by (now apply IZR_neq).
  assert (IZR (a * b) / IZR b = IZR a)%R as E by (rewrite mult_IZR; field; exact N').
  rewrite <- (rnd_exact (IZR a)) by (now apply format_Z). rewrite <- E.
  apply (fdiv_ok _ _ _ _ 53); auto; [lia|]. rewrite E. now apply abs_IZR_le.
Qed.

(** C53: if the accuracy is [t] percent exactly, where t is 0 or 100, on each page, then this
    is the interval. *)
Theorem C53_certain : forall (l : list (Z * Z)) t,
  (t = 100 /\ (forall count missed, In (count, missed) l -> 0 <= count /\ missed = 0) \/
   t = 0 /\ (forall count missed, In (count, missed) l -> 0 <= count /\ missed = count)) ->
  zsum (map fst l) <= 2 ^ 46 -> zlen l <= 2 ^ 23 -> 2 <= nonempty_obs l ->
  exists lower upper, compute_ci l = Ok (lower, upper) /\
    is_finite lower = true /\ B2R lower = IZR t /\ is_finite upper = true /\ B2R upper = IZR t.
Proof.
  intros l t Ht Hc Hn V.
  assert (T : t = 100 \/ t = 0) by tauto.
  assert (Pos : forall o, In o l -> 0 <= fst o /\ 100 * (fst o - snd o) = t * fst o).
  { intros [c m] Ho. cbn [fst snd]. destruct Ht as [[-> H]|[-> H]]; destruct (H c m Ho); lia. }
  unfold compute_ci. rewrite valid_spec. replace (1 <? nonempty_obs l) with true by lia. cbn [negb].
  cbv zeta. rewrite obs_count_sum, obs_missed_sum.
  assert (Tot : 100 * (zsum (map fst l) - zsum (map snd l)) = t * zsum (map fst l)).
  { clear - Pos. induction l as [|o l IH]; [cbn; lia|]. cbn [map]. rewrite !zsum_cons.
    destruct (Pos o (or_introl eq_refl)). specialize (IH (fun x H => Pos x (or_intror H))). lia. }
  assert (Rest : forall o, In o l -> 1 <= zsum (map fst l) - fst o).
  { intros o Ho. apply rest_positive; [intros x Hx; apply Pos, Hx|lia|exact Ho]. }
  set (tc := zsum (map fst l)) in *. set (tm := zsum (map snd l)) in *. set (n := zlen l) in *.
  assert (N1 : 2 <= n).
  { assert (nonempty_obs l <= zlen l); [|lia]. unfold nonempty_obs. clear. induction l as [|o l IH]; [reflexivity|].
    rewrite count_if_cons, zlen_cons. destruct (0 <? fst o); lia. }
  assert (Tc : 1 <= tc).
  { destruct l as [|o l']; [unfold n, zlen in N1; cbn in N1; lia|]. specialize (Rest o (or_introl eq_refl)).
    destruct (Pos o (or_introl eq_refl)). lia. }
  assert (Pct : forall k d, 1 <= d <= 2 ^ 46 -> 100 * k = t * d -> dval (percentage k d) (IZR t)).
  { intros k d Hd E. unfold percentage. apply exact_div with (b := d); [lia| |apply of_int_exact; lia|lia].
    rewrite <- E. apply exact_mul; [apply of_int_exact; lia|apply of_int_exact; lia|].
    rewrite E. destruct T as [-> | ->]; lia. }
  unfold accuracy at 1. replace (tc =? 0) with false by lia. cbn [obind].
  assert (Dt : dval (percentage (tc - tm) tc) (IZR t)) by (apply Pct; lia).
  assert (Dnt : dval (fmul (of_int n) (percentage (tc - tm) tc)) (IZR (n * t))).
  { apply exact_mul; [apply of_int_exact; lia|exact Dt|]. destruct T as [-> | ->]; lia. }
  assert (PV : forall l' sum i, (forall o, In o l' -> In o l) -> 0 <= i -> i + zlen l' <= n -> dval sum (IZR (i * t)) ->
    exists js sum', pseudovalues tc tm n (fmul (of_int n) (percentage (tc - tm) tc)) l' sum = Ok (js, sum') /\
      dval sum' (IZR ((i + zlen l') * t)) /\ Forall (fun j => dval j (IZR t)) js).
  { induction l' as [|[c m] l' IH]; intros sum i In' Hi Hl Ds.
    - exists [], sum. split; [reflexivity|]. split; [|constructor]. now replace (i + zlen []) with i by (unfold zlen; cbn; lia).
    - rewrite zlen_cons in Hl. pose proof (zlen_nonneg l').
      pose proof (Rest (c, m) (In' _ (or_introl eq_refl))) as R1. destruct (Pos (c, m) (In' _ (or_introl eq_refl))) as [R2 R3].
      cbn [fst snd] in R1, R2, R3. cbn [pseudovalues]. unfold accuracy. replace (tc - c =? 0) with false by lia. cbn [obind].
      assert (Dth : dval (percentage (tc - c - (tm - m)) (tc - c)) (IZR t)) by (apply Pct; lia).
      destruct (IH (fadd sum (percentage (tc - c - (tm - m)) (tc - c))) (i + 1)) as (js & sum' & E & D & F).
      + intros o Ho. apply In'. now right.
      + lia.
      + lia.
      + replace ((i + 1) * t) with (i * t + t) by lia. apply exact_add; [exact Ds|exact Dth|]. destruct T as [-> | ->]; lia.
      + rewrite E. cbn [obind]. eexists _, sum'. split; [reflexivity|]. split.
        * rewrite zlen_cons. now replace (i + (zlen l' + 1)) with (i + 1 + zlen l') by lia.
        * constructor; [|exact F]. cbv beta. replace t with (n * t - (n - 1) * t) by lia.
          apply exact_sub; [exact Dnt| |destruct T as [-> | ->]; lia].
          apply exact_mul; [apply of_int_exact; lia|exact Dth|destruct T as [-> | ->]; lia]. }
  destruct (PV l (of_int 0) 0) as (js & sum & E & Ds & Fj); [auto|lia|fold n; lia|apply (of_int_exact 0); lia|].
  rewrite E. cbn [obind]. fold n in Ds. change (0 + n) with n in Ds.
  assert (DJ : dval (fsub (fmul (of_int n) (percentage (tc - tm) tc)) (fdiv (fmul (of_int (n - 1)) sum) (of_int n))) (IZR t)).
  { replace t with (n * t - (n - 1) * t) by lia. apply exact_sub; [exact Dnt| |destruct T as [-> | ->]; lia].
    apply exact_div with (b := n); [lia| |apply of_int_exact; lia|destruct T as [-> | ->]; lia].
    replace ((n - 1) * t * n) with ((n - 1) * (n * t)) by lia.
    apply exact_mul; [apply of_int_exact; lia|exact Ds|].
    assert (0 <= (n - 1) * n <= 2 ^ 46) by nia. destruct T as [-> | ->]; lia. }
  set (J := fsub _ (fdiv _ _)) in *.
  assert (DQ : forall js s, Forall (fun j => dval j (IZR t)) js -> dval s (IZR 0) ->
    dval (fold_left (fun s j => fadd s (fmul (fsub j J) (fsub j J))) js s) (IZR 0)).
  { clear - DJ. induction js as [|j js IH]; intros s F D; [exact D|]. apply Forall_cons_iff in F as [Dj F]. cbn [fold_left].
    apply IH; [exact F|]. assert (dval (fsub j J) (IZR 0)) as D0.
    { replace 0 with (t - t) by lia. apply exact_sub; auto. lia. }
    replace 0 with (0 + 0 * 0) by lia. apply exact_add; [exact D| |lia]. apply exact_mul; auto; lia. }
  pose proof (DQ js (of_int 0) Fj (of_int_exact 0 ltac:(lia))) as DQ0.
  set (Q := fold_left _ js _) in *.
  assert (D1 : dval (fdiv Q (of_int (n - 1))) (IZR 0)).
  { apply exact_div with (b := n - 1); [lia|exact DQ0|apply of_int_exact; lia|lia]. }
  assert (D2 : dval (fdiv (fdiv Q (of_int (n - 1))) (of_int n)) (IZR 0)).
  { apply exact_div with (b := n); [lia|exact D1|apply of_int_exact; lia|lia]. }
  assert (D3 : dval (fsqrt (fdiv (fdiv Q (of_int (n - 1))) (of_int n))) (IZR 0)).
  { now apply sqrt_zero. }
  set (SQ := fsqrt _) in *.
  assert (D4 : dval (fmul c196 SQ) (IZR 0)).
  { destruct c196_within as (c & [Dc _] & _). rewrite <- (rnd_exact (IZR 0)) by apply generic_format_0.
    replace (IZR 0) with (c * IZR 0)%R at 1 by ring. apply (fmul_ok _ _ _ _ 0); auto; [lia|].
    rewrite Rmult_0_r, Rabs_R0. apply bpow_ge_0. }
  assert (Dl : dval (fsub J (fmul c196 SQ)) (IZR t)).
  { replace t with (t - 0) by lia. apply exact_sub; auto. destruct T as [-> | ->]; lia. }
  assert (Du : dval (fadd J (fmul c196 SQ)) (IZR t)).
  { replace t with (t + 0) by lia. apply exact_add; auto. destruct T as [-> | ->]; lia. }
  assert (clamp (IZR t) = IZR t) as Ct.
  { unfold clamp. assert (0 <= IZR t <= 100)%R by (destruct T as [-> | ->]; lra). rewrite Rmin_right, Rmax_right; lra. }
  destruct (clamp_ok _ _ Dl) as [Fl Vl]. destruct (clamp_ok _ _ Du) as [Fu Vu]. rewrite Ct in *.
  do 2 eexists. split; [reflexivity|]. auto.
Qed.
Print Assumptions C53_certain.

(** C53: the computed ends are within 1/1000 of those of the exact interval, for at most 10000
    pages with at most 2^53 characters, if no page has an accuracy below -100%. *)
Theorem C53_accurate : forall l : list (Z * Z),
  (forall count missed, In (count, missed) l -> 0 <= count /\ 0 <= missed <= 2 * count) ->
  zsum (map fst l) <= 2 ^ 53 -> zlen l <= 10000 -> 2 <= nonempty_obs l ->
  exists lower upper, compute_ci l = Ok (lower, upper) /\
    is_finite lower = true /\ (Rabs (B2R lower - exact_lower l) <= 1 / 1000)%R /\
    is_finite upper = true /\ (Rabs (B2R upper - exact_upper l) <= 1 / 1000)%R.
Proof.
  intros l Hp Hc Hn V.
  assert (Pos : forall o, In o l -> 0 <= fst o /\ 0 <= snd o <= 2 * fst o) by (intros [c m] H; exact (Hp c m H)).
  assert (Rest : forall o, In o l -> 1 <= zsum (map fst l) - fst o).
  { intros o Ho. apply rest_positive; [intros x Hx; apply Pos, Hx|lia|exact Ho]. }
  assert (N1 : 2 <= zlen l).
  { assert (nonempty_obs l <= zlen l); [|lia]. unfold nonempty_obs. clear. induction l as [|o l IH]; [reflexivity|].
    rewrite count_if_cons, zlen_cons. destruct (0 <? fst o); lia. }
  assert (All : forall k : list (Z * Z), (forall o, In o k -> In o l) -> Z.abs (zsum (map fst k) - zsum (map snd k)) <= zsum (map fst k)).
  { induction k as [|o k IH]; intros H; [cbn; lia|]. cbn [map]. rewrite !zsum_cons.
    assert (IHk := IH (fun o Ho => H o (or_intror Ho))). specialize (Pos o (H o (or_introl eq_refl))). lia. }
  destruct (compute_near l) as (lo & up & E & (a & [Fa Va] & Ha) & (b & [Fb Vb] & Hb)).
  - rewrite valid_spec. now replace (1 <? nonempty_obs l) with true by lia.
  - lia.
  - destruct l as [|o l']; [unfold zlen in N1; cbn in N1; lia|]. specialize (Rest o (or_introl eq_refl)). specialize (Pos o (or_introl eq_refl)). lia.
  - apply All. auto.
  - intros o Ho. pose proof (Rest o Ho). pose proof (Pos o Ho). split; [lia|].
    pose proof Ho as Hs. apply in_split in Hs as (l1 & l2 & El).
    pose proof (All (l1 ++ l2)) as A. rewrite El in *. rewrite !map_app in *. cbn [map] in *. rewrite !zsum_app, !zsum_cons in *.
    assert (Hin : forall x, In x (l1 ++ l2) -> In x (l1 ++ o :: l2)).
    { intros x Hx. apply in_app_or in Hx as [Hx|Hx]; apply in_or_app; [now left|right; now right]. }
    specialize (A Hin). lia.
  - exists lo, up. rewrite Va, Vb. split; [exact E|]. split; [exact Fa|]. split; [lra|]. split; [exact Fb|]. lra.
Qed.
Print Assumptions C53_accurate.

(** The report of the figures and the interval. *)
Definition ci_report (fmt14 : Z -> Z -> list Z) (fmtd : double -> list Z) (items missing : list Z) (l : list (Z * Z))
    (lower upper : double) : list Z :=
  let count := zsum (map fst l) in
  let missed := zsum (map snd l) in
  pad 32 14 (dec (zlen l)) ++ bytes "   Observations" ++ [10] ++
  pad 32 14 (dec count) ++ bytes "   " ++ items ++ [10] ++
  pad 32 14 (dec missed) ++ bytes "   " ++ missing ++ [10] ++
  fmt14 (count - missed) count ++ bytes "%  Accuracy" ++ [10] ++
  fmtd lower ++ bytes "%," ++ fmtd upper ++ bytes "%  Approximate 95% Confidence Interval for Accuracy" ++ [10].

(** C53: accci on two or more reports writes their totals and the interval of the figures of
    the single reports, or fails as compute_ci does. *)
Theorem C53_accci : forall uc fmt fmt14 fmtd b ds fs,
  nul_hidden uc -> marks_wide uc -> pct_ok fmt -> line_buffer b ->
  Forall2 (report_of uc fmt) ds fs ->
  let l := map (fun d => (characters d, errors d)) ds in
  (zlen fs < 2 -> accci fmt14 fmtd b fs = Fail "not enough input files") /\
  (2 <= zlen fs -> accci fmt14 fmtd b fs =
     obind (compute_ci l) (fun '(lower, upper) =>
       Ok (ci_report fmt14 fmtd (bytes "Characters") (bytes "Errors") l lower upper))).
Proof.
  intros uc fmt fmt14 fmtd b ds fs N W F B H l. unfold accci. split; intros L.
  { now replace (zlen fs <? 2) with true by lia. }
  replace (zlen fs <? 2) with false by lia. clear L.
  assert (G : forall before D b, line_buffer b -> reportable D ->
    exists D' b', ofold acc_obs fs ((D, b), before) = Ok ((D', b'), before ++ l) /\
      characters D' = characters D + zsum (map fst l) /\ errors D' = errors D + zsum (map snd l)).
  { subst l. clear b B. induction H as [|d f ds fs Hd H IH]; intros before D b B R.
    - exists D, b. cbn [map]. rewrite app_nil_r. cbn. split; [reflexivity|]. lia.
    - destruct (read_one uc fmt N W F b D d f B Hd R) as (D1 & b1 & E1 & B1 & R1 & F1).
      pose proof (F1 FCharacters) as Fc. pose proof (F1 FErrors) as Fe. cbn [fig] in Fc, Fe.
      cbn [ofold acc_obs]. rewrite E1. cbn [obind].
      replace (characters D1 - characters D) with (characters d) by lia.
      replace (errors D1 - errors D) with (errors d) by lia.
      destruct (IH (before ++ [(characters d, errors d)]) D1 b1 B1 R1) as (D2 & b2 & E2 & C2 & M2).
      exists D2, b2. cbn [map]. rewrite <- app_assoc in E2. split; [exact E2|]. rewrite !zsum_cons. cbn [fst snd]. lia. }
  destruct (G [] acc_empty b B acc_empty_reportable) as (D & b' & E & C & M).
  rewrite E. cbn [obind app fst]. unfold write_results. change (characters acc_empty) with 0 in C. change (errors acc_empty) with 0 in M.
  rewrite C, M, !Z.add_0_l. reflexivity.
Qed.
Print Assumptions C53_accci.

(** C53: wordaccci likewise. *)
Theorem C53_wordaccci : forall fmt fmt14 fmtd b ds fs,
  pct_ok fmt -> line_buffer b ->
  Forall2 (wreport_of fmt) ds fs ->
  let l := map (fun d => (wcount (wtotal d), wmissed (wtotal d))) ds in
  (zlen fs < 2 -> wordaccci fmt14 fmtd b fs = Fail "not enough input files") /\
  (2 <= zlen fs -> wordaccci fmt14 fmtd b fs =
     obind (compute_ci l) (fun '(lower, upper) =>
       Ok (ci_report fmt14 fmtd (bytes "Words") (bytes "Misrecognized") l lower upper))).
Proof.
  intros fmt fmt14 fmtd b ds fs F B H l. unfold wordaccci. split; intros L.
  { now replace (zlen fs <? 2) with true by lia. }
  replace (zlen fs <? 2) with false by lia. clear L.
  assert (G : forall before D b, line_buffer b -> wreportable D ->
    exists D' b', ofold wac_obs fs ((D, b), before) = Ok ((D', b'), before ++ l) /\
      wcount (wtotal D') = wcount (wtotal D) + zsum (map fst l) /\
      wmissed (wtotal D') = wmissed (wtotal D) + zsum (map snd l)).
  { subst l. clear b B. induction H as [|d f ds fs Hd H IH]; intros before D b B R.
    - exists D, b. cbn [map]. rewrite app_nil_r. cbn. split; [reflexivity|]. lia.
    - destruct (wread_one fmt F b D d f B Hd R) as (D1 & b1 & E1 & B1 & R1 & F1).
      pose proof (F1 (WWords false)) as Fc. pose proof (F1 (WWords true)) as Fe. cbn [wfig wcell] in Fc, Fe.
      cbn [ofold wac_obs]. rewrite E1. cbn [obind].
      replace (wcount (wtotal D1) - wcount (wtotal D)) with (wcount (wtotal d)) by lia.
      replace (wmissed (wtotal D1) - wmissed (wtotal D)) with (wmissed (wtotal d)) by lia.
      destruct (IH (before ++ [(wcount (wtotal d), wmissed (wtotal d))]) D1 b1 B1 R1) as (D2 & b2 & E2 & C2 & M2).
      exists D2, b2. cbn [map]. rewrite <- app_assoc in E2. split; [exact E2|]. rewrite !zsum_cons. cbn [fst snd]. lia. }
  destruct (G [] wac_empty b B wac_empty_reportable) as (D & b' & E & C & M).
  rewrite E. cbn [obind app fst]. unfold write_results.
  change (wcount (wtotal wac_empty)) with 0 in C. change (wmissed (wtotal wac_empty)) with 0 in M.
  rewrite C, M, !Z.add_0_l. reflexivity.
Qed.
Print Assumptions C53_wordaccci.

(** Two pages of 10 and 20 characters with 1 and 5 errors, and an empty one. *)
Example C53_ex :
  let l := [(10, 1); (20, 5); (0, 0)] in
  2 <= nonempty_obs l /\ exists lower upper, compute_ci l = Ok (lower, upper) /\
    flt (of_int 0) lower = true /\ flt lower upper = true.
Proof. cbv zeta. split; [vm_compute; discriminate|]. do 2 eexists. split; [reflexivity|]. split; vm_compute; reflexivity. Qed.
