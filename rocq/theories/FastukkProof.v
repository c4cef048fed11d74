(** Correctness of fastukk_sync: the rows computed by compute_pathlist. *)
From Verif Require Import Base SyncModel SyncSpec EditProof.

Section Texts.
Variables a b : list Z.

Let m := zlen a.
Let n := zlen b.
Let n_m := n - m.
Let D := lev a b.

Definition agree (i j : Z) : Prop :=
  exists c, znth a i = Some c /\ znth b j = Some c /\ c <> 126.

(** The prefixes of lengths i and i+k can be aligned with p edits. *)
Definition sound (p i k : Z) : Prop :=
  0 <= i <= m /\ 0 <= i + k <= n /\ edits (pfx a i) (pfx b (i + k)) p.

Definition rest (i j : Z) : Z := lev (sfx a i) (sfx b j).

Lemma m_nonneg : 0 <= m. Proof. apply zlen_nonneg. Qed.
Lemma n_nonneg : 0 <= n. Proof. apply zlen_nonneg. Qed.
Hint Resolve m_nonneg n_nonneg : core.

Lemma sound_bound p i k : sound p i k -> D <= p + rest i (i + k).
Proof.
  intros (H1 & H2 & H3). unfold D, rest.
  rewrite <- (pfx_sfx a i) at 1. rewrite <- (pfx_sfx b (i + k)) at 1.
  apply lev_min, edits_app; [exact H3|apply lev_edits].
Qed.

Lemma sound_abs p i k : sound p i k -> Z.abs k <= p.
Proof.
  intros (H1 & H2 & H3). apply edits_lower in H3.
  rewrite !pfx_zlen in H3 by assumption. lia.
Qed.

Lemma rest_lower i k : 0 <= i <= m -> 0 <= i + k <= n -> Z.abs (n_m - k) <= rest i (i + k).
Proof.
  intros H1 H2. unfold rest. pose proof (lev_lower (sfx a i) (sfx b (i + k))) as H.
  rewrite !sfx_zlen in H by assumption. fold m n in H. unfold n_m. lia.
Qed.

Lemma rest_upper i k : 0 <= i <= m -> 0 <= i + k <= n ->
  rest i (i + k) <= Z.max m (n - k) - i.
Proof.
  intros H1 H2. unfold rest. pose proof (lev_upper (sfx a i) (sfx b (i + k))) as H.
  rewrite !sfx_zlen in H by assumption. fold m n in H. lia.
Qed.

Lemma rest_agree i j : agree i j -> rest (i + 1) (j + 1) = rest i j.
Proof.
  intros (c & Ha & Hb & Hc). unfold rest.
  rewrite (sfx_step a i c Ha), (sfx_step b j c Hb). now rewrite lev_keep.
Qed.

Lemma rest_diag i j : 0 <= i < m -> 0 <= j < n -> rest (i + 1) (j + 1) <= rest i j.
Proof.
  intros Hi Hj. destruct (znth_lt_Some a i Hi) as [x Hx].
  destruct (znth_lt_Some b j Hj) as [y Hy]. unfold rest.
  rewrite (sfx_step a i x Hx), (sfx_step b j y Hy). apply lev_diag.
Qed.

Lemma rest_diag_le i k i' :
  0 <= i <= i' -> i' <= m -> 0 <= i + k -> i' + k <= n -> rest i' (i' + k) <= rest i (i + k).
Proof.
  intros [H0 H1]. revert i' H1. apply (z_up i (fun i' => i' <= m -> 0 <= i + k ->
    i' + k <= n -> rest i' (i' + k) <= rest i (i + k))).
  - intros. lia.
  - intros x Hx IH Hm Hk Hn.
    etransitivity; [|apply IH; lia].
    replace (x + 1 + k) with (x + k + 1) by lia. apply rest_diag; lia.
Qed.

(** Along a run of agreeing characters. *)
Definition run (s i k : Z) : Prop := s <= i /\ forall x, s <= x < i -> agree x (x + k).

Lemma run_sound p s i k : run s i k -> sound p s k -> sound p i k.
Proof.
  intros [Hle Hrun] Hs. revert i Hle Hrun.
  apply (z_up s (fun i => (forall x, s <= x < i -> agree x (x + k)) -> sound p i k)).
  - intros _. exact Hs.
  - intros x Hx IH Hrun.
    destruct IH as (H1 & H2 & H3); [intros; apply Hrun; lia|].
    destruct (Hrun x) as (c & Ha & Hb & Hc); [lia|].
    pose proof (znth_Some_lt _ _ _ Ha) as La. pose proof (znth_Some_lt _ _ _ Hb) as Lb.
    fold m in La. fold n in Lb.
    unfold sound. replace (x + 1 + k) with (x + k + 1) by lia.
    split; [lia|]. split; [lia|].
    rewrite (pfx_step _ _ _ Ha), (pfx_step _ _ _ Hb).
    replace p with (p + 0) by lia. apply edits_app; [exact H3|].
    constructor; [exact Hc|constructor].
Qed.

Definition maximal (i k : Z) : Prop := ~ agree i (i + k).

Lemma snake_ok fuel i j :
  0 <= i <= m -> 0 <= j <= n -> m - i <= Z.of_nat fuel ->
  exists i', snake fuel a b i j = Ok i' /\ i <= i' <= m /\ i' + (j - i) <= n /\
             run i i' (j - i) /\ maximal i' (j - i).
Proof.
  revert i j; induction fuel as [|f IH]; intros i j Hi Hj Hf; cbn [snake]; fold m n.
  - assert (i = m) as -> by lia. rewrite Z.ltb_irrefl. cbn [andb].
    exists m. repeat split; try lia.
    intros (c & Ha & _). apply znth_Some_lt in Ha. fold m in Ha. lia.
  - destruct (Z.ltb_spec i m) as [Him|Him], (Z.ltb_spec j n) as [Hjn|Hjn]; cbn [andb].
    2: { exists i. repeat split; try lia.
         intros (c & _ & Hb & _). apply znth_Some_lt in Hb. fold n in Hb. lia. }
    2,3: exists i; repeat split; try lia;
         intros (c & Ha & _); apply znth_Some_lt in Ha; fold m in Ha; lia.
    destruct (znth_lt_Some a i) as [x Hx]; [fold m; lia|].
    destruct (znth_lt_Some b j) as [y Hy]; [fold n; lia|].
    unfold rd. rewrite Hx, Hy. cbn [obind].
    destruct ((x =? y) && negb (x =? REJECT)) eqn:E.
    + apply andb_prop in E as [E1 E2]. apply Z.eqb_eq in E1 as <-.
      apply negb_true_iff, Z.eqb_neq in E2.
      destruct (IH (i + 1) (j + 1)) as (i' & -> & H1 & H2 & [H3 H3'] & H4); [lia|lia|lia|].
      replace (j + 1 - (i + 1)) with (j - i) in * by lia.
      exists i'. repeat split; try lia; [|exact H4].
      intros z Hz. destruct (Z.eq_dec z i) as [->|]; [|apply H3'; lia].
      exists x. replace (i + (j - i)) with j by lia. auto.
    + exists i. repeat split; try lia.
      intros (c & Ha & Hb & Hc). replace (i + (j - i)) with j in Hb by lia.
      assert (x = c) by congruence. assert (y = c) by congruence. subst x y.
      rewrite Z.eqb_refl in E. apply Z.eqb_neq in Hc. unfold REJECT in E. rewrite Hc in E.
      discriminate.
Qed.

(** A diagonal k is dead from cost c on: nothing optimal passes through it. *)
Definition dead (c k : Z) : Prop :=
  D < c + Z.abs (n_m - k) \/ D < Z.abs k + Z.abs (n_m - k).

Lemma dead_mono c c' k : dead c k -> c <= c' -> dead c' k.
Proof. unfold dead. lia. Qed.

Definition rowf (r : path) (k : Z) : option Z := znth (pf r) (k - start_k r).

Record prev_ok (p : Z) (r : path) (mn mx : Z) : Prop := {
  po_len : zlen (pf r) = stop_k r - start_k r + 1;
  po_ne : start_k r <= stop_k r;
  po_sound : forall k i, rowf r k = Some i -> sound (p - 1) i k;
  po_max : forall k i, rowf r k = Some i -> maximal i k;
  po_lo : forall k i, rowf r k = Some i -> mn <= k -> i < m;
  po_hi : forall k i, rowf r k = Some i -> k <= mx -> i + k < n;
  po_nearl : start_k r - 1 <= Z.max mn (- p);
  po_nearr : Z.min mx p <= stop_k r + 1 }.

Lemma prev_ok_mono p r mn mx mn' mx' :
  prev_ok p r mn mx -> mn <= mn' -> mx' <= mx -> prev_ok p r mn' mx'.
Proof.
  intros [] H1 H2. constructor; auto.
  - intros. eapply po_lo0; eauto. lia.
  - intros. eapply po_hi0; eauto. lia.
  - lia.
  - lia.
Qed.

Definition inc (k k' : Z) : Z := if k <=? k' then 1 else 0.

Lemma initial_f_loop_ok fuel k i hi r res pk :
  zlen (pf r) = stop_k r - start_k r + 1 ->
  (forall k' v, rowf r k' = Some v -> 0 <= v) ->
  start_k r <= i -> hi <= stop_k r -> hi - i < Z.of_nat fuel ->
  exists res' pk', initial_f_loop fuel k i hi r res pk = Ok (res', pk') /\
    res <= res' /\
    (forall k' v, i <= k' <= hi -> rowf r k' = Some v -> v + inc k k' <= res') /\
    ((res' = res /\ pk' = pk) \/
     exists k' v, i <= k' <= hi /\ pk' = Some k' /\ rowf r k' = Some v /\ res' = v + inc k k') /\
    (i <= hi -> res = 0 -> pk' <> None).
Proof.
  intros Hlen Hpos. revert i res pk. induction fuel as [|f IH]; intros i res pk Hi Hhi Hf;
    cbn [initial_f_loop].
  - destruct (Z.leb_spec i hi); [lia|]. exists res, pk. repeat split; try lia. now left.
  - destruct (Z.leb_spec i hi) as [Hle|Hgt].
    2: { exists res, pk. repeat split; try lia. now left. }
    destruct (znth_lt_Some (pf r) (i - start_k r)) as [v Hv]; [lia|].
    unfold rd. rewrite Hv. cbn [obind].
    assert ((if k <=? i then v + 1 else v) = v + inc k i) as Ev
      by (unfold inc; destruct (k <=? i); lia).
    rewrite Ev. clear Ev.
    assert (0 <= v) by (eapply Hpos; exact Hv).
    destruct (Z.leb_spec res (v + inc k i)) as [Hr|Hr].
    + destruct (IH (i + 1) (v + inc k i) (Some i)) as (res' & pk' & -> & H1 & H2 & H3 & H4);
        [lia|lia|lia|].
      exists res', pk'. split; [reflexivity|]. split; [lia|].
      split; [|split].
      * intros k' v' Hk Hv'. destruct (Z.eq_dec k' i) as [->|]; [|apply H2; auto; lia].
        unfold rowf in Hv'. assert (v' = v) by congruence. subst. lia.
      * right. destruct H3 as [[-> ->]|(k' & v' & Hk & -> & Hv' & ->)].
        -- exists i, v. repeat split; auto; lia.
        -- exists k', v'. repeat split; auto; lia.
      * intros _ _. destruct H3 as [[_ ->]|(k' & v' & _ & -> & _)]; discriminate.
    + destruct (IH (i + 1) res pk) as (res' & pk' & -> & H1 & H2 & H3 & H4); [lia|lia|lia|].
      exists res', pk'. split; [reflexivity|]. split; [lia|].
      split; [|split].
      * intros k' v' Hk Hv'. destruct (Z.eq_dec k' i) as [->|]; [|apply H2; auto; lia].
        unfold rowf in Hv'. assert (v' = v) by congruence. subst. lia.
      * destruct H3 as [[-> ->]|(k' & v' & Hk & -> & Hv' & ->)]; [now left|].
        right. exists k', v'. repeat split; auto; lia.
      * intros _ ->. unfold inc in Hr. destruct (k <=? i); lia.
Qed.

Lemma rowf_window r k i :
  zlen (pf r) = stop_k r - start_k r + 1 -> rowf r k = Some i -> start_k r <= k <= stop_k r.
Proof. intros Hl H. apply znth_Some_lt in H. lia. Qed.

Lemma rowf_Some r k :
  zlen (pf r) = stop_k r - start_k r + 1 -> start_k r <= k <= stop_k r ->
  exists i, rowf r k = Some i.
Proof. intros Hl H. apply znth_lt_Some. lia. Qed.

(** How row entries are obtained from the previous row. *)
Definition pred_ok (prev : option path) (k s0 : Z) (pk : option Z) : Prop :=
  match prev with
  | None => s0 = 0 /\ k = 0
  | Some r =>
      (exists kp ip, pk = Some kp /\ rowf r kp = Some ip /\ k - 1 <= kp <= k + 1 /\
                     s0 = ip + inc k kp) /\
      (forall k' v, k - 1 <= k' <= k + 1 -> rowf r k' = Some v -> v + inc k k' <= s0)
  end.

Definition prev_fit (p : Z) (prev : option path) (mn mx : Z) : Prop :=
  match prev with None => p = 0 | Some r => 0 < p /\ prev_ok p r mn mx end.

Lemma edits_step_ins u v x c : edits u v c -> edits u (v ++ [x]) (c + 1).
Proof.
  intros H. rewrite <- (app_nil_r u). apply edits_app; [exact H|].
  apply (edits_insert x [] [] 0). constructor.
Qed.
Lemma edits_step_del u v x c : edits u v c -> edits (u ++ [x]) v (c + 1).
Proof.
  intros H. rewrite <- (app_nil_r v). apply edits_app; [exact H|].
  apply (edits_delete x [] [] 0). constructor.
Qed.
Lemma edits_step_sub u v x y c : edits u v c -> edits (u ++ [x]) (v ++ [y]) (c + 1).
Proof.
  intros H. apply edits_app; [exact H|].
  apply (edits_subst x y [] [] 0). constructor.
Qed.

Lemma initial_f_ok p prev mn mx k :
  prev_fit p prev mn mx -> mn <= k <= mx -> - p <= k <= p ->
  exists s0 pk, initial_f k prev = Ok (s0, pk) /\ pred_ok prev k s0 pk /\ sound p s0 k.
Proof.
  destruct prev as [r|]; cbn [prev_fit initial_f].
  2: { intros -> _ Hk. assert (k = 0) as -> by lia. exists 0, None.
       repeat split; auto; try lia; try apply m_nonneg; try apply n_nonneg. constructor. }
  intros [Hp Hr] Hk Hkp. destruct Hr as [Hlen Hne Hs Hmax Hlo Hhi Hnl Hnr].
  destruct (Z.ltb_spec (Z.min (k + 1) (stop_k r)) (Z.max (k - 1) (start_k r))) as [H|H]; [lia|].
  destruct (initial_f_loop_ok 3 k (Z.max (k - 1) (start_k r)) (Z.min (k + 1) (stop_k r)) r 0 None)
    as (s0 & pk & E & H1 & H2 & H3 & H4); auto; try lia.
  { intros k' v Hv. destruct (Hs _ _ Hv) as [? _]. lia. }
  exists s0, pk. split; [exact E|].
  destruct H3 as [[-> ->]|(kp & ip & Hkp' & -> & Hip & ->)].
  { exfalso. apply H4; auto. }
  split.
  - split.
    + exists kp, ip. repeat split; auto; lia.
    + intros k' v Hk' Hv. apply H2; auto. pose proof (rowf_window _ _ _ Hlen Hv). lia.
  - destruct (Hs _ _ Hip) as (S1 & S2 & S3).
    specialize (Hlo kp ip Hip). specialize (Hhi kp ip Hip).
    unfold inc. destruct (Z.leb_spec k kp) as [Hc|Hc].
    + assert (ip < m) as Him by (apply Hlo; lia).
      destruct (znth_lt_Some a ip) as [x Hx]; [fold m; lia|].
      destruct (Z.eq_dec kp k) as [->|Hne'].
      * assert (ip + k < n) as Hjn by (apply Hhi; lia).
        destruct (znth_lt_Some b (ip + k)) as [y Hy]; [fold n; lia|].
        split; [lia|]. split; [lia|]. replace (ip + 1 + k) with (ip + k + 1) by lia.
        rewrite (pfx_step _ _ _ Hx), (pfx_step _ _ _ Hy).
        replace p with (p - 1 + 1) by lia. now apply edits_step_sub.
      * assert (kp = k + 1) as -> by lia.
        split; [lia|]. split; [lia|]. replace (ip + 1 + k) with (ip + (k + 1)) by lia.
        rewrite (pfx_step _ _ _ Hx).
        replace p with (p - 1 + 1) by lia. now apply edits_step_del.
    + assert (kp = k - 1) as -> by lia.
      assert (ip + (k - 1) < n) as Hjn by (apply Hhi; lia).
      destruct (znth_lt_Some b (ip + (k - 1))) as [y Hy]; [fold n; lia|].
      replace (ip + 0) with ip by lia.
      split; [lia|]. split; [lia|]. replace (ip + k) with (ip + (k - 1) + 1) by lia.
      rewrite (pfx_step _ _ _ Hy).
      replace p with (p - 1 + 1) by lia. now apply edits_step_ins.
Qed.

(** *** One row *)

Definition cur (st : frow) (k : Z) : option Z := znth (diags st) (k - row_start st).

Definition entry_ok (p : Z) (prev : option path) (k i : Z) : Prop :=
  exists s0 pk, initial_f k prev = Ok (s0, pk) /\ pred_ok prev k s0 pk /\
                sound p s0 k /\ run s0 i k.

Record inrow (p : Z) (prev : option path) (st : frow) : Prop := {
  ir_fit : prev_fit p prev (min_k st) (max_k st);
  ir_len : diags st = [] \/
           (zlen (diags st) = row_stop st - row_start st + 1 /\ row_start st <= row_stop st);
  ir_range : forall k i, cur st k = Some i -> - p <= k <= p;
  ir_sound : forall k i, cur st k = Some i -> sound p i k;
  ir_max : forall k i, cur st k = Some i -> maximal i k;
  ir_entry : forall k i, cur st k = Some i -> entry_ok p prev k i;
  ir_lo : forall k i, cur st k = Some i -> min_k st <= k -> i < m;
  ir_hi : forall k i, cur st k = Some i -> k <= max_k st -> i + k < n;
  ir_deadl : forall k, k < min_k st -> dead (p + 1) k /\ (dead p k \/ cur st k <> None);
  ir_deadr : forall k, max_k st < k -> dead (p + 1) k /\ (dead p k \/ cur st k <> None);
  ir_mid : (min_k st <= n_m <= max_k st) \/
           (p = D /\ n_m < min_k st /\ max_k st < n_m /\ cur st n_m = Some m) }.

Definition adjacent (st : frow) (k : Z) : Prop :=
  diags st = [] \/ k = row_start st - 1 \/ k = row_stop st + 1.

Lemma shiftr_div x : Z.shiftr x 1 = x / 2.
Proof. rewrite Z.shiftr_div_pow2 by lia. reflexivity. Qed.

Lemma extend_row st k i mn2 mx2 :
  (diags st = [] \/
   (zlen (diags st) = row_stop st - row_start st + 1 /\ row_start st <= row_stop st)) ->
  adjacent st k ->
  exists st', (match diags st with
      | [] => Ok (mkfrow mn2 mx2 k k [i])
      | _ :: _ => if k <? row_start st
           then Ok (mkfrow mn2 mx2 k (row_stop st) (i :: diags st))
           else Ok (mkfrow mn2 mx2 (row_start st) k (diags st ++ [i]))
      end) = Ok st' /\ min_k st' = mn2 /\ max_k st' = mx2 /\ cur st' k = Some i /\
      (forall k', k' <> k -> cur st' k' = cur st k') /\ diags st' <> [] /\
      row_start st' = (match diags st with [] => k | _ => Z.min k (row_start st) end) /\
      row_stop st' = (match diags st with [] => k | _ => Z.max k (row_stop st) end) /\
      zlen (diags st') = row_stop st' - row_start st' + 1 /\ row_start st' <= row_stop st'.
Proof.
  intros ir_len0 Hadj. clear m n n_m D.
  destruct (diags st) as [|d0 ds] eqn:Ed.
    - eexists. split; [reflexivity|]. cbn [min_k max_k row_start row_stop diags].
      repeat split; try lia; try discriminate.
      + unfold cur. cbn [diags row_start]. replace (k - k) with 0 by lia. reflexivity.
      + intros k' Hk'. unfold cur. cbn [diags row_start]. rewrite Ed.
        transitivity (@None Z).
        * destruct (znth [i] (k' - k)) eqn:Ez; [|reflexivity].
          apply znth_Some_lt in Ez. cbn in Ez. lia.
        * destruct (znth [] (k' - row_start st)) eqn:Ez; [|reflexivity].
          apply znth_Some_lt in Ez. cbn in Ez. lia.
      + cbn. lia.
    - destruct ir_len0 as [?|[L1 L2]]; [discriminate|].
      destruct Hadj as [Hd|Hadj]; [congruence|].
      rewrite <- Ed in *. clear Ed d0 ds.
      destruct (Z.ltb_spec k (row_start st)) as [Hlt|Hge].
      + assert (k = row_start st - 1) as Ek by lia.
        eexists. split; [reflexivity|]. cbn [min_k max_k row_start row_stop diags].
        repeat split; try lia; try discriminate.
        * unfold cur. cbn [diags row_start]. replace (k - k) with 0 by lia. reflexivity.
        * intros k' Hk'. unfold cur. cbn [diags row_start].
          destruct (Z.lt_ge_cases k' k) as [Hc|Hc].
          -- unfold znth. destruct (Z.ltb_spec (k' - k) 0); [|lia].
             destruct (Z.ltb_spec (k' - row_start st) 0); [reflexivity|lia].
          -- rewrite znth_cons_S by lia. f_equal. lia.
        * rewrite zlen_cons. lia.
      + assert (k = row_stop st + 1) as Ek by lia.
        eexists. split; [reflexivity|]. cbn [min_k max_k row_start row_stop diags].
        repeat split; try lia.
        * unfold cur. cbn [diags row_start]. rewrite znth_app2 by lia.
          replace (k - row_start st - zlen (diags st)) with 0 by lia. reflexivity.
        * intros k' Hk'. unfold cur. cbn [diags row_start].
          destruct (Z.lt_ge_cases (k' - row_start st) (zlen (diags st))) as [Hc|Hc].
          -- now rewrite znth_app1.
          -- rewrite znth_app2 by lia.
             destruct (znth [i] _) eqn:Ez.
             ++ apply znth_Some_lt in Ez. cbn in Ez. lia.
             ++ destruct (znth (diags st) (k' - row_start st)) eqn:Ez'; [|reflexivity].
                apply znth_Some_lt in Ez'. lia.
        * destruct (diags st); discriminate.
        * rewrite zlen_app. cbn. lia.
Qed.

Lemma half_bounds x : 2 * (x / 2) <= x < 2 * (x / 2) + 2.
Proof. pose proof (Z.div_mod x 2). pose proof (Z.mod_pos_bound x 2). lia. Qed.

Lemma D_lower : Z.abs n_m <= D.
Proof. unfold D, n_m, n, m. pose proof (lev_lower a b). lia. Qed.

Lemma compute_f_ok p prev st k :
  inrow p prev st -> p <= D -> min_k st <= n_m <= max_k st ->
  min_k st <= k <= max_k st -> - p <= k <= p -> adjacent st k ->
  exists st' i, compute_f a b p prev k st = Ok st' /\ inrow p prev st' /\
    min_k st <= min_k st' /\ max_k st' <= max_k st /\
    cur st' k = Some i /\ (forall k', k' <> k -> cur st' k' = cur st k') /\
    diags st' <> [] /\
    row_start st' = (match diags st with [] => k | _ => Z.min k (row_start st) end) /\
    row_stop st' = (match diags st with [] => k | _ => Z.max k (row_stop st) end).
Proof.
  intros Hin HpD Hmid Hk Hkp Hadj. destruct Hin.
  destruct (initial_f_ok p prev _ _ k ir_fit0 Hk Hkp) as (s0 & pk & E0 & Hpred & Hs0).
  unfold compute_f. rewrite E0. cbn [obind].
  destruct Hs0 as (S1 & S2 & S3) eqn:ES. clear ES.
  destruct (snake_ok (List.length a) s0 (s0 + k)) as (i & Ei & Hi1 & Hi2 & Hrun & Hmax);
    auto; try (unfold m, zlen in *; lia).
  rewrite Ei. cbn [obind]. fold m n n_m.
  replace (s0 + k - s0) with k in * by lia.
  assert (sound p i k) as Hs by (apply (run_sound p s0); [exact Hrun|split; auto]).
  destruct Hs as (T1 & T2 & T3) eqn:ES. clear ES.
  pose proof (sound_bound p i k Hs) as HD.
  pose proof (rest_upper i k T1 T2) as Hup.
  set (bound := p + Z.max m (n - k) - i) in *.
  assert (D <= bound) as Hbound by (unfold bound; lia).
  pose proof D_lower as HDl.
  set (mn1 := if i =? m then k + 1 else min_k st).
  set (mx1 := if i + k =? n then k - 1 else max_k st).
  rewrite !shiftr_div.
  pose proof (half_bounds (1 - bound + n_m)) as Hb1.
  pose proof (half_bounds (bound + n_m)) as Hb2.
  set (v1 := (1 - bound + n_m) / 2) in *. set (v2 := (bound + n_m) / 2) in *.
  clearbody v1 v2.
  set (mn2 := if mn1 <? v1 then v1 else mn1).
  set (mx2 := if v2 <? mx1 then v2 else mx1).
  assert (v1 <= n_m) as Hv1 by lia.
  assert (n_m <= v2) as Hv2 by lia.
  assert (min_k st <= mn2) as Hmn by (unfold mn2, mn1; destruct (i =? m), (_ <? v1) eqn:E; lia).
  assert (mx2 <= max_k st) as Hmx by (unfold mx2, mx1; destruct (_ =? n), (v2 <? _) eqn:E; lia).
  (* the facts about the new bounds *)
  assert (forall k', k' < mn2 -> k' < min_k st \/ (i = m /\ k' <= k) \/ k' < v1) as Hlow.
  { intros k' H. unfold mn2 in H. destruct (Z.ltb_spec mn1 v1); [tauto|].
    unfold mn1 in H. destruct (Z.eqb_spec i m); [right; left; lia|left; lia]. }
  assert (forall k', mx2 < k' -> max_k st < k' \/ (i + k = n /\ k <= k') \/ v2 < k') as Hhigh.
  { intros k' H. unfold mx2 in H. destruct (Z.ltb_spec v2 mx1); [tauto|].
    unfold mx1 in H. destruct (Z.eqb_spec (i + k) n); [right; left; lia|left; lia]. }
  assert (i = m -> k < mn2) as Hem.
  { intros H. unfold mn2, mn1. apply Z.eqb_eq in H. rewrite H.
    destruct (Z.ltb_spec (k + 1) v1); lia. }
  assert (i + k = n -> mx2 < k) as Hen.
  { intros H. unfold mx2, mx1. apply Z.eqb_eq in H. rewrite H.
    destruct (Z.ltb_spec v2 (k - 1)); lia. }
  assert (i = m \/ mn2 <= n_m) as Hmn2.
  { destruct (Z.eq_dec i m); [now left|right]. unfold mn2, mn1.
    destruct (Z.eqb_spec i m); [lia|]. destruct (_ <? v1); lia. }
  assert (i + k = n \/ n_m <= mx2) as Hmx2.
  { destruct (Z.eq_dec (i + k) n); [now left|right]. unfold mx2, mx1.
    destruct (Z.eqb_spec (i + k) n); [lia|]. destruct (v2 <? _); lia. }
  assert (i = m -> k < n_m -> mn2 <= n_m) as Hmn3.
  { intros -> Hkn. unfold mn2, mn1. rewrite Z.eqb_refl. destruct (k + 1 <? v1); lia. }
  assert (i + k = n -> n_m < k -> n_m <= mx2) as Hmx3.
  { intros E Hkn. unfold mx2, mx1. rewrite E, Z.eqb_refl. destruct (v2 <? k - 1); lia. }
  clearbody mn2 mx2. clear mn1 mx1.
  destruct (extend_row st k i mn2 mx2 ir_len0 Hadj)
    as (st' & -> & Q1 & Q2 & Q3 & Q4 & Q5 & Q6 & Q7 & Q8 & Q9).
  exists st', i.
  assert (forall k' i', cur st' k' = Some i' -> (k' = k /\ i' = i) \/ cur st k' = Some i') as Hcases.
  { intros k' i' H. destruct (Z.eq_dec k' k) as [->|Hne].
    - left. split; congruence.
    - right. now rewrite <- Q4. }
  assert (forall k', cur st k' <> None -> cur st' k' <> None) as Hkeep.
  { intros k' H. destruct (Z.eq_dec k' k) as [->|Hne]; [congruence|]. now rewrite Q4. }
  split; [reflexivity|].
  split; [|rewrite Q1, Q2; split; [exact Hmn|split; [exact Hmx|
           split; [exact Q3|split; [exact Q4|split; [exact Q5|split; [exact Q6|exact Q7]]]]]]].
  constructor; rewrite ?Q1, ?Q2.
  - unfold prev_fit in *. destruct prev; [|exact ir_fit0].
    destruct ir_fit0. split; [assumption|]. eapply prev_ok_mono; eauto.
  - right. auto.
  - intros k' i' H. destruct (Hcases _ _ H) as [[-> ->]|H']; eauto.
  - intros k' i' H. destruct (Hcases _ _ H) as [[-> ->]|H']; eauto.
  - intros k' i' H. destruct (Hcases _ _ H) as [[-> ->]|H']; eauto.
  - intros k' i' H. destruct (Hcases _ _ H) as [[-> ->]|H']; eauto.
    exists s0, pk. split; [exact E0|]. split; [exact Hpred|]. split; [exact Hs0|exact Hrun].
  - intros k' i' H Hle. destruct (Hcases _ _ H) as [[-> ->]|H'].
    + destruct (Z.eq_dec i m) as [Em|]; [specialize (Hem Em)|]; lia.
    + eapply ir_lo0; eauto. lia.
  - intros k' i' H Hle. destruct (Hcases _ _ H) as [[-> ->]|H'].
    + destruct (Z.eq_dec (i + k) n) as [Em|]; [specialize (Hen Em)|]; lia.
    + eapply ir_hi0; eauto. lia.
  - intros k' H. destruct (Hlow k' H) as [H'|[[Em H']|H']].
    + destruct (ir_deadl0 k' H') as [R1 [R2|R2]]; split; auto.
    + pose proof (rest_upper i k T1 T2) as Hu.
      assert (D <= p + n_m - k) by (unfold n_m in *; lia).
      split; [left; lia|].
      destruct (Z.eq_dec k' k) as [->|]; [right; congruence|]. left. left. lia.
    + assert (D < Z.abs k' + Z.abs (n_m - k')) by lia.
      split; [right; assumption|left; right; assumption].
  - intros k' H. destruct (Hhigh k' H) as [H'|[[Em H']|H']].
    + destruct (ir_deadr0 k' H') as [R1 [R2|R2]]; split; auto.
    + pose proof (rest_upper i k T1 T2) as Hu.
      assert (D <= p + k - n_m) by (unfold n_m in *; lia).
      split; [left; lia|].
      destruct (Z.eq_dec k' k) as [->|]; [right; congruence|]. left. left. lia.
    + assert (D < Z.abs k' + Z.abs (n_m - k')) by lia.
      split; [right; assumption|left; right; assumption].
  - destruct (Z.eq_dec i m) as [Em|Em], (Z.eq_dec (i + k) n) as [En|En].
    + right. assert (k = n_m) as Ek by (unfold n_m; lia).
      repeat split.
      * assert (D <= p); [|lia].
        unfold D. apply lev_min. rewrite Em in T3.
        rewrite pfx_all in T3 by (fold m; lia). rewrite pfx_all in T3 by (fold n; lia). exact T3.
      * rewrite <- Ek. auto.
      * rewrite <- Ek. auto.
      * rewrite <- Ek, <- Em. exact Q3.
    + left. unfold n_m in *. specialize (Hmn3 Em). lia.
    + left. unfold n_m in *. specialize (Hmx3 En). lia.
    + left. lia.
Qed.

(** *** The loops over the diagonals of a row *)

Lemma cur_window st k i :
  zlen (diags st) = row_stop st - row_start st + 1 -> cur st k = Some i ->
  row_start st <= k <= row_stop st.
Proof. intros Hl H. apply znth_Some_lt in H. lia. Qed.

Lemma down_loop_ok fuel p prev : forall k st,
  inrow p prev st -> p <= D -> k <= n_m -> k <= p ->
  (- p <= k -> diags st = [] \/ k = row_start st - 1) ->
  k + p + 1 <= Z.of_nat fuel ->
  exists st', down_loop fuel a b p prev k st = Ok st' /\ inrow p prev st' /\
    min_k st <= min_k st' /\ max_k st' <= max_k st /\
    (forall k', Z.max (min_k st') (- p) <= k' <= k -> cur st' k' <> None) /\
    (Z.max (min_k st) (- p) <= k -> cur st' k <> None) /\
    (forall k', k < k' -> cur st' k' = cur st k') /\
    (st' = st \/
     (diags st' <> [] /\ row_stop st' = match diags st with [] => k | _ => row_stop st end)).
Proof.
  induction fuel as [|f IH]; intros k st Hin HpD Hkn Hkp Hadj Hf; cbn [down_loop].
  - destruct (Z.leb_spec (Z.max (min_k st) (- p)) k) as [H|H]; [lia|].
    exists st. split; [reflexivity|]. split; [exact Hin|]. split; [lia|]. split; [lia|].
      split; [intros; lia|]. split; [intros; lia|]. split; [auto|now left].
  - destruct (Z.leb_spec (Z.max (min_k st) (- p)) k) as [H|H].
    2: { exists st. split; [reflexivity|]. split; [exact Hin|]. split; [lia|]. split; [lia|].
      split; [intros; lia|]. split; [intros; lia|]. split; [auto|now left]. }
    assert (min_k st <= n_m <= max_k st) as Hmid by (destruct (ir_mid _ _ _ Hin); lia).
    assert (diags st = [] \/ k = row_start st - 1) as Hadj' by (apply Hadj; lia).
    destruct (compute_f_ok p prev st k) as (st1 & i & E & Hin1 & Hm1 & Hm2 & C1 & C2 & C3 & C4 & C5);
      auto; try lia.
    { unfold adjacent. tauto. }
    rewrite E. cbn [obind].
    assert (row_start st1 = k) as Es.
    { rewrite C4. destruct Hadj' as [->|Ek]; [reflexivity|]. destruct (diags st); lia. }
    destruct (IH (k - 1) st1) as (st' & E' & Hin' & R1 & R2 & R3 & R4 & R5 & R6); auto; try lia.
    exists st'. rewrite E'. split; [reflexivity|]. split; [exact Hin'|].
    split; [lia|]. split; [lia|].
    assert (cur st' k <> None) as Hck by (rewrite R5 by lia; congruence).
    split; [|split; [|split]].
    + intros k' Hk'. destruct (Z.eq_dec k' k) as [->|]; [exact Hck|]. apply R3. lia.
    + intros _. exact Hck.
    + intros k' Hk'. rewrite R5 by lia. apply C2. lia.
    + right. destruct (ir_len _ _ _ Hin) as [Ed|[L1 L2]].
      * destruct R6 as [->|[R6 R7]].
        -- split; [exact C3|]. rewrite C5. destruct (diags st); [reflexivity|discriminate].
        -- split; [exact R6|]. rewrite R7, C5. rewrite Ed. now destruct (diags st1).
      * destruct (diags st) as [|d0 ds] eqn:Ed; [cbn in L1; lia|].
        destruct R6 as [->|[R6 R7]].
        -- split; [exact C3|]. rewrite C5. destruct Hadj' as [?|]; [discriminate|lia].
        -- split; [exact R6|]. rewrite R7, C5. destruct Hadj' as [?|]; [discriminate|].
           destruct (diags st1); [congruence|lia].
Qed.

Lemma up_loop_ok fuel p prev : forall k st,
  inrow p prev st -> p <= D -> n_m <= k -> - p <= k ->
  (k <= p -> diags st = [] \/ k = row_stop st + 1) ->
  p - k + 1 <= Z.of_nat fuel ->
  exists st', up_loop fuel a b p prev k st = Ok st' /\ inrow p prev st' /\
    min_k st <= min_k st' /\ max_k st' <= max_k st /\
    (forall k', k <= k' <= Z.min (max_k st') p -> cur st' k' <> None) /\
    (k <= Z.min (max_k st) p -> cur st' k <> None) /\
    (forall k', k' < k -> cur st' k' = cur st k') /\
    (st' = st \/
     (diags st' <> [] /\ row_start st' = match diags st with [] => k | _ => row_start st end)).
Proof.
  induction fuel as [|f IH]; intros k st Hin HpD Hkn Hkp Hadj Hf; cbn [up_loop].
  - destruct (Z.leb_spec k (Z.min (max_k st) p)) as [H|H]; [lia|].
    exists st. split; [reflexivity|]. split; [exact Hin|]. split; [lia|]. split; [lia|].
      split; [intros; lia|]. split; [intros; lia|]. split; [auto|now left].
  - destruct (Z.leb_spec k (Z.min (max_k st) p)) as [H|H].
    2: { exists st. split; [reflexivity|]. split; [exact Hin|]. split; [lia|]. split; [lia|].
      split; [intros; lia|]. split; [intros; lia|]. split; [auto|now left]. }
    assert (min_k st <= n_m <= max_k st) as Hmid by (destruct (ir_mid _ _ _ Hin); lia).
    assert (diags st = [] \/ k = row_stop st + 1) as Hadj' by (apply Hadj; lia).
    destruct (compute_f_ok p prev st k) as (st1 & i & E & Hin1 & Hm1 & Hm2 & C1 & C2 & C3 & C4 & C5);
      auto; try lia.
    { unfold adjacent. tauto. }
    rewrite E. cbn [obind].
    assert (row_stop st1 = k) as Es.
    { rewrite C5. destruct Hadj' as [->|Ek]; [reflexivity|]. destruct (diags st); lia. }
    destruct (IH (k + 1) st1) as (st' & E' & Hin' & R1 & R2 & R3 & R4 & R5 & R6); auto; try lia.
    exists st'. rewrite E'. split; [reflexivity|]. split; [exact Hin'|].
    split; [lia|]. split; [lia|].
    assert (cur st' k <> None) as Hck by (rewrite R5 by lia; congruence).
    split; [|split; [|split]].
    + intros k' Hk'. destruct (Z.eq_dec k' k) as [->|]; [exact Hck|]. apply R3. lia.
    + intros _. exact Hck.
    + intros k' Hk'. rewrite R5 by lia. apply C2. lia.
    + right. destruct (ir_len _ _ _ Hin) as [Ed|[L1 L2]].
      * destruct R6 as [->|[R6 R7]].
        -- split; [exact C3|]. rewrite C4. destruct (diags st); [reflexivity|discriminate].
        -- split; [exact R6|]. rewrite R7, C4. rewrite Ed. now destruct (diags st1).
      * destruct (diags st) as [|d0 ds] eqn:Ed; [cbn in L1; lia|].
        destruct R6 as [->|[R6 R7]].
        -- split; [exact C3|]. rewrite C4. destruct Hadj' as [?|]; [discriminate|lia].
        -- split; [exact R6|]. rewrite R7, C4. destruct Hadj' as [?|]; [discriminate|].
           destruct (diags st1); [congruence|lia].
Qed.

(** *** Live diagonals: an optimal alignment passes through the end of one of the runs *)

Definition live (p : Z) (g : Z -> option Z) : Prop :=
  exists k i, g k = Some i /\ p + rest i (i + k) = D.

Lemma rest_step i j : 0 <= i <= m -> 0 <= j <= n -> ~ agree i j -> 0 < rest i j ->
  (i < m /\ j < n /\ rest (i + 1) (j + 1) <= rest i j - 1) \/
  (i < m /\ rest (i + 1) j <= rest i j - 1) \/
  (j < n /\ rest i (j + 1) <= rest i j - 1).
Proof.
  intros Hi Hj Hna Hpos. unfold rest in *.
  destruct (Z.eq_dec i m) as [->|Him].
  - rewrite (sfx_all a m) in * by (fold m; lia). rewrite lev_nil_l in *.
    destruct (Z.eq_dec j n) as [->|Hjn].
    + rewrite sfx_all in Hpos by (fold n; lia). cbn in Hpos. lia.
    + right. right. split; [lia|]. rewrite lev_nil_l.
      rewrite !sfx_zlen by (fold n; lia). lia.
  - destruct (znth_lt_Some a i) as [x Hx]; [fold m; lia|].
    destruct (Z.eq_dec j n) as [->|Hjn].
    + right. left. split; [lia|]. rewrite (sfx_all b n) in * by (fold n; lia).
      rewrite !lev_nil_r in *. rewrite !sfx_zlen by (fold m; lia). lia.
    + destruct (znth_lt_Some b j) as [y Hy]; [fold n; lia|].
      rewrite (sfx_step _ _ _ Hx), (sfx_step _ _ _ Hy) in *.
      rewrite lev_cons in *.
      assert ((x =? y) && negb (x =? 126) = false) as Ef.
      { destruct (Z.eqb_spec x y) as [->|]; [|reflexivity].
        destruct (Z.eqb_spec y 126) as [|Hne]; [reflexivity|].
        exfalso. apply Hna. exists y. auto. }
      rewrite Ef in *. rewrite <- (sfx_step _ _ _ Hx), <- (sfx_step _ _ _ Hy) in *.
      set (r1 := lev (sfx a (i + 1)) (sfx b (j + 1))) in *.
      set (r2 := lev (sfx a (i + 1)) (sfx b j)) in *.
      set (r3 := lev (sfx a i) (sfx b (j + 1))) in *.
      destruct (Z.le_gt_cases r1 (Z.min r2 r3)); [left; lia|].
      destruct (Z.le_gt_cases r2 r3); right; [left|right]; lia.
Qed.

Lemma not_dead p i k : sound p i k -> p + rest i (i + k) = D -> ~ dead p k.
Proof.
  intros Hs HD [H|H]; destruct Hs as (H1 & H2 & H3) eqn:E; clear E.
  - pose proof (rest_lower i k H1 H2). lia.
  - pose proof (rest_lower i k H1 H2). pose proof (sound_abs _ _ _ Hs). lia.
Qed.

Lemma row_live p prev st :
  inrow p prev st -> 0 <= p <= D ->
  (forall k, - p <= k <= p -> cur st k <> None \/ dead p k) ->
  (forall r, prev = Some r -> live (p - 1) (rowf r)) ->
  live p (cur st).
Proof.
  intros Hin Hp Hcov Hlive.
  assert (exists k i, - p <= k <= p /\ sound p i k /\ p + rest i (i + k) = D /\
            forall i', cur st k = Some i' -> i <= i') as (k & i & Hk & Hs & HD & Hdom).
  { pose proof (ir_fit _ _ _ Hin) as Hfit.
    destruct prev as [r|]; cbn [prev_fit] in Hfit.
    - destruct Hfit as [Hp0 Hpo]. destruct (Hlive r eq_refl) as (k & i & Hr & HD).
      pose proof (po_sound _ _ _ _ Hpo _ _ Hr) as Hs.
      pose proof (po_max _ _ _ _ Hpo _ _ Hr) as Hmx.
      pose proof (sound_abs _ _ _ Hs) as Habs.
      destruct Hs as (S1 & S2 & S3).
      assert (forall k' i', k' - 1 <= k <= k' + 1 -> cur st k' = Some i' -> i + inc k' k <= i') as Hd.
      { intros k' i' Hk' Hc. destruct (ir_entry _ _ _ Hin _ _ Hc) as (s0 & pk & _ & [_ Hpr] & _ & [Hrun _]).
        specialize (Hpr k i Hk' Hr). lia. }
      assert (forall i' k', sound p i' k' -> p + rest i' (i' + k') <= D ->
                p + rest i' (i' + k') = D) as Heq.
      { intros i' k' Hs' Hle. pose proof (sound_bound _ _ _ Hs'). lia. }
      destruct (rest_step i (i + k)) as [(C1 & C2 & C3)|[(C1 & C3)|(C2 & C3)]]; auto; try lia.
      + destruct (znth_lt_Some a i) as [x Hx]; [fold m; lia|].
        destruct (znth_lt_Some b (i + k)) as [y Hy]; [fold n; lia|].
        assert (sound p (i + 1) k) as Hs'.
        { split; [lia|]. split; [lia|]. replace (i + 1 + k) with (i + k + 1) by lia.
          rewrite (pfx_step _ _ _ Hx), (pfx_step _ _ _ Hy).
          replace p with (p - 1 + 1) by lia. now apply edits_step_sub. }
        exists k, (i + 1). split; [lia|]. split; [exact Hs'|]. split.
        * apply Heq; [exact Hs'|]. replace (i + 1 + k) with (i + k + 1) by lia. lia.
        * intros i' Hc. specialize (Hd k i' ltac:(lia) Hc). unfold inc in Hd.
          rewrite Z.leb_refl in Hd. lia.
      + destruct (znth_lt_Some a i) as [x Hx]; [fold m; lia|].
        assert (sound p (i + 1) (k - 1)) as Hs'.
        { split; [lia|]. split; [lia|]. replace (i + 1 + (k - 1)) with (i + k) by lia.
          rewrite (pfx_step _ _ _ Hx).
          replace p with (p - 1 + 1) by lia. now apply edits_step_del. }
        exists (k - 1), (i + 1). split; [lia|]. split; [exact Hs'|]. split.
        * apply Heq; [exact Hs'|]. replace (i + 1 + (k - 1)) with (i + k) by lia. lia.
        * intros i' Hc. specialize (Hd (k - 1) i' ltac:(lia) Hc). unfold inc in Hd.
          destruct (Z.leb_spec (k - 1) k); lia.
      + destruct (znth_lt_Some b (i + k)) as [y Hy]; [fold n; lia|].
        assert (sound p i (k + 1)) as Hs'.
        { split; [lia|]. split; [lia|]. replace (i + (k + 1)) with (i + k + 1) by lia.
          rewrite (pfx_step _ _ _ Hy).
          replace p with (p - 1 + 1) by lia. now apply edits_step_ins. }
        exists (k + 1), i. split; [lia|]. split; [exact Hs'|]. split.
        * apply Heq; [exact Hs'|]. replace (i + (k + 1)) with (i + k + 1) by lia. lia.
        * intros i' Hc. specialize (Hd (k + 1) i' ltac:(lia) Hc). unfold inc in Hd.
          destruct (Z.leb_spec (k + 1) k); lia.
    - exists 0, 0. split; [lia|]. split; [|split].
      + split; [pose proof m_nonneg; lia|]. split; [pose proof n_nonneg; lia|]. subst p. constructor.
      + rewrite Hfit. reflexivity.
      + intros i' Hc. destruct (ir_sound _ _ _ Hin _ _ Hc). lia. }
  destruct (Hcov k Hk) as [Hc|Hdead]; [|exfalso; eapply not_dead; eauto].
  destruct (cur st k) as [i'|] eqn:Ec; [|congruence].
  exists k, i'. split; [exact Ec|].
  pose proof (ir_sound _ _ _ Hin _ _ Ec) as Hs'.
  pose proof (sound_bound _ _ _ Hs') as Hb. specialize (Hdom i' eq_refl).
  destruct Hs as (S1 & S2 & _). destruct Hs' as (S1' & S2' & _).
  assert (rest i' (i' + k) <= rest i (i + k)) by (apply rest_diag_le; lia). lia.
Qed.

(** *** One row of compute_pathlist *)

Definition row_of (p : Z) (st : frow) : path := mkpath p (row_start st) (row_stop st) (diags st).

(** What is known before row [p]. *)
Record before_row (p : Z) (prev : option path) (mn mx : Z) : Prop := {
  br_fit : prev_fit p prev mn mx;
  br_live : forall r, prev = Some r -> live (p - 1) (rowf r);
  br_mid : mn <= n_m <= mx;
  br_deadl : forall k, k < mn -> dead p k;
  br_deadr : forall k, mx < k -> dead p k }.

Lemma live_done p prev st :
  inrow p prev st -> p = D -> live p (cur st) -> cur st n_m = Some m.
Proof.
  intros Hin Hp (k & i & Hc & HD).
  pose proof (ir_sound _ _ _ Hin _ _ Hc) as (S1 & S2 & S3).
  pose proof (ir_max _ _ _ Hin _ _ Hc) as Hmx.
  assert (rest i (i + k) = 0) as Hr by lia. unfold rest in Hr.
  pose proof (lev_edits (sfx a i) (sfx b (i + k))) as He. rewrite Hr in He.
  apply edits_zero in He as [He1 He2].
  destruct (Z.eq_dec i m) as [->|Him].
  - rewrite (sfx_all a m) in He1 by (fold m; lia).
    assert (zlen (sfx b (m + k)) = 0) as Hl by (rewrite <- He1; reflexivity).
    rewrite sfx_zlen in Hl by (fold n; lia). fold n in Hl.
    replace n_m with k by (unfold n_m; lia). exact Hc.
  - exfalso. destruct (znth_lt_Some a i) as [x Hx]; [fold m; lia|].
    rewrite (sfx_step _ _ _ Hx) in *.
    destruct (Z.eq_dec (i + k) n) as [En|Hn].
    + rewrite (sfx_all b (i + k)) in He1 by (fold n; lia). discriminate.
    + destruct (znth_lt_Some b (i + k)) as [y Hy]; [fold n; lia|].
      rewrite (sfx_step _ _ _ Hy) in He1. injection He1 as -> _.
      apply Hmx. exists y. repeat split; auto. intros ->. apply He2. now left.
Qed.

Lemma compute_row_ok p prev mn mx :
  before_row p prev mn mx -> 0 <= p <= D ->
  exists st, compute_row a b p prev mn mx = Ok st /\ inrow p prev st /\ diags st <> [] /\
    (p < D -> before_row (p + 1) (Some (row_of p st)) (min_k st) (max_k st)) /\
    (p = D -> n_m < min_k st /\ cur st n_m = Some m).
Proof.
  intros Hb Hp. destruct Hb.
  set (st0 := mkfrow mn mx 0 0 []).
  assert (forall k, cur st0 k = None) as Hnone.
  { intros k. unfold cur. cbn. destruct (znth [] (k - 0)) eqn:E; [|reflexivity].
    apply znth_Some_lt in E. cbn in E. lia. }
  assert (inrow p prev st0) as Hin0.
  { constructor; cbn [min_k max_k diags st0]; auto;
      try (intros k i H; rewrite Hnone in H; discriminate).
    - intros k Hk. specialize (br_deadl0 k Hk). split; [|now left].
      eapply dead_mono; eauto. lia.
    - intros k Hk. specialize (br_deadr0 k Hk). split; [|now left].
      eapply dead_mono; eauto. lia. }
  (* the two loops, and what they leave *)
  assert (exists st, compute_row a b p prev mn mx = Ok st /\ inrow p prev st /\
    (forall k, - p <= k <= p -> cur st k <> None \/ dead p k) /\
    (diags st <> [] -> min_k st <= n_m <= max_k st ->
       row_start st - 1 <= Z.max (min_k st) (- (p + 1)) /\
       Z.min (max_k st) (p + 1) <= row_stop st + 1)) as (st & E & Hin & Hcov & Hnear).
  { assert (forall st, inrow p prev st -> forall k, k < min_k st \/ max_k st < k ->
              cur st k <> None \/ dead p k) as Hout.
    { intros st Hin k [H|H].
      - destruct (ir_deadl _ _ _ Hin k H) as [_ [?|?]]; auto.
      - destruct (ir_deadr _ _ _ Hin k H) as [_ [?|?]]; auto. }
    unfold compute_row. fold m n n_m. fold st0.
    assert (n_m = n - m) as En by reflexivity.
    destruct (Z.leb_spec m n) as [Hmn|Hmn].
    - destruct (down_loop_ok (Z.to_nat (2 * p + 1)) p prev (Z.min n_m p) st0)
        as (st1 & E1 & Hin1 & A1 & A2 & A3 & A4 & A5 & A6); auto; try lia.
      rewrite E1. cbn [obind].
      destruct (up_loop_ok (Z.to_nat (2 * p + 1)) p prev (n_m + 1) st1)
        as (st2 & E2 & Hin2 & B1 & B2 & B3 & B4 & B5 & B6); auto; try lia.
      { intros Hle. destruct A6 as [->|[A6 A7]]; [left; reflexivity|].
        right. rewrite A7. cbn [diags st0]. lia. }
      exists st2. split; [exact E2|]. split; [exact Hin2|]. split.
      + intros k Hk. destruct (Z.lt_ge_cases k (min_k st2)) as [|G1]; [apply Hout; auto|].
        destruct (Z.lt_ge_cases (max_k st2) k) as [|G2]; [apply Hout; auto|].
        left. destruct (Z.le_gt_cases k n_m) as [G3|G3].
        * rewrite B5 by lia. apply A3. lia.
        * apply B3. lia.
      + intros Hne Hmid.
        destruct (ir_len _ _ _ Hin2) as [?|[L1 L2]]; [congruence|].
        assert (forall k, cur st2 k <> None -> row_start st2 <= k <= row_stop st2) as Hw.
        { intros k Hk. destruct (cur st2 k) eqn:Ek; [|congruence]. eapply cur_window; eauto. }
        assert (- p <= row_start st2 <= p /\ - p <= row_stop st2 <= p) as [Hr1 Hr2].
        { split; (destruct (znth_lt_Some (diags st2) 0) as [x Hx]; [lia|]).
          - apply (ir_range _ _ _ Hin2 _ x). unfold cur. rewrite Z.sub_diag. exact Hx.
          - destruct (znth_lt_Some (diags st2) (row_stop st2 - row_start st2)) as [y Hy]; [lia|].
            apply (ir_range _ _ _ Hin2 _ y). exact Hy. }
        assert (min_k st0 = mn /\ max_k st0 = mx) as [Em0 Ex0] by (split; reflexivity).
        split.
        * destruct (Z.le_gt_cases (Z.max (min_k st2) (- p)) (Z.min n_m p)) as [G|G]; [|lia].
          assert (cur st2 (Z.max (min_k st2) (- p)) <> None) as Hc.
          { rewrite B5 by lia. apply A3. lia. }
          apply Hw in Hc. lia.
        * destruct (Z.le_gt_cases (n_m + 1) (Z.min (max_k st2) p)) as [G|G].
          -- assert (cur st2 (Z.min (max_k st2) p) <> None) as Hc by (apply B3; lia).
             apply Hw in Hc. lia.
          -- assert (cur st2 (Z.min n_m p) <> None) as Hc.
             { rewrite B5 by lia. apply A4.
               destruct A6 as [Eq|[A6 A7]].
               - (* nothing computed by the first loop *)
                 exfalso. subst st1.
                 destruct (Z.le_gt_cases (Z.max (min_k st0) (- p)) (Z.min n_m p)) as [G2|G2].
                 + apply A4 in G2. rewrite Hnone in G2. congruence.
                 + destruct B6 as [->|[B6 B7]].
                   * cbn in Hne. congruence.
                   * rewrite Em0 in *. cbn [diags st0] in B7. lia.
               - destruct (Z.le_gt_cases (Z.max (min_k st0) (- p)) (Z.min n_m p)) as [G2|G2]; [exact G2|].
                 exfalso. revert E1. unfold down_loop.
                 destruct (Z.to_nat (2 * p + 1)); cbn -[Z.max Z.min Z.leb];
                   (destruct (Z.leb_spec (Z.max mn (- p)) (Z.min n_m p)); [lia|]);
                   intros [= <-]; cbn in A6; congruence. }
             apply Hw in Hc. lia.
    - destruct (up_loop_ok (Z.to_nat (2 * p + 1)) p prev (Z.max n_m (- p)) st0)
        as (st1 & E1 & Hin1 & A1 & A2 & A3 & A4 & A5 & A6); auto; try lia.
      rewrite E1. cbn [obind].
      destruct (down_loop_ok (Z.to_nat (2 * p + 1)) p prev (n_m - 1) st1)
        as (st2 & E2 & Hin2 & B1 & B2 & B3 & B4 & B5 & B6); auto; try lia.
      { intros Hle. destruct A6 as [->|[A6 A7]]; [left; reflexivity|].
        right. rewrite A7. cbn [diags st0]. lia. }
      exists st2. split; [exact E2|]. split; [exact Hin2|]. split.
      + intros k Hk. destruct (Z.lt_ge_cases k (min_k st2)) as [|G1]; [apply Hout; auto|].
        destruct (Z.lt_ge_cases (max_k st2) k) as [|G2]; [apply Hout; auto|].
        left. destruct (Z.le_gt_cases n_m k) as [G3|G3].
        * rewrite B5 by lia. apply A3. lia.
        * apply B3. lia.
      + intros Hne Hmid.
        destruct (ir_len _ _ _ Hin2) as [?|[L1 L2]]; [congruence|].
        assert (forall k, cur st2 k <> None -> row_start st2 <= k <= row_stop st2) as Hw.
        { intros k Hk. destruct (cur st2 k) eqn:Ek; [|congruence]. eapply cur_window; eauto. }
        assert (- p <= row_start st2 <= p /\ - p <= row_stop st2 <= p) as [Hr1 Hr2].
        { split; (destruct (znth_lt_Some (diags st2) 0) as [x Hx]; [lia|]).
          - apply (ir_range _ _ _ Hin2 _ x). unfold cur. rewrite Z.sub_diag. exact Hx.
          - destruct (znth_lt_Some (diags st2) (row_stop st2 - row_start st2)) as [y Hy]; [lia|].
            apply (ir_range _ _ _ Hin2 _ y). exact Hy. }
        assert (min_k st0 = mn /\ max_k st0 = mx) as [Em0 Ex0] by (split; reflexivity).
        split.
        * destruct (Z.le_gt_cases (Z.max (min_k st2) (- p)) (n_m - 1)) as [G|G].
          -- assert (cur st2 (Z.max (min_k st2) (- p)) <> None) as Hc by (apply B3; lia).
             apply Hw in Hc. lia.
          -- assert (cur st2 (Z.max n_m (- p)) <> None) as Hc.
             { rewrite B5 by lia. apply A4.
               destruct A6 as [Eq|[A6 A7]].
               - exfalso. subst st1.
                 destruct (Z.le_gt_cases (Z.max n_m (- p)) (Z.min (max_k st0) p)) as [G2|G2].
                 + apply A4 in G2. rewrite Hnone in G2. congruence.
                 + destruct B6 as [->|[B6 B7]].
                   * cbn in Hne. congruence.
                   * rewrite Ex0 in *. cbn [diags st0] in B7. lia.
               - destruct (Z.le_gt_cases (Z.max n_m (- p)) (Z.min (max_k st0) p)) as [G2|G2]; [exact G2|].
                 exfalso. revert E1. unfold up_loop.
                 destruct (Z.to_nat (2 * p + 1)); cbn -[Z.max Z.min Z.leb];
                   (destruct (Z.leb_spec (Z.max n_m (- p)) (Z.min mx p)); [lia|]);
                   intros [= <-]; cbn in A6; congruence. }
             apply Hw in Hc. lia.
        * destruct (Z.le_gt_cases (Z.max n_m (- p)) (Z.min (max_k st2) p)) as [G|G]; [|lia].
          assert (cur st2 (Z.min (max_k st2) p) <> None) as Hc.
          { rewrite B5 by lia. apply A3. lia. }
          apply Hw in Hc. lia. }
  exists st. split; [exact E|]. split; [exact Hin|].
  pose proof (row_live p prev st Hin Hp Hcov br_live0) as Hlive.
  assert (diags st <> []) as Hne.
  { destruct Hlive as (k & i & Hc & _). intros Ed. unfold cur in Hc. rewrite Ed in Hc.
    apply znth_Some_lt in Hc. cbn in Hc. lia. }
  split; [exact Hne|]. split.
  - intros HpD.
    assert (min_k st <= n_m <= max_k st) as Hmid by (destruct (ir_mid _ _ _ Hin); lia).
    destruct (Hnear Hne Hmid) as [N1 N2].
    destruct (ir_len _ _ _ Hin) as [?|[L1 L2]]; [congruence|].
    constructor.
    + cbn [prev_fit]. split; [lia|]. replace (p + 1 - 1) with p by lia.
      constructor; cbn [row_of pf start_k stop_k]; auto.
      * replace (p + 1 - 1) with p by lia. apply (ir_sound _ _ _ Hin).
      * apply (ir_max _ _ _ Hin).
      * apply (ir_lo _ _ _ Hin).
      * apply (ir_hi _ _ _ Hin).
    + intros r [= <-]. replace (p + 1 - 1) with p by lia. exact Hlive.
    + exact Hmid.
    + intros k Hk. apply (ir_deadl _ _ _ Hin k Hk).
    + intros k Hk. apply (ir_deadr _ _ _ Hin k Hk).
  - intros HpD. pose proof (live_done p prev st Hin HpD Hlive) as Hc.
    split; [|exact Hc].
    destruct (Z.lt_ge_cases n_m (min_k st)) as [|H]; [assumption|].
    pose proof (ir_lo _ _ _ Hin _ _ Hc H). lia.
Qed.

(** *** All rows *)

(** Every entry of every row comes from the row before it ([paths]: last row first). *)
Fixpoint chain (paths : list path) : Prop :=
  match paths with
  | [] => True
  | r :: older =>
      (forall k i, rowf r k = Some i -> entry_ok (zlen older) (hd_error older) k i) /\
      chain older
  end.

Lemma pathlist_loop_ok fuel : forall p paths mn mx,
  before_row p (hd_error paths) mn mx -> zlen paths = p -> p <= D -> chain paths ->
  D - p < Z.of_nat fuel ->
  exists r older, pathlist_loop fuel a b p paths mn mx = Ok (r :: older) /\
    zlen older = D /\ chain (r :: older) /\ rowf r n_m = Some m.
Proof.
  induction fuel as [|f IH]; intros p paths mn mx Hb Hlen Hp Hch Hf; [lia|].
  cbn [pathlist_loop]. fold m n n_m.
  pose proof (br_mid _ _ _ _ Hb) as Hmid.
  destruct (Z.leb_spec mn n_m) as [_|]; [|lia].
  pose proof (zlen_nonneg paths) as Hp0.
  destruct (compute_row_ok p (hd_error paths) mn mx Hb) as (st & E & Hin & Hne & Hnext & Hdone);
    [lia|].
  rewrite E. cbn [obind].
  assert (chain (row_of p st :: paths)) as Hch'.
  { split; [|exact Hch]. intros k i Hk. rewrite Hlen. apply (ir_entry _ _ _ Hin). exact Hk. }
  fold (row_of p st).
  destruct (Z.eq_dec p D) as [Ep|Np].
  - destruct (Hdone Ep) as [Hmn Hc]. exists (row_of p st), paths.
    split; [|split; [lia|split; [exact Hch'|exact Hc]]].
    destruct f; cbn [pathlist_loop]; fold m n n_m;
      (destruct (Z.leb_spec (min_k st) n_m); [lia|reflexivity]).
  - apply IH; auto; try lia.
    + cbn [hd_error]. apply Hnext. lia.
    + rewrite zlen_cons. lia.
Qed.

Lemma compute_pathlist_ok :
  exists r older, compute_pathlist a b = Ok (r :: older) /\
    zlen older = D /\ chain (r :: older) /\ rowf r n_m = Some m.
Proof.
  unfold compute_pathlist. pose proof (lev_nonneg a b) as H0. pose proof (lev_upper a b) as H1.
  pose proof m_nonneg as Hm. pose proof n_nonneg as Hn.
  fold D m n in H0, H1.
  apply pathlist_loop_ok.
  - fold m n. cbn [hd_error]. constructor.
    + reflexivity.
    + discriminate.
    + unfold n_m. lia.
    + intros k Hk. right. unfold n_m. lia.
    + intros k Hk. right. unfold n_m. lia.
  - reflexivity.
  - exact H0.
  - exact I.
  - fold m n. lia.
Qed.

End Texts.
