(** The number of comparisons made by fastukk_sync. *)
From Coq Require Import String.
From Verif Require Import Base SyncModel SyncSpec EditProof FastukkProof WorkModel.
Local Open Scope Z_scope.
Local Open Scope list_scope.

Definition erase {A} (o : outcome (A * Z)) : outcome A := let! (x, _) := o in Ok x.

Section Texts.
Variables a b : list Z.
Let m := zlen a.
Let n := zlen b.
Let n_m := n - m.
Let D := lev a b.

(** *** Without the count: SyncModel *)
Lemma erase_snake : forall fuel i j w, erase (snake_counted fuel a b i j w) = snake fuel a b i j.
Proof.
  induction fuel as [|f IH]; intros i j w; cbn [snake_counted snake]; (destruct (_ && _); [|reflexivity]);
    (destruct (rd "a" a i); cbn [obind]; [|reflexivity..]); (destruct (rd "b" b j); cbn [obind]; [|reflexivity..]);
    (destruct (_ && _); [|reflexivity]); [reflexivity|apply IH].
Qed.
Lemma erase_compute_f p pr k st w : erase (compute_f_counted a b p pr k st w) = compute_f a b p pr k st.
Proof.
  unfold compute_f_counted, compute_f. destruct (initial_f k pr) as [[i pk]| | |]; cbn [obind]; [|reflexivity..].
  rewrite <- (erase_snake _ _ _ w). destruct (snake_counted _ a b _ _ _) as [[i' w']| | |]; cbn [obind erase]; [|reflexivity..].
  destruct (diags st); [reflexivity|]. destruct (k <? _); reflexivity.
Qed.
Lemma erase_down p pr : forall fuel k st w, erase (down_loop_counted fuel a b p pr k st w) = down_loop fuel a b p pr k st.
Proof.
  induction fuel as [|f IH]; intros k st w; cbn [down_loop_counted down_loop]; (destruct (_ <=? _); [|reflexivity]); [reflexivity|].
  rewrite <- (erase_compute_f _ _ _ _ w). destruct (compute_f_counted _ _ _ _ _ _ _) as [[s w']| | |]; cbn [obind erase]; [apply IH|reflexivity..].
Qed.
Lemma erase_up p pr : forall fuel k st w, erase (up_loop_counted fuel a b p pr k st w) = up_loop fuel a b p pr k st.
Proof.
  induction fuel as [|f IH]; intros k st w; cbn [up_loop_counted up_loop]; (destruct (_ <=? _); [|reflexivity]); [reflexivity|].
  rewrite <- (erase_compute_f _ _ _ _ w). destruct (compute_f_counted _ _ _ _ _ _ _) as [[s w']| | |]; cbn [obind erase]; [apply IH|reflexivity..].
Qed.
Lemma erase_row p pr mn mx w : erase (compute_row_counted a b p pr mn mx w) = compute_row a b p pr mn mx.
Proof.
  unfold compute_row_counted, compute_row. destruct (_ <=? _).
  - rewrite <- (erase_down _ _ _ _ _ w). destruct (down_loop_counted _ _ _ _ _ _ _ _) as [[s w']| | |]; cbn [obind erase]; [apply erase_up|reflexivity..].
  - rewrite <- (erase_up _ _ _ _ _ w). destruct (up_loop_counted _ _ _ _ _ _ _ _) as [[s w']| | |]; cbn [obind erase]; [apply erase_down|reflexivity..].
Qed.
Lemma erase_pathlist : forall fuel p ps mn mx w, erase (pathlist_counted fuel a b p ps mn mx w) = pathlist_loop fuel a b p ps mn mx.
Proof.
  induction fuel as [|f IH]; intros p ps mn mx w; cbn [pathlist_counted pathlist_loop]; (destruct (_ <=? _); [|reflexivity]); [reflexivity|].
  rewrite <- (erase_row _ _ _ _ w). destruct (compute_row_counted _ _ _ _ _ _ _) as [[s w']| | |]; cbn [obind erase]; [apply IH|reflexivity..].
Qed.

(** *** Sums over diagonals *)
Fixpoint over (l : list Z) (h : Z -> Z) : Z := match l with [] => 0 | k :: l => h k + over l h end.
Definition set_at (g : Z -> Z) (k v : Z) : Z -> Z := fun j => if j =? k then v else g j.
Lemma over_ext l g h : (forall k, In k l -> g k = h k) -> over l g = over l h.
Proof. induction l as [|x l IH]; intros H; [reflexivity|]. cbn. rewrite (H x) by now left. rewrite IH; [reflexivity|]. intros; apply H; now right. Qed.
Lemma over_le l g h : (forall k, In k l -> g k <= h k) -> over l g <= over l h.
Proof. induction l as [|x l IH]; intros H; [cbn; lia|]. cbn. specialize (H x (or_introl eq_refl)) as H1. enough (over l g <= over l h) by lia. apply IH. intros; apply H; now right. Qed.
Lemma over_const l c : over l (fun _ => c) = zlen l * c.
Proof. induction l as [|x l IH]; [reflexivity|]. cbn [over]. rewrite IH, zlen_cons. lia. Qed.
Lemma over_set l g base k v : NoDup l -> In k l ->
  over l (fun j => set_at g k v j - base j) = over l (fun j => g j - base j) + (v - g k).
Proof.
  induction 1 as [|x l N _ IH]; intros I; [destruct I|]. cbn [over]. destruct I as [->|I].
  - rewrite (over_ext l (fun j => set_at g k v j - base j) (fun j => g j - base j)).
    + unfold set_at at 1. rewrite Z.eqb_refl. lia.
    + intros j Hj. unfold set_at. destruct (Z.eqb_spec j k) as [->|]; [contradiction|reflexivity].
  - rewrite IH by exact I. unfold set_at at 1. destruct (Z.eqb_spec x k) as [->|]; [contradiction|lia].
Qed.
Lemma zrange_nodup : forall c lo, NoDup (zrange lo c).
Proof.
  induction c as [|c IH]; intros lo; cbn; constructor; [|apply IH]. rewrite In_zrange. lia.
Qed.

(** *** The count *)
(** The first position on diagonal k, the end of the diagonal, and the first position not compared after
    a run that ended at i. *)
Definition base (k : Z) : Z := Z.max 0 (- k).
Definition top (k : Z) : Z := Z.max (base k) (Z.min m (n - k)).
Definition nx (i k : Z) : Z := i + (if (i <? m) && (i + k <? n) then 1 else 0).
Definition diagonals : list Z := zrange (- D) (Z.to_nat (2 * D + 1)).

Lemma D_nonneg : 0 <= D.
Proof. apply lev_nonneg. Qed.
Lemma In_diagonals k : In k diagonals <-> - D <= k <= D.
Proof. unfold diagonals. rewrite In_zrange. pose proof D_nonneg. lia. Qed.

Lemma snake_counted_ok : forall fuel i j w i', snake fuel a b i j = Ok i' ->
  snake_counted fuel a b i j w = Ok (i', w + nx i' (j - i) - i).
Proof.
  induction fuel as [|f IH]; intros i j w i'; cbn [snake snake_counted]; fold m n;
    (destruct ((i <? m) && (j <? n)) eqn:B; [|intros X; injection X as X; subst i'; unfold nx; replace (i + (j - i)) with j by lia; rewrite B; do 2 f_equal; lia]);
    (destruct (rd "a" a i); cbn [obind]; [|intros X; discriminate X..]); (destruct (rd "b" b j); cbn [obind]; [|intros X; discriminate X..]);
    (match goal with |- context [(?x =? ?y) && ?z] => destruct ((x =? y) && z) end; [|intros X; injection X as X; subst i'; unfold nx; replace (i + (j - i)) with j by lia; rewrite B; do 2 f_equal; lia]).
  - intros X; discriminate X.
  - intros E. rewrite (IH _ _ (w + 1) _ E). replace (j + 1 - (i + 1)) with (j - i) by lia. do 2 f_equal. lia.
Qed.

Definition last_of_row (prev : option path) (k : Z) : option Z := match prev with Some r => rowf r k | None => None end.

Record counted (prev : option path) (st : frow) (g : Z -> Z) (w : Z) : Prop := {
  co_range : forall k, base k <= g k <= top k;
  co_total : w <= over diagonals (fun k => g k - base k);
  co_next : forall k, min_k st <= k <= max_k st ->
    g k = match cur st k with Some i => nx i k | None => match last_of_row prev k with Some i => nx i k | None => base k end end }.

Lemma nx_top p i k : sound a b p i k -> base k <= nx i k <= top k.
Proof.
  intros (H1 & H2 & _). fold m in H1. fold n in H2. unfold nx, top, base.
  destruct (Z.ltb_spec i m), (Z.ltb_spec (i + k) n); cbn; lia.
Qed.

Lemma compute_f_counted_ok p prev st k g w :
  inrow a b p prev st -> p <= D -> min_k st <= n_m <= max_k st ->
  min_k st <= k <= max_k st -> - p <= k <= p -> adjacent st k -> cur st k = None ->
  counted prev st g w ->
  exists st' g' w', compute_f_counted a b p prev k st w = Ok (st', w') /\ compute_f a b p prev k st = Ok st' /\ counted prev st' g' w'.
Proof.
  intros Hin HpD Hmid Hk Hkp Hadj Hnone Hc.
  destruct (compute_f_ok a b p prev st k Hin HpD Hmid Hk Hkp Hadj) as (st' & i & E & Hin' & M1 & M2 & C1 & C2 & _).
  pose proof E as E1. unfold compute_f in E1.
  destruct (ir_entry _ _ _ _ _ Hin' _ _ C1) as (s0 & pk & E0 & Hpred & Hs0 & Hrun).
  rewrite E0 in E1. cbn [obind] in E1.
  destruct (snake (List.length a) a b s0 (s0 + k)) as [i0| | |] eqn:Es; cbn [obind] in E1; try discriminate E1.
  assert (i0 = i) as ->.
  { match type of E1 with context [mkfrow ?mn ?mx k k [i0]] =>
      destruct (extend_row st k i0 mn mx (ir_len _ _ _ _ _ Hin) Hadj) as (st'' & X1 & _ & _ & X2 & _) end.
    rewrite X1 in E1. injection E1 as ->. congruence. }
  assert (Hg : g k <= s0).
  { pose proof (co_next _ _ _ _ Hc k Hk) as G. rewrite Hnone in G. rewrite G. destruct Hs0 as (S1 & S2 & _).
    unfold last_of_row. destruct prev as [r|]; [|unfold base; lia]. destruct (rowf r k) as [v|] eqn:Ev; [|unfold base; lia].
    cbn in Hpred. destruct Hpred as [_ Hmaxi]. specialize (Hmaxi k v ltac:(lia) Ev). unfold inc in Hmaxi. rewrite Z.leb_refl in Hmaxi.
    unfold nx. destruct (_ && _); lia. }
  assert (Hsi : sound a b p i k) by (exact (ir_sound _ _ _ _ _ Hin' _ _ C1)).
  exists st', (set_at g k (nx i k)), (w + nx i k - s0). split; [|split; [exact E|]].
  - pose proof (erase_compute_f p prev k st w) as Er. unfold compute_f_counted. unfold compute_f_counted in Er.
    rewrite E0 in Er |- *. cbn [obind] in Er |- *. rewrite (snake_counted_ok _ _ _ w _ Es) in Er |- *. cbn [obind] in Er |- *.
    replace (s0 + k - s0) with k in * by lia. rewrite E in Er.
    destruct (diags st) as [|x l]; cbn [erase obind] in Er |- *; [congruence|]. destruct (k <? row_start st); cbn [erase obind] in Er |- *; congruence.
  - constructor.
    + intros j. unfold set_at. destruct (Z.eqb_spec j k) as [->|]; [now apply (nx_top p)|apply (co_range _ _ _ _ Hc)].
    + rewrite over_set; [|apply zrange_nodup|apply In_diagonals; lia]. pose proof (co_total _ _ _ _ Hc). lia.
    + intros j Hj. unfold set_at. destruct (Z.eqb_spec j k) as [->|N]; [now rewrite C1|]. rewrite C2 by exact N.
      apply (co_next _ _ _ _ Hc). lia.
Qed.

Lemma down_counted_ok p prev : forall fuel k st g w,
  inrow a b p prev st -> p <= D -> k <= n_m -> k <= p ->
  (- p <= k -> diags st = [] \/ k = row_start st - 1) ->
  (forall k', k' <= k -> cur st k' = None) ->
  k + p + 1 <= Z.of_nat fuel -> counted prev st g w ->
  exists st' g' w', down_loop_counted fuel a b p prev k st w = Ok (st', w') /\ counted prev st' g' w'.
Proof.
  induction fuel as [|f IH]; intros k st g w Hin HpD Hkn Hkp Hadj Hno Hf Hc; cbn [down_loop_counted].
  - destruct (Z.leb_spec (Z.max (min_k st) (- p)) k); [lia|]. eauto.
  - destruct (Z.leb_spec (Z.max (min_k st) (- p)) k) as [H|H]; [|eauto].
    assert (min_k st <= n_m <= max_k st) as Hmid by (destruct (ir_mid _ _ _ _ _ Hin) as [X|X]; fold m n n_m in X; lia).
    assert (diags st = [] \/ k = row_start st - 1) as Hadj' by (apply Hadj; lia).
    assert (Hadj2 : adjacent st k) by (unfold adjacent; tauto).
    destruct (compute_f_counted_ok p prev st k g w) as (st1 & g1 & w1 & E & E' & Hc1); auto; try lia; [apply Hno; lia|].
    destruct (compute_f_ok a b p prev st k) as (st1' & i & F & Hin1 & Hm1 & Hm2 & C1 & C2 & C3 & C4 & C5); auto; try (fold m n n_m; lia).
    assert (st1' = st1) as -> by congruence.
    rewrite E. cbn [obind].
    assert (row_start st1 = k) as Es.
    { rewrite C4. destruct Hadj' as [->|Ek]; [reflexivity|]. destruct (diags st); lia. }
    apply (IH (k - 1) st1 g1 w1); auto; try lia. intros k' Hk'. rewrite C2 by lia. apply Hno. lia.
Qed.

Lemma up_counted_ok p prev : forall fuel k st g w,
  inrow a b p prev st -> p <= D -> n_m <= k -> - p <= k ->
  (k <= p -> diags st = [] \/ k = row_stop st + 1) ->
  (forall k', k <= k' -> cur st k' = None) ->
  p - k + 1 <= Z.of_nat fuel -> counted prev st g w ->
  exists st' g' w', up_loop_counted fuel a b p prev k st w = Ok (st', w') /\ counted prev st' g' w'.
Proof.
  induction fuel as [|f IH]; intros k st g w Hin HpD Hkn Hkp Hadj Hno Hf Hc; cbn [up_loop_counted].
  - destruct (Z.leb_spec k (Z.min (max_k st) p)); [lia|]. eauto.
  - destruct (Z.leb_spec k (Z.min (max_k st) p)) as [H|H]; [|eauto].
    assert (min_k st <= n_m <= max_k st) as Hmid by (destruct (ir_mid _ _ _ _ _ Hin) as [X|X]; fold m n n_m in X; lia).
    assert (diags st = [] \/ k = row_stop st + 1) as Hadj' by (apply Hadj; lia).
    assert (Hadj2 : adjacent st k) by (unfold adjacent; tauto).
    destruct (compute_f_counted_ok p prev st k g w) as (st1 & g1 & w1 & E & E' & Hc1); auto; try lia; [apply Hno; lia|].
    destruct (compute_f_ok a b p prev st k) as (st1' & i & F & Hin1 & Hm1 & Hm2 & C1 & C2 & C3 & C4 & C5); auto; try (fold m n n_m; lia).
    assert (st1' = st1) as -> by congruence.
    rewrite E. cbn [obind].
    assert (row_stop st1 = k) as Es.
    { rewrite C5. destruct Hadj' as [->|Ek]; [reflexivity|]. destruct (diags st); lia. }
    apply (IH (k + 1) st1 g1 w1); auto; try lia. intros k' Hk'. rewrite C2 by lia. apply Hno. lia.
Qed.

Lemma row_size p prev st : inrow a b p prev st -> 0 <= p -> zlen (diags st) <= 2 * p + 1.
Proof.
  intros Hin Hp. destruct (ir_len _ _ _ _ _ Hin) as [->|[L1 L2]]; [change (zlen (@nil Z)) with 0; lia|].
  destruct (znth_lt_Some (diags st) 0) as [x Hx]; [lia|].
  destruct (znth_lt_Some (diags st) (row_stop st - row_start st)) as [y Hy]; [lia|].
  assert (- p <= row_start st <= p) by (apply (ir_range _ _ _ _ _ Hin _ x); unfold cur; rewrite Z.sub_diag; exact Hx).
  assert (- p <= row_stop st <= p) by (apply (ir_range _ _ _ _ _ Hin _ y); exact Hy).
  lia.
Qed.

(** What is known of the count before a row. *)
Record ready (prev : option path) (mn mx : Z) (g : Z -> Z) (w : Z) : Prop := {
  rd_range : forall k, base k <= g k <= top k;
  rd_total : w <= over diagonals (fun k => g k - base k);
  rd_next : forall k, mn <= k <= mx -> g k = match last_of_row prev k with Some i => nx i k | None => base k end }.

Lemma prev_abs p prev mn mx k : prev_fit a b p prev mn mx -> p < Z.abs k -> last_of_row prev k = None.
Proof.
  unfold last_of_row. destruct prev as [r|]; [|reflexivity]. cbn [prev_fit]. intros [Hp Hpo] Hk.
  destruct (rowf r k) as [i|] eqn:E; [|reflexivity]. exfalso.
  pose proof (sound_abs a b _ _ _ (po_sound _ _ _ _ _ _ Hpo _ _ E)). lia.
Qed.

Lemma compute_row_counted_ok p prev mn mx g w :
  before_row a b p prev mn mx -> 0 <= p <= D -> ready prev mn mx g w ->
  exists st g' w', compute_row_counted a b p prev mn mx w = Ok (st, w') /\
    ready (Some (row_of p st)) (min_k st) (max_k st) g' w' /\ zlen (diags st) <= 2 * p + 1.
Proof.
  intros Hb Hp Hr.
  assert (Hfin : forall st g' w', inrow a b p prev st -> counted prev st g' w' ->
    (forall k, - p <= k <= p -> min_k st <= k <= max_k st -> cur st k <> None) ->
    ready (Some (row_of p st)) (min_k st) (max_k st) g' w' /\ zlen (diags st) <= 2 * p + 1).
  { intros st g' w' Hin Hc Hcov. split; [|apply (row_size _ _ _ Hin); lia].
    constructor; [apply (co_range _ _ _ _ Hc)|apply (co_total _ _ _ _ Hc)|].
    intros k Hk. rewrite (co_next _ _ _ _ Hc k Hk). cbn [last_of_row]. change (rowf (row_of p st) k) with (cur st k).
    destruct (cur st k) as [i|] eqn:E; [reflexivity|].
    rewrite (prev_abs _ _ _ _ k (ir_fit _ _ _ _ _ Hin)); [reflexivity|].
    destruct (Z.lt_ge_cases p (Z.abs k)) as [|Hle]; [assumption|]. exfalso. apply (Hcov k); [lia|exact Hk|exact E]. }
  destruct Hb. set (st0 := mkfrow mn mx 0 0 []).
  assert (Hnone : forall k, cur st0 k = None).
  { intros k. unfold cur. cbn. destruct (znth [] (k - 0)) eqn:E; [|reflexivity]. apply znth_Some_lt in E. cbn in E. lia. }
  assert (Hin0 : inrow a b p prev st0).
  { constructor; cbn [min_k max_k diags st0]; auto; try (intros k i H; rewrite Hnone in H; discriminate H).
    - intros k Hk. specialize (br_deadl k Hk). split; [|now left]. eapply dead_mono; eauto. lia.
    - intros k Hk. specialize (br_deadr k Hk). split; [|now left]. eapply dead_mono; eauto. lia. }
  assert (Hc0 : counted prev st0 g w).
  { constructor; [apply (rd_range _ _ _ _ _ Hr)|apply (rd_total _ _ _ _ _ Hr)|]. intros k Hk. rewrite Hnone. apply (rd_next _ _ _ _ _ Hr). exact Hk. }
  unfold compute_row_counted. fold m n n_m. fold st0.
  assert (n_m = n - m) as En by reflexivity.
  destruct (Z.leb_spec m n) as [Hmn|Hmn].
  - destruct (down_loop_ok a b (Z.to_nat (2 * p + 1)) p prev (Z.min n_m p) st0)
      as (st1 & E1 & Hin1 & A1 & A2 & A3 & A4 & A5 & A6); auto; try (fold n m n_m; lia).
    destruct (down_counted_ok p prev (Z.to_nat (2 * p + 1)) (Z.min n_m p) st0 g w) as (st1' & g1 & w1 & F1 & Hc1); auto; try lia.
    assert (st1' = st1) as ->.
    { pose proof (erase_down p prev (Z.to_nat (2 * p + 1)) (Z.min n_m p) st0 w) as X. rewrite F1, E1 in X. cbn in X. congruence. }
    rewrite F1. cbn [obind].
    assert (Hadj : n_m + 1 <= p -> diags st1 = [] \/ n_m + 1 = row_stop st1 + 1).
    { intros Hle. destruct A6 as [->|[A6 A7]]; [left; reflexivity|]. right. rewrite A7. cbn [diags st0]. lia. }
    destruct (up_loop_ok a b (Z.to_nat (2 * p + 1)) p prev (n_m + 1) st1)
      as (st2 & E2 & Hin2 & B1 & B2 & B3 & B4 & B5 & B6); auto; try (fold n m n_m; lia).
    destruct (up_counted_ok p prev (Z.to_nat (2 * p + 1)) (n_m + 1) st1 g1 w1) as (st2' & g2 & w2 & F2 & Hc2); auto; try lia.
    { intros k' Hk'. rewrite A5 by lia. apply Hnone. }
    assert (st2' = st2) as ->.
    { pose proof (erase_up p prev (Z.to_nat (2 * p + 1)) (n_m + 1) st1 w1) as X. rewrite F2, E2 in X. cbn in X. congruence. }
    exists st2, g2, w2. split; [exact F2|]. apply Hfin; [exact Hin2|exact Hc2|].
    intros k Hk Hk2. destruct (Z.le_gt_cases k n_m) as [G3|G3].
    + rewrite B5 by (fold n m n_m; lia). apply A3. lia.
    + apply B3. fold n m n_m. lia.
  - destruct (up_loop_ok a b (Z.to_nat (2 * p + 1)) p prev (Z.max n_m (- p)) st0)
      as (st1 & E1 & Hin1 & A1 & A2 & A3 & A4 & A5 & A6); auto; try (fold n m n_m; lia).
    destruct (up_counted_ok p prev (Z.to_nat (2 * p + 1)) (Z.max n_m (- p)) st0 g w) as (st1' & g1 & w1 & F1 & Hc1); auto; try lia.
    assert (st1' = st1) as ->.
    { pose proof (erase_up p prev (Z.to_nat (2 * p + 1)) (Z.max n_m (- p)) st0 w) as X. rewrite F1, E1 in X. cbn in X. congruence. }
    rewrite F1. cbn [obind].
    assert (Hadj : - p <= n_m - 1 -> diags st1 = [] \/ n_m - 1 = row_start st1 - 1).
    { intros Hle. destruct A6 as [->|[A6 A7]]; [left; reflexivity|]. right. rewrite A7. cbn [diags st0]. lia. }
    destruct (down_loop_ok a b (Z.to_nat (2 * p + 1)) p prev (n_m - 1) st1)
      as (st2 & E2 & Hin2 & B1 & B2 & B3 & B4 & B5 & B6); auto; try (fold n m n_m; lia).
    destruct (down_counted_ok p prev (Z.to_nat (2 * p + 1)) (n_m - 1) st1 g1 w1) as (st2' & g2 & w2 & F2 & Hc2); auto; try lia.
    { intros k' Hk'. rewrite A5 by lia. apply Hnone. }
    assert (st2' = st2) as ->.
    { pose proof (erase_down p prev (Z.to_nat (2 * p + 1)) (n_m - 1) st1 w1) as X. rewrite F2, E2 in X. cbn in X. congruence. }
    exists st2, g2, w2. split; [exact F2|]. apply Hfin; [exact Hin2|exact Hc2|].
    intros k Hk Hk2. destruct (Z.le_gt_cases n_m k) as [G3|G3].
    + rewrite B5 by (fold n m n_m; lia). apply A3. lia.
    + apply B3. fold n m n_m. lia.
Qed.

(** The numbers kept in all rows. *)
Fixpoint kept (paths : list path) : Z := match paths with [] => 0 | r :: l => zlen (pf r) + kept l end.

Lemma over_top : over diagonals (fun k => top k - base k) <= (2 * D + 1) * Z.min m n.
Proof.
  pose proof D_nonneg. replace (2 * D + 1) with (zlen diagonals).
  - rewrite <- over_const. apply over_le. intros k _. unfold top, base.
    pose proof (zlen_nonneg a) as Ha. pose proof (zlen_nonneg b) as Hb. fold m in Ha. fold n in Hb. lia.
  - unfold diagonals, zlen. rewrite zrange_length. lia.
Qed.

Lemma pathlist_counted_ok : forall fuel p paths mn mx g w,
  before_row a b p (hd_error paths) mn mx -> zlen paths = p -> p <= D -> D - p < Z.of_nat fuel ->
  ready (hd_error paths) mn mx g w -> kept paths <= p * p ->
  exists paths' w', pathlist_counted fuel a b p paths mn mx w = Ok (paths', w') /\
    zlen paths' = D + 1 /\ kept paths' <= (D + 1) * (D + 1) /\ w' <= (2 * D + 1) * Z.min m n.
Proof.
  induction fuel as [|f IH]; intros p paths mn mx g w Hb Hlen Hp Hf Hr Hk; [lia|].
  cbn [pathlist_counted]. fold m n n_m.
  pose proof (br_mid _ _ _ _ _ _ Hb) as Hmid. fold m n n_m in Hmid.
  destruct (Z.leb_spec mn n_m) as [_|]; [|lia].
  pose proof (zlen_nonneg paths) as Hp0.
  destruct (compute_row_ok a b p (hd_error paths) mn mx Hb) as (st & E & Hin & Hne & Hnext & Hdone); [fold D; lia|].
  destruct (compute_row_counted_ok p (hd_error paths) mn mx g w Hb) as (st' & g' & w' & F & Hr' & Hz); [lia|exact Hr|].
  assert (st' = st) as ->.
  { pose proof (erase_row p (hd_error paths) mn mx w) as X. rewrite F, E in X. cbn in X. congruence. }
  rewrite F. cbn [obind]. fold (row_of p st).
  assert (Hk' : kept (row_of p st :: paths) <= (p + 1) * (p + 1)).
  { cbn [kept row_of pf]. fold (row_of p st). lia. }
  destruct (Z.eq_dec p D) as [Ep|Np].
  - destruct (Hdone Ep) as [Hmn Hc]. exists (row_of p st :: paths), w'. fold m n n_m in Hmn.
    split; [destruct f; cbn [pathlist_counted]; fold m n n_m; (destruct (Z.leb_spec (min_k st) n_m); [lia|reflexivity])|].
    split; [rewrite zlen_cons; lia|]. split; [rewrite <- Ep; exact Hk'|].
    etransitivity; [apply (rd_total _ _ _ _ _ Hr')|]. etransitivity; [|apply over_top].
    apply over_le. intros k _. pose proof (rd_range _ _ _ _ _ Hr' k). lia.
  - apply (IH (p + 1) (row_of p st :: paths) (min_k st) (max_k st) g' w'); auto; try lia.
    + cbn [hd_error]. apply Hnext. fold D. lia.
    + rewrite zlen_cons. lia.
Qed.

Lemma compute_pathlist_counted_ok :
  exists paths w, compute_pathlist_counted a b = Ok (paths, w) /\ compute_pathlist a b = Ok paths /\
    zlen paths = D + 1 /\ kept paths <= (D + 1) * (D + 1) /\ w <= (2 * D + 1) * Z.min m n.
Proof.
  pose proof (lev_nonneg a b) as H0. pose proof (lev_upper a b) as H1.
  pose proof (zlen_nonneg a) as Hm. pose proof (zlen_nonneg b) as Hn. fold D in H0, H1. fold m in Hm, H1. fold n in Hn, H1.
  destruct (pathlist_counted_ok (S (Z.to_nat (Z.max (zlen a) (zlen b)))) 0 [] (- zlen a) (zlen b) base 0) as (ps & w & E & H).
  - fold m n. cbn [hd_error]. constructor.
    + reflexivity.
    + discriminate.
    + fold m n. lia.
    + intros k Hk. right. fold m n. lia.
    + intros k Hk. right. fold m n. lia.
  - reflexivity.
  - exact H0.
  - fold m n. lia.
  - constructor.
    + intros k. unfold top. lia.
    + rewrite (over_ext _ _ (fun _ => 0)) by (intros; lia). rewrite over_const. lia.
    + reflexivity.
  - cbn. lia.
  - exists ps, w. split; [exact E|]. split; [|exact H].
    pose proof (erase_pathlist (S (Z.to_nat (Z.max (zlen a) (zlen b)))) 0 [] (- zlen a) (zlen b) 0) as X.
    rewrite E in X. unfold compute_pathlist. rewrite <- X. reflexivity.
Qed.
End Texts.
