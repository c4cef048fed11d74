(** The number of comparisons made by compute_pathlist of wordacc. *)
From Coq Require Import String.
From Verif Require Import Base LcsModel LcsSpec LcsProof WorkProof WordWorkModel.
Local Open Scope Z_scope.
Local Open Scope list_scope.

Section Lcs.
Variables a b : list Z.
Local Notation m := (zlen a).
Local Notation n := (zlen b).
Local Notation reach := (LcsProof.reach a b).
Local Notation furthest := (LcsProof.furthest a b).

(** *** Without the count: LcsModel *)
Lemma erase_snake : forall fuel i j w, erase (snake_counted a b fuel i j w) = snake a b fuel i j.
Proof.
  induction fuel as [|f IH]; intros i j w; cbn [snake_counted snake]; (destruct (_ && _); [|reflexivity]);
    (destruct (rd "a" a i); cbn [obind]; [|reflexivity..]); (destruct (rd "b" b j); cbn [obind]; [|reflexivity..]);
    (destruct (_ =? _); [|reflexivity]); [reflexivity|apply IH].
Qed.
Lemma erase_visit p prev mn mx f w k : erase (visit_counted a b p prev (mn, mx, f, w) k) = visit a b p prev (mn, mx, f) k.
Proof.
  unfold visit_counted, visit. destruct (_ && _); [|reflexivity]. unfold compute_f_counted, compute_f.
  destruct (initial_f k prev) as [[i pk]| | |]; cbn [obind]; [|reflexivity..].
  rewrite <- (erase_snake _ _ _ w). destruct (snake_counted a b _ _ _ _) as [[i' w']| | |]; cbn [obind erase]; [|reflexivity..].
  destruct (wr _ _ _ _); reflexivity.
Qed.
Lemma erase_visits p prev : forall l mn mx f w,
  erase (ofold (visit_counted a b p prev) l (mn, mx, f, w)) = ofold (visit a b p prev) l (mn, mx, f).
Proof.
  induction l as [|k l IH]; intros mn mx f w; [reflexivity|]. cbn [ofold]. rewrite <- (erase_visit p prev mn mx f w k).
  destruct (visit_counted a b p prev (mn, mx, f, w) k) as [[[[mn' mx'] f'] w']| | |]; cbn [obind erase]; [apply IH|reflexivity..].
Qed.
Lemma erase_paths : forall fuel p mn mx l w, erase (paths_counted a b fuel p mn mx l w) = paths a b fuel p mn mx l.
Proof.
  induction fuel as [|fu IH]; intros p mn mx l w; cbn [paths_counted paths]; (destruct (mn <=? n - m); [|reflexivity]); [reflexivity|].
  rewrite <- (erase_visits _ _ _ _ _ _ w). destruct (ofold (visit_counted _ _ _ _) _ _) as [[[[mn' mx'] f'] w']| | |]; cbn [obind erase]; [apply IH|reflexivity..].
Qed.
Lemma erase_pathlist : erase (compute_pathlist_counted a b) = compute_pathlist a b.
Proof. apply erase_paths. Qed.

(** *** More steps to the same point *)
Lemma reach_steps p i j : reach p i j -> p <= i + j.
Proof. induction 1; lia. Qed.
Lemma reach_any i j : 0 <= i <= m -> 0 <= j <= n -> reach (i + j) i j.
Proof.
  intros Hi Hj. assert (R : forall c, (Z.of_nat c <= m) -> reach (Z.of_nat c) (Z.of_nat c) 0).
  { induction c as [|c IH]; intros H; [constructor|]. replace (Z.of_nat (S c)) with (Z.of_nat c + 1) in * by lia. apply reach_del; [apply IH; lia|lia]. }
  assert (R2 : forall c, Z.of_nat c <= n -> reach (i + Z.of_nat c) i (Z.of_nat c)).
  { induction c as [|c IH]; intros H.
    - specialize (R (Z.to_nat i) ltac:(lia)). replace (Z.of_nat (Z.to_nat i)) with i in R by lia. cbn. now rewrite Z.add_0_r.
    - replace (Z.of_nat (S c)) with (Z.of_nat c + 1) in * by lia. rewrite Z.add_assoc. apply reach_ins; [apply IH; lia|lia]. }
  specialize (R2 (Z.to_nat j) ltac:(lia)). now replace (Z.of_nat (Z.to_nat j)) with j in R2 by lia.
Qed.
Lemma reach_more q i j : reach q i j -> forall p, q <= p -> p <= i + j -> (p - q) mod 2 = 0 -> reach p i j.
Proof.
  induction 1 as [|q i j x H IH E0 E1|q i j H IH L|q i j H IH L]; intros p Hq Hp Par.
  - replace p with 0 by lia. constructor.
  - destruct (Z_le_gt_dec p (i + j)) as [Le|Gt]; [eapply reach_diag; eauto|].
    pose proof (LcsProof.reach_diff _ _ _ _ _ H) as [_ Q]. pose proof (LcsProof.reach_range _ _ _ _ _ H).
    assert (p = i + 1 + (j + 1)) as -> by (clear - Par Q Gt Hp; Z.to_euclidean_division_equations; lia).
    apply znth_Some_lt in E0, E1. apply reach_any; lia.
  - replace p with (p - 1 + 1) by lia. apply reach_del; [|exact L]. apply IH; [lia|lia|]. now replace (p - 1 - q) with (p - (q + 1)) by lia.
  - replace p with (p - 1 + 1) by lia. apply reach_ins; [|exact L]. apply IH; [lia|lia|]. now replace (p - 1 - q) with (p - (q + 1)) by lia.
Qed.

(** A later visit of a diagonal starts beyond the place where the comparison failed. *)
Lemma later_start p p' k v v' s : furthest p' k v -> v < m -> v + k < n -> p' < p -> furthest p k v' -> s <= v' -> run a b k s v' -> v + 1 <= s.
Proof.
  intros (V0 & V1 & R & Mx) Lm Ln P (V0' & V1' & R' & Mx') Hs Rn.
  pose proof (LcsProof.reach_diff _ _ _ _ _ R) as [_ Q]. pose proof (LcsProof.reach_diff _ _ _ _ _ R') as [_ Q'].
  pose proof (reach_steps _ _ _ R') as St.
  assert (P2 : p' + 2 <= p) by (clear - P Q Q'; Z.to_euclidean_division_equations; lia).
  assert (R2 : reach (p' + 1 + 1) (v + 1) (v + k + 1)) by (apply reach_ins; [apply reach_del; assumption|lia]).
  assert (V : v + 1 <= v').
  { destruct (Z_le_gt_dec (v + 1) v') as [|G]; [assumption|]. exfalso.
    assert (reach p (v + 1) (v + 1 + k)) as R3.
    { replace (v + 1 + k) with (v + k + 1) by lia. apply (reach_more _ _ _ R2); [lia|lia|]. clear - Q Q'. Z.to_euclidean_division_equations; lia. }
    apply Mx' in R3. lia. }
  destruct (Z_le_gt_dec (v + 1) s) as [|G]; [assumption|]. exfalso.
  destruct (Rn v ltac:(lia)) as (x & E0 & E1). assert (reach p' (v + 1) (v + 1 + k)) as R4.
  { replace (v + 1 + k) with (v + k + 1) by lia. eapply reach_diag; eauto. }
  apply Mx in R4. lia.
Qed.

(** *** The count *)
Hypothesis Mf : m <= 65535.
Variable D : Z.
Definition base (k : Z) : Z := Z.max 0 (- k).
Definition top (k : Z) : Z := Z.max (base k) (Z.min m (n - k)).
Definition nx (i k : Z) : Z := i + (if (i <? m) && (i + k <? n) then 1 else 0).
Definition diags : list Z := zrange (- D) (Z.to_nat (2 * D + 1)).

Lemma snake_counted_ok : forall fuel i j w i', snake a b fuel i j = Ok i' ->
  snake_counted a b fuel i j w = Ok (i', w + nx i' (j - i) - i).
Proof.
  induction fuel as [|f IH]; intros i j w i'; cbn [snake snake_counted];
    (destruct ((i <? m) && (j <? n)) eqn:B; [|intros X; injection X as X; subst i'; unfold nx; replace (i + (j - i)) with j by lia; rewrite B; do 2 f_equal; lia]);
    (destruct (rd "a" a i); cbn [obind]; [|intros X; discriminate X..]); (destruct (rd "b" b j); cbn [obind]; [|intros X; discriminate X..]);
    (match goal with |- context [?x =? ?y] => destruct (x =? y) end; [|intros X; injection X as X; subst i'; unfold nx; replace (i + (j - i)) with j by lia; rewrite B; do 2 f_equal; lia]).
  - intros X; discriminate X.
  - intros E. rewrite (IH _ _ (w + 1) _ E). replace (j + 1 - (i + 1)) with (j - i) by lia. do 2 f_equal. lia.
Qed.

(** [g k] is the first position on diagonal [k] that has not been compared; diagonals from [k0] on have not been visited in row [p]. *)
Record counted (p k0 mn mx : Z) (g : Z -> Z) (w : Z) : Prop := {
  co_range : forall k, base k <= g k <= top k;
  co_total : w <= over diags (fun k => g k - base k);
  co_next : forall k, mn <= k <= mx -> g k = base k \/
    exists p' v, furthest p' k v /\ v < m /\ v + k < n /\ g k = v + 1 /\ p' <= p /\ (k0 <= k -> p' < p) }.

Lemma counted_next p k0 mn mx g w : counted p k0 mn mx g w -> counted (p + 1) (- (p + 1)) mn mx g w.
Proof.
  intros [C1 C2 C3]. constructor; [exact C1|exact C2|]. intros k Hk. destruct (C3 k Hk) as [E|(p' & v & F & L1 & L2 & G & P & _)]; [now left|right].
  exists p', v. split; [exact F|]. repeat split; [exact L1|exact L2|exact G|lia|lia].
Qed.

(** Each match on the way to a cell has been compared. *)
Definition low (p : Z) (f : list Z) (w : Z) : Prop := forall k v, (k + p) mod 2 = 0 -> cell p f k v -> 2 * v + k - p <= 2 * w.
Definition low_prev (p : Z) (prev : option path) (w : Z) : Prop := match prev with None => p = 0 /\ 0 <= w | Some (q, f) => q = p - 1 /\ low q f w end.

Lemma visit_counted_ok p prev ok min_k max_k A B k mn mx f g w : range a b p prev ok min_k max_k A B -> on p A B k ->
  p <= D -> mn <= k <= mx -> zlen f = p + 1 -> counted p k mn mx g w -> low_prev p prev w -> low p f w ->
  exists mn' mx' f' g' w', visit_counted a b p prev (mn, mx, f, w) k = Ok (mn', mx', f', w') /\
    counted p (k + 2) mn' mx' g' w' /\ w <= w' /\ low p f' w'.
Proof.
  intros R O PD K Lf C LP LF. destruct (visit_in a b Mf p prev ok min_k max_k A B k mn mx f R O K Lf) as (s & pk & v & f' & E & Fr & Sv & Rv & F & Ev & Lf' & Cf' & Oth).
  pose proof (rg_p _ _ _ _ _ _ _ _ _ R) as P0. destruct (rg_A _ _ _ _ _ _ _ _ _ R) as [OA _]. destruct (rg_B _ _ _ _ _ _ _ _ _ R) as [OB _].
  pose proof (erase_visit p prev mn mx f w k) as Er. rewrite Ev in Er.
  assert (Sn : snake a b (List.length a) s (s + k) = Ok v).
  { destruct (rg_val _ _ _ _ _ _ _ _ _ R k O) as (s' & pk' & v' & E' & _ & Es & F' & _). rewrite E in E'. injection E' as <- <-.
    now rewrite (furthest_fun _ _ _ _ _ _ F F'). }
  unfold visit_counted in Er |- *. destruct ((mn <=? k) && (k <=? mx)) eqn:In; [|destruct (Z.leb_spec mn k), (Z.leb_spec k mx); cbn in In; try discriminate In; lia].
  unfold compute_f_counted in Er |- *. rewrite E in Er |- *. cbn [obind] in Er |- *. rewrite (snake_counted_ok _ _ _ w _ Sn) in Er |- *. cbn [obind] in Er |- *.
  destruct (wr "f" f (Z.shiftr (k + p) 1) (v mod 65536)) as [f2| | |]; cbn [obind erase] in Er |- *; try discriminate Er. injection Er as ->.
  do 3 eexists. exists (set_at g k (nx v k)), (w + nx v (s + k - s) - s). split; [reflexivity|]. replace (s + k - s) with k by lia.
  pose proof F as (V0 & V1 & Rch & Mx).
  assert (Hs : 0 <= s /\ 0 <= s + k).
  { pose proof (zlen_nonneg a). pose proof (zlen_nonneg b). clear - Sn V0 V1 H H0.
    assert (Q : (0 <= s /\ 0 <= s + k) \/ s < 0 \/ s + k < 0) by lia. destruct Q as [Q|Q]; [exact Q|exfalso].
    assert (Sn' : (if (s <? m) && (s + k <? n) then False else s = v)).
    { destruct (List.length a) as [|fu]; cbn [snake] in Sn; (destruct ((s <? m) && (s + k <? n)) eqn:Eb; [|congruence]); unfold rd in Sn;
        (destruct (znth a s) as [x|] eqn:Ex; cbn [obind] in Sn; [|discriminate Sn]); (destruct (znth b (s + k)) as [y|] eqn:Ey; cbn [obind] in Sn; [|discriminate Sn]);
        apply znth_Some_lt in Ex, Ey; lia. }
    destruct (Z.ltb_spec s m), (Z.ltb_spec (s + k) n); cbn [andb] in Sn'; try contradiction; lia. }
  assert (Gs : g k <= s).
  { destruct (co_next _ _ _ _ _ _ C k K) as [->|(p' & v1 & F1 & L1 & L2 & -> & _ & Lt)]; [unfold base; lia|].
    apply (later_start p p' k v1 v s F1 L1 L2); [apply Lt; lia|exact F|exact Sv|exact Rv]. }
  assert (Nv : v <= nx v k) by (unfold nx; destruct ((v <? m) && (v + k <? n)); lia).
  split; [|split; [lia|]].
  2: { intros j u Pj Cj. assert (Q : 2 * s + k - p <= 2 * w).
       { destruct O as [_ PO]. unfold low_prev in LP. unfold from in Fr. destruct prev as [[q fq]|].
         - destruct LP as [-> LP]. destruct Fr as (k' & _ & _ & [[-> Cs]|[-> Cs]]); apply LP in Cs; try lia; clear - PO; Z.to_euclidean_division_equations; lia.
         - destruct Fr as (-> & -> & _). lia. }
       destruct (Z.eq_dec j k) as [->|Nj].
       - rewrite (cell_fun _ _ _ _ _ Cj Cf'). lia.
       - assert (Bj : - p <= j <= p). { unfold cell in Cj. apply znth_Some_lt in Cj. clear - Cj Pj Lf' P0. Z.to_euclidean_division_equations; lia. }
         apply (Oth j u Pj Bj Nj) in Cj. apply LF in Cj; [lia|exact Pj]. }
  constructor.
  - intros j. unfold set_at. destruct (Z.eqb_spec j k) as [->|]; [|apply (co_range _ _ _ _ _ _ C)].
    unfold nx, top, base. destruct (Z.ltb_spec v m), (Z.ltb_spec (v + k) n); cbn; lia.
  - rewrite (over_set a b); [|apply (zrange_nodup a b)|unfold diags; apply In_zrange; destruct O as [O _]; lia]. pose proof (co_total _ _ _ _ _ _ C). lia.
  - intros j Hj. unfold set_at. destruct (Z.eqb_spec j k) as [->|N].
    + right. exists p, v. split; [exact F|]. destruct (Z.eqb_spec v m) as [|Nm]; [lia|]. destruct (Z.eqb_spec (v + k) n) as [|Nn]; [lia|].
      split; [lia|]. split; [lia|]. split; [|split; [lia|lia]]. unfold nx. destruct (Z.ltb_spec v m), (Z.ltb_spec (v + k) n); cbn; lia.
    + assert (Hj' : mn <= j <= mx) by (destruct (v =? m), (v + k =? n); lia).
      destruct (co_next _ _ _ _ _ _ C j Hj') as [E1|(p' & v1 & F1 & L1 & L2 & G1 & P1 & Lt)]; [now left|right]. exists p', v1.
      split; [exact F1|]. repeat split; [exact L1|exact L2|exact G1|exact P1|]. intros H. apply Lt. lia.
Qed.

(** A diagonal in the current range is one of those computed in this row. *)
Lemma in_range p prev ok min_k max_k A B k mn mx f : range a b p prev ok min_k max_k A B -> on p (- p) p k ->
  before a b p prev ok min_k max_k A B k (mn, mx, f) -> mn <= k <= mx -> on p A B k.
Proof.
  intros R [O PO] (Lf & H) In. destruct (rg_A _ _ _ _ _ _ _ _ _ R) as [OA PA]. destruct (rg_B _ _ _ _ _ _ _ _ _ R) as [OB PB].
  destruct H as [(K & -> & ->)|(K & U & (OU & PU) & UK & Ln & Lw & Hi)].
  - assert (k = A) as ->.
    { destruct (Z_lt_ge_dec k A) as [Q|]; [|lia].
      assert (k < min_k) by (apply (rg_below _ _ _ _ _ _ _ _ _ R); [split; [lia|exact PO]|exact Q]). lia. }
    split; [lia|exact PO].
  - destruct Hi as [(-> & N & E)|(C & -> & _)]; [|lia].
    assert (k <= B).
    { destruct (Z_lt_ge_dec B k) as [Q|]; [|lia].
      assert (max_k < k) by (apply (rg_above _ _ _ _ _ _ _ _ _ R); [split; [lia|exact PO]|exact Q]). lia. }
    split; [lia|exact PO].
Qed.

Lemma row_counted p prev ok min_k max_k A B g w : range a b p prev ok min_k max_k A B -> p <= D -> counted p (- p) min_k max_k g w -> low_prev p prev w -> 0 <= w ->
  exists mn mx f g' w', ofold (visit_counted a b p prev) (LcsModel.diagonals p) (min_k, max_k, repeat 0 (Z.to_nat (p + 1)), w) = Ok (mn, mx, f, w') /\
    counted p (p + 2) mn mx g' w' /\ w <= w' /\ low p f w'.
Proof.
  intros R PD C LP W0. pose proof (rg_p _ _ _ _ _ _ _ _ _ R) as P0. destruct (rg_A _ _ _ _ _ _ _ _ _ R) as [OA PA]. unfold LcsModel.diagonals.
  destruct (ofold_count (visit_counted a b p prev)
    (fun i stw => let '(mn, mx, f, w1) := stw in before a b p prev ok min_k max_k A B (- p + 2 * i) (mn, mx, f) /\ (exists g, counted p (- p + 2 * i) mn mx g w1) /\ w <= w1 /\ low p f w1)
    (fun i => - p + 2 * i) (Z.to_nat (p + 1)) 0 (min_k, max_k, repeat 0 (Z.to_nat (p + 1)), w)) as ((((mn & mx) & f) & w') & E & H & (g' & C') & W' & LF').
  - split; [split; [rewrite repeat_zlen; lia|left; lia]|]. split; [exists g; replace (- p + 2 * 0) with (- p) by lia; exact C|]. split; [lia|].
    intros k v Pk Cv. unfold cell in Cv. pose proof (znth_Some_lt _ _ _ Cv) as Bk. rewrite repeat_zlen in Bk. apply znth_In, repeat_spec in Cv. clear - Cv Bk W0 P0 Pk. Z.to_euclidean_division_equations; lia.
  - intros i [[[mn mx] f] w0] Hi (H & (g0 & C0) & Hw & LF). set (k := - p + 2 * i) in *.
    assert (O : on p (- p) p k). { split; [lia|]. unfold k. replace (- p + 2 * i + p) with (i * 2) by lia. apply Z.mod_mul. lia. }
    destruct (before_step a b Mf p prev ok min_k max_k A B k (mn, mx, f) R O H) as (st' & Ev & H').
    pose proof (erase_visit p prev mn mx f w0 k) as Er. rewrite Ev in Er.
    replace (- p + 2 * (i + 1)) with (k + 2) by (unfold k; lia).
    assert (Q : mn <= k <= mx \/ ~ (mn <= k <= mx)) by lia. destruct Q as [Q|Q].
    + destruct (visit_counted_ok p prev ok min_k max_k A B k mn mx f g0 w0 R (in_range _ _ _ _ _ _ _ _ _ _ _ R O H Q) PD Q (proj1 H) C0 ltac:(destruct prev as [[q fq]|]; [destruct LP as [X1 X2]; split; [exact X1|intros kk vv Pk Ck; specialize (X2 kk vv Pk Ck); lia]|destruct LP; split; lia]) LF) as (mn' & mx' & f' & g1 & w1 & E1 & C1 & Hw1 & LF1).
      rewrite E1 in Er |- *. cbn [erase obind] in Er. injection Er as <-. exists (mn', mx', f', w1). split; [reflexivity|]. split; [exact H'|]. split; [exists g1; exact C1|]. split; [lia|exact LF1].
    + unfold visit_counted in Er |- *. destruct ((mn <=? k) && (k <=? mx)) eqn:Eb; [exfalso; apply Q; apply andb_prop in Eb as [E1 E2]; lia|].
      cbn [erase obind] in Er. injection Er as <-. exists (mn, mx, f, w0). split; [reflexivity|]. split; [exact H'|]. split; [|split; [lia|exact LF]]. exists g0.
      destruct C0 as [C1 C2 C3]. constructor; [exact C1|exact C2|]. intros j Hj. destruct (C3 j Hj) as [E1|(p' & v1 & F1 & L1 & L2 & G1 & P1 & Lt)]; [now left|right]. exists p', v1.
      split; [exact F1|]. repeat split; [exact L1|exact L2|exact G1|exact P1|]. intros Hle. apply Lt. lia.
  - exists mn, mx, f, g', w'. split; [exact E|]. replace (- p + 2 * (0 + Z.of_nat (Z.to_nat (p + 1)))) with (p + 2) in C' by lia. auto.
Qed.

(** The numbers kept in all rows. *)
Fixpoint kept (l : list path) : Z := match l with [] => 0 | (_, f) :: l => zlen f + kept l end.

Lemma chain_kept l p f L U : LcsProof.chain a b l p f L U -> zlen l = p + 1 /\ 2 * kept l = (p + 1) * (p + 2).
Proof.
  induction 1 as [f L U R Ln|l p f L U f' L' U' Ch [IH1 IH2] R Ln].
  - cbn [kept]. pose proof (row_len _ _ _ _ _ _ R). split; [reflexivity|lia].
  - cbn [kept]. pose proof (row_len _ _ _ _ _ _ R). rewrite zlen_cons. lia.
Qed.

Hypothesis RD : reach D m n.
Hypothesis MinD : forall q, reach q m n -> D <= q.

Lemma paths_counted_ok : forall fuel p f L U min_k max_k l g w,
  LcsProof.chain a b l p f L U -> low_side a p L U f min_k -> high_side b p L U f max_k ->
  p <= D -> D - p <= Z.of_nat fuel -> counted p (p + 2) min_k max_k g w -> low p f w -> 0 <= w ->
  exists l' g' w', paths_counted a b fuel p min_k max_k l w = Ok (l', w') /\ zlen l' = D + 1 /\ 2 * kept l' = (D + 1) * (D + 2) /\
    w' <= over diags (fun k => g' k - base k) /\ m + n - D <= 2 * w' /\ (forall k, base k <= g' k <= top k).
Proof.
  assert (Done : forall p f L U min_k max_k l g w, LcsProof.chain a b l p f L U -> low_side a p L U f min_k -> n - m < min_k -> p <= D -> counted p (p + 2) min_k max_k g w -> low p f w ->
    exists l' g' w', Ok (l, w) = Ok (l', w') /\ zlen l' = D + 1 /\ 2 * kept l' = (D + 1) * (D + 2) /\
    w' <= over diags (fun k => g' k - base k) /\ m + n - D <= 2 * w' /\ (forall k, base k <= g' k <= top k)).
  { intros p f L U min_k max_k l g w Ch Lo Dn PD C LF. destruct (chain_hd _ _ _ _ _ _ _ Ch) as [Hd R]. destruct (done_at _ _ _ _ _ _ _ R Lo Dn) as (O & Ce & Re).
    assert (p = D) as -> by (apply MinD in Re; lia). exists l, g, w. split; [reflexivity|]. destruct (chain_kept _ _ _ _ _ Ch) as [K1 K2].
    split; [exact K1|]. split; [exact K2|]. split; [apply (co_total _ _ _ _ _ _ C)|]. split; [|apply (co_range _ _ _ _ _ _ C)]. apply LF in Ce; [lia|apply O]. }
  induction fuel as [|fu IH]; intros p f L U min_k max_k l g w Ch Lo Hi PD Fu C LF W0; cbn [paths_counted];
    destruct (chain_hd _ _ _ _ _ _ _ Ch) as [Hd R]; destruct (Z.leb_spec min_k (n - m)) as [ND|Dn].
  - exfalso. apply (not_done _ _ _ _ _ _ _ R Lo ND). now replace p with D by lia.
  - eapply Done; eauto.
  - assert (p < D). { destruct (Z.eq_dec p D) as [->|]; [|lia]. destruct (not_done _ _ _ _ _ _ _ R Lo ND RD). }
    destruct (range_next _ _ _ _ _ _ _ _ R Lo Hi ND) as (A & B & Rg).
    destruct (row_ok a b Mf _ _ _ _ _ _ _ Rg) as (mn & mx & f' & U' & E & R' & Lo' & Hi' & Ln).
    destruct (row_counted _ _ _ _ _ _ _ g w Rg ltac:(lia) (counted_next _ _ _ _ _ _ C) ltac:(split; [lia|exact LF]) W0) as (mn2 & mx2 & f2 & g2 & w2 & E2 & C2 & W2 & LF2).
    assert (X : (mn2, mx2, f2) = (mn, mx, f')).
    { pose proof (erase_visits (p + 1) (Some (p, f)) (LcsModel.diagonals (p + 1)) min_k max_k (repeat 0 (Z.to_nat (p + 1 + 1))) w) as X. rewrite E2, E in X. cbn [erase obind] in X. congruence. }
    injection X as -> -> ->. rewrite Hd, E2. cbn [obind].
    apply (IH (p + 1) f' A U' mn mx ((p + 1, f') :: l) g2 w2); auto; try lia.
    econstructor; eauto.
  - eapply Done; eauto.
Qed.

Lemma over_top : 0 <= D -> over diags (fun k => top k - base k) <= (2 * D + 1) * Z.min m n.
Proof.
  intros H. replace (2 * D + 1) with (zlen diags).
  - rewrite <- (over_const a b). apply (over_le a b). intros k _. unfold top, base. pose proof (zlen_nonneg a). pose proof (zlen_nonneg b). lia.
  - unfold diags, zlen. rewrite zrange_length. lia.
Qed.

Lemma pathlist_counted_ok : exists l w, compute_pathlist_counted a b = Ok (l, w) /\ zlen l = D + 1 /\ 2 * kept l = (D + 1) * (D + 2) /\
  w <= (2 * D + 1) * Z.min m n /\ m + n - D <= 2 * w.
Proof.
  pose proof (zlen_nonneg a). pose proof (zlen_nonneg b). pose proof (proj1 (LcsProof.reach_range _ _ _ _ _ RD)) as D0.
  assert (D1 : D <= m + n). { apply MinD. apply reach_any; lia. }
  unfold compute_pathlist_counted. cbn [paths_counted].
  destruct (Z.leb_spec (- m) (n - m)) as [_|]; [|lia].
  destruct (row_ok a b Mf _ _ _ _ _ _ _ (range_first a b)) as (mn & mx & f & U & E & R & Lo & Hi & Ln).
  change (-1 + 1) with 0. cbn [hd_error].
  destruct (row_counted _ _ _ _ _ _ _ base 0 (range_first a b) D0) as (mn2 & mx2 & f2 & g2 & w2 & E2 & C2 & W2 & LF2).
  { constructor.
    - intros k. unfold top. lia.
    - rewrite (over_ext _ _ (fun _ => 0)) by (intros; lia). rewrite (over_const a b). lia.
    - intros k _. now left. }
  { split; lia. }
  { lia. }
  assert (X : (mn2, mx2, f2) = (mn, mx, f)).
  { pose proof (erase_visits 0 None (LcsModel.diagonals 0) (- m) n (repeat 0 (Z.to_nat (0 + 1))) 0) as X. rewrite E2, E in X. cbn [erase obind] in X. congruence. }
  injection X as -> -> ->. rewrite E2. cbn [obind].
  destruct (paths_counted_ok (List.length a + List.length b) 0 f 0 U mn mx [(0, f)] g2 w2) as (l & g & w & El & Z1 & Z2 & W & Lw & G); auto.
  - now constructor.
  - unfold zlen in *. lia.
  - exists l, w. split; [exact El|]. split; [exact Z1|]. split; [exact Z2|]. split; [|exact Lw]. etransitivity; [exact W|]. etransitivity; [|apply over_top; exact D0].
    apply (over_le a b). intros k _. specialize (G k). lia.
Qed.
End Lcs.
