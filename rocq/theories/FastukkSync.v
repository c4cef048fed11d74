(** fastukk_sync: the items produced by obtain_matches form an optimal synchronisation. *)
From Verif Require Import Base SyncModel SyncSpec EditProof SyncProof FastukkProof.
From Coq Require Import String.
Local Open Scope Z_scope.
Local Open Scope list_scope.

Definition scost (s : sync) : Z :=
  match mptr s with Some _ => 0 | None => fold_right Z.max 0 (map slen (subs s)) end.
Definition tcost (l : list sync) : Z := fold_right Z.add 0 (map scost l).

Lemma tcost_app l1 l2 : tcost (l1 ++ l2) = tcost l1 + tcost l2.
Proof. unfold tcost. induction l1; cbn [map app fold_right] in *; lia. Qed.

Lemma view_cost mem l : total_cost (view mem l) = tcost l.
Proof.
  unfold total_cost, tcost, view. rewrite map_map. f_equal. apply map_ext. intros s.
  unfold item_cost, scost, is_match. cbn. now destruct (mptr s).
Qed.

Lemma lev_app a1 b1 a2 b2 : lev (a1 ++ a2) (b1 ++ b2) <= lev a1 b1 + lev a2 b2.
Proof. apply lev_min, edits_app; apply lev_edits. Qed.

Lemma lev_same w : ~ In 126 w -> lev w w <= 0.
Proof. intros H. apply lev_min, edits_refl, H. Qed.

Section Texts.
Variables a b : list Z.
Let m := zlen a.
Let n := zlen b.
Let n_m := n - m.
Let D := lev a b.

Lemma cost_lower l : forall i j,
  Forall (fun s => zlen (subs s) = 2) l ->
  Forall (fun s => mptr s <> None -> gen [a; b] (subs s)) l ->
  consecutive i (col 0 (map subs l)) m -> consecutive j (col 1 (map subs l)) n ->
  0 <= i -> 0 <= j ->
  lev (sfx a i) (sfx b j) <= tcost l.
Proof.
  induction l as [|s l IH]; intros i j H2 Hg Ca Cb Hi Hj.
  - cbn in Ca, Cb. subst i j. rewrite !sfx_all by (fold m n; lia). cbn. lia.
  - apply Forall_cons_iff in H2 as [H2 H2']. apply Forall_cons_iff in Hg as [Hg Hg'].
    destruct (znth_lt_Some (subs s) 0) as [u Hu]; [lia|].
    destruct (znth_lt_Some (subs s) 1) as [v Hv]; [lia|].
    cbn [map] in Ca, Cb. rewrite (col_cons _ _ _ _ Hu) in Ca. rewrite (col_cons _ _ _ _ Hv) in Cb.
    destruct Ca as (A1 & A2 & A3 & A4). destruct Cb as (B1 & B2 & B3 & B4).
    rewrite (slice_sfx a i (slen u)), (slice_sfx b j (slen v)) by lia.
    pose proof (lev_app (slice a i (slen u)) (slice b j (slen v))
      (sfx a (i + slen u)) (sfx b (j + slen v))) as Happ.
    rewrite A1 in A4. rewrite B1 in B4.
    specialize (IH (i + slen u) (j + slen v) H2' Hg' A4 B4 ltac:(lia) ltac:(lia)).
    pose proof (consecutive_le _ _ _ A4). pose proof (consecutive_le _ _ _ B4).
    change (tcost (s :: l)) with (scost s + tcost l).
    assert (lev (slice a i (slen u)) (slice b j (slen v)) <= scost s); [|lia].
    unfold scost. destruct (mptr s) as [p|] eqn:Ep.
    + destruct Hg as (w & W1 & W2 & W3); [discriminate|].
      destruct (W3 0 a eq_refl) as (u' & Hu' & _ & Wa).
      destruct (W3 1 b eq_refl) as (v' & Hv' & _ & Wb).
      assert (u' = u) by congruence. assert (v' = v) by congruence. subst u' v'.
      rewrite <- A1, <- B1, Wa, Wb. now apply lev_same.
    + pose proof (lev_upper (slice a i (slen u)) (slice b j (slen v))) as Hup.
      rewrite !zlen_slice in Hup by (fold m n; lia).
      destruct (subs s) as [|u' [|v' [|]]]; try (cbn in H2; lia).
      change (Some u' = Some u) in Hu. change (Some v' = Some v) in Hv.
      injection Hu as <-. injection Hv as <-.
      cbn [map fold_right]. lia.
Qed.

(** *** obtain_matches *)

Lemma run_same s0 i k :
  0 <= s0 -> 0 <= s0 + k -> run a b s0 i k ->
  same_text [a; b] [s0; s0 + k] (i - s0).
Proof.
  intros Hs Hk [Hle Hrun].
  assert (forall x, 0 <= x < i - s0 -> exists c, znth a (s0 + x) = Some c /\
            znth b (s0 + k + x) = Some c /\ c <> 126) as Hx.
  { intros x Hx. destruct (Hrun (s0 + x)) as (c & H1 & H2 & H3); [lia|].
    exists c. replace (s0 + k + x) with (s0 + x + k) by lia. auto. }
  assert (i = s0 \/ (i <= zlen a /\ i + k <= zlen b)) as Hbnd.
  { destruct (Z.eq_dec i s0); [now left|right].
    destruct (Hrun (i - 1)) as (c & H1 & H2 & _); [lia|].
    apply znth_Some_lt in H1, H2. lia. }
  assert (zlen (slice a s0 (i - s0)) = i - s0) as La.
  { destruct Hbnd as [->|Hb]; [rewrite Z.sub_diag; reflexivity|]. apply zlen_slice; lia. }
  assert (zlen (slice b (s0 + k) (i - s0)) = i - s0) as Lb.
  { destruct Hbnd as [->|Hb]; [rewrite Z.sub_diag; reflexivity|]. apply zlen_slice; lia. }
  exists (slice a s0 (i - s0)). split; [exact La|]. split.
  - intros Hi. apply In_znth in Hi as (x & Hx1 & Hx2). rewrite La in Hx1.
    rewrite znth_slice in Hx2 by lia. destruct (Hx x Hx1) as (c & H1 & _ & H3). congruence.
  - assert (slice b (s0 + k) (i - s0) = slice a s0 (i - s0)) as E.
    { apply znth_ext; [lia|]. intros x Hxr. rewrite Lb in Hxr. rewrite !znth_slice by lia.
      destruct (Hx x Hxr) as (c & -> & -> & _). reflexivity. }
    intros t text Ht. pose proof (znth_Some_lt _ _ _ Ht) as Hr. cbn in Hr.
    assert (t = 0 \/ t = 1) as [->| ->] by lia; cbn in Ht; injection Ht as <-.
    + exists s0. auto.
    + exists (s0 + k). auto.
Qed.

Definition head_region (sl : synclist) (x y : Z) (rest : list sync) : Prop :=
  exists id, items sl = mksync id [mksub 0 (x - 1) x; mksub 0 (y - 1) y] None :: rest.

(** obtain_matches with a check that no item is matched a second time. *)
Fixpoint careful_obtain (paths : list path) (k : option Z) (sl : synclist) : outcome synclist :=
  match paths with
  | [] => Ok sl
  | pa :: rest =>
      let! k := get_set "prev_k" k in
      let! f := rd "path->f" (pf pa) (k - start_k pa) in
      let! (s0, prev_k) := initial_f k (hd_error rest) in
      let! sl :=
        if s0 <? f then
          match items sl with
          | [] => UB "synclist->first is NULL"
          | s :: _ => if unmatched s then save_match (mkslist (items sl) (fresh sl + 1)) (sid s)
                        [s0; s0 + k] (f - s0) (fresh sl) else UB "matched twice"
          end
        else Ok sl in
      careful_obtain rest prev_k sl
  end.

Lemma careful_obtain_loop : forall paths k sl sl', careful_obtain paths k sl = Ok sl' -> obtain_loop paths k sl = Ok sl'.
Proof.
  induction paths as [|pa rest IH]; intros k sl sl' H; [exact H|]. cbn [careful_obtain obtain_loop] in *.
  destruct (get_set "prev_k" k) as [k'| | |]; cbn [obind] in *; try exact H.
  destruct (rd "path->f" (pf pa) (k' - start_k pa)) as [f| | |]; cbn [obind] in *; try exact H.
  destruct (initial_f k' (hd_error rest)) as [[s0 pk]| | |]; cbn [obind] in *; try exact H.
  destruct (s0 <? f); [|cbn [obind] in *; now apply IH].
  destruct (items sl) as [|s its]; [exact H|]. destruct (unmatched s); [|discriminate H].
  destruct (save_match _ _ _ _ _) as [sl1| | |]; cbn [obind] in *; try exact H. now apply IH.
Qed.

Lemma obtain_careful_ok : forall r older k X sl X' Y' rest,
  chain a b (r :: older) -> rowf r k = Some X ->
  linv [a; b] sl -> NoDup (ptrs (items sl)) -> Forall (fun p => p < fresh sl) (ptrs (items sl)) ->
  (head_region sl X' Y' rest \/ (items sl = [] /\ X' = 0 /\ Y' = 0 /\ rest = [])) ->
  X <= X' -> X + k <= Y' ->
  Z.max (X' - X) (Y' - (X + k)) + tcost rest <= D - zlen older ->
  exists sl', careful_obtain (r :: older) (Some k) sl = Ok sl' /\ linv [a; b] sl' /\
    NoDup (ptrs (items sl')) /\ tcost (items sl') <= D.
Proof.
  intros r older. revert r. induction older as [|r' older IH];
    intros r k X sl X' Y' rest Hch Hr Hinv Hnd Hpf Hhead HX HY Hcost.
  - (* first row *)
    cbn [careful_obtain get_set obind]. unfold rowf in Hr. unfold rd at 1. rewrite Hr. cbn [obind].
    destruct Hch as [Hent _]. destruct (Hent k X Hr) as (s0 & pk & E & Hpred & Hs & Hrun).
    cbn [hd_error pred_ok] in *. rewrite E. cbn [obind].
    destruct Hpred as [-> ->]. change (zlen (@nil path)) with 0 in Hcost.
    destruct (Z.ltb_spec 0 X) as [Hlt|Hge].
    + destruct Hhead as [[id Hh]|(_ & -> & _)]; [|lia].
      set (sl0 := mkslist (items sl) (fresh sl + 1)).
      set (s := mksync id _ None) in Hh. rewrite Hh. change (unmatched s) with true. lazy beta iota.
      assert (linv [a; b] sl0) as Hinv0.
      { destruct Hinv. constructor; auto. eapply Forall_impl; eauto. cbn. intros; lia. }
      assert (items sl0 = [] ++ s :: rest) as Hit by exact Hh.
      destruct (save_match_ok [a; b] sl0 [] s rest [0; 0 + 0] (X - 0) (fresh sl))
        as (sl' & Esl & Hinv' & Hitems & Hfr); auto.
      { split; [lia|]. split; [reflexivity|]. intros t u st Hu Hst.
        pose proof (znth_Some_lt _ _ _ Hst) as Ht. cbn in Ht.
        assert (t = 0 \/ t = 1) as [->| ->] by lia; cbn in Hu, Hst;
          injection Hu as <-; injection Hst as <-; cbn; lia. }
      { apply run_same; auto; lia. }
      rewrite Esl. cbn [obind]. exists sl'. split; [reflexivity|].
      split; [exact Hinv'|].
      rewrite Hitems. split.
      * rewrite (ptrs_save [] _ _ _ _ (fresh sl)) by reflexivity. cbn [ptrs flat_map app].
        fold (ptrs rest).
        rewrite Hh in Hnd, Hpf. cbn [ptrs flat_map s mptr app] in Hnd, Hpf.
        fold (ptrs rest) in *. constructor; [|exact Hnd].
        intros Hi. rewrite Forall_forall in Hpf. specialize (Hpf _ Hi). lia.
      * assert (opt_item (left_of sl0 s [0; 0 + 0] (X - 0)) = []) as -> by reflexivity.
        cbn [app]. change (mid_of s [0; 0 + 0] (X - 0) (fresh sl) :: ?l)
          with ([mid_of s [0; 0 + 0] (X - 0) (fresh sl)] ++ l).
        rewrite !tcost_app. unfold opt_item. destruct (valid_sync _).
        -- cbn -[Z.max Z.sub Z.add]. lia.
        -- cbn -[Z.max Z.sub Z.add]. lia.
    + cbn [obind]. exists sl. split; [reflexivity|]. split; [exact Hinv|]. split; [exact Hnd|].
      destruct Hs as (S1 & _). destruct Hrun as [Hle _]. assert (X = 0) as -> by lia.
      destruct Hhead as [[id Hh]|(Hh & -> & -> & ->)]; rewrite Hh.
      * cbn -[Z.max Z.sub Z.add tcost]. change (tcost (?x :: ?l)) with (scost x + tcost l).
        cbn -[Z.max Z.sub Z.add tcost]. lia.
      * cbn. unfold D. apply lev_nonneg.
  - change (careful_obtain (r :: r' :: older) (Some k) sl) with
      (let! k0 := get_set "prev_k" (Some k) in
       let! f := rd "path->f" (pf r) (k0 - start_k r) in
       let! (s0, prev_k) := initial_f k0 (Some r') in
       let! sl0 :=
         if s0 <? f then
           match items sl with
           | [] => UB "synclist->first is NULL"
           | s :: _ => if unmatched s then save_match (mkslist (items sl) (fresh sl + 1)) (sid s)
                         [s0; s0 + k0] (f - s0) (fresh sl) else UB "matched twice"
           end
         else Ok sl in
       careful_obtain (r' :: older) prev_k sl0).
    cbn [get_set obind]. unfold rowf in Hr. unfold rd at 1. rewrite Hr. cbn [obind].
    destruct Hch as [Hent Hch]. destruct (Hent k X Hr) as (s0 & pk & E & Hpred & Hs & Hrun).
    cbn [hd_error pred_ok] in *. rewrite E. cbn [obind].
    destruct Hpred as [(kp & ip & -> & Hip & Hkp & Es0) _].
    rewrite zlen_cons in *. pose proof (zlen_nonneg older) as Hol.
    pose proof (sound_abs a b _ _ _ Hs) as Habs.
    destruct Hs as (S1 & S2 & S3).
    assert (Z.max (s0 - ip) (s0 + k - (ip + kp)) <= 1 /\ ip <= s0 /\ ip + kp <= s0 + k) as Hstep.
    { rewrite Es0. unfold inc. destruct (Z.leb_spec k kp); lia. }
    destruct Hrun as [Hle Hrun0] eqn:Erun. clear Erun.
    destruct (Z.ltb_spec s0 X) as [Hlt|Hge].
    + assert (0 < s0 \/ 0 < s0 + k) as Hpos.
      { destruct (Z.eq_dec s0 0) as [E0|]; [|lia]. destruct (Z.eq_dec (s0 + k) 0) as [E1|]; [|lia].
        exfalso. rewrite E0 in S3. replace (0 + k) with 0 in S3 by lia. cbn in S3.
        inversion S3. lia. }
      destruct Hhead as [[id Hh]|(_ & -> & _)]; [|lia].
      set (sl0 := mkslist (items sl) (fresh sl + 1)).
      set (s := mksync id _ None) in Hh. rewrite Hh. change (unmatched s) with true. lazy beta iota.
      assert (linv [a; b] sl0) as Hinv0.
      { destruct Hinv. constructor; auto. eapply Forall_impl; eauto. cbn. intros; lia. }
      assert (items sl0 = [] ++ s :: rest) as Hit by exact Hh.
      destruct (save_match_ok [a; b] sl0 [] s rest [s0; s0 + k] (X - s0) (fresh sl))
        as (sl' & Esl & Hinv' & Hitems & Hfr); auto.
      { split; [lia|]. split; [reflexivity|]. intros t u st Hu Hst.
        pose proof (znth_Some_lt _ _ _ Hst) as Ht. cbn in Ht.
        assert (t = 0 \/ t = 1) as [->| ->] by lia; cbn in Hu, Hst;
          injection Hu as <-; injection Hst as <-; cbn; lia. }
      { apply run_same; auto; lia. }
      rewrite Esl. cbn [obind].
      assert (ptrs (items sl') = fresh sl :: ptrs rest) as Hptrs.
      { rewrite Hitems. now rewrite (ptrs_save [] _ _ _ _ (fresh sl)) by reflexivity. }
      assert (opt_item (left_of sl0 s [s0; s0 + k] (X - s0)) =
              [left_of sl0 s [s0; s0 + k] (X - s0)]) as Eleft.
      { unfold opt_item. assert (valid_sync (subs (left_of sl0 s [s0; s0 + k] (X - s0))) = true) as ->;
          [|reflexivity].
        cbn -[Z.sub Z.ltb]. destruct (Z.ltb_spec 0 (s0 - 0)); [reflexivity|].
        destruct (Z.ltb_spec 0 (s0 + k - 0)); [reflexivity|lia]. }
      rewrite Eleft in Hitems. cbn [app] in Hitems.
      rewrite Hh in Hnd, Hpf. cbn [ptrs flat_map s mptr app] in Hnd, Hpf. fold (ptrs rest) in *.
      eapply (IH r' kp ip sl' s0 (s0 + k)); eauto; try lia.
      * rewrite Hptrs. constructor; [|exact Hnd].
        intros Hi. rewrite Forall_forall in Hpf. specialize (Hpf _ Hi). lia.
      * rewrite Hptrs, Hfr. constructor; [cbn; lia|]. eapply Forall_impl; eauto. cbn. intros; lia.
      * left. eexists. rewrite Hitems. unfold left_of, sl0. cbn [fresh].
        f_equal. unfold zip_starts, left_sub. cbn [subs s combine map fst snd start].
        rewrite !Z.sub_0_r. reflexivity.
      * match goal with |- _ + tcost ?l <= _ =>
          assert (tcost l <= D - (zlen older + 1)) end; [|lia].
        change (mid_of s [s0; s0 + k] (X - s0) (fresh sl) :: ?l)
          with ([mid_of s [s0; s0 + k] (X - s0) (fresh sl)] ++ l).
        rewrite !tcost_app. unfold opt_item. destruct (valid_sync _).
        -- cbn -[Z.max Z.sub Z.add tcost].
           change (tcost [?x]) with (scost x + 0). cbn -[Z.max Z.sub Z.add tcost]. lia.
        -- change (tcost [mid_of s [s0; s0 + k] (X - s0) (fresh sl)]) with 0.
           change (tcost []) with 0. lia.
    + cbn [obind]. assert (X = s0) as -> by lia.
      eapply (IH r' kp ip sl X' Y'); eauto; lia.
Qed.

Lemma obtain_ok : forall r older k X sl X' Y' rest,
  chain a b (r :: older) -> rowf r k = Some X ->
  linv [a; b] sl -> NoDup (ptrs (items sl)) -> Forall (fun p => p < fresh sl) (ptrs (items sl)) ->
  (head_region sl X' Y' rest \/ (items sl = [] /\ X' = 0 /\ Y' = 0 /\ rest = [])) ->
  X <= X' -> X + k <= Y' ->
  Z.max (X' - X) (Y' - (X + k)) + tcost rest <= D - zlen older ->
  exists sl', obtain_loop (r :: older) (Some k) sl = Ok sl' /\ linv [a; b] sl' /\
    NoDup (ptrs (items sl')) /\ tcost (items sl') <= D.
Proof.
  intros r older k X sl X' Y' rest A1 A2 A3 A4 A5 A6 A7 A8 A9.
  destruct (obtain_careful_ok r older k X sl X' Y' rest A1 A2 A3 A4 A5 A6 A7 A8 A9) as (sl' & R & Q).
  exists sl'. split; [|exact Q]. now apply careful_obtain_loop.
Qed.

Theorem fastukk_ok : zlen a <= MAX_F ->
  exists l, fastukk_sync a b = Ok l /\ partition [a; b] l /\ matches_genuine [a; b] l /\
    numbered_in_order l /\ total_cost l = D.
Proof.
  intros Hmax. unfold fastukk_sync. destruct (Z.ltb_spec MAX_F (zlen a)) as [|_]; [lia|].
  destruct (compute_pathlist_ok a b) as (r & older & E & Hlen & Hch & Hr). rewrite E.
  cbn [obind].
  set (sl := initialize_synclist [a; b] 1).
  assert (linv [a; b] sl) as Hinv by apply initialize_linv.
  assert (ptrs (items sl) = []) as Hptr by apply initialize_ptrs.
  destruct (obtain_ok r older n_m m sl m n []) as (sl' & E' & Hinv' & Hnd' & Hc'); auto.
  - rewrite Hptr. constructor.
  - rewrite Hptr. constructor.
  - unfold sl, initialize_synclist. cbn [map]. fold m n.
    destruct (valid_sync _) eqn:Ev.
    + left. eexists. reflexivity.
    + right. cbn -[Z.ltb] in Ev. fold m n in Ev.
      pose proof (zlen_nonneg a) as Ha0. pose proof (zlen_nonneg b) as Hb0.
      fold m in Ha0. fold n in Hb0.
      destruct (Z.ltb_spec 0 m); [discriminate|]. destruct (Z.ltb_spec 0 n); [discriminate|].
      repeat split; lia.
  - lia.
  - unfold n_m. lia.
  - cbn [tcost map fold_right]. unfold n_m. fold D in Hlen. lia.
  - fold m n n_m. rewrite E'. cbn [obind]. eexists. split; [reflexivity|].
    split; [now apply view_partition|]. split; [now apply view_genuine|].
    split; [now apply view_numbered|]. rewrite view_cost.
    assert (D <= tcost (items sl')); [|lia].
    unfold D. rewrite <- (sfx_0 a) at 1. rewrite <- (sfx_0 b) at 1.
    destruct (li_part _ _ Hinv') as (P1 & P2 & P3).
    apply cost_lower; try lia.
    + rewrite Forall_map in P1. exact P1.
    + apply (li_gen _ _ Hinv').
    + apply (P2 0 a). reflexivity.
    + apply (P2 1 b). reflexivity.
Qed.

End Texts.
