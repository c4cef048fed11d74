(** Proofs about MemSyncModel: transpose_sync. *)
From Coq Require Import String Permutation.
From Verif Require Import Base CLib ListModel ListSpec ListProof SyncModel SyncSpec SyncProof HeurProof TransProof MemSyncModel MemSyncSpec MemTextProof MemWordProof MemSyncProof MemSyncSim.
Local Open Scope Z_scope.
Local Open Scope list_scope.

(** The result of the search, with addresses instead of identities. *)
Definition strel (nu1 nu2 : Z -> addr) (st st' : trstate) : Prop :=
  trlen st' = trlen st /\ trs1 st' = trs1 st /\ trs2 st' = trs2 st /\ 0 <= trlen st /\
  (trlen st <> 0 -> tr1 st' = option_map nu1 (tr1 st) /\ tr2 st' = option_map nu2 (tr2 st)).

Lemma sub0_of_ok m a u p ss : proper m -> held m a = Some (BSync u p) -> held m u = Some (BSubs ss) -> forall i q, sub0_of m a = sub0 (mksync i ss q).
Proof. intros P A U i q. unfold sub0_of. rewrite (subs_of_ok _ _ _ _ _ P A U). reflexivity. Qed.

Lemma inner_sim t1 t2 nu1 nu2 mu m s1 : proper m -> sub0_of m (nu1 (sid s1)) = sub0 s1 ->
  forall R RA p fuel st st' st2, Forall2 (is_cell m) (cells_of mu R) RA -> dlseg (slinks m) p (map fst RA) NULL -> map fst RA = map nu2 (map sid R) ->
  (forall i, In i (ptrs R) -> mu i <> NULL) -> strel nu1 nu2 st st' -> (List.length R <= fuel)%nat -> tr_inner t1 t2 s1 R st = Ok st2 ->
  exists st2', search_inner fuel t1 t2 m (nu1 (sid s1)) (hd NULL (map fst RA)) st' = Ok st2' /\ strel nu1 nu2 st2 st2'.
Proof.
  intros P U1. induction R as [|s2 R IH]; intros RA p fuel st st' st2 F Sg Ad Nz Rl Fu H.
  - inversion F; subst. injection H as <-. exists st'. destruct fuel; auto.
  - unfold cells_of in F. cbn [map] in F. inversion F as [|? [a u] ? RA' [Ha Hu] F']; subst. cbn [fst snd] in *. cbn [map fst hd dlseg] in *. destruct Sg as (Na & Lk & Sg).
    injection Ad as Ea Ad. destruct fuel as [|f]; [cbn in Fu; lia|]. cbn [search_inner]. rewrite (proj2 (Z.eqb_neq _ _) Na).
    rewrite (get_sync_ok _ _ _ _ P Ha). cbn [obind]. rewrite U1, (sub0_of_ok _ _ _ _ _ P Ha Hu (sid s2) (mptr s2)), Lk. cbn [next].
    assert (mksync (sid s2) (subs s2) (mptr s2) = s2) as -> by (now destruct s2).
    unfold tr_inner in H. cbn [ofold] in H. match type of H with obind ?e _ = _ => change (obind e (tr_inner t1 t2 s1 R) = Ok st2) in H end.
    destruct (sub0 s1) as [u1| | |]; try discriminate H. cbn [obind] in *. destruct (sub0 s2) as [u2| | |]; try discriminate H. cbn [obind] in *.
    assert ((ptr mu (mptr s2) =? NULL) = unmatched s2) as ->.
    { unfold unmatched. destruct (mptr s2) as [i|] eqn:Em; cbn [ptr]; [|apply Z.eqb_refl]. apply Z.eqb_neq, Nz. cbn [ptrs flat_map]. rewrite Em. now left. }
    destruct Rl as (R1 & R2 & R3 & R4 & R5). rewrite R1, R2, R3.
    assert (forall i, In i (ptrs R) -> mu i <> NULL) as Nz' by (intros i I; apply Nz; cbn [ptrs flat_map]; apply in_or_app; now right).
    assert (List.length R <= f)%nat as Fu' by (cbn in Fu; lia).
    destruct (unmatched s2 && (trlen st <? slen u2)).
    + destruct (longest_match _ _ _ _ _ _ _ _ _) as [[[nl a1] a2]| | |]; try discriminate H. cbn [obind] in *. destruct (Z.ltb_spec (trlen st) nl).
      * apply (IH RA' a f (mktr nl (Some (sid s1)) (Some (sid s2)) a1 a2) (mktr nl (Some (nu1 (sid s1))) (Some a) a1 a2) st2); auto.
        split; [reflexivity|]. split; [reflexivity|]. split; [reflexivity|]. split; [cbn; lia|]. intros _. cbn. subst a. auto.
      * apply (IH RA' a f (mktr (trlen st) (tr1 st) (tr2 st) a1 a2) (mktr (trlen st) (tr1 st') (tr2 st') a1 a2) st2); auto.
        split; [reflexivity|]. split; [reflexivity|]. split; [reflexivity|]. split; [exact R4|]. cbn. exact R5.
    + cbn [obind] in *. apply (IH RA' a f st st' st2); auto. unfold strel. auto.
Qed.

Lemma outer_sim t1 t2 nu1 nu2 mu m sl2 l2 aus2 : proper m -> rel 1 nu2 mu sl2 l2 m aus2 -> (forall i, In i (ptrs (items sl2)) -> mu i <> NULL) ->
  forall R RA p fuel st st' st2, Forall2 (is_cell m) (cells_of mu R) RA -> dlseg (slinks m) p (map fst RA) NULL -> map fst RA = map nu1 (map sid R) ->
  (forall i, In i (ptrs R) -> mu i <> NULL) -> strel nu1 nu2 st st' -> (List.length R <= fuel)%nat ->
  ofold (fun st s1 => let! u1 := sub0 s1 in if unmatched s1 && (trlen st <? slen u1) then tr_inner t1 t2 s1 (items sl2) st else Ok st) R st = Ok st2 ->
  exists st2', search_outer fuel t1 t2 l2 m (hd NULL (map fst RA)) st' = Ok st2' /\ strel nu1 nu2 st2 st2'.
Proof.
  intros P Re2 Nz2. induction R as [|s1 R IH]; intros RA p fuel st st' st2 F Sg Ad Nz Rl Fu H.
  - inversion F; subst. injection H as <-. exists st'. destruct fuel; auto.
  - unfold cells_of in F. cbn [map] in F. inversion F as [|? [a u] ? RA' [Ha Hu] F']; subst. cbn [fst snd] in *. cbn [map fst hd dlseg] in *. destruct Sg as (Na & Lk & Sg).
    injection Ad as Ea Ad. destruct fuel as [|f]; [cbn in Fu; lia|]. cbn [search_outer]. rewrite (proj2 (Z.eqb_neq _ _) Na).
    rewrite (get_sync_ok _ _ _ _ P Ha). cbn [obind]. pose proof (sub0_of_ok _ _ _ _ _ P Ha Hu (sid s1) (mptr s1)) as Us. rewrite Us, Lk. cbn [next].
    assert (mksync (sid s1) (subs s1) (mptr s1) = s1) as Eta by (now destruct s1). rewrite Eta in *.
    cbn [ofold] in H. destruct (sub0 s1) as [u1| | |] eqn:Eu; try discriminate H. cbn [obind] in *.
    assert ((ptr mu (mptr s1) =? NULL) = unmatched s1) as ->.
    { unfold unmatched. destruct (mptr s1) as [i|] eqn:Em; cbn [ptr]; [|apply Z.eqb_refl]. apply Z.eqb_neq, Nz. cbn [ptrs flat_map]. rewrite Em. now left. }
    assert (forall i, In i (ptrs R) -> mu i <> NULL) as Nz' by (intros i I; apply Nz; cbn [ptrs flat_map]; apply in_or_app; now right).
    assert (List.length R <= f)%nat as Fu' by (cbn in Fu; lia).
    rewrite (proj1 Rl). destruct (unmatched s1 && (trlen st <? slen u1)).
    + destruct (tr_inner t1 t2 s1 (items sl2) st) as [st1| | |] eqn:Ei; try discriminate H. cbn [obind] in *.
      pose proof (re_holds _ _ _ _ _ _ _ Re2) as [I2 C2 _]. rewrite (inv_first _ _ _ I2), (inv_count _ _ _ I2), Ea. unfold zlen at 1. rewrite Nat2Z.id.
      destruct (inner_sim t1 t2 nu1 nu2 mu m s1 P) with (R := items sl2) (RA := aus2) (p := NULL) (fuel := List.length (map fst aus2)) (st := st) (st' := st') (st2 := st1) as (st1' & E1 & Rl1); auto.
      { rewrite <- Ea, Us. now symmetry. }
      { apply I2. }
      { apply Re2. }
      { rewrite (rel_len _ _ _ _ _ _ _ Re2), map_length. lia. }
      rewrite E1. cbn [obind]. apply (IH RA' a f st1 st1' st2); auto.
    + cbn [obind] in *. apply (IH RA' a f st st' st2); auto.
Qed.

Lemma search_sim t1 t2 nu1 nu2 mu m sl1 l1 aus1 sl2 l2 aus2 st0 st0' st : proper m -> rel 1 nu1 mu sl1 l1 m aus1 -> rel 1 nu2 mu sl2 l2 m aus2 ->
  (forall i, In i (ptrs (items sl1)) -> mu i <> NULL) -> (forall i, In i (ptrs (items sl2)) -> mu i <> NULL) ->
  trs1 st0' = trs1 st0 -> trs2 st0' = trs2 st0 -> tr_search t1 t2 (items sl1) (items sl2) st0 = Ok st ->
  exists st', search_outer (Z.to_nat (count l1)) t1 t2 l2 m (first l1) (mktr 0 (tr1 st0') (tr2 st0') (trs1 st0') (trs2 st0')) = Ok st' /\ strel nu1 nu2 st st'.
Proof.
  intros P Re1 Re2 N1 N2 E1 E2 H. pose proof (re_holds _ _ _ _ _ _ _ Re1) as [I1 C1 _]. rewrite (inv_first _ _ _ I1), (inv_count _ _ _ I1).
  unfold zlen. rewrite Nat2Z.id. eapply (outer_sim t1 t2 nu1 nu2 mu m sl2 l2 aus2 P Re2 N2 (items sl1) aus1 NULL); eauto.
  - apply I1.
  - apply Re1.
  - split; [reflexivity|]. split; [exact E1|]. split; [exact E2|]. split; [cbn; lia|]. cbn. congruence.
  - rewrite (rel_len _ _ _ _ _ _ _ Re1), map_length. lia.
Qed.

(** The two lists and their common numbers. *)
Record both (t1 t2 : list Z) (nu1 nu2 mu : Z -> addr) (sl1 sl2 : synclist) (k : Z) (l1 l2 : header) (m : store) (aus1 aus2 : list (addr * addr)) : Prop := {
  bo_1 : rel 1 nu1 mu sl1 l1 m aus1;
  bo_2 : rel 1 nu2 mu sl2 l2 m aus2;
  bo_proper : proper m;
  bo_nums : nums m mu (ptrs (items sl1));
  bo_sep : forall a, In a (flat aus1) -> ~ In a (flat aus2);
  bo_inv : tinv t1 t2 sl1 sl2 k }.
Definition ours (mu : Z -> addr) (sl1 : synclist) (aus1 aus2 : list (addr * addr)) : list addr := flat aus1 ++ flat aus2 ++ map mu (ptrs (items sl1)).

Lemma rel_frame n nu mu sl l m m' aus : (forall a, In a (flat aus) -> held m' a = held m a /\ slinks m' a = slinks m a) -> rel n nu mu sl l m aus -> rel n nu mu sl l m' aus.
Proof. intros E [H A B C D]. constructor; auto. eapply holds_frame; eauto. Qed.
Lemma rel_mu n nu mu i p sl l m aus : ~ In i (ptrs (items sl)) -> rel n nu mu sl l m aus -> rel n nu (upd mu i p) sl l m aus.
Proof. intros N [H A B C D]. constructor; auto. now rewrite cells_of_upd. Qed.

Lemma both_alloc t1 t2 nu1 nu2 mu sl1 sl2 k l1 l2 m aus1 aus2 : both t1 t2 nu1 nu2 mu sl1 sl2 k l1 l2 m aus1 aus2 -> Forall (allocated m) (ours mu sl1 aus1 aus2).
Proof.
  intros [R1 R2 _ N _ _]. apply Forall_app. split; [eapply holds_alloc, re_holds; eauto|]. apply Forall_app. split; [eapply holds_alloc, re_holds; eauto|now apply nums_alloc].
Qed.

Section Alloc.
Variable alloc : (addr -> bool) -> Z -> addr.
Hypothesis Halloc : sound_calloc alloc.

Lemma loop_sim t1 t2 : forall fuel sl1 sl2 k st0 sl1' sl2' , tr_loop fuel t1 t2 sl1 sl2 k st0 = Ok (sl1', sl2') -> forall nu1 nu2 mu l1 l2 m aus1 aus2 st0',
  both t1 t2 nu1 nu2 mu sl1 sl2 k l1 l2 m aus1 aus2 -> trs1 st0' = trs1 st0 -> trs2 st0' = trs2 st0 ->
  transpose_loop alloc fuel t1 t2 l1 l2 m st0' = Fail nomem \/
  exists l1' l2' m' nu1' nu2' mu' k' aus1' aus2', transpose_loop alloc fuel t1 t2 l1 l2 m st0' = Ok (l1', l2', m') /\
    both t1 t2 nu1' nu2' mu' sl1' sl2' k' l1' l2' m' aus1' aus2' /\ moved m m' (ours mu sl1 aus1 aus2) (ours mu' sl1' aus1' aus2').
Proof.
  induction fuel as [|f IH]; intros sl1 sl2 k st0 sl1' sl2' H nu1 nu2 mu l1 l2 m aus1 aus2 st0' B S1 S2.
  all: pose proof (both_alloc _ _ _ _ _ _ _ _ _ _ _ _ _ B) as Al; pose proof B as B0; destruct B as [Re1 Re2 P Nu Sep Ti].
  all: assert (forall i, In i (ptrs (items sl1)) -> mu i <> NULL) as N1 by
    (intros i I; destruct Nu as [Nu _]; rewrite Forall_forall in Nu; destruct (Nu i I) as (v & E); apply (proper_not m); [exact P|unfold allocated; congruence]).
  all: assert (forall i, In i (ptrs (items sl2)) -> mu i <> NULL) as N2 by (intros i I; apply N1; now apply (ti_set _ _ _ _ _ Ti)).
  all: cbn [tr_loop transpose_loop] in *; destruct (tr_search t1 t2 (items sl1) (items sl2) st0) as [st| | |] eqn:Es; try discriminate H; cbn [obind] in H.
  all: destruct (search_sim t1 t2 nu1 nu2 mu m sl1 l1 aus1 sl2 l2 aus2 st0 st0' st P Re1 Re2 N1 N2 S1 S2 Es) as (st' & -> & Rl); cbn [obind].
  all: rewrite (proj1 Rl); destruct (Z.eqb_spec (trlen st) 0) as [E0|E0]; [injection H as <- <-; right; exists l1, l2, m, nu1, nu2, mu, k, aus1, aus2; split; [reflexivity|]; split; [exact B0|now apply moved_refl]|].
  - discriminate H.
  - destruct (tr_step t1 t2 sl1 sl2 k st0 st Ti Es E0) as (s1 & s2 & a1 & a2 & sl1a & sl2a & I1 & M1 & T1 & I2 & M2 & T2 & A1 & A2 & E1 & E2 & Ti' & _).
    rewrite T1, T2, A1, A2 in H. cbn [get_set obind] in H. rewrite E1 in H. cbn [obind] in H. rewrite E2 in H. cbn [obind] in H.
    destruct Rl as (_ & Q1 & Q2 & _ & Q3). destruct (Q3 E0) as [Q4 Q5]. rewrite T1 in Q4. rewrite T2 in Q5. cbn [option_map] in Q4, Q5.
    destruct (new_ok alloc Halloc m (BLong 0) P) as [->|(p & -> & Ap & Np)]; [now left|]. cbn [obind].
    rewrite Q4, Q5, Q1, Q2, A1, A2. cbn [get_set obind]. set (m1 := mkstore _ _ _).
    assert (moved m m1 (ours mu sl1 aus1 aus2) (p :: ours mu sl1 aus1 aus2)) as Mv1 by (now apply moved_new).
    pose proof (mv_null _ _ _ _ Mv1 P) as P1.
    assert (forall a, allocated m a -> held m1 a = held m a /\ slinks m1 a = slinks m a) as Same.
    { intros a A. assert (a <> p) by (intros ->; contradiction). cbn [held slinks m1]. now rewrite !upd_other. }
    unfold ours in Al. apply Forall_app in Al as [Al1 Al2]. apply Forall_app in Al2 as [Al2 Al3].
    assert (~ In k (ptrs (items sl1))) as Nk1. { intros Q. pose proof (ti_lt1 _ _ _ _ _ Ti) as W. rewrite Forall_forall in W. specialize (W _ Q). lia. }
    assert (~ In k (ptrs (items sl2))) as Nk2. { intros Q. apply Nk1. now apply (ti_set _ _ _ _ _ Ti). }
    pose (mu' := upd mu k p : Z -> addr).
    assert (rel 1 nu1 mu' sl1 l1 m1 aus1) as Re1a. { apply rel_mu; [exact Nk1|]. eapply rel_frame; [|exact Re1]. rewrite Forall_forall in Al1. auto. }
    assert (rel 1 nu2 mu' sl2 l2 m1 aus2) as Re2a. { apply rel_mu; [exact Nk2|]. eapply rel_frame; [|exact Re2]. rewrite Forall_forall in Al2. auto. }
    assert (mu' k = p) as Ep by (unfold mu'; apply upd_same).
    apply in_split in I1 as (L1 & R1 & It1). apply in_split in I2 as (L2 & R2 & It2).
    destruct (save_rel alloc Halloc 1 nu1 mu' sl1 l1 m1 aus1 L1 s1 R1 [a1] (trlen st) k P1 Re1a It1 eq_refl) as [Q|(l1a & m2 & aus1a & nu1a & Es1 & Re1b & Mv2 & _)].
    { rewrite Ep in Q. rewrite Q. now left. }
    rewrite Ep in Es1. rewrite Es1. cbn [obind]. cbv zeta in Re1b.
    pose proof (save_match_split sl1 L1 s1 R1 [a1] (trlen st) k (re_ids _ _ _ _ _ _ _ Re1) (re_fresh _ _ _ _ _ _ _ Re1) It1) as W1. rewrite E1 in W1. injection W1 as W1. rewrite <- W1 in Re1b.
    pose proof (save_match_split sl2 L2 s2 R2 [a2] (trlen st) k (re_ids _ _ _ _ _ _ _ Re2) (re_fresh _ _ _ _ _ _ _ Re2) It2) as W2. rewrite E2 in W2. injection W2 as W2.
    pose proof (mv_null _ _ _ _ Mv2 P1) as P2.
    assert (forall a, allocated m1 a -> ~ In a (flat aus1) -> held m2 a = held m1 a /\ slinks m2 a = slinks m1 a /\ ~ In a (flat aus1a)) as Sm2 by (apply Mv2).
    assert (forall a, In a (flat aus2) -> allocated m1 a /\ ~ In a (flat aus1)) as Z2.
    { intros a I. split; [|intros J; exact (Sep a J I)]. rewrite Forall_forall in Al2. pose proof (Al2 a I) as A. unfold allocated. rewrite (proj1 (Same a A)). exact A. }
    assert (rel 1 nu2 mu' sl2 l2 m2 aus2) as Re2b. { eapply rel_frame; [|exact Re2a]. intros a I. destruct (Z2 a I) as [A N]. destruct (Sm2 a A N) as (X1 & X2 & _). auto. }
    destruct (save_rel alloc Halloc 1 nu2 mu' sl2 l2 m2 aus2 L2 s2 R2 [a2] (trlen st) k P2 Re2b It2 eq_refl) as [Q|(l2a & m3 & aus2a & nu2a & Es2 & Re2c & Mv3 & _)].
    { rewrite Ep in Q. rewrite Q. now left. }
    rewrite Ep in Es2. rewrite Es2. cbn [obind]. cbv zeta in Re2c. rewrite <- W2 in Re2c.
    pose proof (mv_null _ _ _ _ Mv3 P2) as P3.
    assert (forall a, allocated m2 a -> ~ In a (flat aus2) -> held m3 a = held m2 a /\ slinks m3 a = slinks m2 a /\ ~ In a (flat aus2a)) as Sm3 by (apply Mv3).
    pose proof (holds_alloc _ _ _ _ (re_holds _ _ _ _ _ _ _ Re1b)) as Al1b. rewrite Forall_forall in Al1b.
    assert (forall a, In a (flat aus1a) -> ~ In a (flat aus2)) as Sep2. { intros a I J. destruct (Z2 a J) as [A N]. destruct (Sm2 a A N) as (_ & _ & X). contradiction. }
    assert (rel 1 nu1a mu' sl1a l1a m3 aus1a) as Re1c.
    { eapply rel_frame; [|exact Re1b]. intros a I. destruct (Sm3 a (Al1b a I) (Sep2 a I)) as (X1 & X2 & _). auto. }
    assert (ptrs (items sl1) = ptrs L1 ++ ptrs R1) as Pt. { rewrite It1, ptrs_app. cbn [ptrs flat_map]. now rewrite M1. }
    assert (ptrs (items sl1a) = ptrs L1 ++ k :: ptrs R1) as Pt'. { rewrite W1. cbn [items]. now apply ptrs_save. }
    assert (map mu' (ptrs L1) = map mu (ptrs L1) /\ map mu' (ptrs R1) = map mu (ptrs R1)) as [EL ER].
    { rewrite Pt, in_app_iff in Nk1. unfold mu'. split; apply map_upd; tauto. }
    set (C := map mu (ptrs (items sl1))) in *.
    assert (forall a, In a C -> ~ In a (flat aus1) /\ ~ In a (flat aus2)) as Cn.
    { intros a I. split; [exact (nums_not_flat _ _ _ _ _ _ _ (re_holds _ _ _ _ _ _ _ Re1) Nu I)|exact (nums_not_flat _ _ _ _ _ _ _ (re_holds _ _ _ _ _ _ _ Re2) Nu I)]. }
    assert (held m1 p = Some (BLong 0)) as Hp by (cbn [held m1]; apply upd_same).
    assert (allocated m1 p /\ ~ In p (flat aus1) /\ ~ In p (flat aus2) /\ ~ In p C) as (App & Np1 & Np2 & NpC).
    { rewrite Forall_forall in Al1, Al2, Al3. split; [unfold allocated; congruence|]. repeat split; intros Q; apply Ap; auto. }
    assert (forall a, In a (p :: C) -> allocated m1 a /\ ~ In a (flat aus1) /\ ~ In a (flat aus2)) as Dn.
    { intros a [<-|I]; [auto|]. destruct (Cn a I). split; [|auto]. rewrite Forall_forall in Al3. pose proof (Al3 a I) as A. unfold allocated. rewrite (proj1 (Same a A)). exact A. }
    assert (forall a, In a (p :: C) -> held m3 a = held m1 a) as Keep.
    { intros a I. destruct (Dn a I) as (A & X & Y). destruct (Sm2 a A X) as (H1 & _). rewrite <- H1. apply Sm3; [|exact Y]. unfold allocated. rewrite H1. exact A. }
    assert (both t1 t2 nu1a nu2a mu' sl1a sl2a (k + 1) l1a l2a m3 aus1a aus2a) as B3.
    { constructor; auto.
      - split.
        + rewrite Pt'. rewrite Forall_forall. intros i I. apply in_elt_inv in I as [<-|I].
          * exists 0. rewrite Ep, Keep by (now left). exact Hp.
          * rewrite <- Pt in I. assert (i <> k) by (intros ->; contradiction). unfold mu'. rewrite upd_other by assumption.
            assert (In (mu i) C) as J by (now apply in_map). rewrite Keep by (now right). destruct Nu as [Nu _]. rewrite Forall_forall in Nu. destruct (Nu i I) as (v & Hv). exists v.
            rewrite Forall_forall in Al3. rewrite (proj1 (Same _ (Al3 _ J))). exact Hv.
        + rewrite Pt', map_app. cbn [map]. rewrite Ep, EL, ER. apply nodup_add; rewrite <- map_app, <- Pt; [apply Nu|exact NpC].
      - intros a I. destruct (Sm3 a (Al1b a I) (Sep2 a I)) as (_ & _ & X). exact X. }
    destruct (IH _ _ _ _ _ _ H _ _ _ _ _ _ _ _ st' B3) as [->|(l1' & l2' & m' & nu1' & nu2' & mu'' & k' & aus1' & aus2' & -> & B' & Mv')]; [congruence|congruence|now left|].
    right. exists l1', l2', m', nu1', nu2', mu'', k', aus1', aus2'. split; [reflexivity|]. split; [exact B'|].
    eapply moved_trans; [exact Mv1|]. eapply moved_trans; [|exact Mv'].
    apply moved_trans with (m2 := m2) (ys := flat aus2 ++ flat aus1a ++ p :: C).
    + eapply moved_equiv; [| |apply (moved_frame _ _ _ _ (flat aus2 ++ p :: C) Mv2)].
      * intros a. unfold ours. rewrite !in_app_iff. cbn [In]. rewrite !in_app_iff. unfold C. tauto.
      * intros a. rewrite !in_app_iff. tauto.
      * apply Forall_app. split; apply Forall_forall; intros a I; [apply (Z2 a I)|apply (Dn a I)].
      * intros a I. apply in_app_or in I as [I|I]; [apply (Z2 a I)|apply (Dn a I)].
    + eapply moved_equiv; [| |apply (moved_frame _ _ _ _ (flat aus1a ++ p :: C) Mv3)].
      * reflexivity.
      * intros a. unfold ours. rewrite Pt', map_app. cbn [map]. rewrite Ep, EL, ER. unfold C. rewrite Pt, map_app, !in_app_iff. cbn [In]. rewrite !in_app_iff. tauto.
      * apply Forall_app. split; apply Forall_forall; intros a I; [auto|]. destruct (Dn a I) as (A & X & _). destruct (Sm2 a A X) as (H1 & _). unfold allocated. rewrite H1. exact A.
      * intros a I. apply in_app_or in I as [I|I]; [auto|apply (Dn a I)].
Qed.

Lemma transpose_mem m t1 t2 : proper m ->
  transpose_lists alloc m t1 t2 = Fail nomem \/
  exists l1 l2 m' its1 its2 xs1 xs2, transpose_lists alloc m t1 t2 = Ok (l1, l2, m') /\ transpose_sync t1 t2 = Ok (its1, its2) /\
    list_shows l1 m' its1 xs1 /\ list_shows l2 m' its2 xs2 /\ Permutation (numbers_at xs1) (numbers_at xs2) /\
    adds_exactly (map item_at xs1 ++ map array_at xs1 ++ map item_at xs2 ++ map array_at xs2 ++ numbers_at xs1) m m' /\ proper m'.
Proof.
  intros P. unfold transpose_lists, transpose_sync.
  destruct (init_ok alloc Halloc m [t1] 1 (fun _ => NULL) P) as [->|(l1 & m1 & nu1 & aus1 & -> & Re1 & M1)]; [now left|]. cbn [obind].
  pose proof (mv_null _ _ _ _ M1 P) as P1.
  destruct (init_ok alloc Halloc m1 [t2] 1 (fun _ => NULL) P1) as [->|(l2 & m2 & nu2 & aus2 & -> & Re2 & M2)]; [now left|]. cbn [obind].
  pose proof (mv_null _ _ _ _ M2 P1) as P2.
  pose proof (holds_alloc _ _ _ _ (re_holds _ _ _ _ _ _ _ Re1)) as Al1. rewrite Forall_forall in Al1.
  assert (forall a, In a (flat aus1) -> held m2 a = held m1 a /\ slinks m2 a = slinks m1 a /\ ~ In a (flat aus2)) as Sm by (intros a I; apply (mv_same _ _ _ _ M2); [auto|intros []]).
  assert (rel 1 nu1 (fun _ => NULL) (initialize_synclist [t1] 1) l1 m2 aus1) as Re1b. { eapply rel_frame; [|exact Re1]. intros a I. destruct (Sm a I) as (X & Y & _). auto. }
  destruct (transpose_loop_ok t1 t2) as (sl1 & sl2 & k & El & _ & _).
  assert (both t1 t2 nu1 nu2 (fun _ => NULL) (initialize_synclist [t1] 1) (initialize_synclist [t2] 1) 1 l1 l2 m2 aus1 aus2) as B.
  { constructor; auto.
    - rewrite initialize_ptrs. split; constructor.
    - intros a I. apply Sm. exact I.
    - apply initial_tinv. }
  rewrite El. cbn [obind].
  destruct (loop_sim t1 t2 _ _ _ _ _ _ _ El _ _ _ _ _ _ _ _ (mktr 0 None None None None) B eq_refl eq_refl) as [->|(l1' & l2' & m3 & nu1' & nu2' & mu & k' & aus1' & aus2' & -> & B' & M3)]; [now left|].
  cbn [obind]. destruct B' as [Re1' Re2' P3 Nu Sep Ti].
  destruct (number_list_ok _ _ _ _ _ _ _ Re1' P3 Nu) as (m4 & -> & L4 & P4 & O4 & V4). cbn [obind]. right.
  pose proof (re_holds _ _ _ _ _ _ _ Re1') as Ho1. pose proof (re_holds _ _ _ _ _ _ _ Re2') as Ho2.
  set (C := map mu (ptrs (items sl1))) in *.
  assert (forall a, In a C -> ~ In a (flat aus1') /\ ~ In a (flat aus2')) as Cn.
  { intros a I. split; [exact (nums_not_flat _ _ _ _ _ _ _ Ho1 Nu I)|exact (nums_not_flat _ _ _ _ _ _ _ Ho2 Nu I)]. }
  assert (rel 1 nu1' mu sl1 l1' m4 aus1') as Re1c. { eapply rel_frame; [|exact Re1']. intros a I. rewrite L4. split; [|reflexivity]. apply O4. intros J. exact (proj1 (Cn a J) I). }
  assert (rel 1 nu2' mu sl2 l2' m4 aus2') as Re2c. { eapply rel_frame; [|exact Re2']. intros a I. rewrite L4. split; [|reflexivity]. apply O4. intros J. exact (proj2 (Cn a J) I). }
  eexists l1', l2', m4, _, _, (spots mu (items sl1) aus1'), (spots mu (items sl2) aus2'). split; [reflexivity|]. split; [reflexivity|].
  pose proof (rel_len _ _ _ _ _ _ _ Re1') as Ln1. pose proof (rel_len _ _ _ _ _ _ _ Re2') as Ln2.
  assert (forall i, In i (ptrs (items sl1)) -> mu i <> NULL) as Nz. { intros i I. apply (proper_not m4); [exact P4|]. unfold allocated. rewrite (V4 i I). discriminate. }
  assert (forall i, In i (ptrs (items sl2)) -> In i (ptrs (items sl1))) as Inc by (intros i; apply (ti_set _ _ _ _ _ Ti)).
  split; [now apply shows with (n := 1%nat) (nu := nu1')|]. split; [apply shows with (n := 1%nat) (nu := nu2'); auto|].
  rewrite !spots_numbers by auto. split.
  { apply Permutation_map. apply NoDup_Permutation; [apply Ti|apply Ti|apply (ti_set _ _ _ _ _ Ti)]. }
  split; [|exact P4].
  destruct (spots_items mu (items sl1) aus1' Ln1) as [-> ->]. destruct (spots_items mu (items sl2) aus2' Ln2) as [-> ->].
  fold C. assert (map fst aus1' ++ map snd aus1' ++ map fst aus2' ++ map snd aus2' ++ C = flat aus1' ++ flat aus2' ++ C) as -> by (unfold flat; now rewrite <- !app_assoc).
  apply moved_adds.
  - eapply moved_trans; [exact M1|]. apply moved_trans with (m2 := m2) (ys := flat aus2 ++ flat aus1).
    { eapply moved_equiv; [| |apply (moved_frame _ _ _ _ (flat aus1) M2)]; try reflexivity; [now apply Forall_forall|intros a _ []]. }
    apply moved_trans with (m2 := m3) (ys := C ++ flat aus1' ++ flat aus2').
    { eapply moved_equiv; [| |exact M3].
      - intros a. unfold ours. rewrite initialize_ptrs. cbn [map]. rewrite app_nil_r, !in_app_iff. tauto.
      - intros a. unfold ours, C. rewrite !in_app_iff. tauto. }
    eapply moved_equiv; [reflexivity| |apply moved_frame with (xs := C) (ys := C)].
    + intros a. rewrite !in_app_iff. tauto.
    + constructor; [| |auto].
      * intros a A N. rewrite L4. auto.
      * intros a. split.
        -- intros A. destruct (in_dec Z.eq_dec a C) as [I|I]; [now left|]. right. split; [|exact I]. unfold allocated in *. now rewrite <- O4.
        -- intros [I|[A I]]; [|unfold allocated; now rewrite O4]. apply in_map_iff in I as (i & <- & I). unfold allocated. rewrite (V4 i I). discriminate.
    + apply Forall_app. split; eapply holds_alloc; eauto.
    + intros a I J. apply in_app_or in I as [I|I]; [exact (proj1 (Cn a J) I)|exact (proj2 (Cn a J) I)].
  - apply NoDup_join; [eapply flat_nodup; eauto| |].
    + apply NoDup_join; [eapply flat_nodup; eauto|apply Nu|]. intros a I J. exact (proj2 (Cn a J) I).
    + intros a I J. apply in_app_or in J as [J|J]; [exact (Sep a I J)|exact (proj1 (Cn a J) I)].
Qed.
End Alloc.
