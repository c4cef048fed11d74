(** Proofs about MemEditModel: all moves, the deletions and insertions, the whole. *)
From Coq Require Import String Permutation.
From Verif Require Import Base CLib ListModel ListSpec ListProof TextModel SyncModel SyncSpec EdoModel MemTextProof MemSyncModel MemSyncSpec MemSyncProof MemSyncSim MemTransProof MemEditModel MemEditProof MemEditSim.
From Verif Require EditopModel EditopProof EditopProps.
Local Open Scope Z_scope.
Local Open Scope list_scope.

Lemma moved_only S c m m' : Forall (allocated m) S -> In c S -> only_at c m m' -> allocated m' c -> proper m' -> moved m m' S S.
Proof.
  rewrite Forall_forall. intros F I [E1 E2] A P. constructor; [| |auto].
  - intros a Aa N. rewrite E1, E2 by congruence. auto.
  - intros a. destruct (Z.eq_dec a c) as [->|Na].
    + split; [now left|]. intros _. exact A.
    + unfold allocated in *. rewrite (E2 a Na). split; [|intros [J|[J _]]; [now apply F|exact J]]. intros J. destruct (in_dec Z.eq_dec a S); auto.
Qed.
Lemma own_perm xs ys a : Permutation xs ys -> In a (own xs) <-> In a (own ys).
Proof. intros Pm. rewrite !in_own. split; intros (x & I & E); exists x; split; auto; [now apply (Permutation_in _ Pm)|now apply (Permutation_in _ (Permutation_sym Pm))]. Qed.

Lemma same_repeat bs xs n : Forall2 (same_cand bs xs) (repeat (false, false, NULL) n) (repeat (EditopModel.mkcand false false None) n).
Proof. induction n; constructor; [|assumption]. repeat split. Qed.

Section Loop.
Variable alloc : (addr -> bool) -> Z -> addr.
Hypothesis Halloc : sound_calloc alloc.

Lemma candidates_list_ok l m bs xs cs : proper m -> blist l m bs xs -> EditopModel.find_candidates bs = Ok cs ->
  candidates_list alloc l m = Fail nomem \/
  exists c m', candidates_list alloc l m = Ok (c, m') /\ blist l m' bs xs /\ cands_at m' c bs xs cs /\ ~ In c (own xs) /\
    moved m m' (own xs) (c :: own xs) /\ proper m'.
Proof.
  intros P H E. pose proof (blist_alloc _ _ _ _ H) as Al. unfold candidates_list. rewrite (inv_first _ _ _ (bl_inv _ _ _ _ H)), (blist_count _ _ _ _ H).
  replace (Z.to_nat (zlen bs + 1)) with (Datatypes.S (List.length bs)) by (unfold zlen; lia).
  destruct (new_ok alloc Halloc m (BCands (repeat (false, false, NULL) (Datatypes.S (List.length bs)))) P) as [->|(c & -> & Na & Nn)]; [now left|]. cbn [obind].
  set (m1 := mkstore _ _ _). assert (moved m m1 (own xs) (c :: own xs)) as M1 by (now apply moved_new).
  pose proof (mv_null _ _ _ _ M1 P) as P1. assert (~ In c (own xs)) as Nc by (rewrite Forall_forall in Al; intros Q; apply Na, Al, Q).
  assert (blist l m1 bs xs) as H1. { eapply blist_frame; [|exact H]. intros a I. unfold m1. cbn [held slinks]. rewrite !upd_other by congruence. auto. }
  assert (cands_at m1 c bs xs (repeat (EditopModel.mkcand false false None) (Datatypes.S (List.length bs)))) as C1.
  { eexists. split; [unfold m1; cbn [held]; apply upd_same|apply same_repeat]. }
  destruct (candidates_from_ok l bs xs c bs xs [] [] m1 (Z.to_nat (zlen bs)) _ cs P1 eq_refl eq_refl eq_refl H1 Nc C1 E) as (m2 & -> & C2 & O2 & P2); [unfold zlen; lia|].
  cbn [obind]. right. exists c, m2. split; [reflexivity|]. split; [eapply blist_only; eauto|]. split; [exact C2|]. split; [exact Nc|]. split; [|exact P2].
  eapply moved_trans; [exact M1|]. apply moved_only with (c := c); auto.
  - eapply moved_alloc; exact M1.
  - now left.
  - destruct C2 as (ys & Q & _). unfold allocated. congruence.
Qed.

Lemma moves_of_ok {A} (wt : A -> Z) : forall fuel G bs s t d l m xs bs' d', EditopProof.rep wt G bs s t -> zlen (moves d) = 101 -> proper m -> blist l m bs xs ->
  EditopModel.moves_loop fuel bs d = Ok (bs', d') ->
  moves_of alloc fuel l m d = Fail nomem \/
  exists l' m' xs', moves_of alloc fuel l m d = Ok (l', m', d') /\ blist l' m' bs' xs' /\ zlen bs' <= 1 /\ (exists G' s', EditopProof.rep wt G' bs' s' t) /\ moved m m' (own xs) (own xs') /\ proper m'.
Proof.
  assert (forall l m bs xs, blist l m bs xs -> moved m m (own xs) (own xs)) as Rf by (intros; apply moved_refl; eapply blist_alloc; eauto).
  induction fuel as [|fuel IH]; intros G bs s t d l m xs bs' d' R Md P H E; cbn [EditopModel.moves_loop moves_of] in *; rewrite (blist_count _ _ _ _ H); destruct (Z.ltb_spec 1 (zlen bs)) as [L1|L1].
  - discriminate E.
  - injection E as <- <-. right. exists l, m, xs. split; [reflexivity|]. split; [exact H|]. split; [exact L1|]. split; [eauto|]. split; [eauto|exact P].
  - destruct (EditopProof.find_move_ok wt _ _ _ _ R L1) as (cs & b & Ec & Ef & Ib & Cs & _). rewrite Ec in E. cbn [obind] in E. rewrite Ef in E. cbn [obind] in E.
    destruct (EditopProof.perform_ok wt _ _ _ _ cs b d R L1 Ib Md Cs) as (p & q & p' & q' & s' & d1 & El & Epq & Ep & Rc & R1 & _ & _ & Ap & Pl).
    rewrite Ep in E. cbn [obind] in E. destruct (EditopProof.combine_ok wt _ _ _ _ R1) as (bs2 & G2 & Eq & R2 & _ & _). rewrite Eq in E. cbn [obind] in E.
    destruct (candidates_list_ok l m bs xs cs P H Ec) as [->|(c & m1 & -> & H1 & C1 & Nc & M1 & P1)]; [now left|]. cbn [obind].
    destruct (find_cand_ok l m1 bs xs c cs b P1 H1 C1 Ef) as (z & -> & Iz). cbn [obind].
    destruct (move_item_ok l m1 bs xs c cs p b q p' q' z d d1 P1 H1 Nc C1) as (l2 & m2 & xs2 & -> & H2 & Hm2 & K2 & Pm); auto.
    { eapply EditopProof.rep_nodup; eauto. }
    { intros i Hi. rewrite (Cs i) by lia. eexists. split; reflexivity. }
    { eapply EditopProof.rep_range; eauto. }
    cbn [obind]. assert (proper m2) as P2 by (unfold proper, allocated; rewrite Hm2; exact P1).
    pose proof (moved_alloc _ _ _ _ M1) as Al1.
    assert (moved m1 m2 (c :: own xs) (c :: own xs)) as M2. { apply moved_links; auto. intros a Na. apply K2. cbn [In] in Na. tauto. }
    destruct C1 as (ys & Hc & _). assert (held m2 c = Some (BCands ys)) as Hc2 by congruence. rewrite (release_ok _ _ _ P2 Hc2). cbn [obind].
    set (m3 := mkstore _ _ _). assert (moved m2 m3 (c :: own xs) (own xs)) as M3 by (apply moved_free; [eapply moved_alloc; exact M2|exact Nc]).
    pose proof (mv_null _ _ _ _ M3 P2) as P3.
    assert (blist l2 m3 (p' ++ b :: q') xs2) as H3.
    { eapply blist_frame; [|exact H2]. intros a I. apply (own_perm _ _ a Pm) in I. unfold m3. cbn [held slinks]. rewrite upd_other by congruence. auto. }
    destruct (combine_list_ok l2 m3 _ _ bs2 P3 H3 Eq) as (l4 & m4 & xs4 & -> & H4 & M4 & P4). cbn [obind].
    destruct Rc as (_ & _ & _ & Rc & _).
    destruct (IH G2 bs2 s' t d1 l4 m4 xs4 bs' d' R2 ltac:(congruence) P4 H4 E) as [->|(l' & m' & xs' & -> & H5 & L5 & R5 & M5 & P5)]; [now left|]. right.
    exists l', m', xs'. split; [reflexivity|]. split; [exact H5|]. split; [exact L5|]. split; [exact R5|]. split; [|exact P5].
    eapply moved_trans; [exact M1|]. eapply moved_trans; [exact M2|]. eapply moved_trans; [exact M3|].
    eapply moved_equiv with (xs := own xs2) (ys := own xs'); [intros a; symmetry; now apply own_perm|reflexivity|]. eapply moved_trans; eauto.
  - injection E as <- <-. right. exists l, m, xs. split; [reflexivity|]. split; [exact H|]. split; [exact L1|]. split; [eauto|]. split; [eauto|exact P].
Qed.

Lemma moves_list_ok {A} (wt : A -> Z) G bs s t d l m xs bs' d' : EditopProof.rep wt G bs s t -> zlen (moves d) = 101 -> proper m -> blist l m bs xs ->
  EditopModel.count_moves bs d = Ok (bs', d') ->
  moves_list alloc l m d = Fail nomem \/
  exists l' m' xs', moves_list alloc l m d = Ok (l', m', d') /\ blist l' m' bs' xs' /\ zlen bs' <= 1 /\ (exists G' s', EditopProof.rep wt G' bs' s' t) /\ moved m m' (own xs) (own xs') /\ proper m'.
Proof.
  intros R Md P H E. unfold EditopModel.count_moves in E. destruct (EditopProof.combine_ok wt _ _ _ _ R) as (bs2 & G2 & Eq & R2 & _ & _). rewrite Eq in E. cbn [obind] in E.
  unfold moves_list. destruct (combine_list_ok l m bs xs bs2 P H Eq) as (l4 & m4 & xs4 & -> & H4 & M4 & P4). cbn [obind].
  rewrite (blist_count _ _ _ _ H4). unfold zlen at 1 2. rewrite Nat2Z.id.
  destruct (moves_of_ok wt _ G2 bs2 s t d l4 m4 xs4 bs' d' R2 Md P4 H4 E) as [->|(l' & m' & xs' & -> & H5 & L5 & R5 & M5 & P5)]; [now left|]. right.
  exists l', m', xs'. split; [reflexivity|]. split; [exact H5|]. split; [exact L5|]. split; [exact R5|]. split; [eapply moved_trans; eauto|exact P5].
Qed.
End Loop.

(** *** A list with items that may have no number *)

Record ilist (l : header) (m : store) (its : list item) (xs : list spot) : Prop := {
  il_inv : inv l (slinks m) (map item_at xs);
  il_cells : Forall2 (is_item m) its xs;
  il_arr : NoDup (map array_at xs);
  il_num : NoDup (numbers_at xs) }.
Definition iown (xs : list spot) : list addr := map item_at xs ++ map array_at xs ++ numbers_at xs.

Lemma in_numbers a xs : In a (numbers_at xs) <-> a <> NULL /\ exists x, In x xs /\ a = number_at x.
Proof.
  unfold numbers_at. rewrite in_flat_map. split.
  - intros (x & I & J). destruct (Z.eqb_spec (number_at x) NULL); [destruct J|]. destruct J as [<-|[]]. split; eauto.
  - intros (N & x & I & ->). exists x. split; [exact I|]. destruct (Z.eqb_spec (number_at x) NULL); [contradiction|]. now left.
Qed.
Lemma in_iown a xs : In a (iown xs) <-> exists x, In x xs /\ (a = item_at x \/ a = array_at x \/ (a <> NULL /\ a = number_at x)).
Proof.
  unfold iown. rewrite !in_app_iff, !in_map_iff, in_numbers. split.
  - intros [(x & E & I)|[(x & E & I)|(N & x & I & E)]]; exists x; split; auto.
  - intros (x & I & [E|[E|[N E]]]); [left|right; left|right; right]; eauto.
Qed.
Lemma iown_app a xs ys : In a (iown (xs ++ ys)) <-> In a (iown xs) \/ In a (iown ys).
Proof. rewrite !in_iown. split; [intros (x & I & E); apply in_app_iff in I as [I|I]; eauto|intros [(x & I & E)|(x & I & E)]; exists x; rewrite in_app_iff; auto]. Qed.
Lemma iown_cons a x xs : In a (iown (x :: xs)) <-> a = item_at x \/ a = array_at x \/ (a <> NULL /\ a = number_at x) \/ In a (iown xs).
Proof.
  rewrite !in_iown. split.
  - intros (y & [<-|I] & E); [tauto|]. right; right; right. eauto.
  - intros [E|[E|[E|(y & I & E)]]]; [exists x|exists x|exists x|exists y]; cbn [In]; auto.
Qed.
Lemma icells_kind m its xs x : Forall2 (is_item m) its xs -> In x xs -> exists it, In it its /\ is_item m it x.
Proof.
  intros F. induction F as [|b y bs xs H F IH]; intros I; [destruct I|]. destruct I as [<-|I]; [exists b; split; [now left|exact H]|].
  destruct (IH I) as (b' & I' & H'). exists b'. split; [now right|exact H'].
Qed.
Lemma item_number m it x : is_item m it x -> number_at x = NULL \/ exists v, held m (number_at x) = Some (BLong v).
Proof. intros (_ & _ & H). destruct (inum it); eauto. Qed.
Lemma ilist_alloc l m its xs : ilist l m its xs -> Forall (allocated m) (iown xs).
Proof.
  intros [_ F _ _]. apply Forall_forall. intros a I. apply in_iown in I as (x & I & E). destruct (icells_kind _ _ _ _ F I) as (b & _ & K).
  pose proof (item_number _ _ _ K) as Kn. destruct K as (A1 & A2 & _). unfold allocated. destruct E as [->|[->|[N ->]]]; try congruence. destruct Kn as [Q|(v & Q)]; congruence.
Qed.
Lemma ilist_len l m its xs : ilist l m its xs -> List.length its = List.length xs.
Proof. intros [_ F _ _]. clear -F. induction F; cbn; congruence. Qed.

Definition single (it : item) : Prop := exists u, isubs it = [u].
(** The block [b] of EditopModel is the item [it]. *)
Definition like (b : eblock) (it : item) : Prop := inum it = Some (bmatch b) /\ exists s e, isubs it = [mksub s e (blen b)].

Lemma inext_ok l m its XL x XR : proper m -> ilist l m its (XL ++ x :: XR) -> next_of m (item_at x) = Ok (hd NULL (map item_at XR)) /\ (item_at x =? NULL) = false.
Proof.
  intros P H. destruct (icells_kind _ _ _ x (il_cells _ _ _ _ H)) as (b & _ & (A1 & _)); [apply in_or_app; right; now left|].
  pose proof (il_inv _ _ _ _ H) as I. rewrite map_app in I. cbn [map] in I. split.
  - unfold next_of. rewrite (at_ok _ _ _ P A1). cbn [obind]. destruct (inv_item _ _ _ _ _ I) as [_ ->]. reflexivity.
  - apply Z.eqb_neq. eapply inv_real; [exact I|]. apply in_or_app. right. now left.
Qed.

(** An item without number is discarded. *)
Lemma idiscard_ok l m L it R XL x XR : proper m -> ilist l m (L ++ it :: R) (XL ++ x :: XR) -> List.length L = List.length XL -> number_at x = NULL ->
  exists l' m', discard_sync l m (item_at x) = Ok (l', m') /\ ilist l' m' (L ++ R) (XL ++ XR) /\
    moved m m' (iown (XL ++ x :: XR)) (iown (XL ++ XR)) /\ proper m'.
Proof.
  intros P H Ll Nx. pose proof (ilist_alloc _ _ _ _ H) as Al. pose proof H as [I F A N]. destruct (split_cells _ _ _ _ _ F Ll) as [FL FR]. inversion FR as [|? ? ? ? Hx FR']; subst.
  pose proof Hx as (A1 & A2 & A3). rewrite map_app in I. cbn [map] in I.
  destruct (discard_raw l m (map item_at XL) (item_at x) (map item_at XR) (array_at x) (number_at x) (isubs it) P I) as (l' & m' & -> & I' & Hh & Hl & P'); [|exact A1|exact A2|now left|].
  { rewrite Forall_forall in *. intros a J. apply Al. unfold iown. apply in_app_iff. left. rewrite map_app. exact J. }
  exists l', m'. split; [reflexivity|].
  pose proof I as I2. apply inv_nodup in I2. pose proof (NoDup_remove_2 _ _ _ I2) as Ni.
  pose proof A as A'. rewrite map_app in A'. cbn [map] in A'. pose proof (NoDup_remove_2 _ _ _ A') as Na. pose proof (NoDup_remove_1 _ _ _ A') as Na1.
  assert (numbers_at (XL ++ x :: XR) = numbers_at (XL ++ XR)) as En.
  { unfold numbers_at. rewrite !flat_map_app. cbn [flat_map]. rewrite Nx, Z.eqb_refl. reflexivity. }
  assert (forall a, freed (item_at x) (array_at x) (number_at x) a = true <-> a = item_at x \/ a = array_at x) as Fr.
  { intros a. unfold freed. rewrite Nx, Z.eqb_refl. cbn [negb]. rewrite andb_false_r, orb_false_r, orb_true_iff, !Z.eqb_eq. tauto. }
  assert (forall y, In y (XL ++ XR) -> exists b', is_item m b' y) as Kd.
  { intros y J. destruct (icells_kind _ _ _ y F) as (b' & _ & K); [|eauto]. rewrite in_app_iff in *. cbn. tauto. }
  assert (forall y, In y (XL ++ XR) -> forall a, a = item_at y \/ a = array_at y \/ (a <> NULL /\ a = number_at y) -> freed (item_at x) (array_at x) (number_at x) a = false) as Apart.
  { intros y J a E. destruct (freed _ _ _ a) eqn:Q; [|reflexivity]. exfalso. apply Fr in Q. destruct (Kd y J) as (b' & K).
    pose proof (item_number _ _ _ K) as Kn. destruct K as (K1 & K2 & _).
    assert (item_at y <> item_at x) by (intros Q2; apply Ni; rewrite <- map_app, <- Q2; now apply in_map).
    assert (array_at y <> array_at x) by (intros Q2; apply Na; rewrite <- map_app, <- Q2; now apply in_map).
    destruct E as [->|[->|[Nn ->]]], Q as [Q|Q]; try congruence; destruct Kn as [Q3|(v & Q3)]; congruence. }
  split; [|split; [|exact P']].
  - constructor; [now rewrite map_app| |now rewrite map_app|now rewrite <- En].
    assert (forall bs ys, Forall2 (is_item m) bs ys -> (forall y, In y ys -> In y (XL ++ XR)) -> Forall2 (is_item m') bs ys) as K.
    { intros bs ys G. induction G as [|b' y bs ys Hy G IH]; intros S; constructor.
      - pose proof (Apart y (S y (or_introl eq_refl))) as Ay. destruct Hy as (B1 & B2 & B3). unfold is_item. rewrite !Hh, !Ay by auto. split; [exact B1|]. split; [exact B2|].
        destruct (inum b') as [v|]; [|exact B3]. rewrite Ay; [exact B3|]. right. right. split; [|reflexivity]. intros Q. apply P. unfold allocated. rewrite <- Q. congruence.
      - apply IH. intros z J. apply S. now right. }
    apply Forall2_app; apply K; auto; intros y J; apply in_or_app; auto.
  - constructor; [| |auto].
    + intros a Aa Na'. rewrite Hh. destruct (freed _ _ _ a) eqn:Q.
      { exfalso. apply Na'. apply iown_app. right. apply iown_cons. apply Fr in Q. tauto. }
      split; [reflexivity|]. split.
      * apply Hl. intros J. apply Na'. unfold iown. apply in_app_iff. left. rewrite map_app. exact J.
      * intros J. apply Na'. apply iown_app. rewrite iown_cons. apply iown_app in J. tauto.
    + intros a. unfold allocated. rewrite Hh. rewrite Forall_forall in Al. split.
      * intros K. destruct (freed _ _ _ a) eqn:Q; [congruence|]. destruct (in_dec Z.eq_dec a (iown (XL ++ x :: XR))) as [J|J]; [|auto].
        left. apply iown_app in J. apply iown_app. rewrite iown_cons in J. assert (~ (a = item_at x \/ a = array_at x)) by (rewrite <- Fr; congruence). destruct J as [J|[J|[J|[[Nn J]|J]]]]; try tauto. congruence.
      * intros [J|[K J]].
        -- pose proof J as J2. apply in_iown in J2 as (y & Jy & E). rewrite (Apart y Jy a E). apply Al. apply iown_app. rewrite iown_cons. apply iown_app in J. tauto.
        -- destruct (freed _ _ _ a) eqn:Q; [|exact K]. exfalso. apply J. apply iown_app. right. apply iown_cons. apply Fr in Q. tauto.
Qed.

Lemma deletions_from_ok : forall rest XR fuel l m done XD total tot bs, proper m -> ilist l m (done ++ rest) (XD ++ XR) -> List.length done = List.length XD ->
  Forall single rest -> EditopModel.count_deletions rest total = Ok (tot, bs) -> (List.length rest <= fuel)%nat ->
  exists l' m' rest' XR', deletions_from fuel l m (hd NULL (map item_at XR)) total = Ok (tot, l', m') /\ ilist l' m' (done ++ rest') (XD ++ XR') /\ Forall2 like bs rest' /\
    moved m m' (iown (XD ++ XR)) (iown (XD ++ XR')) /\ proper m'.
Proof.
  induction rest as [|it rest IH]; intros XR fuel l m done XD total tot bs P H Ll Sg E Lf.
  - pose proof (ilist_len _ _ _ _ H) as Len. rewrite !app_length in Len. cbn in Len. destruct XR as [|x XR]; [|cbn in Len; lia]. injection E as <- <-.
    exists l, m, [], []. split; [destruct fuel; reflexivity|]. split; [exact H|]. split; [constructor|]. split; [|exact P]. apply moved_refl. eapply ilist_alloc; eauto.
  - pose proof (ilist_len _ _ _ _ H) as Len. rewrite !app_length in Len. cbn in Len. destruct XR as [|x XR]; [cbn in Len; lia|]. destruct fuel as [|fuel]; [cbn in Lf; lia|].
    cbn [map hd deletions_from]. destruct (inext_ok _ _ _ _ _ _ P H) as [En Er]. rewrite Er, En. cbn [obind].
    destruct (split_cells _ _ _ _ _ (il_cells _ _ _ _ H) Ll) as [FL FR]. inversion FR as [|? ? ? ? Hx FR']; subst. pose proof Hx as (A1 & A2 & A3).
    rewrite (get_sync_ok _ _ _ _ P A1). cbn [obind]. apply Forall_cons_iff in Sg as [(u & Eu) Sg]. cbn [EditopModel.count_deletions] in E. rewrite Eu in E. change (rd "substr" [u] 0) with (Ok u) in E. cbn [obind] in E.
    destruct (inum it) as [k|] eqn:Ei.
    + assert (number_at x <> NULL) as Nn by (intros Q; apply P; unfold allocated; rewrite <- Q; congruence). apply Z.eqb_neq in Nn. rewrite Nn.
      destruct (EditopModel.count_deletions rest total) as [[tot' bs2]|?|?|] eqn:E2; try discriminate E. cbn [obind] in E. injection E as <- <-.
      assert (ilist l m ((done ++ [it]) ++ rest) ((XD ++ [x]) ++ XR)) as H' by (rewrite <- !app_assoc; exact H).
      destruct (IH XR fuel l m _ _ total tot' bs2 P H') as (l' & m' & rest' & XR' & -> & H2 & Lk & M2 & P2); auto; [rewrite !app_length; cbn; lia|cbn in Lf; lia|].
      exists l', m', (it :: rest'), (x :: XR'). split; [reflexivity|]. rewrite <- !app_assoc in H2. rewrite <- !app_assoc in M2. split; [exact H2|]. split; [|split; [exact M2|exact P2]].
      constructor; [|exact Lk]. split; [exact Ei|]. cbn [EditopModel.blen]. destruct u as [s e n]. eauto.
    + rewrite A3, Z.eqb_refl. unfold len_of, sub0_of. rewrite (subs_of_ok _ _ _ _ _ P A1 A2). cbn [obind]. rewrite Eu. cbn [obind].
      destruct (idiscard_ok _ _ _ _ _ _ _ _ P H Ll A3) as (l1 & m1 & -> & H1 & M1 & P1). cbn [obind].
      destruct (IH XR fuel l1 m1 _ _ (total + slen u) tot bs P1 H1) as (l' & m' & rest' & XR' & -> & H2 & Lk & M2 & P2); auto; [cbn in Lf; lia|].
      exists l', m', rest', XR'. split; [reflexivity|]. split; [exact H2|]. split; [exact Lk|]. split; [eapply moved_trans; eauto|exact P2].
Qed.

(** All items have numbers: a list as in the first part. *)
Lemma ilist_blist l m its xs bs : proper m -> ilist l m its xs -> Forall2 like bs its -> blist l m bs xs /\ forall a, In a (iown xs) <-> In a (own xs).
Proof.
  intros P [I F A N] Lk.
  assert (forall x, In x xs -> number_at x <> NULL) as Nn.
  { clear -P F Lk. revert xs F. induction Lk as [|b it bs its H Lk IH]; intros xs F x J; inversion F; subst; [destruct J|]. destruct J as [<-|J]; [|eauto].
    destruct H as [H _]. destruct H2 as (_ & _ & Q). rewrite H in Q. intros Q2. apply P. unfold allocated. rewrite <- Q2. congruence. }
  assert (numbers_at xs = map number_at xs) as En.
  { clear -Nn. induction xs as [|x xs IH]; [reflexivity|]. unfold numbers_at in *. cbn [flat_map map]. pose proof (Nn x (or_introl eq_refl)) as Q. apply Z.eqb_neq in Q. rewrite Q. cbn [app]. f_equal.
    apply IH. intros y J. apply Nn. now right. }
  split; [|intros a; unfold iown, own; rewrite En; tauto]. constructor; [exact I| |exact A|now rewrite <- En].
  clear I A N Nn En. revert xs F. induction Lk as [|b it bs its H Lk IH]; intros xs F; inversion F as [|? x ? xs' Hx F']; subst; constructor; auto.
  destruct H as [H (s & e & Es)]. destruct Hx as (B1 & B2 & B3). rewrite H in B3. rewrite Es in B2. split; [exact B1|]. split; [eauto|exact B3].
Qed.

(** count_insertions reads the list. *)
Lemma insertions_from_ok l text : forall R XR L XL m fuel total n, proper m -> ilist l m (L ++ R) (XL ++ XR) -> List.length L = List.length XL ->
  EditopModel.count_insertions R text total = Ok n -> (List.length R <= fuel)%nat ->
  insertions_from fuel m (hd NULL (map item_at XR)) text total = Ok n.
Proof.
  induction R as [|it R IH]; intros XR L XL m fuel total n P H Ll E Lf.
  - pose proof (ilist_len _ _ _ _ H) as Len. rewrite !app_length in Len. cbn in Len. destruct XR as [|x XR]; [|cbn in Len; lia]. injection E as <-. destruct fuel; reflexivity.
  - pose proof (ilist_len _ _ _ _ H) as Len. rewrite !app_length in Len. cbn in Len. destruct XR as [|x XR]; [cbn in Len; lia|]. destruct fuel as [|fuel]; [cbn in Lf; lia|].
    cbn [map hd insertions_from]. destruct (inext_ok _ _ _ _ _ _ P H) as [En Er]. rewrite Er.
    destruct (split_cells _ _ _ _ _ (il_cells _ _ _ _ H) Ll) as [FL FR]. inversion FR as [|? ? ? ? Hx FR']; subst. pose proof Hx as (A1 & A2 & A3).
    rewrite (get_sync_ok _ _ _ _ P A1). cbn [obind]. unfold EditopModel.count_insertions in E. cbn [ofold] in E.
    assert (ilist l m ((L ++ [it]) ++ R) ((XL ++ [x]) ++ XR)) as H' by (rewrite <- !app_assoc; exact H).
    destruct (inum it) as [k|] eqn:Ei.
    + assert (number_at x <> NULL) as Nn by (intros Q; apply P; unfold allocated; rewrite <- Q; congruence). apply Z.eqb_neq in Nn. rewrite Nn. cbn [obind] in *. rewrite En. cbn [obind].
      apply (IH XR _ _ m fuel total n P H'); auto; [rewrite !app_length; cbn; lia|cbn in Lf; lia].
    + rewrite A3, Z.eqb_refl. unfold sub0_of. rewrite (subs_of_ok _ _ _ _ _ P A1 A2). cbn [obind].
      destruct (isubs it) as [|u r]; [discriminate E|]. change (rd "substr" (u :: r) 0) with (Ok u) in E. cbn [obind] in *.
      destruct (EditopModel.count_plain (List.length text) text (start u) (stop u) total) as [t'|?|?|]; try discriminate E. cbn [obind] in *. rewrite En. cbn [obind].
      apply (IH XR _ _ m fuel t' n P H'); auto; [rewrite !app_length; cbn; lia|cbn in Lf; lia].
Qed.
