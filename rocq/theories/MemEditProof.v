(** Proofs about MemEditModel. *)
From Coq Require Import String Permutation.
From Verif Require Import Base CLib ListModel ListSpec ListProof TextModel SyncModel EdoModel MemTextProof MemSyncModel MemSyncSpec MemSyncProof MemEditModel.
From Verif Require EditopModel EditopProof.
Local Open Scope Z_scope.
Local Open Scope list_scope.

Notation eblock := EditopModel.block.
Notation emk := EditopModel.mkblock.
Notation bmatch := EditopModel.bmatch.
Notation blen := EditopModel.blen.

(** *** A list of numbered items *)

Definition is_block (m : store) (b : eblock) (x : spot) : Prop :=
  held m (item_at x) = Some (BSync (array_at x) (number_at x)) /\
  (exists s e, held m (array_at x) = Some (BSubs [mksub s e (blen b)])) /\
  held m (number_at x) = Some (BLong (bmatch b)).

Record blist (l : header) (m : store) (bs : list eblock) (xs : list spot) : Prop := {
  bl_inv : inv l (slinks m) (map item_at xs);
  bl_cells : Forall2 (is_block m) bs xs;
  bl_arr : NoDup (map array_at xs);
  bl_num : NoDup (map number_at xs) }.

Definition own (xs : list spot) : list addr := map item_at xs ++ map array_at xs ++ map number_at xs.

Lemma in_own a xs : In a (own xs) <-> exists x, In x xs /\ (a = item_at x \/ a = array_at x \/ a = number_at x).
Proof.
  unfold own. rewrite !in_app_iff, !in_map_iff. split.
  - intros [(x & E & I)|[(x & E & I)|(x & E & I)]]; exists x; split; auto.
  - intros (x & I & [E|[E|E]]); [left|right; left|right; right]; exists x; auto.
Qed.
Lemma own_app a xs ys : In a (own (xs ++ ys)) <-> In a (own xs) \/ In a (own ys).
Proof. rewrite !in_own. split; [intros (x & I & E); apply in_app_iff in I as [I|I]; eauto|intros [(x & I & E)|(x & I & E)]; exists x; rewrite in_app_iff; auto]. Qed.
Lemma own_cons a x xs : In a (own (x :: xs)) <-> a = item_at x \/ a = array_at x \/ a = number_at x \/ In a (own xs).
Proof.
  rewrite !in_own. split.
  - intros (y & [<-|I] & E); [tauto|]. right; right; right. eauto.
  - intros [E|[E|[E|(y & I & E)]]]; [exists x|exists x|exists x|exists y]; cbn [In]; auto.
Qed.

Lemma cells_kind m bs xs x : Forall2 (is_block m) bs xs -> In x xs -> exists b, In b bs /\ is_block m b x.
Proof.
  intros F. induction F as [|b y bs xs H F IH]; intros I; [destruct I|]. destruct I as [<-|I]; [exists b; split; [now left|exact H]|].
  destruct (IH I) as (b' & I' & H'). exists b'. split; [now right|exact H'].
Qed.
Lemma block_kinds m b x b' y : is_block m b x -> is_block m b' y ->
  item_at x <> array_at y /\ item_at x <> number_at y /\ array_at x <> number_at y.
Proof. intros (A1 & (s & e & A2) & A3) (B1 & (s' & e' & B2) & B3). repeat split; congruence. Qed.

Lemma blist_alloc l m bs xs : blist l m bs xs -> Forall (allocated m) (own xs).
Proof.
  intros [_ F _ _]. apply Forall_forall. intros a I. apply in_own in I as (x & I & E). destruct (cells_kind _ _ _ _ F I) as (b & _ & (A1 & (s & e & A2) & A3)).
  unfold allocated. destruct E as [->|[->| ->]]; congruence.
Qed.
Lemma blist_frame l m m' bs xs : (forall a, In a (own xs) -> held m' a = held m a /\ slinks m' a = slinks m a) -> blist l m bs xs -> blist l m' bs xs.
Proof.
  intros E [I F A N]. constructor; auto.
  - eapply inv_frame; [|exact I]. intros a J. apply E. unfold own. apply in_app_iff. now left.
  - clear I A N. induction F as [|b x bs xs H F IH]; constructor.
    + destruct H as (A1 & (s & e & A2) & A3). unfold is_block. rewrite !(fun a P => proj1 (E a P)) by (apply own_cons; auto). eauto.
    + apply IH. intros a J. apply E. apply own_cons. auto.
Qed.
Lemma blist_len l m bs xs : blist l m bs xs -> List.length bs = List.length xs.
Proof. intros [_ F _ _]. clear -F. induction F; cbn; congruence. Qed.
Lemma blist_count l m bs xs : blist l m bs xs -> count l = zlen bs.
Proof. intros H. rewrite (inv_count _ _ _ (bl_inv _ _ _ _ H)). unfold zlen. rewrite map_length. now rewrite (blist_len _ _ _ _ H). Qed.

Lemma number_ok m b x : proper m -> is_block m b x -> number_of m (item_at x) = Ok (bmatch b).
Proof. intros P (A1 & _ & A3). unfold number_of. rewrite (get_sync_ok _ _ _ _ P A1). cbn [obind]. unfold get_long. now rewrite (at_ok _ _ _ P A3). Qed.
Lemma len_ok m b x : proper m -> is_block m b x -> len_of m (item_at x) = Ok (blen b).
Proof. intros P (A1 & (s & e & A2) & _). unfold len_of, sub0_of. rewrite (subs_of_ok _ _ _ _ _ P A1 A2). reflexivity. Qed.
Lemma next_ok l m bs XL x XR : proper m -> blist l m bs (XL ++ x :: XR) -> next_of m (item_at x) = Ok (hd NULL (map item_at XR)).
Proof.
  intros P H. destruct (cells_kind _ _ _ x (bl_cells _ _ _ _ H)) as (b & _ & (A1 & _)); [apply in_or_app; right; now left|].
  unfold next_of. rewrite (at_ok _ _ _ P A1). cbn [obind]. pose proof (bl_inv _ _ _ _ H) as I. rewrite map_app in I. cbn [map] in I.
  destruct (inv_item _ _ _ _ _ I) as [_ ->]. reflexivity.
Qed.
Lemma item_real l m bs XL x XR : blist l m bs (XL ++ x :: XR) -> (item_at x =? NULL) = false.
Proof.
  intros H. apply Z.eqb_neq. eapply inv_real; [exact (bl_inv _ _ _ _ H)|]. rewrite map_app. apply in_or_app. right. now left.
Qed.

(** One block of an item changes. *)
Lemma put_frame S m a b : Forall (allocated m) S -> In a S -> proper m ->
  exists m', put m a b = Ok m' /\ moved m m' S S /\ held m' a = Some b /\ slinks m' = slinks m /\ (forall c, c <> a -> held m' c = held m c) /\ proper m'.
Proof.
  intros F I P. rewrite Forall_forall in F. pose proof (F a I) as A. unfold allocated in A. destruct (held m a) as [b0|] eqn:E; [|congruence].
  rewrite (put_ok _ _ _ _ P E). eexists. split; [reflexivity|]. assert (moved m (mkstore (slinks m) (upd (held m) a (Some b)) (scalls m)) S S) as M.
  { apply moved_put; [now apply Forall_forall|exact I]. }
  split; [exact M|]. cbn [held slinks]. split; [apply upd_same|]. split; [reflexivity|]. split; [intros c Nc; now apply upd_other|]. exact (mv_null _ _ _ _ M P).
Qed.

Lemma put_number l m L b R XL x XR v : proper m -> blist l m (L ++ b :: R) (XL ++ x :: XR) -> List.length L = List.length XL ->
  exists m', put m (number_at x) (BLong v) = Ok m' /\ blist l m' (L ++ emk v (blen b) :: R) (XL ++ x :: XR) /\
    moved m m' (own (XL ++ x :: XR)) (own (XL ++ x :: XR)) /\ proper m'.
Proof.
  intros P H Ll. destruct (put_frame (own (XL ++ x :: XR)) m (number_at x) (BLong v)) as (m' & -> & M & E1 & E2 & E3 & P'); [eapply blist_alloc; eauto| |exact P|].
  { apply own_app. right. apply own_cons. auto. }
  exists m'. split; [reflexivity|]. split; [|auto]. destruct H as [I F A N]. destruct (split_cells _ _ _ _ _ F Ll) as [FL FR]. inversion FR as [|? ? ? ? Hx FR']; subst.
  assert (forall bs ys, Forall2 (is_block m) bs ys -> ~ In (number_at x) (map number_at ys) -> Forall2 (is_block m') bs ys) as K.
  { intros bs ys G. induction G as [|b' y bs ys Hy G IH]; constructor.
    - destruct (block_kinds _ _ _ _ _ Hy Hx) as (_ & K1 & K2). destruct Hy as (A1 & (s & e & A2) & A3). unfold is_block. rewrite !E3; eauto. intros Q. apply H. now left.
    - apply IH. intros Q. apply H. now right. }
  rewrite map_app in N. cbn [map] in N. constructor; [now rewrite E2| |exact A|rewrite map_app; exact N]. apply NoDup_remove_2 in N. rewrite in_app_iff in N.
  apply Forall2_app; [apply K; tauto|]. constructor; [|apply K; tauto]. destruct (block_kinds _ _ _ _ _ Hx Hx) as (_ & K1 & K2).
  destruct Hx as (A1 & (s & e & A2) & A3). unfold is_block. rewrite !E3 by auto. eauto.
Qed.

Lemma add_length_ok l m L b R XL x XR n : proper m -> blist l m (L ++ b :: R) (XL ++ x :: XR) -> List.length L = List.length XL ->
  exists m', add_length m (item_at x) n = Ok m' /\ blist l m' (L ++ emk (bmatch b) (blen b + n) :: R) (XL ++ x :: XR) /\
    moved m m' (own (XL ++ x :: XR)) (own (XL ++ x :: XR)) /\ proper m'.
Proof.
  intros P H Ll. pose proof H as [I F A N]. destruct (split_cells _ _ _ _ _ F Ll) as [FL FR]. inversion FR as [|? ? ? ? Hx FR']; subst.
  pose proof Hx as (A1 & (s & e & A2) & A3). unfold add_length. rewrite (get_sync_ok _ _ _ _ P A1). cbn [obind]. rewrite (get_subs_ok _ _ _ P A2). cbn [obind start stop slen].
  destruct (put_frame (own (XL ++ x :: XR)) m (array_at x) (BSubs [mksub s e (blen b + n)])) as (m' & -> & M & E1 & E2 & E3 & P'); [eapply blist_alloc; eauto| |exact P|].
  { apply own_app. right. apply own_cons. auto. }
  exists m'. split; [reflexivity|]. split; [|auto].
  assert (forall bs ys, Forall2 (is_block m) bs ys -> ~ In (array_at x) (map array_at ys) -> Forall2 (is_block m') bs ys) as K.
  { intros bs ys G. induction G as [|b' y bs ys Hy G IH]; constructor.
    - destruct (block_kinds _ _ _ _ _ Hy Hx) as (K0 & _ & _). destruct (block_kinds _ _ _ _ _ Hx Hy) as (_ & _ & K2). destruct Hy as (B1 & (s' & e' & B2) & B3).
      unfold is_block. rewrite !E3; eauto. intros Q. apply H0. now left.
    - apply IH. intros Q. apply H0. now right. }
  rewrite map_app in A. cbn [map] in A. constructor; [now rewrite E2| |rewrite map_app; exact A|exact N]. apply NoDup_remove_2 in A. rewrite in_app_iff in A.
  apply Forall2_app; [apply K; tauto|]. constructor; [|apply K; tauto]. destruct (block_kinds _ _ _ _ _ Hx Hx) as (K0 & _ & K2).
  unfold is_block. cbn [EditopModel.blen EditopModel.bmatch]. rewrite !(E3 (item_at x)), !(E3 (number_at x)) by auto. eauto.
Qed.

(** *** Discarding an item *)

Definition freed (a u p : addr) (b : addr) : bool := (b =? a) || (b =? u) || ((b =? p) && negb (p =? NULL)).

Lemma discard_raw l m XA a YA u p ss : proper m -> inv l (slinks m) (XA ++ a :: YA) -> Forall (allocated m) (XA ++ a :: YA) ->
  held m a = Some (BSync u p) -> held m u = Some (BSubs ss) -> p = NULL \/ (exists v, held m p = Some (BLong v)) ->
  exists l' m', discard_sync l m a = Ok (l', m') /\ inv l' (slinks m') (XA ++ YA) /\
    (forall b, held m' b = if freed a u p b then None else held m b) /\ (forall b, ~ In b (XA ++ a :: YA) -> slinks m' b = slinks m b) /\ proper m'.
Proof.
  intros P I F Ha Hu Hp. destruct (take_out_ok l m XA a YA P I F) as (l' & m1 & E & I1 & H1 & L1). unfold discard_sync. rewrite E. cbn [obind].
  assert (proper m1) as P1 by (unfold proper, allocated; now rewrite H1). assert (held m1 a = Some (BSync u p)) as Ha1 by now rewrite H1.
  rewrite (get_sync_ok _ _ _ _ P1 Ha1). cbn [obind]. assert (held m1 u = Some (BSubs ss)) as Hu1 by now rewrite H1.
  rewrite (release_ok _ _ _ P1 Hu1). cbn [obind]. set (m2 := mkstore (slinks m1) (upd (held m1) u None) (scalls m1)).
  assert (a <> u) as Nau by congruence.
  assert (held m2 a = Some (BSync u p)) as Ha2 by (unfold m2; cbn [held]; now rewrite upd_other).
  assert (proper m2) as P2. { intros A. apply P1. unfold allocated, m2 in A. cbn [held] in A. unfold upd in A. destruct (NULL =? u); [congruence|exact A]. }
  rewrite (get_sync_ok _ _ _ _ P2 Ha2). cbn [obind].
  assert (exists m3, (if p =? NULL then Ok m2 else release m2 p) = Ok m3 /\ held m3 a = Some (BSync u p) /\ slinks m3 = slinks m1 /\ proper m3 /\
    forall b, held m3 b = if (b =? u) || ((b =? p) && negb (p =? NULL)) then None else held m b) as (m3 & E3 & Ha3 & L3 & P3 & H3).
  { destruct (Z.eqb_spec p NULL) as [Ep|Np].
    - exists m2. repeat split; auto. intros b. cbn [negb]. rewrite andb_false_r, orb_false_r. unfold m2. cbn [held]. unfold upd. now rewrite H1.
    - destruct Hp as [Q|(v & Hp)]; [contradiction|]. assert (p <> u) as Npu by congruence. assert (p <> a) as Npa by congruence.
      assert (held m2 p = Some (BLong v)) as Hp2 by (unfold m2; cbn [held]; rewrite upd_other by auto; now rewrite H1).
      rewrite (release_ok _ _ _ P2 Hp2). eexists. split; [reflexivity|]. cbn [held slinks]. split; [rewrite upd_other by auto; exact Ha2|]. split; [reflexivity|]. split.
      + intros A. apply P2. unfold allocated in *. cbn [held] in A. unfold upd at 1 in A. destruct (NULL =? p); [congruence|exact A].
      + intros b. cbn [negb]. rewrite andb_true_r. unfold m2, upd. cbn [held]. rewrite H1. destruct (b =? p), (b =? u); reflexivity. }
  rewrite E3. cbn [obind]. rewrite (release_ok _ _ _ P3 Ha3). cbn [obind]. eexists _, _. split; [reflexivity|]. cbn [slinks held]. rewrite L3. split; [exact I1|]. split; [|split; [exact L1|]].
  - intros b. unfold upd, freed. rewrite H3. destruct (b =? a); reflexivity.
  - intros A. apply P3. unfold allocated in *. cbn [held] in A. unfold upd in A. destruct (NULL =? a); [congruence|exact A].
Qed.

Lemma discard_ok l m L b R XL x XR : proper m -> blist l m (L ++ b :: R) (XL ++ x :: XR) -> List.length L = List.length XL ->
  exists l' m', discard_sync l m (item_at x) = Ok (l', m') /\ blist l' m' (L ++ R) (XL ++ XR) /\
    moved m m' (own (XL ++ x :: XR)) (own (XL ++ XR)) /\ proper m'.
Proof.
  intros P H Ll. pose proof (blist_alloc _ _ _ _ H) as Al. pose proof H as [I F A N]. destruct (split_cells _ _ _ _ _ F Ll) as [FL FR]. inversion FR as [|? ? ? ? Hx FR']; subst.
  pose proof Hx as (A1 & (s & e & A2) & A3). rewrite map_app in I. cbn [map] in I.
  destruct (discard_raw l m (map item_at XL) (item_at x) (map item_at XR) (array_at x) (number_at x) [mksub s e (blen b)] P I) as (l' & m' & -> & I' & Hh & Hl & P'); [|exact A1|exact A2|right; eauto|].
  { rewrite Forall_forall in *. intros a J. apply Al. unfold own. apply in_app_iff. left. rewrite map_app. exact J. }
  exists l', m'. split; [reflexivity|].
  pose proof I as I2. apply inv_nodup in I2. pose proof (NoDup_remove_2 _ _ _ I2) as Ni.
  pose proof A as A'. rewrite map_app in A'. cbn [map] in A'. pose proof (NoDup_remove_2 _ _ _ A') as Na. pose proof (NoDup_remove_1 _ _ _ A') as Na1.
  pose proof N as N'. rewrite map_app in N'. cbn [map] in N'. pose proof (NoDup_remove_2 _ _ _ N') as Nn. pose proof (NoDup_remove_1 _ _ _ N') as Nn1.
  assert (number_at x <> NULL) as Nx by (intros Q; apply P; unfold allocated; rewrite <- Q; congruence).
  assert (forall a, freed (item_at x) (array_at x) (number_at x) a = true <-> a = item_at x \/ a = array_at x \/ a = number_at x) as Fr.
  { intros a. unfold freed. rewrite !orb_true_iff, andb_true_iff, !Z.eqb_eq, negb_true_iff, Z.eqb_neq. tauto. }
  assert (forall y, In y (XL ++ XR) -> exists b', is_block m b' y) as Kd.
  { intros y J. destruct (cells_kind _ _ _ y F) as (b' & _ & K); [|eauto]. rewrite in_app_iff in *. cbn. tauto. }
  assert (forall y, In y (XL ++ XR) -> forall a, a = item_at y \/ a = array_at y \/ a = number_at y -> freed (item_at x) (array_at x) (number_at x) a = false) as Apart.
  { intros y J a E. destruct (freed _ _ _ a) eqn:Q; [|reflexivity]. exfalso. apply Fr in Q. destruct (Kd y J) as (b' & K).
    destruct (block_kinds _ _ _ _ _ K Hx) as (K1 & K2 & K3). destruct (block_kinds _ _ _ _ _ Hx K) as (K4 & K5 & K6).
    assert (item_at y <> item_at x) by (intros Q2; apply Ni; rewrite <- map_app, <- Q2; now apply in_map).
    assert (array_at y <> array_at x) by (intros Q2; apply Na; rewrite <- map_app, <- Q2; now apply in_map).
    assert (number_at y <> number_at x) by (intros Q2; apply Nn; rewrite <- map_app, <- Q2; now apply in_map).
    destruct E as [->|[->| ->]], Q as [Q|[Q|Q]]; congruence. }
  split; [|split; [|exact P']].
  - constructor; [now rewrite map_app| |now rewrite map_app|now rewrite map_app].
    assert (forall bs ys, Forall2 (is_block m) bs ys -> (forall y, In y ys -> In y (XL ++ XR)) -> Forall2 (is_block m') bs ys) as K.
    { intros bs ys G. induction G as [|b' y bs ys Hy G IH]; intros S; constructor.
      - destruct Hy as (B1 & (s' & e' & B2) & B3). pose proof (Apart y (S y (or_introl eq_refl))) as Ay. unfold is_block. rewrite !Hh, !Ay by auto. eauto.
      - apply IH. intros z J. apply S. now right. }
    apply Forall2_app; apply K; auto; intros y J; apply in_or_app; auto.
  - constructor; [| |auto].
    + intros a Aa Na'. rewrite Hh. destruct (freed _ _ _ a) eqn:Q.
      { exfalso. apply Na'. apply own_app. right. apply own_cons. apply Fr in Q. tauto. }
      split; [reflexivity|]. split.
      * apply Hl. intros J. apply Na'. unfold own. apply in_app_iff. left. rewrite map_app. exact J.
      * intros J. apply Na'. apply own_app. rewrite own_cons. apply own_app in J. tauto.
    + intros a. unfold allocated. rewrite Hh. rewrite Forall_forall in Al. split.
      * intros K. destruct (freed _ _ _ a) eqn:Q; [congruence|]. destruct (in_dec Z.eq_dec a (own (XL ++ x :: XR))) as [J|J]; [|auto].
        left. apply own_app in J. apply own_app. rewrite own_cons in J. assert (~ (a = item_at x \/ a = array_at x \/ a = number_at x)) by (rewrite <- Fr; congruence). tauto.
      * intros [J|[K J]].
        -- pose proof J as J2. apply in_own in J2 as (y & Jy & E). rewrite (Apart y Jy a E). apply Al. apply own_app. rewrite own_cons. apply own_app in J. tauto.
        -- destruct (freed _ _ _ a) eqn:Q; [|exact K]. exfalso. apply J. apply own_app. right. apply own_cons. apply Fr in Q. tauto.
Qed.

(** *** decrement_match *)

Lemma moved_same m1 m2 m3 S : moved m1 m2 S S -> moved m2 m3 S S -> moved m1 m3 S S.
Proof. apply moved_trans. Qed.

Lemma decrement_ok l limit : forall R XR L XL m fuel, proper m -> blist l m (L ++ R) (XL ++ XR) -> List.length L = List.length XL -> (List.length R <= fuel)%nat ->
  exists m', decrement_from fuel m (hd NULL (map item_at XR)) limit = Ok m' /\ blist l m' (L ++ EditopModel.decrement_match limit R) (XL ++ XR) /\
    moved m m' (own (XL ++ XR)) (own (XL ++ XR)) /\ proper m'.
Proof.
  induction R as [|b R IH]; intros XR L XL m fuel P H Ll Lf.
  - pose proof (blist_len _ _ _ _ H) as Len. rewrite !app_length in Len. cbn in Len. destruct XR as [|x XR]; [|cbn in Len; lia].
    exists m. split; [destruct fuel; reflexivity|]. split; [exact H|]. split; [|exact P]. apply moved_refl. eapply blist_alloc; eauto.
  - pose proof (blist_len _ _ _ _ H) as Len. rewrite !app_length in Len. cbn in Len. destruct XR as [|x XR]; [cbn in Len; lia|].
    destruct fuel as [|fuel]; [cbn in Lf; lia|]. cbn [map hd decrement_from]. rewrite (item_real _ _ _ _ _ _ H).
    destruct (split_cells _ _ _ _ _ (bl_cells _ _ _ _ H) Ll) as [FL FR]. inversion FR as [|? ? ? ? Hx FR']; subst. pose proof Hx as (A1 & _ & A3).
    rewrite (get_sync_ok _ _ _ _ P A1). cbn [obind]. unfold get_long. rewrite (at_ok _ _ _ P A3). cbn [obind].
    assert (exists m1, (if limit <? bmatch b then put m (number_at x) (BLong (bmatch b - 1)) else Ok m) = Ok m1 /\
      blist l m1 ((L ++ [if limit <? bmatch b then emk (bmatch b - 1) (blen b) else b]) ++ R) ((XL ++ [x]) ++ XR) /\
      moved m m1 (own (XL ++ x :: XR)) (own (XL ++ x :: XR)) /\ proper m1) as (m1 & -> & H1 & M1 & P1).
    { rewrite <- !app_assoc. cbn [app]. destruct (limit <? bmatch b).
      - destruct (put_number l m L b R XL x XR (bmatch b - 1) P H Ll) as (m1 & E & Q). exists m1. split; [exact E|exact Q].
      - exists m. split; [reflexivity|]. split; [exact H|]. split; [|exact P]. apply moved_refl. eapply blist_alloc; eauto. }
    cbn [obind]. pose proof H1 as H1'. rewrite <- !app_assoc in H1'. cbn [app] in H1'. rewrite (next_ok _ _ _ _ _ _ P1 H1'). cbn [obind].
    destruct (IH XR _ (XL ++ [x]) m1 fuel P1 H1) as (m' & -> & H2 & M2 & P2); [rewrite !app_length; cbn; lia|cbn in Lf; lia|].
    exists m'. split; [reflexivity|]. rewrite <- !app_assoc in H2. rewrite <- !app_assoc in M2. cbn [app] in H2, M2. split; [|split; [eapply moved_trans; eauto|exact P2]].
    unfold EditopModel.decrement_match in *. cbn [map]. exact H2.
Qed.

(** *** combine_adjacent *)

Lemma combine_items_ok : forall fuel l m before b rest XB x XR bs', proper m -> blist l m (before ++ b :: rest) (XB ++ x :: XR) -> List.length before = List.length XB ->
  EditopModel.combine_from fuel before b rest = Ok bs' ->
  exists l' m' xs', combine_items fuel l m (item_at x) = Ok (l', m') /\ blist l' m' bs' xs' /\ moved m m' (own (XB ++ x :: XR)) (own xs') /\ proper m'.
Proof.
  induction fuel as [|fuel IH]; intros l m before b rest XB x XR bs' P H Ll E; [discriminate E|]. cbn [EditopModel.combine_from] in E. cbn [combine_items].
  rewrite (item_real _ _ _ _ _ _ H). rewrite (next_ok _ _ _ _ _ _ P H). cbn [obind].
  destruct (split_cells _ _ _ _ _ (bl_cells _ _ _ _ H) Ll) as [FL FR]. inversion FR as [|? ? ? ? Hx FR']; subst.
  destruct rest as [|b2 rest].
  - inversion FR'; subst. injection E as <-. cbn [map hd]. rewrite Z.eqb_refl. cbn [obind]. exists l, m, (XB ++ [x]). split; [destruct fuel; reflexivity|].
    split; [exact H|]. split; [|exact P]. apply moved_refl. eapply blist_alloc; eauto.
  - inversion FR' as [|? x2 ? XR2 Hx2 FR2]; subst. cbn [map hd]. pose proof H as H'. replace (XB ++ x :: x2 :: XR2) with ((XB ++ [x]) ++ x2 :: XR2) in H' by now rewrite <- app_assoc.
    replace (before ++ b :: b2 :: rest) with ((before ++ [b]) ++ b2 :: rest) in H' by now rewrite <- app_assoc.
    rewrite (item_real _ _ _ _ _ _ H'). rewrite (number_ok _ _ _ P Hx2). cbn [obind]. rewrite (number_ok _ _ _ P Hx). cbn [obind].
    destruct (bmatch b2 =? bmatch b + 1) eqn:Adj.
    + rewrite (len_ok _ _ _ P Hx2). cbn [obind].
      destruct (add_length_ok l m before b (b2 :: rest) XB x (x2 :: XR2) (blen b2) P H Ll) as (m1 & -> & H1 & M1 & P1). cbn [obind].
      replace (XB ++ x :: x2 :: XR2) with ((XB ++ [x]) ++ x2 :: XR2) in H1 by now rewrite <- app_assoc.
      set (b1 := emk (bmatch b) (blen b + blen b2)) in *. replace (before ++ b1 :: b2 :: rest) with ((before ++ [b1]) ++ b2 :: rest) in H1 by now rewrite <- app_assoc.
      destruct (discard_ok l m1 _ _ _ _ _ _ P1 H1) as (l2 & m2 & -> & H2 & M2 & P2); [rewrite !app_length; cbn; lia|]. cbn [obind].
      rewrite <- !app_assoc in H2. cbn [app] in H2. destruct (split_cells _ _ _ _ _ (bl_cells _ _ _ _ H2) Ll) as [FL2 FR3]. inversion FR3 as [|? ? ? ? Hx3 FR4]; subst.
      rewrite (number_ok _ _ _ P2 Hx3). cbn [obind]. unfold b1 at 1. cbn [EditopModel.bmatch].
      rewrite (inv_first _ _ _ (bl_inv _ _ _ _ H2)), (blist_count _ _ _ _ H2).
      destruct (decrement_ok l2 (bmatch b) (before ++ b1 :: rest) (XB ++ x :: XR2) [] [] m2 (Z.to_nat (zlen (before ++ b1 :: rest))) P2 H2 eq_refl) as (m3 & -> & H3 & M3 & P3); [unfold zlen; lia|].
      cbn [obind app] in *. cbn [EditopModel.decrement_match map EditopModel.bmatch EditopModel.blen] in E. rewrite Z.ltb_irrefl in E.
      unfold EditopModel.decrement_match at 1 in H3. rewrite map_app in H3. cbn [map] in H3. unfold b1 in H3. cbn [EditopModel.bmatch EditopModel.blen] in H3. rewrite Z.ltb_irrefl in H3. fold b1 in H3.
      destruct (IH l2 m3 _ _ _ XB x XR2 bs' P3 H3) as (l' & m' & xs' & E4 & H4 & M4 & P4); [rewrite map_length; exact Ll|exact E|].
      exists l', m', xs'. split; [exact E4|]. split; [exact H4|]. split; [|exact P4]. eapply moved_trans; [exact M1|].
      replace (XB ++ x :: x2 :: XR2) with ((XB ++ [x]) ++ x2 :: XR2) by now rewrite <- app_assoc. eapply moved_trans; [exact M2|]. rewrite <- app_assoc. cbn [app].
      eapply moved_trans; [exact M3|exact M4].
    + destruct (IH l m _ _ _ _ _ _ bs' P H') as (l' & m' & xs' & E4 & H4 & M4 & P4); [rewrite !app_length; cbn; lia|exact E|].
      exists l', m', xs'. split; [exact E4|]. split; [exact H4|]. split; [|exact P4]. rewrite <- app_assoc in M4. exact M4.
Qed.

Lemma combine_list_ok l m bs xs bs' : proper m -> blist l m bs xs -> EditopModel.combine_adjacent bs = Ok bs' ->
  exists l' m' xs', combine_list l m = Ok (l', m') /\ blist l' m' bs' xs' /\ moved m m' (own xs) (own xs') /\ proper m'.
Proof.
  intros P H E. unfold combine_list. rewrite (inv_first _ _ _ (bl_inv _ _ _ _ H)), (blist_count _ _ _ _ H). unfold zlen. rewrite Nat2Z.id.
  pose proof (blist_len _ _ _ _ H) as Len. destruct bs as [|b rest], xs as [|x XR]; try discriminate Len.
  - injection E as <-. exists l, m, []. split; [reflexivity|]. split; [exact H|]. split; [|exact P]. apply moved_refl. constructor.
  - cbn [map hd]. apply (combine_items_ok (List.length (b :: rest)) l m [] b rest [] x XR bs' P H eq_refl E).
Qed.

(** *** The candidates *)

(** What is in the array, and what it stands for. *)
Definition same_cand (bs : list eblock) (xs : list spot) (y : bool * bool * addr) (x : EditopModel.candidate) : Prop :=
  fst (fst y) = EditopModel.for_insertion x /\ snd (fst y) = EditopModel.for_deletion x /\
  match EditopModel.csync x with
  | None => snd y = NULL
  | Some b => exists z, In (b, z) (combine bs xs) /\ snd y = item_at z
  end.

Lemma in_pairs m bs xs b z : Forall2 (is_block m) bs xs -> In (b, z) (combine bs xs) -> is_block m b z.
Proof. intros F. induction F as [|b' x bs xs H F IH]; intros I; [destruct I|]. destruct I as [E|I]; [now inversion E; subst|auto]. Qed.

Lemma set_nth_same {A B} (R : A -> B -> Prop) : forall l1 l2 n x y l1' l2', Forall2 R l1 l2 -> R x y -> set_nth l1 n x = Some l1' -> set_nth l2 n y = Some l2' -> Forall2 R l1' l2'.
Proof.
  intros l1 l2 n x y l1' l2' F. revert n l1' l2'. induction F as [|a b l1 l2 H F IH]; intros n l1' l2' Rxy E1 E2; destruct n; cbn in E1, E2; try discriminate.
  - injection E1 as <-. injection E2 as <-. constructor; auto.
  - destruct (set_nth l1 n x) as [r1|] eqn:Q1; [|discriminate]. destruct (set_nth l2 n y) as [r2|] eqn:Q2; [|discriminate]. injection E1 as <-. injection E2 as <-. constructor; auto.
    eapply IH; eauto.
Qed.
Lemma znth_same {A B} (R : A -> B -> Prop) l1 l2 i y : Forall2 R l1 l2 -> znth l2 i = Some y -> exists x, znth l1 i = Some x /\ R x y.
Proof.
  intros F. unfold znth. destruct (i <? 0); [discriminate|]. generalize (Z.to_nat i). clear i. induction F as [|a b l1 l2 H F IH]; intros n E; destruct n; cbn in *; try discriminate.
  - injection E as <-. eauto.
  - now apply IH.
Qed.

(** The array [c] stands for [cs]. *)
Definition cands_at (m : store) (c : addr) (bs : list eblock) (xs : list spot) (cs : list EditopModel.candidate) : Prop :=
  exists ys, held m c = Some (BCands ys) /\ Forall2 (same_cand bs xs) ys cs.

Lemma set_cand_ok m c bs xs cs i f g cs' : proper m -> cands_at m c bs xs cs -> EditopModel.set_candidate cs i g = Ok cs' ->
  (forall y x, same_cand bs xs y x -> same_cand bs xs (f y) (g x)) ->
  exists m', set_cand m c i f = Ok m' /\ cands_at m' c bs xs cs' /\ slinks m' = slinks m /\ (forall a, a <> c -> held m' a = held m a) /\ proper m'.
Proof.
  intros P (ys & Hc & F) E Fg. unfold EditopModel.set_candidate in E. unfold rd at 1 in E. destruct (znth cs i) as [x|] eqn:Ex; [|discriminate E]. cbn [obind] in E.
  destruct (znth_same _ _ _ _ _ F Ex) as (y & Ey & Sy). unfold wr in E. destruct (zset cs i (g x)) as [cs2|] eqn:Es; [|discriminate E]. injection E as <-.
  unfold set_cand, get_cands. rewrite (at_ok _ _ _ P Hc). cbn [obind]. unfold rd. rewrite Ey. cbn [obind]. unfold wr.
  destruct (zset_lt_Some ys i (f y)) as (ys2 & E2). { apply znth_Some_lt in Ey. exact Ey. }
  rewrite E2. cbn [obind]. rewrite (put_ok _ _ _ _ P Hc). eexists. split; [reflexivity|]. cbn [slinks held]. split; [|split; [reflexivity|split]].
  - exists ys2. cbn [held]. split; [apply upd_same|]. unfold zset in *. destruct (i <? 0); [discriminate|]. eapply set_nth_same; [exact F| |exact E2|exact Es]. now apply Fg.
  - intros a Na. now apply upd_other.
  - intros A. unfold allocated in A. cbn [held] in A. unfold upd in A. destruct (Z.eqb_spec NULL c) as [<-|_]; [|exact (P A)]. apply P. unfold allocated. congruence.
Qed.

(** The rest of the memory is as before. *)
Definition only_at (c : addr) (m m' : store) : Prop := slinks m' = slinks m /\ (forall a, a <> c -> held m' a = held m a).

Lemma blist_only l m m' bs xs c : only_at c m m' -> ~ In c (own xs) -> blist l m bs xs -> blist l m' bs xs.
Proof. intros [E1 E2] N. apply blist_frame. intros a I. rewrite E1. split; [|reflexivity]. apply E2. congruence. Qed.
Lemma only_trans c m1 m2 m3 : only_at c m1 m2 -> only_at c m2 m3 -> only_at c m1 m3.
Proof. intros [A1 A2] [B1 B2]. split; [congruence|]. intros a N. rewrite B2, A2; auto. Qed.

Lemma candidates_from_ok l bs xs c : forall R XR L XL m fuel cs cs', proper m -> bs = L ++ R -> xs = XL ++ XR -> List.length L = List.length XL ->
  blist l m bs xs -> ~ In c (own xs) -> cands_at m c bs xs cs -> EditopModel.fill_candidates R cs = Ok cs' -> (List.length R <= fuel)%nat ->
  exists m', candidates_from fuel m (hd NULL (map item_at XR)) c = Ok m' /\ cands_at m' c bs xs cs' /\ only_at c m m' /\ proper m'.
Proof.
  induction R as [|b R IH]; intros XR L XL m fuel cs cs' P Eb Ex Ll H N C E Lf.
  - pose proof (blist_len _ _ _ _ H) as Len. rewrite Eb, Ex, !app_length in Len. cbn in Len. destruct XR as [|x XR]; [|cbn in Len; lia].
    injection E as <-. exists m. split; [destruct fuel; reflexivity|]. split; [exact C|]. split; [split; auto|exact P].
  - pose proof (blist_len _ _ _ _ H) as Len. rewrite Eb, Ex, !app_length in Len. cbn in Len. destruct XR as [|x XR]; [cbn in Len; lia|].
    destruct fuel as [|fuel]; [cbn in Lf; lia|]. cbn [map hd candidates_from]. pose proof H as H0. rewrite Eb, Ex in H0. rewrite (item_real _ _ _ _ _ _ H0).
    destruct (split_cells _ _ _ _ _ (bl_cells _ _ _ _ H0) Ll) as [FL FR]. inversion FR as [|? ? ? ? Hx FR']; subst x0 y l0 l'.
    rewrite (next_ok _ _ _ _ _ _ P H0). cbn [obind]. cbn [EditopModel.fill_candidates] in E.
    match type of E with obind ?e _ = _ => destruct e as [cs1|?|?|] eqn:E1; try discriminate E end. cbn [obind] in E.
    match type of E with obind ?e _ = _ => destruct e as [cs2|?|?|] eqn:E2; try discriminate E end. cbn [obind] in E.
    match type of E with obind ?e _ = _ => destruct e as [cs3|?|?|] eqn:E3; try discriminate E end. cbn [obind] in E.
    assert (forall y k, In y xs -> forall m2, only_at c m m2 -> is_block m k y -> is_block m2 k y) as Keep.
    { intros y k I m2 [_ O] (B1 & (s & e & B2) & B3). unfold is_block. rewrite !O; eauto; intros Q; apply N; apply in_own; exists y; auto. }
    assert (forall y, In y (x :: XR) -> In y xs) as Sub by (intros y I; rewrite Ex; apply in_or_app; now right).
    (* for_insertion *)
    match goal with |- context [obind ?e _] => assert (exists m1, e = Ok m1 /\ cands_at m1 c bs xs cs1 /\ only_at c m m1 /\ proper m1) as (m1 & S1 & C1 & O1 & P1) end.
    { destruct XR as [|x2 XR].
      - inversion FR'; subst R. injection E1 as <-. cbn [map hd]. rewrite Z.eqb_refl. exists m. repeat split; auto.
      - inversion FR' as [|b2 ? R2 ? Hx2 FR2]; subst R y l'. cbn [map hd]. pose proof H0 as H0'. replace (XL ++ x :: x2 :: XR) with ((XL ++ [x]) ++ x2 :: XR) in H0' by now rewrite <- app_assoc.
        rewrite (item_real _ _ _ _ _ _ H0'). rewrite (number_ok _ _ _ P Hx2). cbn [obind]. rewrite (number_ok _ _ _ P Hx). cbn [obind].
        destruct (bmatch b2 =? bmatch b + 2).
        + destruct (set_cand_ok m c bs xs cs (bmatch b + 1) mark_insertion EditopModel.set_insertion cs1 P C E1) as (m1 & Q & C1 & O1 & O2 & P1).
          { intros [[i d] s] k (Q1 & Q2 & Q3). repeat split; auto. }
          exists m1. repeat split; auto.
        + injection E1 as <-. exists m. repeat split; auto. }
    rewrite S1. cbn [obind].
    assert (blist l m1 bs xs) as H1 by (eapply blist_only; eauto). pose proof H1 as H1x. rewrite Eb, Ex in H1x.
    match goal with |- context [obind ?e _] => assert (exists m2, e = Ok m2 /\ cands_at m2 c bs xs cs2 /\ only_at c m m2 /\ proper m2) as (m2 & S2 & C2 & O2 & P2) end.
    { destruct XR as [|x2 XR].
      - inversion FR'; subst R. injection E2 as <-. cbn [map hd]. rewrite Z.eqb_refl. exists m1. repeat split; auto; apply O1.
      - inversion FR' as [|b2 ? R2 ? Hx2 FR2]; subst R y l'. cbn [map hd].
        replace (XL ++ x :: x2 :: XR) with ((XL ++ [x]) ++ x2 :: XR) in H1x by now rewrite <- app_assoc.
        rewrite (item_real _ _ _ _ _ _ H1x). rewrite (next_ok _ _ _ _ _ _ P1 H1x). cbn [obind].
        destruct XR as [|x3 XR].
        + inversion FR2; subst R2. injection E2 as <-. cbn [map hd]. rewrite Z.eqb_refl. exists m1. repeat split; auto; apply O1.
        + inversion FR2 as [|b3 ? R3 ? Hx3 FR3]; subst R2 y l'. cbn [map hd].
          replace ((XL ++ [x]) ++ x2 :: x3 :: XR) with ((XL ++ [x; x2]) ++ x3 :: XR) in H1x by now rewrite <- !app_assoc.
          rewrite (item_real _ _ _ _ _ _ H1x).
          rewrite (number_ok _ _ _ P1 (Keep x3 b3 (Sub x3 ltac:(cbn; auto)) m1 O1 Hx3)). cbn [obind].
          rewrite (number_ok _ _ _ P1 (Keep x b (Sub x ltac:(cbn; auto)) m1 O1 Hx)). cbn [obind].
          destruct (bmatch b3 =? bmatch b + 1).
          * rewrite (number_ok _ _ _ P1 (Keep x2 b2 (Sub x2 ltac:(cbn; auto)) m1 O1 Hx2)). cbn [obind].
            destruct (set_cand_ok m1 c bs xs cs1 (bmatch b2) mark_deletion EditopModel.set_deletion cs2 P1 C1 E2) as (m2 & Q & C2 & O2 & O3 & P2).
            { intros [[i d] s] k (Q1 & Q2 & Q3). repeat split; auto. }
            exists m2. split; [exact Q|]. split; [exact C2|]. split; [|exact P2]. eapply only_trans; [exact O1|]. split; auto.
          * injection E2 as <-. exists m1. repeat split; auto; apply O1. }
    rewrite S2. cbn [obind]. rewrite (number_ok _ _ _ P2 (Keep x b (Sub x ltac:(cbn; auto)) m2 O2 Hx)). cbn [obind].
    destruct (set_cand_ok m2 c bs xs cs2 (bmatch b) (mark_sync (item_at x)) (EditopModel.set_sync b) cs3 P2 C2 E3) as (m3 & -> & C3 & O3 & O4 & P3).
    { intros [[i d] s] k (Q1 & Q2 & Q3). split; [exact Q1|]. split; [exact Q2|]. cbn [EditopModel.set_sync EditopModel.csync mark_sync snd]. exists x. split; [|reflexivity].
      rewrite Eb, Ex. clear -Ll. revert XL Ll. induction L as [|k L IH]; intros [|y XL] Ll; try discriminate Ll; [now left|]. right. apply IH. now injection Ll. }
    cbn [obind]. assert (only_at c m m3) as Om3 by (eapply only_trans; [exact O2|]; split; auto).
    assert (blist l m3 bs xs) as H3 by (eapply blist_only; eauto). pose proof H3 as H3x. rewrite Eb, Ex in H3x. rewrite (next_ok _ _ _ _ _ _ P3 H3x). cbn [obind].
    destruct (IH XR (L ++ [b]) (XL ++ [x]) m3 fuel cs3 cs' P3) as (m' & E5 & C5 & O5 & P5); auto.
    + rewrite <- app_assoc. exact Eb.
    + rewrite <- app_assoc. exact Ex.
    + rewrite !app_length. cbn. lia.
    + cbn in Lf. lia.
    + exists m'. split; [exact E5|]. split; [exact C5|]. split; [|exact P5]. eapply only_trans; eauto.
Qed.
