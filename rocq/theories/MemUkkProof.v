(** Proofs about MemSyncModel: fastukk_sync. *)
From Coq Require Import String.
From Verif Require Import Base CLib ListModel ListSpec ListProof SyncModel SyncSpec SyncProof HeurProof FastukkProof FastukkSync MemSyncModel MemSyncSpec MemTextProof MemWordProof MemSyncProof MemSyncSim MemTransProof.
Local Open Scope Z_scope.
Local Open Scope list_scope.

Definition is_path (m : store) (pa : path) (q : addr * addr) : Prop :=
  held m (fst q) = Some (BPath (pp pa) (start_k pa) (stop_k pa) (snd q)) /\ held m (snd q) = Some (BFs (pf pa)).
Definition is_diag (m : store) (f : Z) (d : addr) : Prop := held m d = Some (BDiag f).

(** The rows that are complete ([paths], last row first) and the list of diagonals, which is empty. *)
Record rows (m : store) (pl : header) (paths : list path) (qs : list (addr * addr)) : Prop := {
  rw_inv : inv pl (slinks m) (map fst qs);
  rw_paths : Forall2 (is_path m) (rev paths) qs;
  rw_nodup : NoDup (map snd qs) }.

(** A row under construction, at [pa]. *)
Record atrow (m : store) (pl dl : header) (paths : list path) (qs : list (addr * addr)) (pa : addr) (ds : list addr) (p : Z) (st : frow) : Prop := {
  ar_inv : inv pl (slinks m) (map fst qs ++ [pa]);
  ar_paths : Forall2 (is_path m) (rev paths) qs;
  ar_nodup : NoDup (map snd qs);
  ar_cur : held m pa = Some (BPath p (row_start st) (row_stop st) NULL);
  ar_list : inv dl (slinks m) ds;
  ar_vals : Forall2 (is_diag m) (diags st) ds;
  ar_proper : proper m }.

Lemma paths_in m paths qs a : Forall2 (is_path m) paths qs -> In a (flat qs) -> (exists p k1 k2 f, held m a = Some (BPath p k1 k2 f)) \/ exists fs, held m a = Some (BFs fs).
Proof.
  intros F I. apply in_flat in I. induction F as [|x q paths qs [H1 H2] F IH]; [destruct I as [[]|[]]|]. cbn [map In] in I.
  destruct I as [[<-|I]|[<-|I]]; [left; eauto 6|auto|right; eauto|auto].
Qed.
Lemma diags_in m fs ds d : Forall2 (is_diag m) fs ds -> In d ds -> exists f, held m d = Some (BDiag f).
Proof. intros F I. induction F as [|x d' fs ds H F IH]; [destruct I|]. destruct I as [<-|I]; [exists x; exact H|auto]. Qed.
Lemma paths_frame m m' paths qs : (forall a, In a (flat qs) -> held m' a = held m a) -> Forall2 (is_path m) paths qs -> Forall2 (is_path m') paths qs.
Proof.
  intros E F. unfold flat in E. induction F as [|c au cs aus [H1 H2] F IH]; [constructor|]. constructor.
  - split; rewrite E; auto; [apply in_or_app; left; now left|apply in_or_app; right; now left].
  - apply IH. intros a I. apply E. rewrite in_app_iff in *. cbn [map In]. tauto.
Qed.
Lemma diags_frame m m' fs ds : (forall a, In a ds -> held m' a = held m a) -> Forall2 (is_diag m) fs ds -> Forall2 (is_diag m') fs ds.
Proof.
  intros E F. induction F as [|c au cs aus H F IH]; [constructor|]. constructor; [unfold is_diag; rewrite E by (now left); exact H|]. apply IH. intros a I. apply E. now right.
Qed.

(** The row before the one at the end of the list. *)
Lemma before_ok m paths qs pa pl : proper m -> inv pl (slinks m) (map fst qs ++ [pa]) -> Forall2 (is_path m) (rev paths) qs -> path_at m (prev (slinks m pa)) = Ok (hd_error paths).
Proof.
  intros P I F. pose proof (inv_seg _ _ _ I) as Sg. apply dlseg_app in Sg as [_ Sg]. cbn [dlseg] in Sg. destruct Sg as (_ & -> & _). cbn [prev].
  destruct paths as [|x paths]; cbn [rev hd_error] in *.
  - inversion F; subst. reflexivity.
  - apply Forall2_app_inv_l in F as (q1 & q2 & F1 & F2 & ->). inversion F2 as [|? [q f] ? ? [H1 H2] F3]; subst. inversion F3; subst. cbn [fst snd] in *.
    rewrite map_app. cbn [map fst]. rewrite lastd_snoc. unfold path_at.
    assert (q <> NULL) as N by (apply (proper_not m); [exact P|unfold allocated; congruence]). rewrite (proj2 (Z.eqb_neq _ _) N).
    unfold get_path. rewrite (at_ok _ _ _ P H1). cbn [obind]. unfold get_fs. rewrite (at_ok _ _ _ P H2). cbn [obind]. now destruct x.
Qed.

Lemma atrow_alloc m pl dl paths qs pa ds p st : atrow m pl dl paths qs pa ds p st -> Forall (allocated m) (flat qs ++ pa :: ds).
Proof.
  intros [Ip Fp Np Hc Id Fd P]. apply Forall_app. split; [|constructor; [unfold allocated; congruence|]]; apply Forall_forall; intros x I.
  - destruct (paths_in _ _ _ _ Fp I) as [(? & ? & ? & ? & E)|(? & E)]; unfold allocated; congruence.
  - destruct (diags_in _ _ _ _ Fd I) as (? & E); unfold allocated; congruence.
Qed.
Lemma rows_alloc m pl paths qs : rows m pl paths qs -> Forall (allocated m) (flat qs).
Proof. intros [_ Fp _]. apply Forall_forall; intros x I. destruct (paths_in _ _ _ _ Fp I) as [(? & ? & ? & ? & E)|(? & E)]; unfold allocated; congruence. Qed.

Section Alloc.
Variable alloc : (addr -> bool) -> Z -> addr.
Hypothesis Halloc : sound_calloc alloc.

(** compute_f *)
Lemma row_value_ok a b m pl dl paths qs pa ds p st mn mx k st' : atrow m pl dl paths qs pa ds p st -> mn = min_k st -> mx = max_k st ->
  compute_f a b p (hd_error paths) k st = Ok st' ->
  row_value alloc a b pa k (mkk mn mx dl, m) = Fail nomem \/
  exists dl' m' ds', row_value alloc a b pa k (mkk mn mx dl, m) = Ok (mkk (min_k st') (max_k st') dl', m') /\ atrow m' pl dl' paths qs pa ds' p st' /\
    moved m m' (flat qs ++ pa :: ds) (flat qs ++ pa :: ds').
Proof.
  intros [Ip Fp Np Hc Id Fd P] -> -> H. unfold compute_f in H. unfold row_value. cbn [kmin kmax diaglist].
  unfold get_path. rewrite (at_ok _ _ _ P Hc). cbn [obind]. rewrite (before_ok _ _ _ _ _ P Ip Fp). cbn [obind].
  destruct (initial_f k (hd_error paths)) as [[i pk]| | |]; try discriminate H. cbn [obind] in *.
  destruct (snake (List.length a) a b i (i + k)) as [i'| | |]; try discriminate H. cbn [obind] in *.
  cbv zeta in H |- *. match type of H with context[mkfrow ?x ?y k k _] => set (mn1 := x) in *; set (mx1 := y) in * end.
  destruct (new_ok alloc Halloc m (BDiag 0) P) as [->|(d & -> & Ad & Nd)]; [now left|]. cbn [obind]. right.
  set (m1 := mkstore (upd (slinks m) d _) _ _).
  assert (moved m m1 [] [d]) as M1 by (apply moved_new; auto). pose proof (mv_null _ _ _ _ M1 P) as P1.
  assert (held m1 d = Some (BDiag 0)) as Hd1 by (cbn [held m1]; apply upd_same).
  rewrite (put_ok _ _ _ _ P1 Hd1). cbn [obind]. set (m2 := mkstore (slinks m1) _ _).
  assert (moved m1 m2 [d] [d]) as M2. { apply moved_put; [eapply moved_alloc; exact M1|now left]. } pose proof (mv_null _ _ _ _ M2 P1) as P2.
  assert (forall b, b <> d -> held m2 b = held m b /\ slinks m2 b = slinks m b) as S2.
  { intros x N. cbn [held slinks m2 m1]. now rewrite !upd_other. }
  assert (held m2 d = Some (BDiag i')) as Hd2 by (cbn [held m2]; apply upd_same).
  assert (pa <> d) as Npd. { intros ->. apply Ad. unfold allocated. congruence. }
  assert (held m2 pa = Some (BPath p (row_start st) (row_stop st) NULL)) as Hc2 by (rewrite (proj1 (S2 pa Npd)); exact Hc).
  assert (Forall (allocated m) (flat qs ++ pa :: ds)) as Al.
  { apply Forall_app. split; [|constructor; [unfold allocated; congruence|]]; apply Forall_forall; intros x I.
    - destruct (paths_in _ _ _ _ Fp I) as [(? & ? & ? & ? & E)|(? & E)]; unfold allocated; congruence.
    - destruct (diags_in _ _ _ _ Fd I) as (? & E); unfold allocated; congruence. }
  assert (~ In d (flat qs ++ pa :: ds)) as Nin. { intros I. rewrite Forall_forall in Al. now apply Ad, Al. }
  rewrite in_app_iff in Nin. cbn [In] in Nin.
  assert (~ In pa (flat qs)) as Npq.
  { intros I. apply in_flat in I as [I|I].
    - pose proof (inv_nodup _ _ _ Ip) as N. apply NoDup_remove_2 in N. rewrite app_nil_r in N. contradiction.
    - apply in_map_iff in I as (q & E & I). destruct (In_nth _ _ (NULL, NULL) I) as (n & Ln & En).
      assert (exists fs, held m (snd q) = Some (BFs fs)) as (fs & E'); [|congruence].
      clear -Fp I. induction Fp as [|x q' X Y [H1 H2] F IH]; [destruct I|]. destruct I as [->|I]; [eauto|auto]. }
  (* the three places *)
  assert (forall k1 k2, exists m3, put m2 pa (BPath p k1 k2 NULL) = Ok m3 /\ proper m3 /\ held m3 pa = Some (BPath p k1 k2 NULL) /\ held m3 d = Some (BDiag i') /\
    (forall b, b <> d -> slinks m3 b = slinks m b) /\ (forall b, b <> d -> b <> pa -> held m3 b = held m b) /\ inv dl (slinks m3) ds /\ Forall (allocated m3) (d :: ds)) as Put.
  { intros k1 k2. rewrite (put_ok _ _ _ _ P2 Hc2). eexists. split; [reflexivity|]. cbn [held slinks].
    assert (forall b, b <> d -> b <> pa -> upd (held m2) pa (Some (BPath p k1 k2 NULL)) b = held m b) as Hh. { intros x N1 N2. rewrite upd_other by exact N2. now apply S2. }
    split; [|split; [apply upd_same|split; [rewrite upd_other by congruence; exact Hd2|split; [intros x N; now apply S2|split; [exact Hh|split]]]]].
    - intros A. apply P2. unfold allocated in *. cbn [held] in A. unfold upd in A. destruct (Z.eqb_spec NULL pa) as [<-|]; [congruence|exact A].
    - eapply inv_frame; [|exact Id]. intros x I. apply S2. intros ->. tauto.
    - constructor; [unfold allocated; cbn [held]; rewrite upd_other by congruence; congruence|]. apply Forall_forall. intros x I. unfold allocated. cbn [held]. destruct (diags_in _ _ _ _ Fd I) as (f & E).
      rewrite Hh; [congruence|intros ->; tauto|congruence]. }
  assert (forall k1 k2 m3 dl' m4 ds' dg, put m2 pa (BPath p k1 k2 NULL) = Ok m3 -> inv dl' (slinks m4) ds' -> held m4 = held m3 -> (forall b, ~ In b (d :: ds) -> slinks m4 b = slinks m3 b) ->
    (forall x, In x ds' <-> x = d \/ In x ds) -> Forall2 (is_diag m4) dg ds' ->
    atrow m4 pl dl' paths qs pa ds' p (mkfrow mn1 mx1 k1 k2 dg) /\ moved m m4 (flat qs ++ pa :: ds) (flat qs ++ pa :: ds')) as Close.
  { intros k1 k2 m3 dl' m4 ds' dg E I4 H4 L4 X Fd'. destruct (Put k1 k2) as (m3' & E' & P3 & Hp3 & Hd3 & L3 & O3 & _ & _). rewrite E in E'. injection E' as <-.
    assert (forall b, In b (flat qs) -> held m4 b = held m b) as Hq. { intros x I. rewrite H4. apply O3; [intros ->; tauto|intros ->; contradiction]. }
    assert (forall b, ~ In b (d :: ds) -> slinks m4 b = slinks m b) as Lq. { intros x N. rewrite L4 by exact N. apply L3. intros ->. apply N. now left. }
    split.
    - constructor; cbn [row_start row_stop diags]; auto.
      + eapply inv_frame; [|exact Ip]. intros x I. apply Lq. intros [<-|J].
        * apply in_app_or in I as [I|[I|[]]]; [|congruence]. apply Nin. left. apply in_flat. now left.
        * destruct (diags_in _ _ _ _ Fd J) as (f & Ex). apply in_app_or in I as [I|[<-|[]]]; [|congruence].
          destruct (paths_in _ _ _ x Fp) as [(? & ? & ? & ? & Ey)|(? & Ey)]; [apply in_flat; now left|congruence|congruence].
      + eapply paths_frame; [exact Hq|exact Fp].
      + rewrite H4. exact Hp3.
      + intros A. apply P3. unfold allocated in *. now rewrite <- H4.
    - constructor.
      + intros x A N. rewrite in_app_iff in N. cbn [In] in N. assert (x <> d) by (intros ->; contradiction).
        split; [rewrite H4; apply O3; [assumption|intros ->; tauto]|]. split; [apply Lq; cbn [In]; intros [->|]; tauto|]. rewrite in_app_iff. cbn [In]. rewrite X. tauto.
      + intros x. rewrite !in_app_iff. cbn [In]. rewrite X. rewrite Forall_forall in Al. split.
        * intros A. unfold allocated in A. rewrite H4 in A. destruct (Z.eq_dec x d) as [->|N1]; [tauto|]. destruct (Z.eq_dec x pa) as [->|N2]; [tauto|].
          rewrite O3 in A by assumption. destruct (in_dec Z.eq_dec x (flat qs)); [tauto|]. destruct (in_dec Z.eq_dec x ds); [tauto|]. right. split; [exact A|]. intros [?|[?|?]]; [tauto|congruence|tauto].
        * unfold allocated. rewrite H4. intros [[I|[<-|[->|I]]]|[A N]]; [|congruence|congruence| |].
          -- rewrite O3; [|intros ->; tauto|intros ->; contradiction]. apply Al. apply in_or_app. now left.
          -- destruct (diags_in _ _ _ _ Fd I) as (f & Ex). rewrite O3; [congruence|intros ->; tauto|congruence].
          -- rewrite O3; [exact A|intros ->; contradiction|]. intros ->. tauto.
      + intros _ A. apply P3. unfold allocated in *. now rewrite <- H4. }
  assert (forall m3 m4 b, held m4 = held m3 -> b <> d -> b <> pa -> forall k1 k2, put m2 pa (BPath p k1 k2 NULL) = Ok m3 -> held m4 b = held m b) as Old.
  { intros m3 m4 x H4 N1 N2 k1 k2 E. destruct (Put k1 k2) as (m3' & E' & _ & _ & _ & _ & O3 & _). rewrite E in E'. injection E' as <-. rewrite H4. now apply O3. }
  assert (forall k1 k2 m3 m4, put m2 pa (BPath p k1 k2 NULL) = Ok m3 -> held m4 = held m3 -> Forall2 (is_diag m4) (diags st) ds /\ held m4 d = Some (BDiag i')) as Dg.
  { intros k1 k2 m3 m4 E H4. destruct (Put k1 k2) as (m3' & E' & _ & _ & Hd3 & _ & O3 & _). rewrite E in E'. injection E' as <-. split; [|now rewrite H4].
    eapply diags_frame; [|exact Fd]. intros x I. rewrite H4. destruct (diags_in _ _ _ _ Fd I) as (f & Ex). apply O3; [intros ->; tauto|congruence]. }
  rewrite (inv_count _ _ _ Id).
  assert (zlen ds = zlen (diags st)) as Lds. { unfold zlen. f_equal. clear -Fd. induction Fd; cbn; congruence. }
  destruct (diags st) as [|g gs] eqn:Eg.
  - change (zlen (@nil Z)) with 0 in Lds. destruct (Z.eqb_spec (zlen ds) 0); [|lia]. injection H as <-.
    destruct (Put k k) as (m3 & E3 & P3 & _ & _ & _ & _ & I3 & A3). rewrite E3. cbn [obind].
    destruct (put_last_ok dl m3 ds d P3 I3 A3) as (dl' & m4 & -> & I4 & H4 & L4); [tauto|]. cbn [obind]. exists dl', m4, (ds ++ [d]). split; [reflexivity|].
    destruct (Dg k k m3 m4 E3 H4) as [D1 D2]. destruct (Close k k m3 dl' m4 (ds ++ [d]) [i'] E3 I4 H4 L4) as [C1 C2]; auto.
    { intros x. rewrite in_app_iff. cbn [In]. intuition. }
    { inversion D1; subst. constructor; [exact D2|constructor]. }
  - destruct (Z.eqb_spec (zlen ds) 0) as [Q|_]. { rewrite Lds, zlen_cons in Q. pose proof (zlen_nonneg gs). lia. }
    destruct (k <? row_start st).
    + injection H as <-. destruct (Put k (row_stop st)) as (m3 & E3 & P3 & _ & _ & _ & _ & I3 & A3). rewrite E3. cbn [obind].
      destruct (put_first_ok dl m3 ds d P3 I3 A3) as (dl' & m4 & -> & I4 & H4 & L4); [tauto|]. cbn [obind]. exists dl', m4, (d :: ds). split; [reflexivity|].
      destruct (Dg _ _ m3 m4 E3 H4) as [D1 D2]. destruct (Close k (row_stop st) m3 dl' m4 (d :: ds) (i' :: g :: gs) E3 I4 H4 L4) as [C1 C2]; auto.
      { intros x. cbn [In]. intuition. }
    + injection H as <-. destruct (Put (row_start st) k) as (m3 & E3 & P3 & _ & _ & _ & _ & I3 & A3). rewrite E3. cbn [obind].
      destruct (put_last_ok dl m3 ds d P3 I3 A3) as (dl' & m4 & -> & I4 & H4 & L4); [tauto|]. cbn [obind]. exists dl', m4, (ds ++ [d]). split; [reflexivity|].
      destruct (Dg _ _ m3 m4 E3 H4) as [D1 D2]. destruct (Close (row_start st) k m3 dl' m4 (ds ++ [d]) ((g :: gs) ++ [i']) E3 I4 H4 L4) as [C1 C2]; auto.
      { intros x. rewrite in_app_iff. cbn [In]. intuition. }
      { apply Forall2_app; [exact D1|constructor; [exact D2|constructor]]. }
Qed.

Lemma row_down_ok a b pl paths qs pa p : forall fuel k st st', down_loop fuel a b p (hd_error paths) k st = Ok st' -> forall m dl ds,
  atrow m pl dl paths qs pa ds p st ->
  row_down alloc fuel a b p pa k (mkk (min_k st) (max_k st) dl, m) = Fail nomem \/
  exists dl' m' ds', row_down alloc fuel a b p pa k (mkk (min_k st) (max_k st) dl, m) = Ok (mkk (min_k st') (max_k st') dl', m') /\ atrow m' pl dl' paths qs pa ds' p st' /\
    moved m m' (flat qs ++ pa :: ds) (flat qs ++ pa :: ds').
Proof.
  induction fuel as [|f IH]; intros k st st' H m dl ds A; cbn [down_loop row_down fst kmin] in *; destruct (Z.max (min_k st) (- p) <=? k); try discriminate H.
  1,3: injection H as <-; right; exists dl, m, ds; split; [reflexivity|]; split; [exact A|apply moved_refl; eapply atrow_alloc; eauto].
  destruct (compute_f a b p (hd_error paths) k st) as [st1| | |] eqn:E; try discriminate H. cbn [obind] in H.
  destruct (row_value_ok a b m pl dl paths qs pa ds p st _ _ k st1 A eq_refl eq_refl E) as [->|(dl1 & m1 & ds1 & -> & A1 & M1)]; [now left|]. cbn [obind].
  destruct (IH _ _ _ H _ _ _ A1) as [->|(dl2 & m2 & ds2 & -> & A2 & M2)]; [now left|]. right. exists dl2, m2, ds2. split; [reflexivity|]. split; [exact A2|]. eapply moved_trans; eauto.
Qed.
Lemma row_up_ok a b pl paths qs pa p : forall fuel k st st', up_loop fuel a b p (hd_error paths) k st = Ok st' -> forall m dl ds,
  atrow m pl dl paths qs pa ds p st ->
  row_up alloc fuel a b p pa k (mkk (min_k st) (max_k st) dl, m) = Fail nomem \/
  exists dl' m' ds', row_up alloc fuel a b p pa k (mkk (min_k st) (max_k st) dl, m) = Ok (mkk (min_k st') (max_k st') dl', m') /\ atrow m' pl dl' paths qs pa ds' p st' /\
    moved m m' (flat qs ++ pa :: ds) (flat qs ++ pa :: ds').
Proof.
  induction fuel as [|f IH]; intros k st st' H m dl ds A; cbn [up_loop row_up fst kmax] in *; destruct (k <=? Z.min (max_k st) p); try discriminate H.
  1,3: injection H as <-; right; exists dl, m, ds; split; [reflexivity|]; split; [exact A|apply moved_refl; eapply atrow_alloc; eauto].
  destruct (compute_f a b p (hd_error paths) k st) as [st1| | |] eqn:E; try discriminate H. cbn [obind] in H.
  destruct (row_value_ok a b m pl dl paths qs pa ds p st _ _ k st1 A eq_refl eq_refl E) as [->|(dl1 & m1 & ds1 & -> & A1 & M1)]; [now left|]. cbn [obind].
  destruct (IH _ _ _ H _ _ _ A1) as [->|(dl2 & m2 & ds2 & -> & A2 & M2)]; [now left|]. right. exists dl2, m2, ds2. split; [reflexivity|]. split; [exact A2|]. eapply moved_trans; eauto.
Qed.
Lemma row_values_ok a b pl paths qs pa p mn mx st' m dl ds : compute_row a b p (hd_error paths) mn mx = Ok st' -> atrow m pl dl paths qs pa ds p (mkfrow mn mx 0 0 []) ->
  row_values alloc a b p pa (mkk mn mx dl, m) = Fail nomem \/
  exists dl' m' ds', row_values alloc a b p pa (mkk mn mx dl, m) = Ok (mkk (min_k st') (max_k st') dl', m') /\ atrow m' pl dl' paths qs pa ds' p st' /\
    moved m m' (flat qs ++ pa :: ds) (flat qs ++ pa :: ds').
Proof.
  intros H A. unfold compute_row in H. unfold row_values. change (mkk mn mx dl) with (mkk (min_k (mkfrow mn mx 0 0 [])) (max_k (mkfrow mn mx 0 0 [])) dl).
  destruct (zlen a <=? zlen b).
  - destruct (down_loop _ _ _ _ _ _ _) as [st1| | |] eqn:E; try discriminate H. cbn [obind] in H.
    destruct (row_down_ok a b pl paths qs pa p _ _ _ _ E _ _ _ A) as [->|(dl1 & m1 & ds1 & -> & A1 & M1)]; [now left|]. cbn [obind].
    destruct (row_up_ok a b pl paths qs pa p _ _ _ _ H _ _ _ A1) as [->|(dl2 & m2 & ds2 & -> & A2 & M2)]; [now left|]. right. exists dl2, m2, ds2. split; [reflexivity|]. split; [exact A2|]. eapply moved_trans; eauto.
  - destruct (up_loop _ _ _ _ _ _ _) as [st1| | |] eqn:E; try discriminate H. cbn [obind] in H.
    destruct (row_up_ok a b pl paths qs pa p _ _ _ _ E _ _ _ A) as [->|(dl1 & m1 & ds1 & -> & A1 & M1)]; [now left|]. cbn [obind].
    destruct (row_down_ok a b pl paths qs pa p _ _ _ _ H _ _ _ A1) as [->|(dl2 & m2 & ds2 & -> & A2 & M2)]; [now left|]. right. exists dl2, m2, ds2. split; [reflexivity|]. split; [exact A2|]. eapply moved_trans; eauto.
Qed.
End Alloc.

Lemma zset_mid {A} (xs : list A) y ys v : zset (xs ++ y :: ys) (zlen xs) v = Some (xs ++ v :: ys).
Proof.
  unfold zset, zlen. destruct (Z.ltb_spec (Z.of_nat (List.length xs)) 0); [lia|]. rewrite Nat2Z.id. clear. induction xs as [|x xs IH]; [reflexivity|].
  cbn [List.length app set_nth]. now rewrite IH.
Qed.

(** The diagonals move into the array. *)
Lemma drain_ok : forall vals ds dl m g done rest fuel, proper m -> inv dl (slinks m) ds -> Forall2 (is_diag m) vals ds -> held m g = Some (BFs (done ++ rest)) ->
  List.length rest = List.length vals -> (List.length ds <= fuel)%nat ->
  exists dl' m', drain fuel dl m g (zlen done) = Ok (dl', m') /\ inv dl' (slinks m') [] /\ proper m' /\ held m' g = Some (BFs (done ++ vals)) /\
    (forall x, ~ In x ds -> slinks m' x = slinks m x) /\ (forall x, x <> g -> ~ In x ds -> held m' x = held m x) /\ (forall x, In x ds -> held m' x = None).
Proof.
  induction vals as [|v vals IH]; intros ds dl m g done rest fuel P I F Hg Lr Fu.
  - inversion F; subst. destruct rest; [|discriminate Lr]. rewrite app_nil_r in *. exists dl, m. split; [|split; [exact I|split; [exact P|split; [exact Hg|split; [auto|split; [auto|intros x []]]]]]].
    destruct fuel; cbn [drain]; rewrite (inv_first _ _ _ I); reflexivity.
  - inversion F as [|? d ? ds' Hd F']; subst. destruct rest as [|r0 rest]; [discriminate Lr|]. unfold is_diag in Hd.
    destruct fuel as [|f]; [cbn in Fu; lia|]. cbn [drain]. rewrite (inv_first _ _ _ I). cbn [hd].
    assert (d <> NULL) as Nd by (apply (proper_not m); [exact P|unfold allocated; congruence]). rewrite (proj2 (Z.eqb_neq _ _) Nd).
    assert (Forall (allocated m) (d :: ds')) as Al. { constructor; [unfold allocated; congruence|]. apply Forall_forall. intros x J. destruct (diags_in _ _ _ _ F' J) as (y & E). unfold allocated. congruence. }
    destruct (take_out_ok dl m [] d ds' P I Al) as (dl1 & m1 & -> & I1 & H1 & L1). cbn [obind].
    assert (proper m1) as P1 by (unfold proper, allocated in *; now rewrite H1).
    unfold get_diag. rewrite (at_ok m1 d (BDiag v) P1) by (rewrite H1; exact Hd). cbn [obind]. unfold get_fs. rewrite (at_ok m1 g (BFs (done ++ r0 :: rest)) P1) by (rewrite H1; exact Hg). cbn [obind].
    assert (wr "path->f" (done ++ r0 :: rest) (zlen done) v = Ok (done ++ v :: rest)) as ->.
    { unfold wr. now rewrite zset_mid. }
    cbn [obind]. rewrite (put_ok m1 g (BFs (done ++ r0 :: rest))) by (auto; rewrite H1; exact Hg). cbn [obind]. set (m2 := mkstore _ _ _).
    assert (g <> d) as Ngd by congruence.
    assert (proper m2) as P2. { intros A. apply P1. unfold allocated in *. cbn [held m2] in A. unfold upd in A. destruct (Z.eqb_spec NULL g) as [<-|]; [congruence|exact A]. }
    assert (held m2 d = Some (BDiag v)) as Hd2. { cbn [held m2]. rewrite upd_other by congruence. rewrite H1. exact Hd. }
    rewrite (release_ok _ _ _ P2 Hd2). cbn [obind]. set (m3 := mkstore _ _ _).
    assert (proper m3) as P3. { intros A. apply P2. unfold allocated in *. cbn [held m3] in A. unfold upd in A. destruct (Z.eqb_spec NULL d) as [<-|]; [congruence|exact A]. }
    assert (~ In d ds') as Nin. { pose proof (inv_nodup _ _ _ I) as N. now inversion N. }
    assert (forall x, x <> d -> x <> g -> held m3 x = held m x) as O3. { intros x N1 N2. cbn [held m3 m2]. rewrite !upd_other by assumption. now rewrite H1. }
    destruct (IH ds' dl1 m3 g (done ++ [v]) rest f) as (dl' & m' & E & I' & P' & Hg' & L' & O' & D'); auto.
    { eapply diags_frame; [|exact F']. intros x J. apply O3; [intros ->; contradiction|]. destruct (diags_in _ _ _ _ F' J) as (y & Ey). congruence. }
    { cbn [held m3]. rewrite upd_other by exact Ngd. cbn [held m2]. rewrite upd_same, <- app_assoc. reflexivity. }
    { cbn in Fu. lia. }
    replace (zlen (done ++ [v])) with (zlen done + 1) in E by (rewrite zlen_app; reflexivity).
    exists dl', m'. split; [exact E|]. split; [exact I'|]. split; [exact P'|]. split; [rewrite Hg', <- app_assoc; reflexivity|]. split; [|split].
    + intros x N. cbn [In] in N. rewrite L' by tauto. apply L1. cbn [app In]. tauto.
    + intros x N1 N2. cbn [In] in N2. rewrite O' by tauto. apply O3; [intros ->; tauto|exact N1].
    + intros x [<-|J]; [|auto]. rewrite O' by auto. cbn [held m3]. apply upd_same.
Qed.

Lemma mine_kinds n nu mu sl l m aus a : owns n nu mu sl l m aus -> In a (mine mu sl aus) -> (exists u p, held m a = Some (BSync u p)) \/ (exists ss, held m a = Some (BSubs ss)) \/ exists v, held m a = Some (BLong v).
Proof.
  intros [Re _ Nu _] I. unfold mine in I. rewrite in_app_iff, in_flat in I. destruct I as [[I|I]|I].
  - destruct (holds_cell _ _ _ _ _ (re_holds _ _ _ _ _ _ _ Re) I) as (u & p & _ & E). eauto.
  - destruct (holds_array _ _ _ _ _ (re_holds _ _ _ _ _ _ _ Re) I) as (ss & E). eauto.
  - apply in_map_iff in I as (i & <- & I). destruct Nu as [Nu _]. rewrite Forall_forall in Nu. destruct (Nu i I) as (v & E). eauto.
Qed.
Lemma mine_not_path n nu mu sl l m aus pl paths qs a : owns n nu mu sl l m aus -> rows m pl paths qs -> In a (mine mu sl aus) -> ~ In a (flat qs).
Proof.
  intros O R I J. destruct (mine_kinds _ _ _ _ _ _ _ _ O I) as [(? & ? & E)|[(? & E)|(? & E)]]; destruct (paths_in _ _ _ _ (rw_paths _ _ _ _ R) J) as [(? & ? & ? & ? & Ez)|(? & Ez)]; congruence.
Qed.
Lemma owns_frame n nu mu sl l m m' aus : (forall a, In a (mine mu sl aus) -> held m' a = held m a /\ slinks m' a = slinks m a) -> proper m' -> owns n nu mu sl l m aus -> owns n nu mu sl l m' aus.
Proof.
  intros E P [Re _ Nu Fr]. constructor; [|exact P| |exact Fr].
  - eapply rel_frame; [|exact Re]. intros a I. apply E. apply in_or_app. now left.
  - eapply nums_frame; [|exact Nu]. intros a I. apply E. apply in_or_app. now right.
Qed.
Lemma rows_frame m m' pl paths qs : (forall a, In a (flat qs) -> held m' a = held m a /\ slinks m' a = slinks m a) -> rows m pl paths qs -> rows m' pl paths qs.
Proof.
  intros E [A B C]. constructor; [| |exact C].
  - eapply inv_frame; [|exact A]. intros a I. apply E. apply in_flat. now left.
  - eapply paths_frame; [|exact B]. intros a I. now apply E.
Qed.

(** The last row goes away. *)
Lemma drop_row m pl pa0 rest qs : rows m pl (pa0 :: rest) qs -> proper m ->
  exists qs' pa g, qs = qs' ++ [(pa, g)] /\ last pl = pa /\ pa <> NULL /\ held m pa = Some (BPath (pp pa0) (start_k pa0) (stop_k pa0) g) /\ held m g = Some (BFs (pf pa0)) /\
    path_at m (prev (slinks m pa)) = Ok (hd_error rest) /\
    exists pl' m1 m2 m3, take_out pl m pa = Ok (pl', m1) /\ get_path m1 pa = Ok (pp pa0, start_k pa0, stop_k pa0, g) /\ release m1 g = Ok m2 /\ release m2 pa = Ok m3 /\
      rows m3 pl' rest qs' /\ moved m m3 (flat qs) (flat qs').
Proof.
  intros R P. pose proof (rows_alloc _ _ _ _ R) as Al. destruct R as [I F N]. cbn [rev] in F. apply Forall2_app_inv_l in F as (qs' & q2 & F1 & F2 & ->). inversion F2 as [|? [pa g] ? ? [H1 H2] F3]; subst. inversion F3; subst. cbn [fst snd] in *.
  exists qs', pa, g. split; [reflexivity|]. rewrite map_app in I, N. cbn [map fst snd] in I, N.
  split; [rewrite (inv_last _ _ _ I); apply lastd_snoc|]. split; [apply (proper_not m); [exact P|unfold allocated; congruence]|]. split; [exact H1|]. split; [exact H2|].
  split; [eapply before_ok; eauto|].
  rewrite Forall_forall in Al.
  assert (Forall (allocated m) (map fst qs' ++ [pa])) as Al'. { apply Forall_forall. intros x J. apply Al. apply in_flat. left. rewrite map_app. exact J. }
  destruct (take_out_ok pl m (map fst qs') pa [] P I Al') as (pl' & m1 & E1 & I1 & K1 & L1). rewrite app_nil_r in I1.
  assert (moved m m1 (g :: pa :: flat qs') (g :: pa :: flat qs')) as M1.
  { apply moved_links; [exact K1| |].
    - apply Forall_forall. intros x J. apply Al. rewrite flat_app, flat_cons. cbn [In] in J. intuition.
    - intros x J. apply L1. rewrite in_app_iff. cbn [In] in *. rewrite in_flat in J. tauto. }
  pose proof (mv_null _ _ _ _ M1 P) as P1.
  assert (held m1 pa = Some (BPath (pp pa0) (start_k pa0) (stop_k pa0) g)) as H1' by (rewrite K1; exact H1).
  assert (held m1 g = Some (BFs (pf pa0))) as H2' by (rewrite K1; exact H2).
  assert (g <> pa) as Ngp by congruence.
  assert (forall x, In x (map fst qs') -> exists p k1 k2 f, held m x = Some (BPath p k1 k2 f)) as Kf.
  { intros x J. clear -F1 J. induction F1 as [|? q ? qs' [A B] F1 IH]; [destruct J|]. destruct J as [<-|J]; [eauto 6|auto]. }
  assert (forall x, In x (map snd qs') -> exists fs, held m x = Some (BFs fs)) as Ks.
  { intros x J. clear -F1 J. induction F1 as [|? q ? qs' [A B] F1 IH]; [destruct J|]. destruct J as [<-|J]; [eauto|auto]. }
  assert (~ In g (flat qs')) as Ng.
  { rewrite in_flat. intros [J|J]; [destruct (Kf g J) as (? & ? & ? & ? & E); congruence|]. apply NoDup_remove_2 in N. rewrite app_nil_r in N. contradiction. }
  assert (~ In pa (flat qs')) as Np.
  { rewrite in_flat. intros [J|J]; [|destruct (Ks pa J) as (? & E); congruence]. pose proof (inv_nodup _ _ _ I) as Q. apply NoDup_remove_2 in Q. rewrite app_nil_r in Q. contradiction. }
  assert (moved m1 (mkstore (slinks m1) (upd (held m1) g None) (scalls m1)) (g :: pa :: flat qs') (pa :: flat qs')) as M2.
  { apply moved_free; [eapply moved_alloc; exact M1|]. cbn [In]. intros [Q|Q]; [congruence|contradiction]. }
  pose proof (mv_null _ _ _ _ M2 P1) as P2. set (m2 := mkstore _ _ _) in *.
  assert (held m2 pa = Some (BPath (pp pa0) (start_k pa0) (stop_k pa0) g)) as H1''. { cbn [held m2]. rewrite upd_other by congruence. exact H1'. }
  assert (moved m2 (mkstore (slinks m2) (upd (held m2) pa None) (scalls m2)) (pa :: flat qs') (flat qs')) as M3 by (apply moved_free; [eapply moved_alloc; exact M2|exact Np]).
  set (m3 := mkstore (slinks m2) _ _) in *.
  exists pl', m1, m2, m3. split; [exact E1|]. split; [unfold get_path; now rewrite (at_ok _ _ _ P1 H1')|]. split; [now apply release_ok with (b := BFs (pf pa0))|]. split; [eapply release_ok; eauto|]. split.
  - constructor.
    + exact I1.
    + eapply paths_frame; [|exact F1]. intros x J. cbn [held m3 m2]. rewrite !upd_other; [now rewrite K1|intros ->; contradiction|intros ->; contradiction].
    + apply NoDup_remove_1 in N. now rewrite app_nil_r in N.
  - eapply moved_equiv; [| |eapply moved_trans; [exact M1|eapply moved_trans; [exact M2|exact M3]]]; [|reflexivity].
    intros x. rewrite flat_app, flat_cons. cbn [flat map app In]. intuition.
Qed.

Section Alloc.
Variable alloc : (addr -> bool) -> Z -> addr.
Hypothesis Halloc : sound_calloc alloc.

Lemma path_rows_ok a b : forall fuel p paths mn mx paths', pathlist_loop fuel a b p paths mn mx = Ok paths' -> forall m pl dl qs,
  rows m pl paths qs -> inv dl (slinks m) [] -> proper m ->
  path_rows alloc fuel a b p pl (mkk mn mx dl, m) = Fail nomem \/
  exists pl' ks m' qs', path_rows alloc fuel a b p pl (mkk mn mx dl, m) = Ok (pl', (ks, m')) /\ rows m' pl' paths' qs' /\ inv (diaglist ks) (slinks m') [] /\ proper m' /\
    moved m m' (flat qs) (flat qs').
Proof.
  induction fuel as [|f IH]; intros p paths mn mx paths' H m pl dl qs R I P; cbn [pathlist_loop path_rows kmin] in *; destruct (mn <=? zlen b - zlen a); try discriminate H.
  1,3: injection H as <-; right; exists pl, (mkk mn mx dl), m, qs; split; [reflexivity|]; split; [exact R|]; split; [exact I|]; split; [exact P|apply moved_refl; eapply rows_alloc; eauto].
  destruct (compute_row a b p (hd_error paths) mn mx) as [st| | |] eqn:E; try discriminate H. cbn [obind] in H.
  pose proof (rows_alloc _ _ _ _ R) as Al. destruct R as [Ip Fp Np].
  destruct (new_ok alloc Halloc m (BPath 0 0 0 NULL) P) as [->|(pa & -> & Aa & Na)]; [now left|]. cbn [obind]. set (m1 := mkstore (upd (slinks m) pa _) _ _).
  assert (moved m m1 (flat qs) (pa :: flat qs)) as M1 by (now apply moved_new). pose proof (mv_null _ _ _ _ M1 P) as P1.
  assert (held m1 pa = Some (BPath 0 0 0 NULL)) as H1 by (cbn [held m1]; apply upd_same).
  rewrite (put_ok _ _ _ _ P1 H1). cbn [obind]. set (m2 := mkstore (slinks m1) _ _).
  assert (moved m1 m2 (pa :: flat qs) (pa :: flat qs)) as M2. { apply moved_put; [eapply moved_alloc; exact M1|now left]. } pose proof (mv_null _ _ _ _ M2 P1) as P2.
  assert (forall x, x <> pa -> held m2 x = held m x /\ slinks m2 x = slinks m x) as S2. { intros x N. cbn [held slinks m2 m1]. now rewrite !upd_other. }
  assert (held m2 pa = Some (BPath p 0 0 NULL)) as H2 by (cbn [held m2]; apply upd_same).
  assert (~ In pa (flat qs)) as Nin. { intros J. rewrite Forall_forall in Al. now apply Aa, Al. }
  assert (~ In pa (map fst qs)) as Nin1. { intros J. apply Nin. apply in_flat. now left. }
  assert (inv pl (slinks m2) (map fst qs)) as Ip2. { eapply inv_frame; [|exact Ip]. intros x J. apply S2. intros ->. contradiction. }
  destruct (put_last_ok pl m2 (map fst qs) pa P2 Ip2) as (pl1 & m3 & -> & I3 & H3 & L3); [|exact Nin1|].
  { pose proof (moved_alloc _ _ _ _ M2) as Q. rewrite Forall_forall in *. intros x [<-|J]; apply Q; [now left|]. right. apply in_flat. now left. }
  cbn [obind].
  assert (moved m2 m3 (pa :: flat qs) (pa :: flat qs)) as M3.
  { apply moved_links; [exact H3|eapply moved_alloc; exact M2|]. intros x N. apply L3. cbn [In] in *. rewrite in_flat in N. tauto. }
  pose proof (mv_null _ _ _ _ M3 P2) as P3.
  assert (atrow m3 pl1 dl paths qs pa [] p (mkfrow mn mx 0 0 [])) as A3.
  { constructor; cbn [row_start row_stop diags]; auto.
    - eapply paths_frame; [|exact Fp]. intros x J. rewrite H3. apply S2. intros ->. contradiction.
    - rewrite H3. exact H2.
    - eapply inv_frame; [|exact I]. intros x []. }
  destruct (row_values_ok alloc Halloc a b pl1 paths qs pa p mn mx st m3 dl [] E A3) as [->|(dl4 & m4 & ds & -> & A4 & M4)]; [now left|]. cbn [obind diaglist kmin kmax].
  pose proof (atrow_alloc _ _ _ _ _ _ _ _ _ A4) as Al4. destruct A4 as [Ip4 Fp4 Np4 Hc4 Id4 Fd4 P4]. rewrite (inv_count _ _ _ Id4).
  assert (Z.to_nat (zlen ds) = List.length ds) as Elen by (unfold zlen; apply Nat2Z.id). rewrite Elen.
  assert (List.length ds = List.length (diags st)) as Lds by (clear -Fd4; induction Fd4; cbn; congruence).
  destruct (new_ok alloc Halloc m4 (BFs (repeat 0 (List.length ds))) P4) as [->|(g & -> & Ag & Ng)]; [now left|]. cbn [obind]. set (m5 := mkstore (upd (slinks m4) g _) _ _).
  assert (moved m4 m5 (flat qs ++ pa :: ds) (g :: flat qs ++ pa :: ds)) as M5 by (now apply moved_new). pose proof (mv_null _ _ _ _ M5 P4) as P5.
  assert (forall x, x <> g -> held m5 x = held m4 x /\ slinks m5 x = slinks m4 x) as S5. { intros x N. cbn [held slinks m5]. now rewrite !upd_other. }
  assert (~ In g (flat qs ++ pa :: ds)) as Ning. { intros J. rewrite Forall_forall in Al4. now apply Ag, Al4. }
  rewrite in_app_iff in Ning. cbn [In] in Ning.
  assert (held m5 pa = Some (BPath p (row_start st) (row_stop st) NULL)) as Hc5. { rewrite (proj1 (S5 pa ltac:(intros ->; tauto))). exact Hc4. }
  unfold get_path. rewrite (at_ok _ _ _ P5 Hc5). cbn [obind]. rewrite (put_ok _ _ _ _ P5 Hc5). cbn [obind]. set (m6 := mkstore (slinks m5) _ _).
  assert (moved m5 m6 (g :: flat qs ++ pa :: ds) (g :: flat qs ++ pa :: ds)) as M6. { apply moved_put; [eapply moved_alloc; exact M5|]. right. apply in_or_app. right. now left. }
  pose proof (mv_null _ _ _ _ M6 P5) as P6.
  assert (forall x, x <> g -> x <> pa -> held m6 x = held m4 x) as S6. { intros x N1 N2. cbn [held m6]. rewrite upd_other by exact N2. now apply S5. }
  assert (held m6 g = Some (BFs (repeat 0 (List.length ds)))) as Hg6. { cbn [held m6]. rewrite upd_other by (intros ->; tauto). cbn [held m5]. apply upd_same. }
  destruct (drain_ok (diags st) ds dl4 m6 g [] (repeat 0 (List.length ds)) (List.length ds)) as (dl7 & m7 & E7 & I7 & P7 & Hg7 & L7 & O7 & D7); auto.
  { eapply inv_frame; [|exact Id4]. intros x J. change (slinks m6) with (slinks m5). apply S5. intros ->. tauto. }
  { eapply diags_frame; [|exact Fd4]. intros x J. apply S6; [intros ->; tauto|]. destruct (diags_in _ _ _ _ Fd4 J) as (y & Ey). congruence. }
  { now rewrite repeat_length. }
  change (zlen []) with 0 in E7. rewrite E7. cbn [obind app] in *.
  assert (forall x, In x (flat qs) -> ~ In x ds /\ x <> pa /\ x <> g) as Q4.
  { intros x J. split; [|split; [|intros ->; tauto]].
    - intros K. destruct (diags_in _ _ _ _ Fd4 K) as (y & Ey). destruct (paths_in _ _ _ _ Fp4 J) as [(? & ? & ? & ? & Ez)|(? & Ez)]; congruence.
    - intros ->. contradiction. }
  assert (~ In pa ds) as Npd. { intros K. destruct (diags_in _ _ _ _ Fd4 K) as (y & Ey). congruence. }
  assert (pa <> g) as Npg by (intros ->; tauto).
  assert (held m7 pa = Some (BPath p (row_start st) (row_stop st) g)) as Hp7. { rewrite O7 by assumption. cbn [held m6]. apply upd_same. }
  assert (rows m7 pl1 (mkpath p (row_start st) (row_stop st) (diags st) :: paths) (qs ++ [(pa, g)])) as R7.
  { constructor.
    - rewrite map_app. cbn [map fst]. eapply inv_frame; [|exact Ip4]. intros x J.
      assert (~ In x ds /\ x <> g) as [K1 K2]. { apply in_app_or in J as [J|[<-|[]]]; [|auto]. destruct (Q4 x) as (? & ? & ?); [apply in_flat; now left|auto]. }
      rewrite L7 by exact K1. change (slinks m6) with (slinks m5). now apply S5.
    - cbn [rev]. apply Forall2_app; [|constructor; [|constructor]].
      + eapply paths_frame; [|exact Fp4]. intros x J. destruct (Q4 x J) as (K1 & K2 & K3). rewrite O7 by assumption. now apply S6.
      + split; cbn [fst snd pp start_k stop_k pf]; assumption.
    - rewrite map_app. cbn [map snd]. apply nodup_add; rewrite app_nil_r; [exact Np|]. intros J. apply (proj2 (proj2 (Q4 g ltac:(apply in_flat; now right)))). reflexivity. }
  destruct (IH _ _ _ _ _ H m7 pl1 dl7 (qs ++ [(pa, g)]) R7 I7 P7) as [->|(pl8 & ks & m8 & qs8 & -> & R8 & I8 & P8 & M8)]; [now left|].
  right. exists pl8, ks, m8, qs8. split; [reflexivity|]. split; [exact R8|]. split; [exact I8|]. split; [exact P8|].
  eapply moved_trans; [exact M1|]. eapply moved_trans; [exact M2|]. eapply moved_trans; [exact M3|].
  eapply moved_trans; [eapply moved_equiv; [| |exact M4]|].
  { intros x. rewrite in_app_iff. cbn [In]. tauto. }
  { reflexivity. }
  eapply moved_trans; [exact M5|]. eapply moved_trans; [exact M6|]. eapply moved_trans; [|exact M8].
  rewrite Forall_forall in Al4. constructor; [| |auto].
  - intros x A N. cbn [In] in N. rewrite in_app_iff in N. cbn [In] in N. split; [apply O7; [intros ->|]; tauto|]. split; [apply L7; tauto|]. rewrite flat_app, flat_cons. cbn [flat map app In]. intuition congruence.
  - intros x. rewrite flat_app, flat_cons. cbn [flat map app In]. rewrite in_app_iff. cbn [In]. split.
    + intros A. destruct (in_dec Z.eq_dec x ds) as [K|K]. { exfalso. apply A. now apply D7. }
      destruct (Z.eq_dec x g) as [->|Ng']; [tauto|]. destruct (Z.eq_dec x pa) as [->|Np']; [tauto|]. destruct (in_dec Z.eq_dec x (flat qs)) as [K2|K2]; [tauto|].
      right. unfold allocated in *. rewrite O7 in A by assumption. split; [exact A|]. intuition congruence.
    + unfold allocated. intros [[J|[->|[->|[]]]]|[A N]]; try congruence.
      * destruct (Q4 x J) as (K1 & K2 & K3). rewrite O7, S6 by assumption. apply Al4. apply in_or_app. now left.
      * rewrite O7; [exact A|intros ->; tauto|tauto].
Qed.

Lemma obtain_sim : forall paths k sl sl', careful_obtain paths k sl = Ok sl' -> forall nu mu l m aus pl qs fuel,
  owns 2 nu mu sl l m aus -> rows m pl paths qs -> (List.length paths <= fuel)%nat ->
  obtain alloc fuel l pl m k = Fail nomem \/
  exists l' pl' m' nu' mu' aus', obtain alloc fuel l pl m k = Ok (l', pl', m') /\ owns 2 nu' mu' sl' l' m' aus' /\ inv pl' (slinks m') [] /\
    moved m m' (mine mu sl aus ++ flat qs) (mine mu' sl' aus').
Proof.
  induction paths as [|pa0 rest IH]; intros k sl sl' H nu mu l m aus pl qs fuel O R Fu.
  - injection H as <-. destruct R as [I F N]. inversion F; subst. right. exists l, pl, m, nu, mu, aus. split; [|split; [exact O|split; [exact I|]]].
    + destruct fuel; cbn [obtain]; rewrite (inv_last _ _ _ I); reflexivity.
    + change (flat []) with (@nil addr). rewrite app_nil_r. apply moved_refl. eapply owns_alloc; eauto.
  - destruct fuel as [|f]; [cbn in Fu; lia|]. cbn [careful_obtain obtain] in *. pose proof (ow_proper _ _ _ _ _ _ _ O) as P.
    destruct (drop_row m pl pa0 rest qs R P) as (qs1 & pa & g & Eq & El & Na & Hp & Hg & Hb & _). rewrite El, (proj2 (Z.eqb_neq _ _) Na).
    assert (get_path m pa = Ok (pp pa0, start_k pa0, stop_k pa0, g)) as -> by (unfold get_path; now rewrite (at_ok _ _ _ P Hp)). cbn [obind].
    destruct (get_set "prev_k" k) as [k'| | |] eqn:Ek; try discriminate H. cbn [obind] in *.
    assert (get_fs m g = Ok (pf pa0)) as -> by (unfold get_fs; now rewrite (at_ok _ _ _ P Hg)). cbn [obind].
    destruct (rd "path->f" (pf pa0) (k' - start_k pa0)) as [v| | |] eqn:Er; try discriminate H. cbn [obind] in *. rewrite Hb. cbn [obind].
    destruct (initial_f k' (hd_error rest)) as [[s0 pk]| | |] eqn:Ei; try discriminate H. cbn [obind] in *.
    assert (exists sl1, (if s0 <? v then match items sl with [] => UB "synclist->first is NULL" | s :: _ => if unmatched s then save_match (mkslist (items sl) (fresh sl + 1)) (sid s)
                        [s0; s0 + k'] (v - s0) (fresh sl) else UB "matched twice" end else Ok sl) = Ok sl1 /\ careful_obtain rest pk sl1 = Ok sl') as (sl1 & Es & H').
    { destruct (if s0 <? v then _ else _) as [sl1| | |]; try discriminate H. cbn [obind] in H. eauto. }
    clear H.
    assert ((if s0 <? v then let! (q, m) := new alloc m (BLong 0) in save alloc 2 l m (first l) [s0; s0 + k'] (v - s0) q else Ok (l, m)) = Fail nomem \/
      exists l1 m1 nu1 mu1 aus1, (if s0 <? v then let! (q, m) := new alloc m (BLong 0) in save alloc 2 l m (first l) [s0; s0 + k'] (v - s0) q else Ok (l, m)) = Ok (l1, m1) /\
        owns 2 nu1 mu1 sl1 l1 m1 aus1 /\ moved m m1 (mine mu sl aus) (mine mu1 sl1 aus1)) as [->|(l1 & m1 & nu1 & mu1 & aus1 & -> & O1 & M1)]; [|now left|].
    { destruct (s0 <? v).
      - destruct (items sl) as [|s its] eqn:Eit; [discriminate Es|]. unfold unmatched in Es. destruct (mptr s) eqn:Em; [discriminate Es|].
        assert (first l = nu (sid s)) as ->. { rewrite (inv_first _ _ _ (ho_inv _ _ _ _ (re_holds _ _ _ _ _ _ _ (ow_rel _ _ _ _ _ _ _ O)))), (re_addr _ _ _ _ _ _ _ (ow_rel _ _ _ _ _ _ _ O)), Eit. reflexivity. }
        destruct (match_step alloc Halloc 2 nu mu sl l m aus [] s its [s0; s0 + k'] (v - s0) O Eit Em eq_refl) as [E|(l1 & m1 & aus1 & nu1 & mu1 & L' & s' & R' & E & Es' & _ & O1 & M1 & _)]; [now left|].
        right. rewrite Eit in Es'. rewrite Es in Es'. injection Es' as ->. exists l1, m1, nu1, mu1, aus1. auto.
      - injection Es as <-. right. exists l, m, nu, mu, aus. split; [reflexivity|]. split; [exact O|]. apply moved_refl. eapply owns_alloc; eauto. }
    cbn [obind]. pose proof (ow_proper _ _ _ _ _ _ _ O1) as P1. pose proof (rows_alloc _ _ _ _ R) as Al. rewrite Forall_forall in Al.
    assert (forall a, In a (flat qs) -> ~ In a (mine mu sl aus)) as Dis by (intros x J K; exact (mine_not_path _ _ _ _ _ _ _ _ _ _ _ O R K J)).
    assert (rows m1 pl (pa0 :: rest) qs) as R1. { eapply rows_frame; [|exact R]. intros x J. destruct (mv_same _ _ _ _ M1 x (Al x J) (Dis x J)) as (X & Y & _). auto. }
    destruct (drop_row m1 pl pa0 rest qs R1 P1) as (qs2 & pa2 & g2 & Eq2 & El2 & _ & _ & _ & _ & pl2 & m2 & m3 & m4 & E2 & E2' & E3 & E4 & R4 & M4).
    assert (pa2 = pa) as -> by congruence. rewrite E2. cbn [obind]. rewrite E2'. cbn [obind]. rewrite E3. cbn [obind]. rewrite E4. cbn [obind].
    assert (proper m4) as P4 by (apply (mv_null _ _ _ _ M4 P1)).
    pose proof (owns_alloc _ _ _ _ _ _ _ O1) as Al1. rewrite Forall_forall in Al1.
    assert (forall a, In a (mine mu1 sl1 aus1) -> ~ In a (flat qs)) as Dis1 by (intros x J; exact (mine_not_path _ _ _ _ _ _ _ _ _ _ _ O1 R1 J)).
    assert (owns 2 nu1 mu1 sl1 l1 m4 aus1) as O4. { eapply owns_frame; [|exact P4|exact O1]. intros x J. destruct (mv_same _ _ _ _ M4 x (Al1 x J) (Dis1 x J)) as (X & Y & _). auto. }
    destruct (IH _ _ _ H' nu1 mu1 l1 m4 aus1 pl2 qs2 f O4 R4) as [->|(l' & pl' & m' & nu' & mu' & aus' & -> & O' & I' & M')]; [cbn in Fu; lia|now left|].
    right. exists l', pl', m', nu', mu', aus'. split; [reflexivity|]. split; [exact O'|]. split; [exact I'|].
    eapply moved_trans; [|exact M'].
    apply moved_trans with (m2 := m1) (ys := flat qs ++ mine mu1 sl1 aus1).
    + eapply moved_equiv; [reflexivity| |apply (moved_frame _ _ _ _ (flat qs) M1); [now apply Forall_forall|exact Dis]]. intros x. rewrite !in_app_iff. tauto.
    + eapply moved_equiv; [reflexivity| |apply (moved_frame _ _ _ _ (mine mu1 sl1 aus1) M4); [now apply Forall_forall|exact Dis1]]. intros x. rewrite !in_app_iff. tauto.
Qed.

Lemma empty_inv l : empty_list l <-> forall h, inv l h [].
Proof. split; intros H h; [apply presents_inv|apply inv_presents]; apply H. Qed.
Lemma inv_empty l h : inv l h [] -> empty_list l.
Proof. intros [A B _ _ E F] h'. apply inv_presents. constructor; auto; [reflexivity|constructor]. Qed.

Lemma fastukk_mem dl pl m a b : proper m -> empty_list dl -> empty_list pl -> zlen a <= MAX_F ->
  fastukk_list alloc dl pl m a b = Fail nomem \/
  exists l dl' pl' m' its xs, fastukk_list alloc dl pl m a b = Ok (l, dl', pl', m') /\ fastukk_sync a b = Ok its /\ list_shows l m' its xs /\
    adds_exactly (map item_at xs ++ map array_at xs ++ numbers_at xs) m m' /\ empty_list dl' /\ empty_list pl' /\ proper m'.
Proof.
  intros P Ed Ep Hmax. unfold fastukk_list, fastukk_sync. destruct (Z.ltb_spec MAX_F (zlen a)) as [|_]; [lia|].
  destruct (init_ok alloc Halloc m [a; b] 1 (fun _ => NULL) P) as [->|(l & m1 & nu & aus & -> & Re & M1)]; [now left|]. cbn [obind].
  set (sl := initialize_synclist [a; b] 1) in *. pose proof (mv_null _ _ _ _ M1 P) as P1.
  assert (ptrs (items sl) = []) as Hptr by apply initialize_ptrs.
  assert (owns 2 nu (fun _ => NULL) sl l m1 aus) as O1.
  { constructor; [exact Re|exact P1| |]; rewrite Hptr; repeat constructor. }
  assert (mine (fun _ => NULL) sl aus = flat aus) as Emine. { unfold mine. rewrite Hptr. apply app_nil_r. }
  destruct (compute_pathlist_ok a b) as (r & older & E & Hlen & Hch & Hr). rewrite E. cbn [obind]. unfold compute_pathlist in E.
  assert (exists sl', careful_obtain (r :: older) (Some (zlen b - zlen a)) sl = Ok sl') as (sl' & Es).
  { destruct (obtain_careful_ok a b r older (zlen b - zlen a) (zlen a) sl (zlen a) (zlen b) []) as (sl' & E' & _); auto; try lia.
    - apply initialize_linv.
    - rewrite Hptr. constructor.
    - rewrite Hptr. constructor.
    - unfold sl, initialize_synclist. cbn [map]. destruct (valid_sync _) eqn:Ev.
      + left. eexists. reflexivity.
      + right. cbn -[Z.ltb] in Ev. pose proof (zlen_nonneg a) as Ha0. pose proof (zlen_nonneg b) as Hb0.
        destruct (Z.ltb_spec 0 (zlen a)); [discriminate Ev|]. destruct (Z.ltb_spec 0 (zlen b)); [discriminate Ev|]. repeat split; lia.
    - cbn [tcost map fold_right]. lia.
    - eauto. }
  rewrite (careful_obtain_loop _ _ _ _ Es). cbn [obind].
  assert (rows m1 pl [] []) as R1. { constructor; [apply empty_inv; exact Ep|constructor|constructor]. }
  destruct (path_rows_ok a b _ 0 [] (- zlen a) (zlen b) _ E m1 pl dl [] R1) as [->|(pl1 & ks & m2 & qs & -> & R2 & Id & P2 & M2)]; [apply empty_inv; exact Ed|exact P1|now left|]. cbn [obind].
  change (flat []) with (@nil addr) in M2.
  pose proof (owns_alloc _ _ _ _ _ _ _ O1) as Al1. rewrite Forall_forall in Al1.
  assert (owns 2 nu (fun _ => NULL) sl l m2 aus) as O2.
  { eapply owns_frame; [|exact P2|exact O1]. intros x J. destruct (mv_same _ _ _ _ M2 x (Al1 x J) (fun F => F)) as (X & Y & _). auto. }
  assert (List.length (r :: older) = Z.to_nat (count pl1)) as Lc.
  { rewrite (inv_count _ _ _ (rw_inv _ _ _ _ R2)). unfold zlen. rewrite map_length. pose proof (rw_paths _ _ _ _ R2) as F. assert (forall (A B : Type) (Q : A -> B -> Prop) u v, Forall2 Q u v -> List.length u = List.length v) as Fl by (intros A B Q u v X; induction X; cbn; congruence).
    apply Fl in F. rewrite rev_length in F. lia. }
  destruct (obtain_sim _ _ _ _ Es nu (fun _ => NULL) l m2 aus pl1 qs (Z.to_nat (count pl1)) O2 R2) as [->|(l' & pl' & m3 & nu' & mu' & aus' & -> & O3 & I3 & M3)]; [lia|now left|]. cbn [obind].
  destruct (finish_ok _ _ _ _ _ m _ _ O3) as (m4 & xs & -> & Sh & Ad & P4).
  { eapply moved_trans; [exact M1|]. eapply moved_trans; [|exact M3]. rewrite Emine in *.
    eapply moved_equiv; [| |apply (moved_frame _ _ _ _ (flat aus) M2); [now apply Forall_forall|intros x _ F; exact F]]; intros x; rewrite ?in_app_iff; cbn [In]; tauto. }
  cbn [obind]. right. eexists l', (diaglist ks), pl', m4, _, xs. split; [reflexivity|]. split; [reflexivity|]. split; [exact Sh|]. split; [exact Ad|].
  split; [eapply inv_empty; exact Id|]. split; [eapply inv_empty; exact I3|exact P4].
Qed.
End Alloc.
