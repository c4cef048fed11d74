(** Proofs about MemSyncModel: it computes what SyncModel computes. *)
From Coq Require Import String.
From Verif Require Import Base CLib ListModel ListSpec ListProof SyncModel SyncSpec SyncProof HeurProof MemSyncModel MemSyncSpec MemTextProof MemWordProof MemSyncProof.
Local Open Scope Z_scope.
Local Open Scope list_scope.

Definition ptr (mu : Z -> addr) (o : option Z) : addr := match o with Some i => mu i | None => NULL end.
Definition cells_of (mu : Z -> addr) (its : list sync) : list (list substr * addr) := map (fun s => (subs s, ptr mu (mptr s))) its.

(** The list in memory is the list [sl]: the item with identity [i] is at [nu i]. *)
Record rel (n : nat) (nu mu : Z -> addr) (sl : synclist) (l : header) (m : store) (aus : list (addr * addr)) : Prop := {
  re_holds : holds l m (cells_of mu (items sl)) aus;
  re_addr : map fst aus = map nu (map sid (items sl));
  re_ids : NoDup (map sid (items sl));
  re_fresh : Forall (fun s => sid s < fresh sl) (items sl);
  re_len : Forall (fun s => List.length (subs s) = n) (items sl) }.

Lemma split_map {A B} (f : A -> B) l xs y ys : map f l = xs ++ y :: ys -> exists l1 x l2, l = l1 ++ x :: l2 /\ map f l1 = xs /\ f x = y /\ map f l2 = ys.
Proof.
  revert l. induction xs as [|z xs IH]; intros [|x l] E; try discriminate E.
  - injection E as E1 E2. exists [], x, l. auto.
  - injection E as E1 E2. destruct (IH l E2) as (l1 & x' & l2 & -> & A1 & A2 & A3). exists (x :: l1), x', l2. cbn. repeat split; congruence.
Qed.

Lemma rel_at n nu mu sl l m aus L s R : rel n nu mu sl l m aus -> items sl = L ++ s :: R ->
  exists LA u RA, aus = LA ++ (nu (sid s), u) :: RA /\ List.length LA = List.length L /\ map fst LA = map nu (map sid L) /\ map fst RA = map nu (map sid R) /\
    held m (nu (sid s)) = Some (BSync u (ptr mu (mptr s))) /\ held m u = Some (BSubs (subs s)).
Proof.
  intros [H E _ _ _] It. rewrite It, !map_app in E. cbn [map] in E. destruct (split_map fst aus _ _ _ E) as (LA & [a u] & RA & -> & E1 & E2 & E3).
  cbn in E2. subst a. exists LA, u, RA. split; [reflexivity|]. split; [apply (f_equal (@List.length _)) in E1; now rewrite !map_length in E1|]. split; [exact E1|]. split; [exact E3|].
  destruct H as [_ F _]. rewrite It in F. unfold cells_of in F. rewrite map_app in F. cbn [map] in F.
  apply split_cells in F as [_ F]; [|apply (f_equal (@List.length _)) in E1; rewrite !map_length in E1; now rewrite map_length].
  inversion F as [|? ? ? ? [K1 K2]]; subst. auto.
Qed.

Lemma cells_of_upd mu i p its : ~ In i (ptrs its) -> cells_of (upd mu i p) its = cells_of mu its.
Proof.
  unfold cells_of. induction its as [|s its IH]; [reflexivity|]. cbn [ptrs flat_map map]. intros N. rewrite in_app_iff in N. f_equal; [|apply IH; unfold ptrs; tauto].
  destruct (mptr s) as [j|]; [|reflexivity]. cbn [ptr]. unfold upd. destruct (Z.eqb_spec j i) as [->|]; [|reflexivity]. exfalso. apply N. left. now left.
Qed.

(** The effect of save_match on the items. *)
Lemma save_match_split sl L s R starts len mid : NoDup (map sid (items sl)) -> Forall (fun s => sid s < fresh sl) (items sl) -> items sl = L ++ s :: R ->
  save_match sl (sid s) starts len mid =
  Ok (mkslist (L ++ opt_item (left_of sl s starts len) ++ mid_of s starts len mid :: opt_item (right_of sl s starts len) ++ R) (fresh sl + 2)).
Proof.
  intros N F E. rewrite E in N, F. unfold save_match. rewrite E, get_item_mid by exact N.
  set (lf := mksync (fresh sl) _ None). set (rg := mksync (fresh sl + 1) _ None). set (s' := mksync (sid s) _ (Some mid)).
  assert (~ In (sid s) (map sid L)) as N1. { rewrite map_app in N. cbn in N. apply NoDup_remove_2 in N. intros Q. apply N. apply in_or_app. now left. }
  rewrite update_item_mid by exact N1. change (sid s) with (sid s').
  assert (sid lf <> sid s') as Nl. { rewrite Forall_forall in F. specialize (F s). cbn. rewrite in_app_iff in F. cbn in F. intros Q. rewrite Q in F. specialize (F ltac:(auto)). lia. }
  assert ((if valid_sync (subs lf) then insert_before (L ++ s' :: R) (sid s') lf else L ++ s' :: R) = (L ++ opt_item lf) ++ s' :: R) as ->.
  { unfold opt_item. destruct (valid_sync (subs lf)).
    - rewrite insert_before_mid by exact N1. rewrite <- app_assoc. reflexivity.
    - now rewrite app_nil_r. }
  assert (~ In (sid s') (map sid (L ++ opt_item lf))) as N2.
  { rewrite map_app, in_app_iff. intros [Q|Q]; [contradiction|]. unfold opt_item in Q. destruct (valid_sync (subs lf)); [|contradiction]. destruct Q as [Q|[]]. contradiction. }
  assert ((if valid_sync (subs rg) then insert_after ((L ++ opt_item lf) ++ s' :: R) (sid s') rg else (L ++ opt_item lf) ++ s' :: R) = L ++ opt_item lf ++ s' :: opt_item rg ++ R) as ->.
  { unfold opt_item at 2 3 4. destruct (valid_sync (subs rg)).
    - rewrite insert_after_mid by exact N2. now rewrite <- app_assoc.
    - now rewrite <- app_assoc. }
  reflexivity.
Qed.

(** The numbers of the matches. *)
Definition nums (m : store) (mu : Z -> addr) (ids : list Z) : Prop :=
  Forall (fun i => exists v, held m (mu i) = Some (BLong v)) ids /\ NoDup (map mu ids).

Lemma nums_alloc m mu ids : nums m mu ids -> Forall (allocated m) (map mu ids).
Proof. intros [F _]. apply Forall_map. revert F. apply Forall_impl. intros i (v & E). unfold allocated. congruence. Qed.
Lemma nums_not_flat l m cs aus mu ids a : holds l m cs aus -> nums m mu ids -> In a (map mu ids) -> ~ In a (flat aus).
Proof.
  intros H [F _] I Q. apply in_map_iff in I as (i & <- & I). rewrite Forall_forall in F. destruct (F i I) as (v & E). apply in_flat in Q as [Q|Q].
  - destruct (holds_cell _ _ _ _ _ H Q) as (u & p & _ & E'). congruence.
  - destruct (holds_array _ _ _ _ _ H Q) as (ss & E'). congruence.
Qed.
Lemma nums_frame m m' mu ids : (forall a, In a (map mu ids) -> held m' a = held m a) -> nums m mu ids -> nums m' mu ids.
Proof.
  intros Fr [F N]. split; [|exact N]. rewrite Forall_forall in *. intros i I. destruct (F i I) as (v & E). exists v. rewrite Fr; [exact E|]. now apply in_map.
Qed.
Lemma map_upd (mu : Z -> addr) i p ids : ~ In i ids -> map (upd mu i p) ids = map mu ids.
Proof. intros N. apply map_ext_in. intros j I. apply upd_other. intros ->. contradiction. Qed.

(** A list with its numbers. *)
Record owns (n : nat) (nu mu : Z -> addr) (sl : synclist) (l : header) (m : store) (aus : list (addr * addr)) : Prop := {
  ow_rel : rel n nu mu sl l m aus;
  ow_proper : proper m;
  ow_nums : nums m mu (ptrs (items sl));
  ow_fresh : Forall (fun i => i < fresh sl) (ptrs (items sl)) }.
Definition mine (mu : Z -> addr) (sl : synclist) (aus : list (addr * addr)) : list addr := flat aus ++ map mu (ptrs (items sl)).

Lemma owns_alloc n nu mu sl l m aus : owns n nu mu sl l m aus -> Forall (allocated m) (mine mu sl aus).
Proof. intros [R _ N _]. apply Forall_app. split; [eapply holds_alloc, re_holds; eauto|now apply nums_alloc]. Qed.

Lemma match_rest_len t0 : forall rest starts len starts' len', match_rest t0 rest starts len = Ok (Some (starts', len')) -> List.length starts' = (List.length starts + List.length rest)%nat.
Proof.
  induction rest as [|[t u] rest IH]; intros starts len starts' len' H; cbn [match_rest] in H.
  - injection H as -> _. cbn. lia.
  - destruct (rd _ starts 0) as [s0| | |]; try discriminate H. cbn [obind] in H.
    destruct (longest_match _ _ _ _ _ _ _ _ _) as [[[len1 ns] si]| | |]; try discriminate H. cbn [obind] in H.
    destruct (len1 =? 0); [discriminate H|]. destruct (get_set "new_start" ns) as [x| | |]; try discriminate H. cbn [obind] in H.
    destruct (get_set "start[i]" si) as [y| | |]; try discriminate H. cbn [obind] in H. apply IH in H. rewrite H, app_length. cbn [List.length].
    destruct (0 <? x - s0); rewrite ?map_length; lia.
Qed.

Section Alloc.
Variable alloc : (addr -> bool) -> Z -> addr.
Hypothesis Halloc : sound_calloc alloc.

Lemma save_rel n nu mu sl l m aus L s R starts len mid : proper m -> rel n nu mu sl l m aus -> items sl = L ++ s :: R -> List.length starts = n ->
  save alloc n l m (nu (sid s)) starts len (mu mid) = Fail nomem \/
  exists l' m' aus' nu',
    let sl' := mkslist (L ++ opt_item (left_of sl s starts len) ++ mid_of s starts len mid :: opt_item (right_of sl s starts len) ++ R) (fresh sl + 2) in
    save alloc n l m (nu (sid s)) starts len (mu mid) = Ok (l', m') /\ rel n nu' mu sl' l' m' aus' /\ moved m m' (flat aus) (flat aus') /\
    (forall i, i < fresh sl -> nu' i = nu i).
Proof.
  intros P Re It Ls. destruct (rel_at _ _ _ _ _ _ _ _ _ _ Re It) as (LA & u & RA & -> & Len & EL & ER & Ha & Hu). destruct Re as [H Ad Nd Fr Le].
  assert (List.length (subs s) = n) as Ln. { rewrite It in Le. apply Forall_app in Le as [_ Le]. now inversion Le. }
  rewrite It in H. unfold cells_of in H. rewrite map_app in H. cbn [map] in H.
  destruct (save_ok alloc Halloc n l m _ _ _ _ LA (nu (sid s)) u RA starts len (mu mid) P H) as [->|(l' & m' & lA & rA & E & H' & M)]; auto.
  { now rewrite map_length. }
  right. cbv zeta in H', M. set (ls := zip_starts left_sub (subs s) starts len) in *. set (rs := zip_starts right_sub (subs s) starts len) in *.
  pose (nu' := fun i => if i =? fresh sl then fst lA else if i =? fresh sl + 1 then fst rA else nu i).
  assert (forall i, i < fresh sl -> nu' i = nu i) as Old.
  { intros i Hi. unfold nu'. destruct (Z.eqb_spec i (fresh sl)); [lia|]. destruct (Z.eqb_spec i (fresh sl + 1)); [lia|reflexivity]. }
  rewrite It in Fr. apply Forall_app in Fr as [FL FR]. apply Forall_cons_iff in FR as [Fs FR].
  assert (forall X, Forall (fun s => sid s < fresh sl) X -> map nu' (map sid X) = map nu (map sid X)) as OldM.
  { intros X F. rewrite !map_map. apply map_ext_in. rewrite Forall_forall in F. auto. }
  exists l', m', (LA ++ opt_pair ls lA ++ (nu (sid s), u) :: opt_pair rs rA ++ RA), nu'. cbv zeta. split; [exact E|]. split; [|split; [exact M|exact Old]].
  constructor; cbn [items fresh].
  - unfold cells_of. rewrite !map_app. cbn [map]. rewrite map_app. unfold opt_item, left_of, right_of. cbn [subs]. fold ls rs.
    unfold opt_cell in H'. destruct (valid_sync ls), (valid_sync rs); exact H'.
  - rewrite !map_app. cbn [map]. rewrite !map_app. rewrite EL, ER, (OldM L FL), (OldM R FR). cbn [mid_of sid fst]. rewrite (Old _ Fs). f_equal.
    unfold opt_pair, opt_item, left_of, right_of. cbn [subs]. fold ls rs.
    f_equal; [|f_equal; f_equal].
    + destruct (valid_sync ls); [|reflexivity]. cbn [map sid]. unfold nu'. now rewrite Z.eqb_refl.
    + destruct (valid_sync rs); [|reflexivity]. cbn [map sid]. unfold nu'. destruct (Z.eqb_spec (fresh sl + 1) (fresh sl)); [lia|]. now rewrite Z.eqb_refl.
  - rewrite !map_app. cbn [map]. rewrite map_app. cbn [mid_of sid]. rewrite It, map_app in Nd. cbn [map] in Nd.
    assert (forall i, fresh sl <= i -> ~ In i (map sid L) /\ i <> sid s /\ ~ In i (map sid R)) as New.
    { intros i Hi. rewrite Forall_forall in FL, FR. repeat split.
      - intros Q. apply in_map_iff in Q as (x & <- & Ix). specialize (FL x Ix). lia.
      - lia.
      - intros Q. apply in_map_iff in Q as (x & <- & Ix). specialize (FR x Ix). lia. }
    assert (NoDup (map sid L ++ sid s :: map sid (opt_item (right_of sl s starts len)) ++ map sid R)) as Nr.
    { unfold opt_item. destruct (valid_sync (subs (right_of sl s starts len))); [|exact Nd].
      cbn [map app right_of sid]. change (map sid L ++ sid s :: fresh sl + 1 :: map sid R) with (map sid L ++ [sid s] ++ fresh sl + 1 :: map sid R).
      rewrite app_assoc. apply nodup_add; [rewrite <- app_assoc; exact Nd|]. rewrite <- app_assoc. destruct (New (fresh sl + 1)) as (Q1 & Q2 & Q3); [lia|].
      rewrite !in_app_iff. cbn. intuition. }
    unfold opt_item at 1. destruct (valid_sync (subs (left_of sl s starts len))); [|exact Nr].
    cbn [map app left_of sid]. apply nodup_add; [exact Nr|]. destruct (New (fresh sl)) as (Q1 & Q2 & Q3); [lia|].
    rewrite in_app_iff. cbn [In]. rewrite in_app_iff. intros [Q|[Q|[Q|Q]]]; [auto|auto| |auto].
    unfold opt_item in Q. destruct (valid_sync (subs (right_of sl s starts len))); [|contradiction]. destruct Q as [Q|[]]. cbn in Q. lia.
  - assert (forall X, Forall (fun s => sid s < fresh sl) X -> Forall (fun s => sid s < fresh sl + 2) X) as W by (intros X; apply Forall_impl; intros; lia).
    apply Forall_app. split; [auto|]. apply Forall_app. split; [unfold opt_item; destruct (valid_sync _); repeat constructor; cbn; lia|].
    constructor; [cbn; lia|]. apply Forall_app. split; [unfold opt_item; destruct (valid_sync _); repeat constructor; cbn; lia|auto].
  - rewrite It in Le. apply Forall_app in Le as [LeL LeR]. apply Forall_cons_iff in LeR as [_ LeR].
    assert (forall f, List.length (zip_starts f (subs s) starts len) = n) as Zl.
    { intros f. unfold zip_starts. rewrite map_length, combine_length. lia. }
    apply Forall_app. split; [auto|]. apply Forall_app. split; [unfold opt_item; destruct (valid_sync _); repeat constructor; cbn; apply Zl|].
    constructor; [cbn; apply Zl|]. apply Forall_app. split; [unfold opt_item; destruct (valid_sync _); repeat constructor; cbn; apply Zl|auto].
Qed.

(** A new number and the match that has it. *)
Lemma match_step n nu mu sl l m aus L s R starts len : owns n nu mu sl l m aus -> items sl = L ++ s :: R -> mptr s = None -> List.length starts = n ->
  (let! (p, m) := new alloc m (BLong 0) in save alloc n l m (nu (sid s)) starts len p) = Fail nomem \/
  exists l' m' aus' nu' mu' L' s' R',
    (let! (p, m) := new alloc m (BLong 0) in save alloc n l m (nu (sid s)) starts len p) = Ok (l', m') /\
    let sl' := mkslist (L' ++ s' :: R') (fresh sl + 3) in
    save_match (mkslist (items sl) (fresh sl + 1)) (sid s) starts len (fresh sl) = Ok sl' /\ sid s' = sid s /\
    owns n nu' mu' sl' l' m' aus' /\ moved m m' (mine mu sl aus) (mine mu' sl' aus') /\
    (forall i, i < fresh sl -> nu' i = nu i) /\ incl (map sid (items sl)) (map sid (items sl')).
Proof.
  intros [Re P Nu Fr] It Em Ls. destruct (new_ok alloc Halloc m (BLong 0) P) as [->|(p & -> & Ap & Np)]; [now left|]. cbn [obind].
  set (m1 := mkstore _ _ _). pose (i0 := fresh sl). pose (mu' := upd mu i0 p : Z -> addr).
  assert (~ In i0 (ptrs (items sl))) as Ni. { rewrite Forall_forall in Fr. intros Q. specialize (Fr _ Q). unfold i0 in Fr. lia. }
  pose proof (holds_alloc _ _ _ _ (re_holds _ _ _ _ _ _ _ Re)) as Fl. pose proof (nums_alloc _ _ _ Nu) as Fn.
  assert (moved m m1 (mine mu sl aus) (p :: mine mu sl aus)) as M1. { apply moved_new; auto. now apply Forall_app. }
  assert (forall a, allocated m a -> held m1 a = held m a /\ slinks m1 a = slinks m a) as Same.
  { intros a A. assert (a <> p) by (intros ->; contradiction). cbn [held slinks m1]. now rewrite !upd_other. }
  pose proof (mv_null _ _ _ _ M1 P) as P1.
  assert (rel n nu mu' (mkslist (items sl) (fresh sl + 1)) l m1 aus) as Re1.
  { destruct Re as [H Ad Nd Fs Le]. constructor; cbn [items fresh]; auto.
    - unfold mu'. rewrite cells_of_upd by exact Ni. eapply holds_frame; [|exact H]. rewrite Forall_forall in Fl. auto.
    - revert Fs. apply Forall_impl. intros; lia. }
  assert (nums m1 mu' (ptrs (items sl))) as Nu1.
  { assert (nums m1 mu (ptrs (items sl))) as Q. { eapply nums_frame; [|exact Nu]. intros a I. rewrite Forall_forall in Fn. now apply Same, Fn. }
    unfold nums in *. unfold mu' at 2. rewrite map_upd by exact Ni. split; [|apply Q]. destruct Q as [Q _]. rewrite Forall_forall in *. intros j J.
    unfold mu'. rewrite upd_other; [auto|]. intros ->. contradiction. }
  assert (mu' i0 = p) as Ep by (unfold mu'; apply upd_same).
  assert (held m1 p = Some (BLong 0)) as Hp by (cbn [held m1]; apply upd_same).
  destruct (save_rel n nu mu' _ l m1 aus L s R starts len i0 P1 Re1 It Ls) as [E|(l' & m' & aus' & nu' & E & Re2 & M2 & Old)].
  { rewrite Ep in E. now left. }
  rewrite Ep in E. right. cbv zeta in Re2. cbn [items fresh] in *.
  exists l', m', aus', nu', mu', (L ++ opt_item (left_of (mkslist (items sl) (fresh sl + 1)) s starts len)), (mid_of s starts len i0),
    (opt_item (right_of (mkslist (items sl) (fresh sl + 1)) s starts len) ++ R).
  split; [exact E|]. cbv zeta. rewrite <- app_assoc. replace (fresh sl + 3) with (fresh sl + 1 + 2) by lia.
  set (sl' := mkslist (L ++ _) _) in *.
  assert (ptrs (items sl) = ptrs L ++ ptrs R) as Pt. { rewrite It, ptrs_app. cbn [ptrs flat_map]. now rewrite Em. }
  assert (ptrs (items sl') = ptrs L ++ i0 :: ptrs R) as Pt'. { cbn [items sl']. now apply ptrs_save. }
  pose proof (re_holds _ _ _ _ _ _ _ Re1) as Ho1. pose proof (re_holds _ _ _ _ _ _ _ Re) as Ho.
  assert (~ In p (flat aus)) as Npf. { intros Q. rewrite Forall_forall in Fl. now apply Ap, Fl. }
  assert (~ In p (map mu (ptrs (items sl)))) as Npn. { intros Q. rewrite Forall_forall in Fn. now apply Ap, Fn. }
  assert (map mu' (ptrs L) = map mu (ptrs L) /\ map mu' (ptrs R) = map mu (ptrs R)) as [EL ER].
  { rewrite Pt, in_app_iff in Ni. unfold mu'. split; apply map_upd; tauto. }
  split; [|split; [|split; [|split; [|split]]]].
  - apply (save_match_split (mkslist (items sl) (fresh sl + 1)) L s R starts len i0); auto; apply Re1.
  - reflexivity.
  - constructor; [exact Re2|apply (mv_null _ _ _ _ M2 P1)| |].
    + rewrite Pt'. assert (forall a, In a (map mu' (ptrs L ++ i0 :: ptrs R)) -> held m' a = held m1 a) as Sm.
      { intros a I. apply (mv_same _ _ _ _ M2).
        - rewrite map_app in I. cbn [map] in I. apply in_elt_inv in I as [Q|I]; [rewrite Ep in Q; subst a; unfold allocated; congruence|].
          rewrite <- map_app, <- Pt in I. pose proof (nums_alloc _ _ _ Nu1) as Q. rewrite Forall_forall in Q. now apply Q.
        - rewrite map_app in I. cbn [map] in I. apply in_elt_inv in I as [Q|I]; [rewrite Ep in Q; now subst a|].
          rewrite <- map_app, <- Pt in I. exact (nums_not_flat _ _ _ _ _ _ _ Ho1 Nu1 I). }
      eapply nums_frame; [exact Sm|]. split.
      * destruct Nu1 as [Nu1 _]. rewrite Pt in Nu1. apply Forall_app in Nu1 as [A1 A2]. apply Forall_app. split; [exact A1|]. constructor; [|exact A2].
        rewrite Ep. eauto.
      * rewrite map_app. cbn [map]. rewrite Ep.
 rewrite EL, ER. apply nodup_add; rewrite <- map_app, <- Pt; [apply Nu|exact Npn].
    + cbn [fresh sl']. rewrite Pt'. rewrite Pt in Fr. apply Forall_app in Fr as [F1 F2]. apply Forall_app. split; [|constructor; [unfold i0; lia|]].
      * revert F1. apply Forall_impl. intros; lia.
      * revert F2. apply Forall_impl. intros; lia.
  - eapply moved_trans; [exact M1|]. eapply moved_equiv; [| |eapply (moved_frame _ _ _ _ (p :: map mu (ptrs (items sl))) M2)].
    + intros a. unfold mine. rewrite in_app_iff. cbn [In]. rewrite in_app_iff. tauto.
    + intros a. unfold mine. rewrite Pt', Pt, !map_app. cbn [map]. rewrite Ep, EL, ER, !in_app_iff. cbn [In]. rewrite !in_app_iff. tauto.
    + constructor; [unfold allocated; congruence|]. rewrite Forall_forall in *. intros a I. unfold allocated. rewrite (proj1 (Same a (Fn a I))). now apply Fn.
    + intros a [<-|I]; [exact Npf|]. exact (nums_not_flat _ _ _ _ _ _ _ Ho Nu I).
  - intros i Hi. apply Old. lia.
  - cbn [items sl']. rewrite It, !map_app. cbn [map]. rewrite map_app. cbn [mid_of sid]. intros a. rewrite !in_app_iff. cbn [In]. rewrite in_app_iff. tauto.
Qed.

(** The neighbours of an item. *)
Lemma owns_prev n nu mu sl l m aus L s R : owns n nu mu sl l m aus -> items sl = L ++ s :: R ->
  prev (slinks m (nu (sid s))) = match prev_id None (items sl) (sid s) with Some i => nu i | None => NULL end.
Proof.
  intros [Re P _ _] It. destruct (rel_at _ _ _ _ _ _ _ _ _ _ Re It) as (LA & u & RA & -> & _ & EL & _ & _).
  destruct Re as [[[_ _ Sg _ _ _] _ _] _ Nd _ _]. rewrite map_app in Sg. cbn [map] in Sg. apply dlseg_app in Sg as [_ Sg]. cbn [dlseg fst] in Sg. destruct Sg as (_ & -> & _). cbn [prev].
  rewrite It in *. rewrite prev_id_mid. 2: { rewrite map_app in Nd. cbn in Nd. apply NoDup_remove_2 in Nd. intros Q. apply Nd. apply in_or_app. now left. }
  rewrite EL. destruct (snoc_cases L) as [->|(L' & x & ->)]; [reflexivity|]. rewrite rev_app_distr. cbn [rev app]. rewrite !map_app. cbn [map]. apply lastd_snoc.
Qed.
Lemma owns_next n nu mu sl l m aus L s R : owns n nu mu sl l m aus -> items sl = L ++ s :: R ->
  next (slinks m (nu (sid s))) = match next_id (items sl) (sid s) with Some i => nu i | None => NULL end.
Proof.
  intros [Re P _ _] It. destruct (rel_at _ _ _ _ _ _ _ _ _ _ Re It) as (LA & u & RA & -> & _ & _ & ER & _).
  destruct Re as [[[_ _ Sg _ _ _] _ _] _ Nd _ _]. rewrite map_app in Sg. cbn [map] in Sg. apply dlseg_app in Sg as [_ Sg]. cbn [dlseg fst] in Sg. destruct Sg as (_ & -> & _). cbn [next].
  rewrite It in *. rewrite next_id_mid. 2: { rewrite map_app in Nd. cbn in Nd. apply NoDup_remove_2 in Nd. intros Q. apply Nd. apply in_or_app. now left. }
  rewrite ER. destruct R; reflexivity.
Qed.
Lemma owns_in n nu mu sl l m aus i : owns n nu mu sl l m aus -> In i (map sid (items sl)) -> exists L s R, items sl = L ++ s :: R /\ sid s = i /\ nu i <> NULL /\ allocated m (nu i).
Proof.
  intros O I. apply in_map_iff in I as (s & <- & I). apply in_split in I as (L & R & It). exists L, s, R. split; [exact It|]. split; [reflexivity|].
  destruct (rel_at _ _ _ _ _ _ _ _ _ _ (ow_rel _ _ _ _ _ _ _ O) It) as (LA & u & RA & _ & _ & _ & _ & Ha & _).
  assert (allocated m (nu (sid s))) as A by (unfold allocated; congruence). split; [|exact A]. apply (proper_not _ _ (ow_proper _ _ _ _ _ _ _ O) A).
Qed.
Lemma prev_in its i j : prev_id None its i = Some j -> In j (map sid its).
Proof.
  assert (forall its o, prev_id o its i = Some j -> o = Some j \/ In j (map sid its)) as K.
  { clear its. induction its as [|s its IH]; intros o H; [discriminate H|]. cbn [prev_id] in H. destruct (sid s =? i); [auto|].
    destruct (IH _ H) as [Q|Q]; [injection Q as <-; right; now left|right; now right]. }
  intros H. destruct (K its None H) as [Q|Q]; [discriminate Q|exact Q].
Qed.
Lemma next_in its i j : next_id its i = Some j -> In j (map sid its).
Proof.
  induction its as [|s its IH]; intros H; [discriminate H|]. cbn [next_id] in H. destruct (sid s =? i); [|right; auto].
  destruct its as [|y its]; [discriminate H|]. injection H as <-. right. now left.
Qed.

Lemma rec_sim texts : forall fuel sl id sl', careful_sync fuel texts sl id = Ok sl' -> forall nu mu l m aus,
  owns (List.length texts) nu mu sl l m aus -> In id (map sid (items sl)) ->
  sync_rec alloc fuel texts l m (nu id) = Fail nomem \/
  exists l' m' nu' mu' aus', sync_rec alloc fuel texts l m (nu id) = Ok (l', m') /\ owns (List.length texts) nu' mu' sl' l' m' aus' /\
    moved m m' (mine mu sl aus) (mine mu' sl' aus') /\ (forall i, i < fresh sl -> nu' i = nu i) /\ fresh sl <= fresh sl' /\ incl (map sid (items sl)) (map sid (items sl')).
Proof.
  induction fuel as [|f IH]; intros sl id sl' H nu mu l m aus O Ii; [discriminate H|]. cbn [careful_sync sync_rec] in *.
  destruct (owns_in _ _ _ _ _ _ _ _ O Ii) as (L & s & R & It & <- & Nz & Al).
  pose proof (ow_proper _ _ _ _ _ _ _ O) as P. pose proof (ow_rel _ _ _ _ _ _ _ O) as Re.
  assert (get_item (items sl) (sid s) = Some s) as G by (rewrite It; apply get_item_mid; rewrite <- It; apply Re). rewrite G in H.
  destruct (rel_at _ _ _ _ _ _ _ _ _ _ Re It) as (LA & u & RA & _ & _ & _ & _ & Ha & Hu).
  rewrite (subs_of_ok _ _ _ _ _ P Ha Hu). cbn [obind].
  assert (sl = sl' -> exists l' m' nu' mu' aus', Ok (l, m) = Ok (l', m') /\ owns (List.length texts) nu' mu' sl' l' m' aus' /\
    moved m m' (mine mu sl aus) (mine mu' sl' aus') /\ (forall i, i < fresh sl -> nu' i = nu i) /\ fresh sl <= fresh sl' /\ incl (map sid (items sl)) (map sid (items sl'))) as Stay.
  { intros <-. exists l, m, nu, mu, aus. split; [reflexivity|]. split; [exact O|]. split; [apply moved_refl; eapply owns_alloc; eauto|]. split; [auto|]. split; [lia|apply incl_refl]. }
  destruct (existsb _ (subs s)); [right; injection H as <-; now apply Stay|].
  assert (List.length (subs s) = List.length texts) as Ln. { pose proof (re_len _ _ _ _ _ _ _ Re) as Q. rewrite It in Q. apply Forall_app in Q as [_ Q]. now inversion Q. }
  destruct texts as [|t0 trest] eqn:Et; [discriminate H|]. rewrite <- Et in *. destruct (subs s) as [|s0 srest]; [discriminate H|].
  destruct (match_rest t0 (combine trest srest) [start s0] (slen s0)) as [r| | |] eqn:Em; try discriminate H. cbn [obind] in *.
  destruct r as [[starts len]|]; [|right; injection H as <-; now apply Stay].
  destruct (mptr s) eqn:Ep; [discriminate H|].
  apply match_rest_len in Em. assert (List.length starts = List.length texts) as Ls.
  { rewrite Em, combine_length, Et. rewrite Et in Ln. cbn in Ln |- *. lia. }
  destruct (match_step _ _ _ _ _ _ _ _ _ _ starts len O It Ep Ls) as [E|(l1 & m1 & aus1 & nu1 & mu1 & L' & s' & R' & E & Es & Eid & O1 & M1 & Old1 & In1)].
  { left. destruct (new alloc m (BLong 0)) as [[p m1]| | |]; cbn [obind] in *; try exact E; try discriminate E. rewrite E. reflexivity. }
  destruct (new alloc m (BLong 0)) as [[p m0]| | |]; cbn [obind] in E |- *; try discriminate E. rewrite E. cbn [obind].
  rewrite Es in H. cbn [obind] in H. set (sl1 := mkslist (L' ++ s' :: R') (fresh sl + 3)) in *.
  assert (sid s < fresh sl) as Fs. { pose proof (re_fresh _ _ _ _ _ _ _ Re) as Q. rewrite It in Q. apply Forall_app in Q as [_ Q]. now inversion Q. }
  assert (nu1 (sid s) = nu (sid s)) as N1 by auto.
  assert (In (sid s) (map sid (items sl1))) as I1 by (apply In1; exact Ii).
  destruct (owns_in _ _ _ _ _ _ _ _ O1 I1) as (_ & _ & _ & _ & _ & Nz1 & A1). rewrite N1 in *.
  pose proof (ow_proper _ _ _ _ _ _ _ O1) as P1.
  assert (exists b, held m1 (nu (sid s)) = Some b) as (b1 & B1). { unfold allocated in A1. destruct (held m1 (nu (sid s))); [eauto|congruence]. }
  rewrite (at_ok _ _ _ P1 B1). cbn [obind].
  pose proof (owns_prev _ _ _ _ _ _ _ L' s' R' O1 eq_refl) as Pv. rewrite Eid, N1 in Pv. set (pb := prev (slinks m1 (nu (sid s)))) in *.
  (* to the left *)
  set (before := prev_id None (items sl1) (sid s)) in *.
  assert (exists sl2, match before with Some p => careful_sync f texts sl1 p | None => Ok sl1 end = Ok sl2 /\
    match next_id (items sl2) (sid s) with Some q => careful_sync f texts sl2 q | None => Ok sl2 end = Ok sl') as (sl2 & H1 & H2).
  { destruct (match before with Some p => careful_sync f texts sl1 p | None => Ok sl1 end) as [sl2| | |]; try discriminate H. cbn [obind] in H. eauto. }
  clear H.
  assert ((if pb =? NULL then Ok (l1, m1) else sync_rec alloc f texts l1 m1 pb) = Fail nomem \/
    exists l2 m2 nu2 mu2 aus2, (if pb =? NULL then Ok (l1, m1) else sync_rec alloc f texts l1 m1 pb) = Ok (l2, m2) /\
      owns (List.length texts) nu2 mu2 sl2 l2 m2 aus2 /\
      moved m1 m2 (mine mu1 sl1 aus1) (mine mu2 sl2 aus2) /\ (forall i, i < fresh sl1 -> nu2 i = nu1 i) /\ fresh sl1 <= fresh sl2 /\ incl (map sid (items sl1)) (map sid (items sl2))) as [Q|(l2 & m2 & nu2 & mu2 & aus2 & E2 & O2 & M2 & Old2 & Fr2 & In2)].
  { rewrite Pv. destruct before as [i|] eqn:Eb.
    - assert (In i (map sid (items sl1))) as Ib by (eapply prev_in; exact Eb). destruct (owns_in _ _ _ _ _ _ _ _ O1 Ib) as (_ & _ & _ & _ & _ & Nb & _).
      rewrite (proj2 (Z.eqb_neq _ _) Nb). eapply IH; eauto.
    - injection H1 as <-. rewrite Z.eqb_refl. right. exists l1, m1, nu1, mu1, aus1. split; [reflexivity|]. split; [exact O1|].
      split; [apply moved_refl; eapply owns_alloc; eauto|]. split; [auto|]. split; [lia|apply incl_refl]. }
  { rewrite Q. now left. }
  rewrite E2. cbn [obind].
  assert (In (sid s) (map sid (items sl2))) as I2 by (apply In2; exact I1).
  destruct (owns_in _ _ _ _ _ _ _ _ O2 I2) as (L2 & s2 & R2 & It2 & Eid2 & Nz2 & A2).
  assert (nu2 (sid s) = nu (sid s)) as N2. { rewrite Old2, N1; [reflexivity|]. cbn [fresh sl1]. lia. }
  rewrite N2 in *. pose proof (ow_proper _ _ _ _ _ _ _ O2) as P2.
  assert (exists b, held m2 (nu (sid s)) = Some b) as (b2 & B2). { unfold allocated in A2. destruct (held m2 (nu (sid s))); [eauto|congruence]. }
  rewrite (at_ok _ _ _ P2 B2). cbn [obind].
  pose proof (owns_next _ _ _ _ _ _ _ L2 s2 R2 O2 It2) as Nx. rewrite Eid2, N2 in Nx. rewrite Nx.
  destruct (next_id (items sl2) (sid s)) as [i|] eqn:En.
  - assert (In i (map sid (items sl2))) as Ib by (eapply next_in; exact En). destruct (owns_in _ _ _ _ _ _ _ _ O2 Ib) as (_ & _ & _ & _ & _ & Nb & _).
    rewrite (proj2 (Z.eqb_neq _ _) Nb). destruct (IH _ _ _ H2 _ _ _ _ _ O2 Ib) as [Q|(l3 & m3 & nu3 & mu3 & aus3 & E3 & O3 & M3 & Old3 & Fr3 & In3)]; [now left|].
    right. exists l3, m3, nu3, mu3, aus3. split; [exact E3|]. split; [exact O3|]. split; [eapply moved_trans; [exact M1|]; eapply moved_trans; eauto|].
    cbn [fresh sl1] in *. split; [|split; [lia|]].
    + intros j Hj. rewrite Old3, Old2, Old1 by lia. reflexivity.
    + eapply incl_tran; [exact In1|]. eapply incl_tran; eauto.
  - injection H2 as <-. rewrite Z.eqb_refl. right. exists l2, m2, nu2, mu2, aus2. split; [reflexivity|]. split; [exact O2|]. split; [eapply moved_trans; eauto|].
    cbn [fresh sl1] in *. split; [|split; [lia|]].
    + intros j Hj. rewrite Old2, Old1 by lia. reflexivity.
    + eapply incl_tran; eauto.
Qed.

(** initialize_synclist *)
Lemma init_ok m texts a mu : proper m ->
  initialize_list alloc m texts = Fail nomem \/
  exists l m' nu aus, initialize_list alloc m texts = Ok (l, m') /\ rel (List.length texts) nu mu (initialize_synclist texts a) l m' aus /\ moved m m' [] (flat aus).
Proof.
  intros P. unfold initialize_list. destruct (create_ok alloc Halloc m (List.length texts) [] P (Forall_nil _)) as [->|(s & u & m1 & -> & M1 & As & Au & Hs & Hu)]; [now left|].
  cbn [obind]. right. pose proof (mv_null _ _ _ _ M1 P) as P1. set (ss := map _ texts).
  assert (List.length (repeat (mksub 0 0 0) (List.length texts)) = List.length ss) as Ln by (unfold ss; now rewrite repeat_length, map_length).
  rewrite (fill_ok _ _ _ _ _ _ P1 Hs Hu Ln). cbn [obind]. set (m2 := mkstore _ _ _).
  assert (u <> s) as Nus by congruence.
  assert (moved m1 m2 [s; u] [s; u]) as M2. { apply moved_put; [eapply moved_alloc; exact M1|right; now left]. }
  pose proof (mv_null _ _ _ _ M2 P1) as P2.
  assert (held m2 s = Some (BSync u NULL)) as Hs2. { cbn [held m2]. rewrite upd_other by congruence. exact Hs. }
  assert (held m2 u = Some (BSubs ss)) as Hu2 by (cbn [held m2]; apply upd_same).
  rewrite (subs_of_ok _ _ _ _ _ P2 Hs2 Hu2). cbn [obind]. unfold initialize_synclist. fold ss.
  destruct (valid_sync ss) eqn:Ev.
  - destruct (put_first_ok list_initialize m2 [] s P2) as (l' & m3 & -> & I3 & H3 & L3).
    { constructor; try reflexivity; try constructor. }
    { constructor; [unfold allocated; congruence|constructor]. }
    { intros []. }
    exists l', m3, (fun _ => s), [(s, u)]. split; [reflexivity|]. split; [|].
    + constructor; cbn [items fresh].
      * constructor; [exact I3| |repeat constructor; intros []]. constructor; [|constructor]. split; cbn; rewrite H3; assumption.
      * reflexivity.
      * repeat constructor. intros [].
      * repeat constructor. cbn. lia.
      * repeat constructor. cbn. unfold ss. apply map_length.
    + eapply moved_trans; [exact M1|]. eapply moved_trans; [exact M2|]. change (flat [(s, u)]) with [s; u]. apply moved_links; [exact H3|eapply moved_alloc; exact M2|].
      intros b Nb. apply L3. cbn in *. tauto.
  - rewrite (destroy_ok _ _ _ _ _ P2 Hs2 Hu2). cbn [obind]. eexists _, _, (fun _ => NULL), []. split; [reflexivity|]. split; [|].
    + constructor; cbn [items map]; try constructor; try reflexivity; try constructor; try reflexivity; try constructor.
    + eapply moved_trans; [exact M1|]. eapply moved_trans; [exact M2|]. change (flat []) with (@nil addr).
      eapply moved_trans; [eapply moved_equiv; [| |apply (moved_free [s] m2 u (scalls m2))]|].
      * intros b. cbn. tauto.
      * intros b. reflexivity.
      * repeat constructor; unfold allocated; congruence.
      * cbn. intros [Q|[]]. congruence.
      * match goal with |- moved ?x (mkstore _ _ ?c) _ _ => apply (moved_free [] x s c) end; [|intros []].
        repeat constructor. unfold allocated. cbn [held]. rewrite upd_other by congruence. congruence.
Qed.

(** number_matches *)
Lemma number_items_ok mu : forall R RA m p n mem fuel, proper m -> dlseg (slinks m) p (map fst RA) NULL -> Forall2 (is_cell m) (cells_of mu R) RA -> nums m mu (ptrs R) ->
  (List.length R <= fuel)%nat ->
  exists m', number_items fuel m (hd NULL (map fst RA)) n = Ok m' /\ slinks m' = slinks m /\ proper m' /\
    (forall a, ~ In a (map mu (ptrs R)) -> held m' a = held m a) /\
    (forall i, In i (ptrs R) -> held m' (mu i) = Some (BLong (number_matches R n mem i))).
Proof.
  induction R as [|s R IH]; intros RA m p n mem fuel P Sg F Nu Fu.
  - inversion F; subst. cbn [map hd]. exists m. destruct fuel; (split; [reflexivity|]); repeat split; auto; intros i [].
  - unfold cells_of in F. cbn [map] in F. inversion F as [|? [a u] ? RA' [Ha Hu] F']; subst. cbn [fst snd] in *. cbn [map fst hd dlseg] in *. destruct Sg as (Na & Lk & Sg).
    destruct fuel as [|f]; [cbn in Fu; lia|]. cbn [number_items]. rewrite (proj2 (Z.eqb_neq _ _) Na).
    rewrite (get_sync_ok _ _ _ _ P Ha). cbn [obind]. rewrite Lk. cbn [next].
    cbn [ptrs flat_map number_matches] in *. fold (ptrs R) in *. destruct (mptr s) as [i|] eqn:Em; cbn [ptr app] in *.
    + destruct Nu as [Fn Nd]. apply Forall_cons_iff in Fn as [(v & Hi) Fn]. cbn [map] in Nd. apply NoDup_cons_iff in Nd as [Ni Nd].
      assert (mu i <> NULL) as Nz. { apply (proper_not m); [exact P|]. unfold allocated. congruence. }
      rewrite (proj2 (Z.eqb_neq _ _) Nz), (put_ok _ _ _ _ P Hi). cbn [obind]. set (m1 := mkstore _ _ _).
      destruct (IH RA' m1 a (n + 1) (fun q => if q =? i then n + 1 else mem q) f) as (m' & E & L' & P' & O' & V').
      * intros A. apply P. unfold allocated in *. cbn [held m1] in A. unfold upd in A. destruct (Z.eqb_spec NULL (mu i)); congruence.
      * exact Sg.
      * fold (cells_of mu R) in F'. revert F'. generalize (cells_of mu R). clear -Hi. intros cs0 F'. induction F' as [|c au cs RA' [K1 K2] F' IH]; [constructor|]. constructor; [|exact IH].
        split; cbn [held m1]; rewrite upd_other; auto; intros Q; congruence.
      * split; [|exact Nd]. rewrite Forall_forall in *. intros j J. destruct (Fn j J) as (w & Hj). exists w. cbn [held m1]. rewrite upd_other; [exact Hj|].
        intros Q. apply Ni. rewrite <- Q. now apply in_map.
      * cbn in Fu. lia.
      * exists m'. split; [change (slinks m1 a) with (slinks m a); rewrite Lk; exact E|]. split; [exact L'|]. split; [exact P'|]. split.
        -- intros b Nb. cbn [map In] in Nb. rewrite O' by tauto. cbn [held m1]. apply upd_other. intros ->. tauto.
        -- intros j [<-|J]; [|auto]. assert (~ In i (ptrs R)) as Q by (intros Q; apply Ni; now apply in_map). rewrite O' by exact Ni.
           rewrite number_matches_other by exact Q. rewrite Z.eqb_refl. cbn [held m1]. apply upd_same.
    + rewrite Z.eqb_refl. apply (IH RA' m a n mem f); auto. cbn in Fu. lia.
Qed.

Lemma number_list_ok n nu mu sl l m aus : rel n nu mu sl l m aus -> proper m -> nums m mu (ptrs (items sl)) ->
  exists m', number_list l m = Ok m' /\ slinks m' = slinks m /\ proper m' /\
    (forall a, ~ In a (map mu (ptrs (items sl))) -> held m' a = held m a) /\
    (forall i, In i (ptrs (items sl)) -> held m' (mu i) = Some (BLong (number_matches (items sl) 0 no_numbers i))).
Proof.
  intros [[I F _] Ad _ _ _] P Nu. unfold number_list. rewrite (inv_first _ _ _ I), (inv_count _ _ _ I).
  apply (number_items_ok mu (items sl) aus m NULL 0 no_numbers); auto; [apply I|].
  rewrite Ad. unfold zlen. rewrite !map_length. lia.
Qed.

(** What the caller sees. *)
Definition spots (mu : Z -> addr) (its : list sync) (aus : list (addr * addr)) : list spot :=
  map (fun z : sync * (addr * addr) => mkspot (fst (snd z)) (snd (snd z)) (ptr mu (mptr (fst z)))) (combine its aus).

Lemma spots_items mu its aus : List.length its = List.length aus -> map item_at (spots mu its aus) = map fst aus /\ map array_at (spots mu its aus) = map snd aus.
Proof.
  revert aus. induction its as [|s its IH]; intros [|au aus] E; try discriminate E; [auto|]. cbn in E. destruct (IH aus) as [I1 I2]; [lia|]. unfold spots in *.
  cbn [combine map item_at array_at fst snd]. now rewrite I1, I2.
Qed.
Lemma spots_numbers mu its aus : List.length its = List.length aus -> (forall i, In i (ptrs its) -> mu i <> NULL) -> numbers_at (spots mu its aus) = map mu (ptrs its).
Proof.
  revert aus. induction its as [|s its IH]; intros [|au aus] E N; try discriminate E; [auto|]. cbn in E. unfold spots, numbers_at in *. cbn [combine map flat_map number_at fst snd ptrs] in *.
  rewrite IH; [|lia|intros i I; apply N; apply in_or_app; now right]. fold (ptrs its). rewrite map_app. f_equal. destruct (mptr s) as [i|]; cbn [ptr map].
  - assert (mu i <> NULL) as Q by (apply N; now left). now rewrite (proj2 (Z.eqb_neq _ _) Q).
  - reflexivity.
Qed.

Lemma moved_adds m m' xs : moved m m' [] xs -> NoDup xs -> adds_exactly xs m m'.
Proof.
  intros [S H _] N. split; [exact N|]. split; [|split].
  - apply Forall_forall. intros a I A. destruct (S a A) as (_ & _ & Q); [intros []|]. contradiction.
  - intros a. rewrite H. cbn. tauto.
  - intros a A. destruct (S a A) as (E & L & _); [intros []|]. auto.
Qed.

Lemma rel_len n nu mu sl l m aus : rel n nu mu sl l m aus -> List.length (items sl) = List.length aus.
Proof. intros [_ E _ _ _]. apply (f_equal (@List.length _)) in E. now rewrite !map_length in E. Qed.

Lemma flat_nodup l m cs aus : holds l m cs aus -> NoDup (flat aus).
Proof.
  intros H. apply NoDup_join; [apply H|apply H|]. intros a I J. destruct (holds_cell _ _ _ _ _ H I) as (u & p & _ & E). destruct (holds_array _ _ _ _ _ H J) as (ss & E'). congruence.
Qed.

(** The list after the numbers are written, when they are [mem]. *)
Lemma shows n nu mu sl l m aus mem : rel n nu mu sl l m aus -> (forall i, In i (ptrs (items sl)) -> held m (mu i) = Some (BLong (mem i))) ->
  list_shows l m (view mem (items sl)) (spots mu (items sl) aus).
Proof.
  intros Re V. pose proof (rel_len _ _ _ _ _ _ _ Re) as Ln. split.
  - rewrite (proj1 (spots_items mu (items sl) aus Ln)). apply inv_presents, Re.
  - destruct Re as [[_ F _] _ _ _ _]. clear -F V. unfold cells_of in F. revert aus F V. generalize (items sl). clear. induction l as [|s its IH]; intros aus F V; cbn [map] in F.
    + constructor.
    + inversion F as [|? au ? aus' [K1 K2] F']; subst. unfold spots. cbn [combine map view]. constructor.
      * split; [exact K1|]. split; [exact K2|]. cbn. destruct (mptr s) as [i|] eqn:Em; cbn [ptr option_map]; [|reflexivity]. apply V. cbn [ptrs flat_map]. rewrite Em. now left.
      * apply IH; [exact F'|]. intros i I. apply V. cbn [ptrs flat_map]. apply in_or_app. now right.
Qed.

(** synchronize *)
Lemma finish_ok n nu mu sl l m m2 aus : owns n nu mu sl l m2 aus -> moved m m2 [] (mine mu sl aus) ->
  exists m3 xs, number_list l m2 = Ok m3 /\ list_shows l m3 (view (number_matches (items sl) 0 no_numbers) (items sl)) xs /\
    adds_exactly (map item_at xs ++ map array_at xs ++ numbers_at xs) m m3 /\ proper m3.
Proof.
  intros [Re2 P2 Nu2 _] M2.
  destruct (number_list_ok _ _ _ _ _ _ _ Re2 P2 Nu2) as (m3 & E3 & L3 & P3 & O3 & V3).
  exists m3, (spots mu (items sl) aus). split; [exact E3|].
  pose proof (re_holds _ _ _ _ _ _ _ Re2) as Ho2.
  assert (rel n nu mu sl l m3 aus) as Re3.
  { destruct Re2 as [Hh A B C D]. constructor; auto. eapply holds_frame; [|exact Hh]. intros a I. rewrite L3. split; [|reflexivity]. apply O3. intros J. exact (nums_not_flat _ _ _ _ _ _ _ Hh Nu2 J I). }
  split; [now apply shows with (n := n) (nu := nu)|]. split; [|exact P3].
  pose proof (rel_len _ _ _ _ _ _ _ Re2) as Ln. destruct (spots_items mu (items sl) aus Ln) as [-> ->].
  rewrite spots_numbers; [|exact Ln|].
  2:{ intros i I. apply (proper_not m3); [exact P3|]. unfold allocated. rewrite (V3 i I). discriminate. }
  rewrite app_assoc. apply moved_adds.
  - eapply moved_trans; [exact M2|]. apply moved_equiv with (xs := map mu (ptrs (items sl)) ++ flat aus) (ys := map mu (ptrs (items sl)) ++ flat aus).
    + intros a. unfold mine. rewrite !in_app_iff. tauto.
    + intros a. rewrite !in_app_iff. unfold flat. rewrite in_app_iff. tauto.
    + apply moved_frame.
      * constructor; [| |auto].
        -- intros a A N. rewrite L3. auto.
        -- intros a. split.
           ++ intros A. destruct (in_dec Z.eq_dec a (map mu (ptrs (items sl)))) as [I|I]; [now left|]. right. split; [|exact I]. unfold allocated in *. now rewrite <- O3.
           ++ intros [I|[A I]]; [|unfold allocated; now rewrite O3]. apply in_map_iff in I as (i & <- & I). unfold allocated. rewrite (V3 i I). discriminate.
      * eapply holds_alloc; eauto.
      * intros a I J. exact (nums_not_flat _ _ _ _ _ _ _ Ho2 Nu2 J I).
  - apply NoDup_join; [eapply flat_nodup; eauto|apply Nu2|]. intros a I J. exact (nums_not_flat _ _ _ _ _ _ _ Ho2 Nu2 J I).
Qed.

Lemma synchronize_mem m texts : proper m -> 2 <= zlen texts <= 16 ->
  synchronize_list alloc m texts = Fail nomem \/
  exists l m' its xs, synchronize_list alloc m texts = Ok (l, m') /\ synchronize texts = Ok its /\ list_shows l m' its xs /\
    adds_exactly (map item_at xs ++ map array_at xs ++ numbers_at xs) m m' /\ proper m'.
Proof.
  intros P [H2 H16]. unfold synchronize_list, synchronize, MIN_STREAMS, MAX_STREAMS.
  destruct (Z.ltb_spec (zlen texts) 2); [lia|]. destruct (Z.ltb_spec 16 (zlen texts)); [lia|]. cbn [orb].
  destruct (init_ok m texts 1 (fun _ => NULL) P) as [->|(l & m1 & nu & aus & -> & Re & M1)]; [now left|]. cbn [obind].
  set (sl := initialize_synclist texts 1) in *. pose proof (mv_null _ _ _ _ M1 P) as P1.
  assert (ptrs (items sl) = []) as Ep. { unfold sl, initialize_synclist. destruct (valid_sync _); reflexivity. }
  assert (owns (List.length texts) nu (fun _ => NULL) sl l m1 aus) as O1.
  { constructor; [exact Re|exact P1| |]; rewrite Ep; repeat constructor. }
  assert (mine (fun _ => NULL) sl aus = flat aus) as Emine. { unfold mine. rewrite Ep. apply app_nil_r. }
  assert (exists sl', match items sl with s :: _ => careful_sync (S (List.length (hd [] texts))) texts sl (sid s) | [] => Ok sl end = Ok sl') as (sl' & Es).
  { unfold sl, initialize_synclist. set (ss := map _ texts). destruct (valid_sync ss) eqn:Ev; cbn [items]; [|eauto].
    pose proof (initialize_linv texts 1) as Hinv. unfold initialize_synclist in Hinv. fold ss in Hinv. rewrite Ev in Hinv.
    set (s := mksync 1 ss None) in *. set (sl0 := mkslist [s] (1 + 1)) in *.
    destruct (careful_ok texts H2 (S (List.length (hd [] texts))) sl0 [] s []) as (sl' & res & E & _); auto; try (cbn; constructor); try congruence.
    - unfold at0. cbn [s subs]. unfold ss. destruct texts as [|t0 r]; [cbn in H2; lia|]. cbn [map slen hd]. unfold zlen. lia.
    - eauto. }
  assert (match items sl with s :: _ => recursive_sync (S (List.length (hd [] texts))) texts sl (sid s) | [] => Ok sl end = Ok sl') as ->.
  { destruct (items sl); [exact Es|]. now apply careful_recursive. }
  cbn [obind].
  assert ((if first l =? NULL then Ok (l, m1) else sync_rec alloc (S (List.length (hd [] texts))) texts l m1 (first l)) = Fail nomem \/
    exists l' m' nu' mu' aus', (if first l =? NULL then Ok (l, m1) else sync_rec alloc (S (List.length (hd [] texts))) texts l m1 (first l)) = Ok (l', m') /\
      owns (List.length texts) nu' mu' sl' l' m' aus' /\ moved m1 m' (flat aus) (mine mu' sl' aus')) as [->|(l' & m2 & nu' & mu' & aus' & -> & O2 & M2)]; [|now left|].
  { rewrite <- Emine. rewrite (inv_first _ _ _ (ho_inv _ _ _ _ (re_holds _ _ _ _ _ _ _ Re))), (re_addr _ _ _ _ _ _ _ Re). destruct (items sl) as [|s r] eqn:Eit.
    - injection Es as <-. cbn [map hd]. rewrite Z.eqb_refl. right. exists l, m1, nu, (fun _ => NULL), aus. split; [reflexivity|]. split; [exact O1|]. apply moved_refl. eapply owns_alloc; eauto.
    - assert (In (sid s) (map sid (items sl))) as I by (rewrite Eit; now left). destruct (owns_in _ _ _ _ _ _ _ _ O1 I) as (_ & _ & _ & _ & _ & Nz & _).
      cbn [map hd]. rewrite (proj2 (Z.eqb_neq _ _) Nz). destruct (rec_sim texts _ _ _ _ Es _ _ _ _ _ O1 I) as [->|(l' & m' & nu' & mu' & aus' & E & O' & M' & _)]; [now left|].
      right. exists l', m', nu', mu', aus'. auto. }
  cbn [obind]. destruct (finish_ok _ _ _ _ _ m _ _ O2) as (m3 & xs & -> & Sh & Ad & P3); [eapply moved_trans; [exact M1|exact M2]|].
  cbn [obind]. right. exists l', m3, (view (number_matches (items sl') 0 no_numbers) (items sl')), xs. auto.
Qed.
End Alloc.
