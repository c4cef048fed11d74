(** Proofs about MemSyncModel: the list of synchronizations. *)
From Coq Require Import String.
From Verif Require Import Base CLib ListModel ListSpec ListProof SyncModel SyncSpec SyncProof HeurProof MemSyncModel MemSyncSpec MemTextProof.
Local Open Scope Z_scope.
Local Open Scope list_scope.

Lemma at_ok m a b : proper m -> held m a = Some b -> at_ m a = Ok b.
Proof.
  intros P H. unfold at_. destruct (Z.eqb_spec a NULL) as [->|_]; [|now rewrite H]. exfalso. apply P. unfold allocated. congruence.
Qed.
Lemma proper_not m a : proper m -> allocated m a -> a <> NULL.
Proof. intros P A ->. exact (P A). Qed.
Lemma touch__ok m a : proper m -> (a <> NULL -> allocated m a) -> touch_ m a = Ok tt.
Proof.
  intros P H. unfold touch_. destruct (Z.eqb_spec a NULL) as [|N]; [reflexivity|]. specialize (H N). unfold allocated in H.
  destruct (held m a) as [b|] eqn:E; [|congruence]. now rewrite (at_ok _ _ _ P E).
Qed.

(** *** The part of the memory that changes *)

(** The blocks [xs] became the blocks [ys]; nothing else changed. *)
Record moved (m m' : store) (xs ys : list addr) : Prop := {
  mv_same : forall a, allocated m a -> ~ In a xs -> held m' a = held m a /\ slinks m' a = slinks m a /\ ~ In a ys;
  mv_held : forall a, allocated m' a <-> In a ys \/ (allocated m a /\ ~ In a xs);
  mv_null : proper m -> proper m' }.

Lemma moved_refl m xs : Forall (allocated m) xs -> moved m m xs xs.
Proof.
  rewrite Forall_forall. intros F. constructor; [auto| |auto]. intros a. split; [|intros [I|[A _]]; auto].
  intros A. destruct (in_dec Z.eq_dec a xs); auto.
Qed.
Lemma moved_trans m1 m2 m3 xs ys zs : moved m1 m2 xs ys -> moved m2 m3 ys zs -> moved m1 m3 xs zs.
Proof.
  intros [S1 H1 N1] [S2 H2 N2]. constructor; [| |auto].
  - intros a A N. destruct (S1 a A N) as (E1 & L1 & Y). assert (allocated m2 a) as A2 by (apply H1; auto).
    destruct (S2 a A2 Y) as (E2 & L2 & Z). split; [congruence|]. split; [congruence|exact Z].
  - intros a. rewrite H2, H1. split.
    + intros [I|[[I|[A N]] Y]]; [auto|contradiction|auto].
    + intros [I|[A N]]; [auto|]. right. split; [auto|]. apply (S1 a A N).
Qed.
Lemma moved_equiv m m' xs ys xs' ys' : (forall a, In a xs <-> In a xs') -> (forall a, In a ys <-> In a ys') -> moved m m' xs ys -> moved m m' xs' ys'.
Proof.
  intros X Y [S H N]. constructor; [| |auto].
  - intros a A I. rewrite <- X in I. rewrite <- Y. auto.
  - intros a. rewrite <- Y, <- X. auto.
Qed.
Lemma moved_frame m m' xs ys zs : moved m m' xs ys -> Forall (allocated m) zs -> (forall z, In z zs -> ~ In z xs) -> moved m m' (xs ++ zs) (ys ++ zs).
Proof.
  intros [S H N] F D. rewrite Forall_forall in F. constructor; [| |auto].
  - intros a A I. rewrite in_app_iff in I. destruct (S a A) as (E & L & Y); [tauto|]. split; [exact E|]. split; [exact L|]. rewrite in_app_iff. tauto.
  - intros a. rewrite H, !in_app_iff. split.
    + intros [I|[A I]]; [auto|]. destruct (in_dec Z.eq_dec a zs); [auto|]. right. split; [exact A|]. tauto.
    + intros [[I|I]|[A I]]; [auto| |]; right; [split; auto|]. split; [exact A|tauto].
Qed.
Lemma moved_alloc m m' xs ys : moved m m' xs ys -> Forall (allocated m') ys.
Proof. intros M. apply Forall_forall. intros a I. apply (mv_held _ _ _ _ M). now left. Qed.

(** A new block. *)
Lemma moved_new S m e b c : Forall (allocated m) S -> ~ allocated m e -> e <> NULL ->
  moved m (mkstore (upd (slinks m) e (mknode NULL NULL)) (upd (held m) e (Some b)) c) S (e :: S).
Proof.
  rewrite Forall_forall. intros F E N. constructor; cbn [held slinks]; unfold upd.
  - intros a A I. destruct (Z.eqb_spec a e) as [->|Ne]; [contradiction|]. repeat split. intros [Q|Q]; [congruence|contradiction].
  - intros a. unfold allocated. cbn [held]. destruct (Z.eqb_spec a e) as [->|Ne].
    + split; [intros _; left; now left|intros _; discriminate].
    + cbn [In]. split.
      * intros A. destruct (in_dec Z.eq_dec a S); [auto|]. right. auto.
      * intros [[Q|I]|[A _]]; [congruence|now apply F|exact A].
  - intros P A. unfold allocated in *. cbn [held] in A. destruct (Z.eqb_spec NULL e); [congruence|]. exact (P A).
Qed.
(** A block is changed. *)
Lemma moved_put S m a b c : Forall (allocated m) S -> In a S -> moved m (mkstore (slinks m) (upd (held m) a (Some b)) c) S S.
Proof.
  rewrite Forall_forall. intros F I. constructor; cbn [held slinks]; unfold upd.
  - intros x A N. destruct (Z.eqb_spec x a) as [->|]; [contradiction|]. auto.
  - intros x. unfold allocated. cbn [held]. destruct (Z.eqb_spec x a) as [->|]; [split; [auto|discriminate]|].
    split; [|intros [J|[J _]]; [now apply F|exact J]]. intros J. destruct (in_dec Z.eq_dec x S); auto.
  - intros P A. unfold allocated in *. cbn [held] in A. destruct (Z.eqb_spec NULL a) as [<-|]; [exact (P (F NULL I))|]. exact (P A).
Qed.
(** Links of items are changed. *)
Lemma moved_links S m m' : held m' = held m -> Forall (allocated m) S -> (forall b, ~ In b S -> slinks m' b = slinks m b) -> moved m m' S S.
Proof.
  intros E F L. rewrite Forall_forall in F. constructor.
  - intros a A I. rewrite E, L by exact I. auto.
  - intros a. unfold allocated in *. rewrite E. split; [|intros [J|[J _]]; [now apply F|exact J]]. intros J. destruct (in_dec Z.eq_dec a S); auto.
  - unfold proper, allocated. now rewrite E.
Qed.
(** A block is freed. *)
Lemma moved_free S m a c : Forall (allocated m) (a :: S) -> ~ In a S -> moved m (mkstore (slinks m) (upd (held m) a None) c) (a :: S) S.
Proof.
  rewrite Forall_forall. intros F N. constructor; cbn [held slinks]; unfold upd.
  - intros x A I. cbn [In] in I. destruct (Z.eqb_spec x a) as [->|]; [tauto|]. tauto.
  - intros x. unfold allocated. cbn [held In]. destruct (Z.eqb_spec x a) as [->|Ne].
    + split; [congruence|]. intros [I|[_ I]]; [contradiction|tauto].
    + split; [|intros [J|[J _]]; [now apply F; right|exact J]]. intros J. destruct (in_dec Z.eq_dec x S) as [|]; [auto|]. right. split; [exact J|].
      intros [Q|Q]; [congruence|contradiction].
  - intros P A. unfold allocated in *. cbn [held] in A. destruct (Z.eqb_spec NULL a); [congruence|]. exact (P A).
Qed.

(** *** Elementary operations *)

Lemma put_ok m a b0 b : proper m -> held m a = Some b0 -> put m a b = Ok (mkstore (slinks m) (upd (held m) a (Some b)) (scalls m)).
Proof. intros P H. unfold put. now rewrite (at_ok _ _ _ P H). Qed.
Lemma get_sync_ok m a u p : proper m -> held m a = Some (BSync u p) -> get_sync m a = Ok (u, p).
Proof. intros P H. unfold get_sync. now rewrite (at_ok _ _ _ P H). Qed.
Lemma get_subs_ok m a ss : proper m -> held m a = Some (BSubs ss) -> get_subs m a = Ok ss.
Proof. intros P H. unfold get_subs. now rewrite (at_ok _ _ _ P H). Qed.
Lemma subs_of_ok m a u p ss : proper m -> held m a = Some (BSync u p) -> held m u = Some (BSubs ss) -> subs_of m a = Ok ss.
Proof. intros P H U. unfold subs_of. rewrite (get_sync_ok _ _ _ _ P H). cbn [obind]. now apply get_subs_ok. Qed.
Lemma release_ok m a b : proper m -> held m a = Some b -> release m a = Ok (mkstore (slinks m) (upd (held m) a None) (scalls m)).
Proof.
  intros P H. unfold release. destruct (Z.eqb_spec a NULL) as [->|_].
  - exfalso. apply P. unfold allocated. congruence.
  - now rewrite (at_ok _ _ _ P H).
Qed.
Lemma fill_ok m a u p old ss : proper m -> held m a = Some (BSync u p) -> held m u = Some (BSubs old) -> List.length old = List.length ss ->
  fill m a ss = Ok (mkstore (slinks m) (upd (held m) u (Some (BSubs ss))) (scalls m)).
Proof.
  intros P H U L. unfold fill. rewrite (get_sync_ok _ _ _ _ P H). cbn [obind]. rewrite (get_subs_ok _ _ _ P U). cbn [obind].
  rewrite L, Nat.eqb_refl. eapply put_ok; eauto.
Qed.
Lemma destroy_ok m a u p ss : proper m -> held m a = Some (BSync u p) -> held m u = Some (BSubs ss) ->
  destroy_sync m a = Ok (mkstore (slinks m) (upd (upd (held m) u None) a None) (scalls m)).
Proof.
  intros P H U. unfold destroy_sync. rewrite (get_sync_ok _ _ _ _ P H). cbn [obind]. rewrite (release_ok _ _ _ P U). cbn [obind].
  apply release_ok with (b := BSync u p).
  - intros A. apply P. unfold allocated in *. cbn [held] in A. unfold upd in A. destruct (NULL =? u); [congruence|exact A].
  - cbn [held]. unfold upd. destruct (Z.eqb_spec a u); [congruence|exact H].
Qed.

(** List operations on allocated items. *)
Lemma put_before_ok l m xs s ys a : proper m -> inv l (slinks m) (xs ++ s :: ys) -> Forall (allocated m) (a :: xs ++ s :: ys) -> ~ In a (xs ++ s :: ys) ->
  exists l' m', put_before l m a s = Ok (l', m') /\ inv l' (slinks m') (xs ++ a :: s :: ys) /\ held m' = held m /\
    forall b, ~ In b (a :: xs ++ s :: ys) -> slinks m' b = slinks m b.
Proof.
  intros P I F N. apply Forall_cons_iff in F as [A F]. rewrite Forall_forall in F. unfold put_before.
  assert (allocated m s) as As by (apply F; apply in_or_app; right; now left).
  destruct (held m a) as [ba|] eqn:Ea; [|congruence]. destruct (held m s) as [bs|] eqn:Es; [|unfold allocated in As; congruence].
  rewrite (at_ok _ _ _ P Ea), (at_ok _ _ _ P Es). cbn [obind].
  destruct (inv_item _ _ _ _ _ I) as [Ns Hs]. rewrite Hs. cbn [prev].
  rewrite touch__ok; [|exact P|].
  2:{ intros Q. destruct (lastd_in NULL xs) as [K|K]; [congruence|]. apply F. apply in_or_app. now left. }
  cbn [obind]. unfold list_insert_before, get_prev. rewrite eqb_NULL_neq by exact Ns. cbn [obind]. rewrite Hs. cbn [prev].
  destruct (list_insert_spec l (slinks m) xs (s :: ys) a I) as (l' & h' & E & I' & _ & Fr).
  { apply (proper_not m); [exact P|]. unfold allocated. congruence. }
  { exact N. }
  cbn [hd] in E. rewrite E. cbn [relink obind]. exists l', (mkstore h' (held m) (scalls m)). auto.
Qed.
Lemma put_after_ok l m xs s ys a : proper m -> inv l (slinks m) (xs ++ s :: ys) -> Forall (allocated m) (a :: xs ++ s :: ys) -> ~ In a (xs ++ s :: ys) ->
  exists l' m', put_after l m s a = Ok (l', m') /\ inv l' (slinks m') (xs ++ s :: a :: ys) /\ held m' = held m /\
    forall b, ~ In b (a :: xs ++ s :: ys) -> slinks m' b = slinks m b.
Proof.
  intros P I F N. apply Forall_cons_iff in F as [A F]. rewrite Forall_forall in F. unfold put_after.
  assert (allocated m s) as As by (apply F; apply in_or_app; right; now left).
  destruct (held m a) as [ba|] eqn:Ea; [|congruence]. destruct (held m s) as [bs|] eqn:Es; [|unfold allocated in As; congruence].
  rewrite (at_ok _ _ _ P Ea), (at_ok _ _ _ P Es). cbn [obind].
  destruct (inv_item _ _ _ _ _ I) as [Ns Hs]. rewrite Hs. cbn [next].
  rewrite touch__ok; [|exact P|].
  2:{ intros Q. destruct (hd_in NULL ys) as [K|K]; [congruence|]. apply F. apply in_or_app. right. now right. }
  cbn [obind]. unfold list_insert_after, get_next. rewrite eqb_NULL_neq by exact Ns. cbn [obind]. rewrite Hs. cbn [next].
  assert (inv l (slinks m) ((xs ++ [s]) ++ ys)) as I2 by (rewrite <- app_assoc; exact I).
  destruct (list_insert_spec l (slinks m) (xs ++ [s]) ys a I2) as (l' & h' & E & I' & _ & Fr).
  { apply (proper_not m); [exact P|]. unfold allocated. congruence. }
  { rewrite <- app_assoc. exact N. }
  rewrite lastd_snoc in E. rewrite E. cbn [relink obind]. exists l', (mkstore h' (held m) (scalls m)).
  rewrite <- app_assoc in I', Fr. auto.
Qed.
Lemma put_first_ok l m xs a : proper m -> inv l (slinks m) xs -> Forall (allocated m) (a :: xs) -> ~ In a xs ->
  exists l' m', put_first l m a = Ok (l', m') /\ inv l' (slinks m') (a :: xs) /\ held m' = held m /\
    forall b, ~ In b (a :: xs) -> slinks m' b = slinks m b.
Proof.
  intros P I F N. apply Forall_cons_iff in F as [A F]. rewrite Forall_forall in F. unfold put_first.
  destruct (held m a) as [ba|] eqn:Ea; [|congruence]. rewrite (at_ok _ _ _ P Ea). cbn [obind].
  rewrite (inv_first _ _ _ I). rewrite touch__ok; [|exact P|].
  2:{ intros Q. destruct (hd_in NULL xs) as [K|K]; [congruence|]. now apply F. }
  cbn [obind]. unfold list_insert_first. rewrite (inv_first _ _ _ I).
  destruct (list_insert_spec l (slinks m) [] xs a I) as (l' & h' & E & I' & _ & Fr).
  { apply (proper_not m); [exact P|]. unfold allocated. congruence. }
  { exact N. }
  cbn [lastd] in E. rewrite E. cbn [relink obind]. exists l', (mkstore h' (held m) (scalls m)). auto.
Qed.
Lemma put_last_ok l m xs a : proper m -> inv l (slinks m) xs -> Forall (allocated m) (a :: xs) -> ~ In a xs ->
  exists l' m', put_last l m a = Ok (l', m') /\ inv l' (slinks m') (xs ++ [a]) /\ held m' = held m /\
    forall b, ~ In b (a :: xs) -> slinks m' b = slinks m b.
Proof.
  intros P I F N. apply Forall_cons_iff in F as [A F]. rewrite Forall_forall in F. unfold put_last.
  destruct (held m a) as [ba|] eqn:Ea; [|congruence]. rewrite (at_ok _ _ _ P Ea). cbn [obind].
  rewrite (inv_last _ _ _ I). rewrite touch__ok; [|exact P|].
  2:{ intros Q. destruct (lastd_in NULL xs) as [K|K]; [congruence|]. now apply F. }
  cbn [obind]. unfold list_insert_last. rewrite (inv_last _ _ _ I).
  rewrite <- (app_nil_r xs) in I, N.
  destruct (list_insert_spec l (slinks m) xs [] a I) as (l' & h' & E & I' & _ & Fr).
  { apply (proper_not m); [exact P|]. unfold allocated. congruence. }
  { exact N. }
  cbn [hd] in E. rewrite E. cbn [relink obind]. exists l', (mkstore h' (held m) (scalls m)). rewrite app_nil_r in Fr. auto.
Qed.
Lemma take_out_ok l m xs a ys : proper m -> inv l (slinks m) (xs ++ a :: ys) -> Forall (allocated m) (xs ++ a :: ys) ->
  exists l' m', take_out l m a = Ok (l', m') /\ inv l' (slinks m') (xs ++ ys) /\ held m' = held m /\
    forall b, ~ In b (xs ++ a :: ys) -> slinks m' b = slinks m b.
Proof.
  intros P I F. rewrite Forall_forall in F. unfold take_out.
  assert (allocated m a) as A by (apply F; apply in_or_app; right; now left).
  unfold allocated in A. destruct (held m a) as [ba|] eqn:Ea; [|congruence]. rewrite (at_ok _ _ _ P Ea). cbn [obind].
  destruct (inv_item _ _ _ _ _ I) as [Na Ha]. rewrite Ha. cbn [prev next].
  rewrite touch__ok; [|exact P|].
  2:{ intros Q. destruct (lastd_in NULL xs) as [K|K]; [congruence|]. apply F. apply in_or_app. now left. }
  cbn [obind]. rewrite touch__ok; [|exact P|].
  2:{ intros Q. destruct (hd_in NULL ys) as [K|K]; [congruence|]. apply F. apply in_or_app. right. now right. }
  cbn [obind]. destruct (list_remove_spec l (slinks m) xs a ys I) as (l' & h' & E & I' & _ & Fr & _).
  rewrite E. cbn [relink obind]. exists l', (mkstore h' (held m) (scalls m)). auto.
Qed.

(** *** The list *)

(** Addresses of the items and of their arrays. *)
Definition flat (aus : list (addr * addr)) : list addr := map fst aus ++ map snd aus.

(** The item at [au] holds [c]: its substrings and its match pointer. *)
Definition is_cell (m : store) (c : list substr * addr) (au : addr * addr) : Prop :=
  held m (fst au) = Some (BSync (snd au) (snd c)) /\ held m (snd au) = Some (BSubs (fst c)).

Record holds (l : header) (m : store) (cs : list (list substr * addr)) (aus : list (addr * addr)) : Prop := {
  ho_inv : inv l (slinks m) (map fst aus);
  ho_cells : Forall2 (is_cell m) cs aus;
  ho_arrays : NoDup (map snd aus) }.

Lemma holds_cell l m cs aus a : holds l m cs aus -> In a (map fst aus) -> exists u p, In (a, u) aus /\ held m a = Some (BSync u p).
Proof.
  intros [_ F _] I. apply in_map_iff in I as ([a' u] & E & I). cbn in E. subst a'.
  clear -F I. induction F as [|c au cs aus [H1 H2] F IH]; [contradiction|]. destruct I as [->|I].
  - cbn in H1. exists u, (snd c). split; [now left|exact H1].
  - destruct (IH I) as (u' & p & J & K). exists u', p. split; [now right|exact K].
Qed.
Lemma holds_array l m cs aus u : holds l m cs aus -> In u (map snd aus) -> exists ss, held m u = Some (BSubs ss).
Proof.
  intros [_ F _] I. apply in_map_iff in I as ([a' u'] & E & I). cbn in E. subst u'.
  clear -F I. induction F as [|c au cs aus [H1 H2] F IH]; [contradiction|]. destruct I as [->|I]; [cbn in H2; eauto|auto].
Qed.
Lemma holds_alloc l m cs aus : holds l m cs aus -> Forall (allocated m) (flat aus).
Proof.
  intros H. apply Forall_forall. intros a I. unfold flat in I. apply in_app_or in I as [I|I]; unfold allocated.
  - destruct (holds_cell _ _ _ _ _ H I) as (u & p & _ & E). congruence.
  - destruct (holds_array _ _ _ _ _ H I) as (ss & E). congruence.
Qed.

Lemma cells_frame m m' cs aus : (forall a, In a (flat aus) -> held m' a = held m a) -> Forall2 (is_cell m) cs aus -> Forall2 (is_cell m') cs aus.
Proof.
  intros E F. unfold flat in E. induction F as [|c au cs aus [H1 H2] F IH]; [constructor|]. constructor.
  - split; rewrite E; auto; [apply in_or_app; left; now left|apply in_or_app; right; now left].
  - apply IH. intros a I. apply E. rewrite in_app_iff in *. cbn [map In]. tauto.
Qed.
Lemma inv_frame l h h' xs : (forall a, In a xs -> h' a = h a) -> inv l h xs -> inv l h' xs.
Proof. intros E [A B C D F G]. constructor; auto. eapply dlseg_ext; eauto. Qed.
Lemma holds_frame l m m' cs aus : (forall a, In a (flat aus) -> held m' a = held m a /\ slinks m' a = slinks m a) -> holds l m cs aus -> holds l m' cs aus.
Proof.
  intros E [I F N]. constructor; [| |exact N].
  - eapply inv_frame; [|exact I]. intros a J. apply E. unfold flat. apply in_or_app. now left.
  - eapply cells_frame; [|exact F]. intros a J. apply E. exact J.
Qed.
(** A change elsewhere. *)
Lemma holds_moved l m m' cs aus xs ys : moved m m' xs ys -> (forall a, In a (flat aus) -> ~ In a xs) -> holds l m cs aus -> holds l m' cs aus.
Proof.
  intros M D H. eapply holds_frame; [|exact H]. intros a I. pose proof (holds_alloc _ _ _ _ H) as A. rewrite Forall_forall in A.
  destruct (mv_same _ _ _ _ M a (A a I) (D a I)) as (E & L & _). auto.
Qed.

(** A new item, if it is valid. *)
Definition opt_cell (ss : list substr) : list (list substr * addr) := if valid_sync ss then [(ss, NULL)] else [].
Definition opt_pair (ss : list substr) (au : addr * addr) : list (addr * addr) := if valid_sync ss then [au] else [].

Lemma in_flat a aus : In a (flat aus) <-> In a (map fst aus) \/ In a (map snd aus).
Proof. unfold flat. apply in_app_iff. Qed.
Lemma flat_app aus bus a : In a (flat (aus ++ bus)) <-> In a (flat aus) \/ In a (flat bus).
Proof. rewrite !in_flat, !map_app, !in_app_iff. tauto. Qed.
Lemma flat_cons x u aus a : In a (flat ((x, u) :: aus)) <-> a = x \/ a = u \/ In a (flat aus).
Proof. rewrite !in_flat. cbn [map In fst snd]. intuition congruence. Qed.

Lemma nodup_add {A} (x : A) xs ys : NoDup (xs ++ ys) -> ~ In x (xs ++ ys) -> NoDup (xs ++ x :: ys).
Proof. intros N I. apply NoDup_Add with (a := x) (l := xs ++ ys); [apply Add_app|]. auto. Qed.

Lemma split_cells {A B} (P : A -> B -> Prop) l1 r1 l2 r2 : Forall2 P (l1 ++ r1) (l2 ++ r2) -> List.length l1 = List.length l2 -> Forall2 P l1 l2 /\ Forall2 P r1 r2.
Proof.
  revert l2. induction l1 as [|x l1 IH]; intros [|y l2] F L; cbn in L; try lia; [auto|]. cbn [app] in F. inversion F; subst.
  destruct (IH l2) as [A1 A2]; auto.
Qed.

(** An item [x] with its array [ux] comes into the list between [LA] and [RA]. *)
Lemma holds_insert l' m m' Lc Rc LA RA x ux ss :
  Forall2 (is_cell m) Lc LA -> Forall2 (is_cell m) Rc RA -> NoDup (map snd (LA ++ RA)) ->
  held m x = Some (BSync ux NULL) -> held m ux = Some (BSubs ss) -> ~ In ux (flat (LA ++ RA)) ->
  inv l' (slinks m') (map fst LA ++ x :: map fst RA) -> held m' = held m ->
  holds l' m' (Lc ++ (ss, NULL) :: Rc) (LA ++ (x, ux) :: RA).
Proof.
  intros FL FR N Hx Hu Nu I E. constructor.
  - rewrite map_app. exact I.
  - eapply cells_frame; [intros a _; now rewrite E|]. apply Forall2_app; [exact FL|]. constructor; [|exact FR]. now split.
  - rewrite map_app in *. cbn [map snd]. apply nodup_add; [exact N|]. intros Q. apply Nu. apply in_flat. right. rewrite map_app. exact Q.
Qed.

Lemma attach_left l m Lc c Rc LA a u RA x ux ss : proper m ->
  holds l m (Lc ++ c :: Rc) (LA ++ (a, u) :: RA) -> List.length Lc = List.length LA ->
  held m x = Some (BSync ux NULL) -> held m ux = Some (BSubs ss) ->
  ~ In x (flat (LA ++ (a, u) :: RA)) -> ~ In ux (flat (LA ++ (a, u) :: RA)) ->
  exists l' m', (if valid_sync ss then put_before l m x a else let! m := destroy_sync m x in Ok (l, m)) = Ok (l', m') /\
    holds l' m' (Lc ++ opt_cell ss ++ c :: Rc) (LA ++ opt_pair ss (x, ux) ++ (a, u) :: RA) /\
    moved m m' (x :: ux :: flat (LA ++ (a, u) :: RA)) (flat (LA ++ opt_pair ss (x, ux) ++ (a, u) :: RA)).
Proof.
  intros P H Len Hx Hu Nx Nu. pose proof (holds_alloc _ _ _ _ H) as Al.
  assert (x <> ux) as Nxu by congruence.
  assert (Forall (allocated m) (x :: ux :: flat (LA ++ (a, u) :: RA))) as Al2.
  { constructor; [unfold allocated; congruence|]. constructor; [unfold allocated; congruence|exact Al]. }
  unfold opt_cell, opt_pair. destruct (valid_sync ss).
  - pose proof (ho_inv _ _ _ _ H) as I. rewrite map_app in I. cbn [map fst] in I.
    destruct (put_before_ok l m (map fst LA) a (map fst RA) x P I) as (l' & m' & E & I' & Eh & Fr).
    { rewrite Forall_forall in Al |- *. intros b [<-|Q]; [unfold allocated; congruence|]. apply Al. apply in_flat. left. rewrite map_app. exact Q. }
    { intros Q. apply Nx. apply in_flat. left. rewrite map_app. exact Q. }
    exists l', m'. split; [exact E|]. split.
    + cbn [app]. 
      destruct H as [_ F N]. apply split_cells in F as [F1 F2]; [|exact Len].
      eapply holds_insert; eauto.
    + eapply moved_equiv with (xs := x :: ux :: flat (LA ++ (a, u) :: RA)) (ys := x :: ux :: flat (LA ++ (a, u) :: RA)).
      * reflexivity.
      * intros b. cbn [app In]. rewrite !flat_app, !flat_cons. intuition congruence.
      * apply moved_links; [exact Eh|exact Al2|]. intros b Nb. apply Fr. intros Q. apply Nb. destruct Q as [<-|Q]; [now left|]. right. right. apply in_flat. left. rewrite map_app. exact Q.
  - rewrite (destroy_ok _ _ _ _ _ P Hx Hu). cbn [obind]. exists l, (mkstore (slinks m) (upd (upd (held m) ux None) x None) (scalls m)). split; [reflexivity|].
    cbn [app]. split.
    + eapply holds_frame; [|exact H]. intros b Ib. cbn [held slinks]. split; [|reflexivity]. unfold upd.
      destruct (Z.eqb_spec b x) as [->|]; [contradiction|]. destruct (Z.eqb_spec b ux) as [->|]; [contradiction|reflexivity].
    + pose (m1 := mkstore (slinks m) (upd (held m) ux None) (scalls m)).
      assert (moved m m1 (ux :: x :: flat (LA ++ (a, u) :: RA)) (x :: flat (LA ++ (a, u) :: RA))) as M1.
      { apply moved_free; [|cbn [In]; intros [Q|Q]; [congruence|contradiction]]. rewrite !Forall_cons_iff in *. tauto. }
      eapply moved_trans.
      * eapply moved_equiv; [| |exact M1]; [intros b; cbn; tauto|reflexivity].
      * apply (moved_free (flat (LA ++ (a, u) :: RA)) m1 x); [|exact Nx]. eapply moved_alloc. exact M1.
Qed.

Lemma attach_right l m Lc c Rc LA a u RA x ux ss : proper m ->
  holds l m (Lc ++ c :: Rc) (LA ++ (a, u) :: RA) -> List.length Lc = List.length LA ->
  held m x = Some (BSync ux NULL) -> held m ux = Some (BSubs ss) ->
  ~ In x (flat (LA ++ (a, u) :: RA)) -> ~ In ux (flat (LA ++ (a, u) :: RA)) ->
  exists l' m', (if valid_sync ss then put_after l m a x else let! m := destroy_sync m x in Ok (l, m)) = Ok (l', m') /\
    holds l' m' (Lc ++ c :: opt_cell ss ++ Rc) (LA ++ (a, u) :: opt_pair ss (x, ux) ++ RA) /\
    moved m m' (x :: ux :: flat (LA ++ (a, u) :: RA)) (flat (LA ++ (a, u) :: opt_pair ss (x, ux) ++ RA)).
Proof.
  intros P H Len Hx Hu Nx Nu. pose proof (holds_alloc _ _ _ _ H) as Al.
  assert (x <> ux) as Nxu by congruence.
  assert (Forall (allocated m) (x :: ux :: flat (LA ++ (a, u) :: RA))) as Al2.
  { constructor; [unfold allocated; congruence|]. constructor; [unfold allocated; congruence|exact Al]. }
  unfold opt_cell, opt_pair. destruct (valid_sync ss).
  - pose proof (ho_inv _ _ _ _ H) as I. rewrite map_app in I. cbn [map fst] in I.
    destruct (put_after_ok l m (map fst LA) a (map fst RA) x P I) as (l' & m' & E & I' & Eh & Fr).
    { rewrite Forall_forall in Al |- *. intros b [<-|Q]; [unfold allocated; congruence|]. apply Al. apply in_flat. left. rewrite map_app. exact Q. }
    { intros Q. apply Nx. apply in_flat. left. rewrite map_app. exact Q. }
    exists l', m'. split; [exact E|]. split.
    + cbn [app]. destruct H as [_ F N]. change (LA ++ (a, u) :: RA) with (LA ++ [(a, u)] ++ RA) in *. change (Lc ++ c :: Rc) with (Lc ++ [c] ++ Rc) in F.
      change (Lc ++ c :: (ss, NULL) :: Rc) with (Lc ++ [c] ++ (ss, NULL) :: Rc).
      change (LA ++ (a, u) :: (x, ux) :: RA) with (LA ++ [(a, u)] ++ (x, ux) :: RA).
      rewrite !app_assoc in *. apply split_cells in F as [F1 F2]; [|rewrite !app_length; cbn; lia].
      eapply holds_insert; eauto. rewrite map_app, <- app_assoc. exact I'.
    + eapply moved_equiv with (xs := x :: ux :: flat (LA ++ (a, u) :: RA)) (ys := x :: ux :: flat (LA ++ (a, u) :: RA)).
      * reflexivity.
      * intros b. cbn [app In]. rewrite !flat_app, !flat_cons. intuition congruence.
      * apply moved_links; [exact Eh|exact Al2|]. intros b Nb. apply Fr. intros Q. apply Nb. destruct Q as [<-|Q]; [now left|]. right. right. apply in_flat. left. rewrite map_app. exact Q.
  - rewrite (destroy_ok _ _ _ _ _ P Hx Hu). cbn [obind]. exists l, (mkstore (slinks m) (upd (upd (held m) ux None) x None) (scalls m)). split; [reflexivity|].
    cbn [app]. split.
    + eapply holds_frame; [|exact H]. intros b Ib. cbn [held slinks]. split; [|reflexivity]. unfold upd.
      destruct (Z.eqb_spec b x) as [->|]; [contradiction|]. destruct (Z.eqb_spec b ux) as [->|]; [contradiction|reflexivity].
    + pose (m1 := mkstore (slinks m) (upd (held m) ux None) (scalls m)).
      assert (moved m m1 (ux :: x :: flat (LA ++ (a, u) :: RA)) (x :: flat (LA ++ (a, u) :: RA))) as M1.
      { apply moved_free; [|cbn [In]; intros [Q|Q]; [congruence|contradiction]]. rewrite !Forall_cons_iff in *. tauto. }
      eapply moved_trans.
      * eapply moved_equiv; [| |exact M1]; [intros b; cbn; tauto|reflexivity].
      * apply (moved_free (flat (LA ++ (a, u) :: RA)) m1 x); [|exact Nx]. eapply moved_alloc. exact M1.
Qed.

Ltac look m := unfold m; cbn [held]; unfold upd; repeat match goal with |- context[?x =? ?y] => destruct (Z.eqb_spec x y); try congruence end; try assumption.

Section Alloc.
Variable alloc : (addr -> bool) -> Z -> addr.
Hypothesis Halloc : sound_calloc alloc.

Definition nomem : string := "unable to allocate memory".

Lemma new_ok m b : proper m ->
  new alloc m b = Fail nomem \/
  exists e, new alloc m b = Ok (e, mkstore (upd (slinks m) e (mknode NULL NULL)) (upd (held m) e (Some b)) (scalls m + 1)) /\
    ~ allocated m e /\ e <> NULL.
Proof.
  intros P. unfold new. destruct (Z.eqb_spec (alloc (in_use m) (scalls m)) NULL) as [|N]; [now left|]. right. eexists. split; [reflexivity|].
  split; [|exact N]. destruct (Halloc (in_use m) (scalls m)) as [Q|Q]; [contradiction|]. unfold in_use at 1 in Q. unfold allocated. destruct (held m _); congruence.
Qed.

Lemma create_ok m n S : proper m -> Forall (allocated m) S ->
  create_sync alloc m n = Fail nomem \/
  exists s u m', create_sync alloc m n = Ok (s, m') /\ moved m m' S (s :: u :: S) /\ ~ allocated m s /\ ~ allocated m u /\
    held m' s = Some (BSync u NULL) /\ held m' u = Some (BSubs (repeat (mksub 0 0 0) n)).
Proof.
  intros P F. unfold create_sync. destruct (new_ok m (BSync NULL NULL) P) as [->|(s & -> & As & Ns)]; [now left|]. cbn [obind].
  set (m1 := mkstore _ _ _). assert (moved m m1 S (s :: S)) as M1 by (now apply moved_new).
  pose proof (mv_null _ _ _ _ M1 P) as P1.
  destruct (new_ok m1 (BSubs (repeat (mksub 0 0 0) n)) P1) as [->|(u & -> & Au & Nu)]; [now left|]. cbn [obind].
  set (m2 := mkstore (upd (slinks m1) u _) _ _). assert (moved m1 m2 (s :: S) (u :: s :: S)) as M2 by (apply moved_new; auto; eapply moved_alloc; eauto).
  pose proof (mv_null _ _ _ _ M2 P1) as P2.
  assert (s <> u) as Nsu. { intros <-. apply Au. apply (mv_held _ _ _ _ M1). left. now left. }
  assert (held m2 s = Some (BSync NULL NULL)) as Hs.
  { cbn [held m2 m1]. unfold upd. destruct (Z.eqb_spec s u); [contradiction|]. now rewrite Z.eqb_refl. }
  rewrite (get_sync_ok _ _ _ _ P2 Hs). cbn [obind]. rewrite (put_ok _ _ _ _ P2 Hs). cbn [obind]. right. eexists s, u, _. split; [reflexivity|].
  split; [|split; [exact As|split; [|split]]].
  - eapply moved_trans; [exact M1|]. eapply moved_trans; [exact M2|].
    eapply moved_equiv; [| |eapply moved_put with (S := s :: u :: S)].
    + intros a. cbn. tauto.
    + reflexivity.
    + pose proof (moved_alloc _ _ _ _ M2) as Q. rewrite !Forall_cons_iff in *. tauto.
    + now left.
  - intros A. apply Au. apply (mv_held _ _ _ _ M1). destruct (in_dec Z.eq_dec u S); [left; now right|now right].
  - cbn [held]. unfold upd. now rewrite Z.eqb_refl.
  - cbn [held]. unfold upd at 1. destruct (Z.eqb_spec u s); [congruence|]. cbn [held m2]. unfold upd. now rewrite Z.eqb_refl.
Qed.

(** save_match *)
Lemma save_ok n l m Lc ss p0 Rc LA a u RA starts len p : proper m ->
  holds l m (Lc ++ (ss, p0) :: Rc) (LA ++ (a, u) :: RA) -> List.length Lc = List.length LA ->
  List.length ss = n -> List.length starts = n ->
  save alloc n l m a starts len p = Fail nomem \/
  exists l' m' lA rA, save alloc n l m a starts len p = Ok (l', m') /\
    let ls := zip_starts left_sub ss starts len in
    let rs := zip_starts right_sub ss starts len in
    let aus' := LA ++ opt_pair ls lA ++ (a, u) :: opt_pair rs rA ++ RA in
    holds l' m' (Lc ++ opt_cell ls ++ (zip_starts mid_sub ss starts len, p) :: opt_cell rs ++ Rc) aus' /\
    moved m m' (flat (LA ++ (a, u) :: RA)) (flat aus').
Proof.
  intros P H Len Ln Ls. set (F := flat (LA ++ (a, u) :: RA)). pose proof (holds_alloc _ _ _ _ H) as Al. fold F in Al. unfold save.
  destruct (create_ok m n [] P (Forall_nil _)) as [->|(lf & ul & m1 & -> & M1 & Alf & Aul & Hlf & Hul)]; [now left|]. cbn [obind].
  pose proof (mv_null _ _ _ _ M1 P) as P1.
  destruct (create_ok m1 n [] P1 (Forall_nil _)) as [->|(rg & ur & m2 & -> & M2 & Arg & Aur & Hrg & Hur)]; [now left|]. cbn [obind].
  pose proof (mv_null _ _ _ _ M2 P1) as P2.
  assert (forall b, allocated m b -> held m1 b = held m b /\ slinks m1 b = slinks m b) as S1.
  { intros b Ab. destruct (mv_same _ _ _ _ M1 b Ab (fun f => f)) as (E & L & _). auto. }
  assert (forall b, allocated m1 b -> held m2 b = held m1 b /\ slinks m2 b = slinks m1 b) as S2.
  { intros b Ab. destruct (mv_same _ _ _ _ M2 b Ab (fun f => f)) as (E & L & _). auto. }
  assert (forall b, allocated m b -> allocated m1 b) as A1. { intros b Ab. unfold allocated. rewrite (proj1 (S1 b Ab)). exact Ab. }
  assert (allocated m1 lf) as Alf1 by (unfold allocated; congruence). assert (allocated m1 ul) as Aul1 by (unfold allocated; congruence).
  rewrite <- (proj1 (S2 lf Alf1)) in Hlf. rewrite <- (proj1 (S2 ul Aul1)) in Hul.
  assert (forall b, In b F -> held m2 b = held m b /\ slinks m2 b = slinks m b) as Same.
  { intros b Ib. rewrite Forall_forall in Al. specialize (Al b Ib). destruct (S1 b Al) as [E1 L1]. destruct (S2 b (A1 b Al)) as [E2 L2]. split; congruence. }
  assert (~ In lf F /\ ~ In ul F /\ ~ In rg F /\ ~ In ur F) as (NFl & NFul & NFr & NFur).
  { rewrite Forall_forall in Al. repeat split; intros Q; specialize (Al _ Q); auto. }
  assert (lf <> rg /\ lf <> ur /\ ul <> rg /\ ul <> ur) as (D1 & D2 & D3 & D4) by (repeat split; intros <-; auto).
  assert (lf <> ul) as D5 by congruence. assert (rg <> ur) as D6 by congruence.
  assert (In a F /\ In u F) as [Fa Fu]. { unfold F. rewrite !flat_app, !flat_cons. auto. }
  assert (holds l m2 (Lc ++ (ss, p0) :: Rc) (LA ++ (a, u) :: RA)) as H2 by (eapply holds_frame; [exact Same|exact H]).
  assert (moved m m2 F (rg :: ur :: lf :: ul :: F)) as M12.
  { eapply moved_trans; [exact (moved_frame _ _ _ _ F M1 Al (fun _ _ f => f))|].
    apply (moved_frame _ _ _ _ (lf :: ul :: F) M2); [|tauto]. rewrite Forall_forall in Al |- *. intros b [<-|[<-|Ib]]; auto. }
  clear S1 S2 A1 M1 M2 Same Alf Aul Arg Aur Alf1 Aul1 P1.
  destruct H2 as [I2 F2 N2]. pose proof F2 as F2'. apply split_cells in F2' as [FL FC]; [|exact Len]. inversion FC as [|? ? ? ? [Ha Hu] FR E1 E2]; subst. cbn [fst snd] in Ha, Hu.
  assert (a <> u) as D7 by congruence.
  rewrite (subs_of_ok _ _ _ _ _ P2 Ha Hu). cbn [obind]. rewrite Ls, !Nat.eqb_refl. cbn [negb].
  set (ls := zip_starts left_sub ss starts len). set (rs := zip_starts right_sub ss starts len). set (ms := zip_starts mid_sub ss starts len).
  assert (List.length ls = List.length ss /\ List.length rs = List.length ss /\ List.length ms = List.length ss) as (Zl & Zr & Zm).
  { unfold ls, rs, ms, zip_starts. rewrite !map_length, !combine_length. lia. }
  assert (lf <> a /\ lf <> u /\ ul <> a /\ ul <> u /\ rg <> a /\ rg <> u /\ ur <> a /\ ur <> u) as (D8 & D9 & D10 & D11 & D12 & D13 & D14 & D15)
    by (repeat split; intros ->; auto).
  rewrite (fill_ok _ _ _ _ _ _ P2 Hlf Hul) by (now rewrite repeat_length). cbn [obind].
  set (m3 := mkstore _ _ _).
  assert (moved m2 m3 (rg :: ur :: lf :: ul :: F) (rg :: ur :: lf :: ul :: F)) as M3.
  { apply moved_put; [eapply moved_alloc; exact M12|cbn; auto]. }
  pose proof (mv_null _ _ _ _ M3 P2) as P3.
  rewrite (fill_ok m3 rg ur NULL (repeat (mksub 0 0 0) (List.length ss)) rs P3); [|look m3|look m3|now rewrite repeat_length]. cbn [obind].
  set (m4 := mkstore (slinks m3) _ _).
  assert (moved m3 m4 (rg :: ur :: lf :: ul :: F) (rg :: ur :: lf :: ul :: F)) as M4.
  { apply moved_put; [eapply moved_alloc; exact M3|cbn; auto]. }
  pose proof (mv_null _ _ _ _ M4 P3) as P4.
  rewrite (fill_ok m4 a u p0 ss ms P4); [|look m4; look m3|look m4; look m3|congruence]. cbn [obind].
  set (m5 := mkstore (slinks m4) _ _).
  assert (moved m4 m5 (rg :: ur :: lf :: ul :: F) (rg :: ur :: lf :: ul :: F)) as M5.
  { apply moved_put; [eapply moved_alloc; exact M4|cbn; auto]. }
  pose proof (mv_null _ _ _ _ M5 P4) as P5.
  assert (held m5 a = Some (BSync u p0)) as Ha5 by (look m5; look m4; look m3).
  rewrite (get_sync_ok _ _ _ _ P5 Ha5). cbn [obind]. rewrite (put_ok _ _ _ _ P5 Ha5). cbn [obind].
  set (m6 := mkstore (slinks m5) _ _).
  assert (moved m5 m6 (rg :: ur :: lf :: ul :: F) (rg :: ur :: lf :: ul :: F)) as M6.
  { apply moved_put; [eapply moved_alloc; exact M5|cbn; auto]. }
  pose proof (mv_null _ _ _ _ M6 P5) as P6.
  assert (held m6 lf = Some (BSync ul NULL) /\ held m6 ul = Some (BSubs ls) /\ held m6 rg = Some (BSync ur NULL) /\ held m6 ur = Some (BSubs rs)) as (Hlf6 & Hul6 & Hrg6 & Hur6).
  { repeat split; look m6; look m5; look m4; look m3. }
  assert (holds l m6 (Lc ++ (ms, p) :: Rc) (LA ++ (a, u) :: RA)) as H6.
  { assert (forall b, In b (flat (LA ++ RA)) -> held m6 b = held m2 b) as Fr6.
    { intros b Ib. assert (In b F) as IF by (unfold F; rewrite !flat_app, flat_cons in *; tauto).
      assert (b <> a /\ b <> u) as [Ba Bu].
      { pose proof (inv_nodup _ _ _ I2) as Nd. rewrite map_app in Nd, N2. cbn [map fst snd] in Nd, N2. apply NoDup_remove_2 in Nd, N2. rewrite <- map_app in Nd, N2.
        apply in_flat in Ib as [Ib|Ib].
        - split; [intros ->; contradiction|]. intros ->. apply in_map_iff in Ib as ([b' w] & Eb & Ib). cbn in Eb. subst b'.
          assert (Forall2 (is_cell m2) (Lc ++ Rc) (LA ++ RA)) as FF by (apply Forall2_app; assumption).
          clear -FF Ib Hu. induction FF as [|c au cs aus [K1 K2] FF IH]; [contradiction|]. destruct Ib as [->|Ib]; [cbn in K1; congruence|auto].
        - split; [|intros ->; contradiction]. intros ->. apply in_map_iff in Ib as ([w b'] & Eb & Ib). cbn in Eb. subst b'.
          assert (Forall2 (is_cell m2) (Lc ++ Rc) (LA ++ RA)) as FF by (apply Forall2_app; assumption).
          clear -FF Ib Ha. induction FF as [|c au cs aus [K1 K2] FF IH]; [contradiction|]. destruct Ib as [->|Ib]; [cbn in K2; congruence|auto]. }
      assert (b <> ul /\ b <> ur) as [Bl Br] by (split; intros ->; contradiction).
      look m6; look m5; look m4; look m3. }
    constructor; [exact I2| |exact N2].
    apply Forall2_app; [|constructor].
    - eapply cells_frame; [|exact FL]. intros b Ib. apply Fr6. rewrite flat_app. auto.
    - split; cbn [fst snd]; look m6; look m5.
    - eapply cells_frame; [|exact FR]. intros b Ib. apply Fr6. rewrite flat_app. auto. }
  assert (moved m m6 F (rg :: ur :: lf :: ul :: F)) as M06.
  { eapply moved_trans; [exact M12|]. eapply moved_trans; [exact M3|]. eapply moved_trans; [exact M4|]. eapply moved_trans; [exact M5|exact M6]. }
  clearbody m6. clear M3 M4 M5 M6 P3 P4 P5 m3 m4 m5 Ha5 M12.
  rewrite (subs_of_ok _ _ _ _ _ P6 Hlf6 Hul6). cbn [obind].
  destruct (attach_left l m6 Lc (ms, p) Rc LA a u RA lf ul ls P6 H6 Len Hlf6 Hul6 NFl NFul) as (l7 & m7 & -> & H7 & M7). cbn [obind].
  fold F in M7. pose proof (mv_null _ _ _ _ M7 P6) as P7.
  assert (forall b, In b [rg; ur] -> ~ In b (lf :: ul :: F)) as Dr.
  { intros b [<-|[<-|[]]]; cbn [In]; intuition congruence. }
  assert (forall b, In b [rg; ur] -> held m7 b = held m6 b /\ ~ In b (flat (LA ++ opt_pair ls (lf, ul) ++ (a, u) :: RA))) as Fr7.
  { intros b Ib. destruct (mv_same _ _ _ _ M7 b) as (E & _ & Q); [|now apply Dr|auto]. unfold allocated. destruct Ib as [<-|[<-|[]]]; congruence. }
  destruct (Fr7 rg (or_introl eq_refl)) as [Erg Nrg]. destruct (Fr7 ur (or_intror (or_introl eq_refl))) as [Eur Nur].
  rewrite <- Erg in Hrg6. rewrite <- Eur in Hur6.
  rewrite (subs_of_ok _ _ _ _ _ P7 Hrg6 Hur6). cbn [obind].
  rewrite (app_assoc Lc), (app_assoc LA) in H7. rewrite (app_assoc LA) in Nrg, Nur, M7.
  assert (List.length (Lc ++ opt_cell ls) = List.length (LA ++ opt_pair ls (lf, ul))) as Len7.
  { rewrite !app_length, Len. unfold opt_cell, opt_pair. now destruct (valid_sync ls). }
  destruct (attach_right l7 m7 (Lc ++ opt_cell ls) (ms, p) Rc (LA ++ opt_pair ls (lf, ul)) a u RA rg ur rs P7 H7 Len7 Hrg6 Hur6 Nrg Nur) as (l8 & m8 & -> & H8 & M8).
  right. exists l8, m8, (lf, ul), (rg, ur). split; [reflexivity|]. cbv zeta. fold ls rs ms. rewrite <- (app_assoc Lc), <- (app_assoc LA) in H8. split; [exact H8|].
  eapply moved_trans; [exact M06|].
  assert (moved m7 m8 (rg :: ur :: flat ((LA ++ opt_pair ls (lf, ul)) ++ (a, u) :: RA)) (flat (LA ++ opt_pair ls (lf, ul) ++ (a, u) :: opt_pair rs (rg, ur) ++ RA))) as M8'.
  { eapply moved_equiv; [reflexivity| |exact M8]. intros b. now rewrite <- app_assoc. }
  eapply moved_trans; [|exact M8'].
  eapply moved_equiv; [| |apply (moved_frame _ _ _ _ [rg; ur] M7)].
  - intros b. rewrite in_app_iff. cbn [In]. tauto.
  - intros b. rewrite in_app_iff, <- !app_assoc. cbn [In]. tauto.
  - repeat constructor; unfold allocated; congruence.
  - exact Dr.
Qed.
End Alloc.
