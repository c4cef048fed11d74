(** Proofs about ClientModel. *)
From Coq Require Import String Permutation.
From Verif Require Import Base CLib CLibProof ListModel ListProof TableModel TableSpec TableProof EdoProof SynctextProof ClientModel ClientSpec.
Local Open Scope Z_scope.
Local Open Scope list_scope.

Section Client.
Variable malloc : Z -> addr.
Hypothesis fresh : distinct_blocks malloc.
Context {V : Type}.

(** The entries of the table, the first inserted first. *)
Record cinv (c : client V) (l : list (list Z * V)) (m : assoc) : Prop := {
  ci_table : tinv (ctable c) (cheap c) (ckeys c) m;
  ci_list : map (fun p => (snd p, cfields c (fst p))) (rev m) = l;
  ci_keys : NoDup (map snd m);
  ci_allocs : callocs c = zlen m;
  ci_addr : map fst (rev m) = map malloc (zrange 0 (List.length m));
  ci_real : Forall (fun e => e <> NULL) (map fst m) }.

Lemma cinv_new h ks fs : cinv (new_client h ks fs) [] [].
Proof. constructor; cbn; try reflexivity; try constructor. all: apply (tinv_init h ks). Qed.

Lemma tinv_addr t h ks m : tinv t h ks m -> NoDup (map fst m).
Proof. apply ti_nodup. Qed.

Lemma zrange_snoc n : forall k, zrange k (S n) = zrange k n ++ [k + Z.of_nat n].
Proof.
  induction n as [|n IH]; intros k; [cbn; now rewrite Z.add_0_r|]. cbn [zrange] in IH |- *.
  rewrite IH. cbn [app]. do 3 f_equal. lia.
Qed.

Lemma upd_notin {A} (f : addr -> A) e v (l : list addr) : ~ In e l -> map (upd f e v) l = map f l.
Proof.
  intros H. apply map_ext_in. intros x I. unfold upd. destruct (Z.eqb_spec x e) as [->|]; [contradiction|reflexivity].
Qed.

(** A key that is in the table. *)
Lemma lookup_found c l m key v l1 l2 : cinv c l m -> l = l1 ++ (key, v) :: l2 ->
  lookup_entry c key = Ok (malloc (zlen l1)) /\ malloc (zlen l1) <> NULL /\ cfields c (malloc (zlen l1)) = v /\
  forall w, cinv (set_fields c (malloc (zlen l1)) w) (l1 ++ (key, w) :: l2) m.
Proof.
  intros [T E K N A R] El. rewrite El in E.
  apply map_eq_app in E as (m1 & m2' & Em & E1 & E2). destruct m2' as [|[e k] m2]; [discriminate E2|].
  cbn [map fst snd] in E2. injection E2 as Ek Ev E2. subst k.
  assert (Lm : zlen m1 = zlen l1) by (rewrite <- E1, zlen_map; reflexivity).
  assert (Ae : e = malloc (zlen l1)).
  { rewrite Em in A. rewrite map_app in A. cbn [map fst] in A.
    assert (znth (map malloc (zrange 0 (List.length m))) (zlen l1) = Some e) as X.
    { rewrite <- A, <- Lm. rewrite znth_app2 by (rewrite zlen_map; lia). rewrite zlen_map.
      replace (zlen m1 - zlen m1) with 0 by lia. reflexivity. }
    rewrite znth_map, znth_zrange in X; [cbn in X; congruence|].
    assert (List.length m = List.length (m1 ++ (e, key) :: m2)) as -> by (rewrite <- Em; symmetry; apply rev_length).
    rewrite app_length. cbn [List.length]. pose proof (zlen_nonneg l1). unfold zlen in *. lia. }
  assert (Em' : m = rev m2 ++ (e, key) :: rev m1).
  { rewrite <- (rev_involutive m), Em, rev_app_distr. cbn [rev]. now rewrite <- app_assoc. }
  assert (In (e, key) m) as I by (rewrite Em'; apply in_or_app; right; now left).
  assert (Hn : e <> NULL).
  { rewrite Forall_forall in R. apply R. apply in_map_iff. exists (e, key). auto. }
  rewrite <- Ae. split; [|split; [exact Hn|split; [exact Ev|]]].
  - unfold lookup_entry. rewrite (table_lookup_spec _ _ _ _ key T). f_equal. unfold spec_lookup.
    destruct (find (fun p => key_eqb (snd p) key) m) as [[e' k']|] eqn:F.
    + apply find_some in F as [I' Q]. cbn [fst snd] in *. apply key_eqb_true in Q. subst k'.
      clear -K I I'. revert K I I'. induction m as [|[a b] m IH]; intros K I I'; [destruct I|].
      cbn [map snd] in K. apply NoDup_cons_iff in K as [Kn K].
      destruct I as [I|I], I' as [I'|I']; try congruence; [| |auto]; exfalso; apply Kn; apply in_map_iff.
      * injection I as -> ->. exists (e', key). auto.
      * injection I' as -> ->. exists (e, key). auto.
    + exfalso. apply (find_none _ _ F) in I. cbn [snd] in I.
      assert (key_eqb key key = true) by (now apply key_eqb_true). congruence.
  - intros w. constructor; cbn [set_fields ctable cheap ckeys cfields callocs]; auto.
    pose proof (tinv_addr _ _ _ _ T) as Nd. rewrite Em' in Nd. rewrite map_app in Nd. cbn [map fst] in Nd.
    apply NoDup_remove_2 in Nd. rewrite in_app_iff in Nd.
    rewrite Em, map_app. cbn [map fst snd]. rewrite upd_same. f_equal; [|f_equal].
    + rewrite <- E1. apply map_ext_in. intros [x kx] Ix. cbn [fst snd]. f_equal. apply upd_other. intros ->.
      apply Nd. right. apply in_map_iff. exists (e, kx). split; [reflexivity|]. now apply -> in_rev.
    + rewrite <- E2. apply map_ext_in. intros [x kx] Ix. cbn [fst snd]. f_equal. apply upd_other. intros ->.
      apply Nd. left. apply in_map_iff. exists (e, kx). split; [reflexivity|]. now apply -> in_rev.
Qed.

(** A key that is not. *)
Lemma lookup_missing c l m key : cinv c l m -> ~ In key (map fst l) -> lookup_entry c key = Ok NULL.
Proof.
  intros [T E K N A R] Ni. unfold lookup_entry. rewrite (table_lookup_spec _ _ _ _ key T). f_equal. unfold spec_lookup.
  destruct (find (fun p => key_eqb (snd p) key) m) as [[e' k']|] eqn:F; [|reflexivity].
  exfalso. apply find_some in F as [I Q]. cbn [snd] in Q. apply key_eqb_true in Q. subst k'. apply Ni.
  rewrite <- E, map_map. cbn [fst]. apply in_map_iff. exists (e', key). split; [reflexivity|]. now apply -> in_rev.
Qed.

Lemma insert_new c l m key v : cinv c l m -> ~ In key (map fst l) ->
  insert_entry malloc c key v = Fail "unable to allocate memory" \/
  exists c', insert_entry malloc c key v = Ok (malloc (zlen l), c') /\ cinv c' (l ++ [(key, v)]) ((malloc (zlen l), key) :: m).
Proof.
  intros [T E K N A R] Ni. assert (Ll : zlen l = zlen m) by (rewrite <- E, zlen_map; unfold zlen; now rewrite rev_length).
  unfold insert_entry, allocate. rewrite N, Ll. destruct (Z.eqb_spec (malloc (zlen m)) NULL) as [|Hn]; [now left|right].
  cbn [obind]. set (e := malloc (zlen m)) in *.
  assert (Ne : ~ In e (map fst m)).
  { intros I. assert (In e (map fst (rev m))) as I'.
    { apply in_map_iff in I as (p & <- & I). apply in_map. now apply -> in_rev. }
    rewrite A in I'. apply in_map_iff in I' as (i & Ei & I'). apply In_zrange in I'. 
    assert (i = zlen m) by (apply fresh; [exact Ei|rewrite Ei; exact Hn]). unfold zlen in *. lia. }
  destruct (table_insert_spec (ctable c) (cheap c) (ckeys c) m e key T Hn Ne) as (t & h & Ei & T' & _).
  rewrite Ei. cbn [obind]. eexists. split; [reflexivity|].
  constructor; cbn [ctable cheap ckeys cfields callocs]; auto.
  - cbn [rev]. rewrite map_app. cbn [map fst snd]. rewrite upd_same. f_equal. rewrite <- E. apply map_ext_in. intros [x k] I. cbn [fst snd].
    f_equal. apply upd_other. intros ->. apply Ne. apply in_map_iff. exists (e, k). split; [reflexivity|]. now apply <- in_rev.
  - cbn [map snd]. constructor; [|exact K]. intros I. apply Ni. rewrite <- E, map_map. cbn [fst].
    apply in_map_iff in I as ([x k] & Ek & I). apply in_map_iff. exists (x, k). split; [exact Ek|]. now apply -> in_rev.
  - rewrite zlen_cons. lia.
  - cbn [rev List.length]. rewrite map_app, A, zrange_snoc, map_app. cbn [map fst]. rewrite Z.add_0_l. reflexivity.
  - cbn [map fst]. constructor; auto.
Qed.

(** The array. *)
Lemma in_array c l m : cinv c l m -> exists a, entries_in_array c = Ok a /\ Permutation a l.
Proof.
  intros [T E K N A R]. unfold entries_in_array. destruct (table_in_array_spec _ _ _ _ T) as (t & Et & _ & _ & X).
  rewrite Et. cbn [obind]. eexists. split; [reflexivity|].
  assert (P : Permutation (match tarray t with Some a => a | None => [] end) (map fst m)).
  { destruct m; [rewrite X; constructor|]. destruct X as (a & -> & P). exact P. }
  eapply Permutation_trans; [apply Permutation_map; exact P|]. rewrite map_map, <- E.
  eapply Permutation_trans; [|apply Permutation_map, Permutation_rev].
  apply Permutation_refl'. apply map_ext_in. intros [x k] I. cbn [fst snd]. f_equal. apply (ti_keys _ _ _ _ T _ _ I).
Qed.

Lemma in_keys (l : list (list Z * V)) key : In key (map fst l) -> exists l1 v l2, l = l1 ++ (key, v) :: l2 /\ ~ In key (map fst l1).
Proof.
  induction l as [|[k v] l IH]; intros I; [destruct I|]. destruct (list_eq_dec Z.eq_dec k key) as [->|Nk].
  - exists [], v, l. split; [reflexivity|intros []].
  - destruct IH as (l1 & w & l2 & -> & N); [destruct I as [I|I]; [contradiction|exact I]|].
    exists ((k, v) :: l1), w, l2. split; [reflexivity|]. intros [|]; auto.
Qed.

(** What looking up, inserting if new, and changing the fields does. *)
Lemma find_or_insert c l m key v0 : cinv c l m ->
  (exists l1 v l2, l = l1 ++ (key, v) :: l2 /\ ~ In key (map fst l1) /\
    lookup_entry c key = Ok (malloc (zlen l1)) /\ malloc (zlen l1) <> NULL /\ cfields c (malloc (zlen l1)) = v /\
    forall w, cinv (set_fields c (malloc (zlen l1)) w) (l1 ++ (key, w) :: l2) m) \/
  (~ In key (map fst l) /\ lookup_entry c key = Ok NULL /\
    (insert_entry malloc c key v0 = Fail "unable to allocate memory" \/
     exists c', insert_entry malloc c key v0 = Ok (malloc (zlen l), c') /\ cfields c' (malloc (zlen l)) = v0 /\
       cinv c' (l ++ [(key, v0)]) ((malloc (zlen l), key) :: m) /\
       forall w, cinv (set_fields c' (malloc (zlen l)) w) (l ++ [(key, w)]) ((malloc (zlen l), key) :: m))).
Proof.
  intros I. destruct (in_dec (list_eq_dec Z.eq_dec) key (map fst l)) as [Y|N].
  - left. destruct (in_keys _ _ Y) as (l1 & v & l2 & E & N1). exists l1, v, l2. split; [exact E|]. split; [exact N1|].
    exact (lookup_found c l m key v l1 l2 I E).
  - right. split; [exact N|]. split; [exact (lookup_missing c l m key I N)|].
    destruct (insert_new c l m key v0 I N) as [F|(c' & E & I')]; [now left|right]. exists c'. split; [exact E|].
    destruct (lookup_found c' _ _ key v0 l [] I' eq_refl) as (_ & _ & Ev & W). auto.
Qed.

Lemma cinv_contains c l m : cinv c l m -> contains c l.
Proof.
  intros I. split; [|split; [|split]].
  - destruct I as [T E K N A R]. rewrite <- E, map_map. cbn [fst]. rewrite map_rev. now apply NoDup_rev.
  - intros key v H. apply in_split in H as (l1 & l2 & E). destruct (lookup_found c l m key v l1 l2 I E) as (H1 & H2 & H3 & _). eauto.
  - intros key H. exact (lookup_missing c l m key I H).
  - exact (in_array c l m I).
Qed.
End Client.

(** A list of calls. *)
Lemma calls_refine {V A S} malloc (call : client V -> A -> outcome (client V)) (step : S -> A -> S) (abs : S -> list (list Z * V)) :
  (forall c st m x, cinv malloc c (abs st) m ->
     unless_no_memory (call c x) (fun c' => exists m', cinv malloc c' (abs (step st x)) m')) ->
  forall calls c st m, cinv malloc c (abs st) m ->
  unless_no_memory (ofold call calls c) (fun c' => exists m', cinv malloc c' (abs (fold_left step calls st)) m').
Proof.
  intros H. induction calls as [|x calls IH]; intros c st m I; [right; exists c; split; [reflexivity|eauto]|].
  cbn [ofold fold_left]. destruct (H c st m x I) as [->|(c' & -> & m' & I')]; [now left|]. cbn [obind]. eapply IH, I'.
Qed.
