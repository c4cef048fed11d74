From Verif Require Import Base ListModel ListSpec ListProof TableModel TableSpec.
From Coq Require Import Permutation.

Definition bkt (i : Z) (m : assoc) : list addr :=
  map fst (filter (fun p => table_index (snd p) =? i) m).

Record tinv (t : table) (h : heap) (ks : keymap) (m : assoc) : Prop := {
  ti_bkt : forall i, 0 <= i < TABLE_SIZE -> inv (lists t i) h (bkt i m);
  ti_nodup : NoDup (map fst m);
  ti_keys : forall e k, In (e, k) m -> ks e = k;
  ti_count : tcount t = zlen m;
  ti_array : match tarray t with
             | None => True
             | Some a => Permutation a (map fst m) /\ m <> []
             end }.

Lemma table_index_range k : 0 <= table_index k < TABLE_SIZE.
Proof. unfold table_index, TABLE_SIZE. apply Z.mod_pos_bound. lia. Qed.

Lemma bucket_ok t i : 0 <= i < TABLE_SIZE -> bucket t i = Ok (lists t i).
Proof.
  intros H. unfold bucket.
  destruct (Z.leb_spec 0 i), (Z.ltb_spec i TABLE_SIZE); try lia. reflexivity.
Qed.

Lemma strcmp_eq a b : (strcmp a b =? 0) = key_eqb a b.
Proof.
  unfold key_eqb. destruct (list_eq_dec Z.eq_dec a b) as [->|Hne].
  - induction b as [|x b IH]; cbn; [reflexivity|]. now rewrite Z.eqb_refl.
  - revert b Hne; induction a as [|x a IH]; intros [|y b] Hne; cbn; try reflexivity.
    + congruence.
    + destruct (Z.eqb_spec x y) as [->|Hxy].
      * apply IH. congruence.
      * destruct (x <? y); reflexivity.
Qed.

Lemma key_eqb_sym a b : key_eqb a b = key_eqb b a.
Proof.
  unfold key_eqb.
  destruct (list_eq_dec Z.eq_dec a b), (list_eq_dec Z.eq_dec b a); congruence.
Qed.

Lemma key_eqb_true a b : key_eqb a b = true <-> a = b.
Proof. unfold key_eqb. destruct (list_eq_dec Z.eq_dec a b); split; congruence. Qed.

Lemma bkt_In i m x : In x (bkt i m) <-> exists k, In (x, k) m /\ table_index k = i.
Proof.
  unfold bkt. rewrite in_map_iff. split.
  - intros ([e k] & <- & H). apply filter_In in H. cbn in *. exists k.
    rewrite Z.eqb_eq in H. exact H.
  - intros (k & H & E). exists (x, k). split; [reflexivity|]. apply filter_In.
    cbn. rewrite Z.eqb_eq. auto.
Qed.

Lemma bkt_In_fst i m x : In x (bkt i m) -> In x (map fst m).
Proof. intros H. apply bkt_In in H. destruct H as (k & H & _). apply in_map_iff. exists (x, k). auto. Qed.

Lemma In_fst_unique (m : assoc) x k k' :
  NoDup (map fst m) -> In (x, k) m -> In (x, k') m -> k = k'.
Proof.
  induction m as [|[y ky] m IH]; cbn; intros Hd H1 H2; [destruct H1|].
  inversion Hd as [|? ? Hn Hd']; subst.
  destruct H1 as [H1|H1], H2 as [H2|H2].
  - congruence.
  - injection H1 as -> ->. exfalso. apply Hn. apply in_map_iff. exists (x, k'). auto.
  - injection H2 as -> ->. exfalso. apply Hn. apply in_map_iff. exists (x, k). auto.
  - auto.
Qed.

Lemma bkt_disjoint i j m x : NoDup (map fst m) -> In x (bkt i m) -> In x (bkt j m) -> i = j.
Proof.
  intros Hd Hi Hj. apply bkt_In in Hi, Hj.
  destruct Hi as (k & Hi & <-), Hj as (k' & Hj & <-).
  f_equal. eapply In_fst_unique; eauto.
Qed.

Lemma lookup_from_spec h ks key p (m : assoc) i fuel :
  dlseg h p (bkt i m) NULL -> (forall e k, In (e, k) m -> ks e = k) ->
  table_index key = i ->
  (List.length (bkt i m) <= fuel)%nat ->
  lookup_from fuel h ks key (hd NULL (bkt i m)) = Ok (spec_lookup m key).
Proof.
  intros Hs Hk Hi. revert p Hs fuel. unfold spec_lookup, bkt.
  induction m as [|[e k] m IH]; intros p Hs fuel Hf.
  - cbn. destruct fuel; reflexivity.
  - cbn [filter find fst snd map] in *.
    assert (forall e k, In (e, k) m -> ks e = k) as Hk' by (intros; apply Hk; now right).
    destruct (Z.eqb_spec (table_index k) i) as [Ek|Ek].
    + cbn [map fst hd List.length] in *. cbn [dlseg] in Hs. destruct Hs as (Hn & En & Hs).
      assert (lookup_from fuel h ks key e =
              if strcmp key (ks e) =? 0 then Ok e
              else match fuel with O => OutOfFuel | S f => lookup_from f h ks key (next (h e)) end)
        as ->.
      { destruct fuel; cbn; rewrite (eqb_NULL_neq e Hn); reflexivity. }
      rewrite strcmp_eq, (Hk e k) by now left. rewrite (key_eqb_sym k key).
      destruct (key_eqb key k) eqn:Eq; [reflexivity|].
      destruct fuel as [|fuel]; [lia|]. rewrite En. cbn [next].
      eapply IH; [exact Hk'|exact Hs|lia].
    + assert (key_eqb k key = false) as ->.
      { destruct (key_eqb k key) eqn:Eq; [|reflexivity].
        apply key_eqb_true in Eq. congruence. }
      eapply IH; [exact Hk'|exact Hs|exact Hf].
Qed.

Lemma table_lookup_spec t h ks m key :
  tinv t h ks m -> table_lookup t h ks key = Ok (spec_lookup m key).
Proof.
  intros [Tb Td Tk Tc Ta]. unfold table_lookup.
  pose proof (table_index_range key) as Hr. rewrite bucket_ok by auto. cbn [obind].
  specialize (Tb _ Hr). destruct Tb as [If Il Is Id Ic Ia].
  rewrite If, Ic. unfold zlen. rewrite Nat2Z.id.
  eapply lookup_from_spec; eauto.
Qed.

Lemma inv_heap_ext l h h' xs :
  (forall x, In x xs -> h' x = h x) -> inv l h xs -> inv l h' xs.
Proof.
  intros He [If Il Is Id Ic Ia]. constructor; auto. eapply dlseg_ext; eauto.
Qed.

Lemma bkt_remove i e m :
  bkt i (filter (fun p => negb (fst p =? e)) m) = filter (fun x => negb (x =? e)) (bkt i m).
Proof.
  unfold bkt. induction m as [|[x k] m IH]; [reflexivity|]. cbn [filter fst snd].
  destruct (Z.eqb_spec x e) as [->|Hne]; cbn [negb].
  - rewrite IH. cbn [filter snd]. destruct (table_index k =? i); cbn; rewrite ?Z.eqb_refl; reflexivity.
  - cbn [filter snd]. destruct (table_index k =? i); cbn [map fst filter].
    + destruct (Z.eqb_spec x e); [congruence|]. cbn. now rewrite IH.
    + exact IH.
Qed.

Lemma filter_notin e (xs : list addr) : ~ In e xs -> filter (fun x => negb (x =? e)) xs = xs.
Proof.
  induction xs as [|x xs IH]; cbn; intros H; [reflexivity|].
  destruct (Z.eqb_spec x e); [tauto|]. cbn. rewrite IH; tauto.
Qed.

Lemma map_fst_remove e (m : assoc) :
  map fst (filter (fun p => negb (fst p =? e)) m) = filter (fun x => negb (x =? e)) (map fst m).
Proof.
  induction m as [|[x k] m IH]; cbn; [reflexivity|].
  destruct (x =? e); cbn; now rewrite IH.
Qed.

Lemma collect_spec h cap p xs fuel acc :
  dlseg h p xs NULL -> (List.length xs <= fuel)%nat -> zlen acc + zlen xs <= cap ->
  collect fuel h cap (hd NULL xs) acc = Ok (acc ++ xs).
Proof.
  revert p fuel acc; induction xs as [|x xs IH]; intros p fuel acc Hs Hf Hc.
  - destruct fuel; cbn; now rewrite app_nil_r.
  - cbn [dlseg hd List.length] in *. destruct Hs as (Hn & En & Hs).
    destruct fuel as [|fuel]; [lia|]. cbn [collect].
    rewrite (eqb_NULL_neq x Hn). rewrite zlen_cons in Hc. pose proof (zlen_nonneg xs).
    destruct (Z.ltb_spec (zlen acc) cap); [|lia]. rewrite En. cbn [next].
    rewrite (IH x); [|exact Hs|lia|].
    + rewrite <- app_assoc. reflexivity.
    + rewrite zlen_app, zlen_cons, zlen_nil. lia.
Qed.

Lemma flat_map_bkt_cons L e k m :
  NoDup L -> In (table_index k) L ->
  Permutation (flat_map (fun i => bkt i ((e, k) :: m)) L) (e :: flat_map (fun i => bkt i m) L).
Proof.
  induction L as [|j L IH]; [intros _ []|]. intros Hd Hi.
  inversion Hd as [|? ? Hn Hd']; subst. cbn [flat_map].
  destruct (Z.eq_dec (table_index k) j) as [E|E].
  - assert (bkt j ((e, k) :: m) = e :: bkt j m) as ->.
    { unfold bkt. cbn. rewrite E, Z.eqb_refl. reflexivity. }
    assert (flat_map (fun i => bkt i ((e, k) :: m)) L = flat_map (fun i => bkt i m) L) as ->.
    { clear - Hn E. induction L as [|x L IH]; [reflexivity|]. cbn [flat_map].
      rewrite IH by (intros H; apply Hn; now right). f_equal.
      unfold bkt. cbn [filter snd]. destruct (Z.eqb_spec (table_index k) x); [|reflexivity].
      exfalso. apply Hn. left. congruence. }
    reflexivity.
  - assert (bkt j ((e, k) :: m) = bkt j m) as ->.
    { unfold bkt. cbn [filter snd]. destruct (Z.eqb_spec (table_index k) j); [congruence|reflexivity]. }
    destruct Hi as [Hi|Hi]; [congruence|].
    rewrite (IH Hd' Hi). apply Permutation_sym, Permutation_middle.
Qed.

Definition all_indices := zrange 0 (Z.to_nat TABLE_SIZE).

Lemma In_all_indices i : In i all_indices <-> 0 <= i < TABLE_SIZE.
Proof. unfold all_indices. rewrite In_zrange. unfold TABLE_SIZE. lia. Qed.

Lemma flat_map_bkt_perm m : Permutation (flat_map (fun i => bkt i m) all_indices) (map fst m).
Proof.
  induction m as [|[e k] m IH].
  - assert (forall L, flat_map (fun i => bkt i []) L = []) as ->; [|constructor].
    induction L; auto.
  - rewrite flat_map_bkt_cons; [cbn; now apply perm_skip|apply NoDup_zrange|].
    apply In_all_indices, table_index_range.
Qed.

Lemma collect_all t h ks m L acc :
  tinv t h ks m -> (forall i, In i L -> 0 <= i < TABLE_SIZE) ->
  zlen acc + zlen (flat_map (fun i => bkt i m) L) <= zlen m ->
  ofold (fun acc i => collect (Z.to_nat (tcount t)) h (tcount t) (first (lists t i)) acc) L acc
  = Ok (acc ++ flat_map (fun i => bkt i m) L).
Proof.
  intros T. revert acc; induction L as [|i L IH]; intros acc HL Hc.
  - cbn. now rewrite app_nil_r.
  - cbn [ofold flat_map] in *. rewrite zlen_app in Hc.
    pose proof (ti_bkt _ _ _ _ T i (HL i (or_introl eq_refl))) as [If Il Is Id Ic Ia].
    rewrite If. pose proof (zlen_nonneg (flat_map (fun i => bkt i m) L)).
    pose proof (zlen_nonneg acc).
    rewrite (collect_spec _ _ NULL); [|exact Is| |].
    + cbn [obind]. rewrite IH.
      * rewrite <- app_assoc. reflexivity.
      * intros; apply HL; now right.
      * rewrite zlen_app. lia.
    + rewrite (ti_count _ _ _ _ T). unfold zlen in *. lia.
    + rewrite (ti_count _ _ _ _ T). lia.
Qed.

Lemma table_in_array_spec t h ks m :
  tinv t h ks m ->
  exists t', table_in_array t h = Ok t' /\ tinv t' h ks m /\ tcount t' = tcount t /\
    match m with [] => tarray t' = None
               | _ => exists a, tarray t' = Some a /\ Permutation a (map fst m) end.
Proof.
  intros T. pose proof T as [Tb Td Tk Tc Ta]. unfold table_in_array.
  destruct (tarray t) as [a|] eqn:Ea.
  - exists t. split; [reflexivity|]. split; [exact T|]. split; [reflexivity|].
    destruct m; [destruct Ta as [_ Ta]; congruence|]. exists a. split; [exact Ea|apply Ta].
  - destruct (Z.eqb_spec (tcount t) 0) as [E|E].
    + exists t. split; [reflexivity|]. split; [exact T|]. split; [reflexivity|].
      rewrite Tc in E. destruct m; [exact Ea|]. rewrite zlen_cons in E.
      pose proof (zlen_nonneg m). lia.
    + fold all_indices.
      pose proof (flat_map_bkt_perm m) as P. pose proof (Permutation_length P) as PL.
      rewrite map_length in PL.
      rewrite (collect_all t h ks m all_indices [] T).
      2:{ intros i. apply In_all_indices. }
      2:{ unfold zlen. rewrite PL. cbn. lia. }
      cbn [obind app].
      replace (tcount t - zlen (flat_map (fun i => bkt i m) all_indices)) with 0
        by (rewrite Tc; unfold zlen; lia).
      cbn [repeat Z.to_nat]. rewrite app_nil_r.
      assert (m <> []) as Hm by (intros ->; rewrite Tc in E; apply E; reflexivity).
      eexists. split; [reflexivity|]. split; [|split; [reflexivity|]].
      * constructor; cbn [lists tarray tcount]; auto.
      * cbn [tarray]. destruct m; [congruence|]. eexists. split; [reflexivity|exact P].
Qed.

Lemma table_insert_spec t h ks m e k :
  tinv t h ks m -> e <> NULL -> ~ In e (map fst m) ->
  exists t' h', table_insert t h (upd ks e k) e = Ok (t', h') /\
    tinv t' h' (upd ks e k) ((e, k) :: m) /\ tarray t' = None.
Proof.
  intros [Tb Td Tk Tc Ta] Hn Hni. unfold table_insert. rewrite upd_same.
  set (i := table_index k). pose proof (table_index_range k) as Hr. fold i in Hr.
  rewrite bucket_ok by auto. cbn [obind].
  assert (~ In e (bkt i m)) as Hnb by (intros H; apply Hni; eapply bkt_In_fst; eauto).
  destruct (list_insert_spec (lists t i) h [] (bkt i m) e (Tb i Hr) Hn Hnb)
    as (l' & h' & E & I' & _ & F).
  unfold list_insert_first. rewrite (inv_first _ _ _ (Tb i Hr)).
  cbn [lastd app] in E. rewrite E. cbn [obind].
  eexists _, _. split; [reflexivity|]. split; [|reflexivity].
  constructor; cbn [set_bucket lists tarray tcount].
  - intros j Hj. destruct (Z.eqb_spec j i) as [->|Hji].
    + assert (bkt i ((e, k) :: m) = e :: bkt i m) as ->; [|exact I'].
      unfold bkt. cbn. fold i. rewrite Z.eqb_refl. reflexivity.
    + assert (bkt j ((e, k) :: m) = bkt j m) as ->.
      { unfold bkt. cbn [filter snd]. fold i. destruct (Z.eqb_spec i j); [congruence|reflexivity]. }
      eapply inv_heap_ext; [|apply Tb; exact Hj].
      intros x Hx. apply F. cbn. intros [->|Hx'].
      * apply Hni. eapply bkt_In_fst; eauto.
      * apply Hji. symmetry. eapply bkt_disjoint; eauto.
  - cbn. constructor; auto.
  - intros x kx [H|H].
    + injection H as -> ->. apply upd_same.
    + rewrite upd_other; [eauto|]. intros ->. apply Hni. apply in_map_iff. exists (e, kx). auto.
  - rewrite Tc, zlen_cons. reflexivity.
  - exact I.
Qed.

Lemma In_fst_split (e : addr) (m : assoc) : In e (map fst m) -> exists k, In (e, k) m.
Proof. intros H. apply in_map_iff in H. destruct H as ([x k] & <- & H). eauto. Qed.

Lemma filter_neq_split e (xs ys : list addr) :
  ~ In e xs -> ~ In e ys -> filter (fun x => negb (x =? e)) (xs ++ e :: ys) = xs ++ ys.
Proof.
  intros H1 H2. rewrite filter_app. cbn. rewrite Z.eqb_refl. cbn.
  rewrite !filter_notin by auto. reflexivity.
Qed.

Lemma length_remove_one e (m : assoc) :
  NoDup (map fst m) -> In e (map fst m) ->
  zlen (filter (fun p => negb (fst p =? e)) m) = zlen m - 1.
Proof.
  intros Hd Hi.
  assert (zlen (map fst (filter (fun p => negb (fst p =? e)) m)) = zlen (map fst m) - 1) as H.
  { rewrite map_fst_remove. apply in_split in Hi. destruct Hi as (xs & ys & E). rewrite E in *.
    apply NoDup_remove_2 in Hd. rewrite in_app_iff in Hd.
    rewrite filter_neq_split by tauto. rewrite !zlen_app, zlen_cons. unfold addr in *. lia. }
  unfold zlen in *. rewrite !map_length in H. exact H.
Qed.

Lemma table_remove_spec t h ks m e :
  tinv t h ks m -> In e (map fst m) ->
  exists t' h', table_remove t h ks e = Ok (t', h') /\
    tinv t' h' ks (filter (fun p => negb (fst p =? e)) m) /\ tarray t' = None.
Proof.
  intros [Tb Td Tk Tc Ta] Hi. destruct (In_fst_split e m Hi) as (k & Hk).
  unfold table_remove. rewrite (Tk e k Hk).
  set (i := table_index k). pose proof (table_index_range k) as Hr. fold i in Hr.
  rewrite bucket_ok by auto. cbn [obind].
  assert (In e (bkt i m)) as Heb by (apply bkt_In; exists k; auto).
  pose proof (Tb i Hr) as Ib. apply in_split in Heb. destruct Heb as (xs & ys & Eb).
  rewrite Eb in Ib.
  destruct (list_remove_spec (lists t i) h xs e ys Ib) as (l' & h' & E & I' & _ & F & _).
  rewrite E. cbn [obind]. eexists _, _. split; [reflexivity|]. split; [|reflexivity].
  constructor; cbn [set_bucket lists tarray tcount].
  - intros j Hj. rewrite bkt_remove. destruct (Z.eqb_spec j i) as [->|Hji].
    + rewrite Eb. pose proof (inv_nodup _ _ _ Ib) as Hd. apply NoDup_remove_2 in Hd.
      rewrite in_app_iff in Hd. rewrite filter_neq_split by tauto. exact I'.
    + rewrite filter_notin.
      * eapply inv_heap_ext; [|apply Tb; exact Hj].
        intros x Hx. apply F. rewrite <- Eb. intros Hx'. apply Hji.
        eapply bkt_disjoint; eauto.
      * intros Hx. apply Hji. eapply bkt_disjoint; [exact Td|exact Hx|]. apply bkt_In. exists k. auto.
  - rewrite map_fst_remove. apply NoDup_filter. exact Td.
  - intros x kx H. apply filter_In in H. apply Tk, H.
  - rewrite Tc, length_remove_one; auto.
  - exact I.
Qed.

Lemma table_empty_loop pr m L t h log :
  NoDup (map fst m) -> NoDup L -> (forall i, In i L -> 0 <= i < TABLE_SIZE) ->
  (forall x y h, In x (map fst m) -> In y (map fst m) -> y <> x -> pr x h y = h y) ->
  (forall i, In i L -> inv (lists t i) h (bkt i m)) ->
  exists t' h',
    ofold (fun (s : table * heap * list addr) i =>
             match s with
             | (t, h, log) =>
                 let! (l, h, log1) := list_empty (Z.to_nat (count (lists t i))) pr
                                        (lists t i) h in
                 Ok (set_bucket t i l, h, log ++ log1)
             end) L (t, h, log)
    = Ok (t', h', log ++ flat_map (fun i => bkt i m) L) /\
    (forall i, In i L -> inv (lists t' i) h' []) /\
    (forall i, ~ In i L -> lists t' i = lists t i).
Proof.
  intros Hd. revert t h log; induction L as [|i L IH]; intros t h log HL Hr Hp Hinv.
  - cbn [ofold flat_map]. rewrite app_nil_r. eexists _, _. split; [reflexivity|].
    split; [intros ? []|auto].
  - inversion HL as [|? ? Hni HL']; subst. cbn [ofold flat_map].
    pose proof (Hinv i (or_introl eq_refl)) as Ii.
    rewrite (inv_count _ _ _ Ii). unfold zlen. rewrite Nat2Z.id.
    destruct (list_empty_spec pr (bkt i m) (lists t i) h Ii) as (l' & h' & E & I' & F).
    { intros done x todo h' Hx y Hy. apply Hp.
      - eapply bkt_In_fst. rewrite Hx. apply in_or_app; right; now left.
      - eapply bkt_In_fst. rewrite Hx. apply in_or_app; right; now right.
      - intros ->. pose proof (inv_nodup _ _ _ Ii) as Hdi. rewrite Hx in Hdi.
        apply NoDup_remove_2 in Hdi. apply Hdi, in_or_app. now right. }
    rewrite E. cbn [obind].
    destruct (IH (set_bucket t i l') h' (log ++ bkt i m)) as (t2 & h2 & E2 & I2 & F2); auto.
    { intros; apply Hr; now right. }
    { intros j Hj. cbn. destruct (Z.eqb_spec j i) as [->|Hji]; [tauto|].
      eapply inv_heap_ext; [|apply Hinv; now right].
      intros x Hx. apply F.
      - intros Hx'. apply Hji. eapply bkt_disjoint; eauto.
      - intros y hy Hy. apply Hp; [eapply bkt_In_fst; eauto|eapply bkt_In_fst; eauto|].
        intros ->. apply Hji. eapply bkt_disjoint; eauto. }
    rewrite E2. exists t2, h2. rewrite <- app_assoc. split; [reflexivity|]. split.
    + intros j [<-|Hj]; [|auto]. rewrite (F2 i Hni). cbn. rewrite Z.eqb_refl.
      eapply inv_heap_ext; [|exact I']. intros x [].
    + intros j Hj. cbn in Hj. rewrite F2 by tauto. cbn.
      destruct (Z.eqb_spec j i); [subst; tauto|reflexivity].
Qed.

Lemma table_empty_spec pr t h ks m :
  tinv t h ks m ->
  (forall x y h, In x (map fst m) -> In y (map fst m) -> y <> x -> pr x h y = h y) ->
  exists t' h' log, table_empty pr t h = Ok (t', h', log) /\
    tinv t' h' ks [] /\ Permutation log (map fst m) /\ tarray t' = None.
Proof.
  intros [Tb Td Tk Tc Ta] Hp. unfold table_empty. fold all_indices.
  destruct (table_empty_loop pr m all_indices t h []) as (t' & h' & E & I' & _); auto.
  { apply NoDup_zrange. }
  { intros i; apply In_all_indices. }
  { intros i Hi; apply Tb, In_all_indices, Hi. }
  rewrite E. cbn [obind app]. eexists _, _, _. split; [reflexivity|]. split; [|split; [|reflexivity]].
  - constructor; cbn [lists tarray tcount]; auto.
    + intros i Hi. apply I', In_all_indices, Hi.
    + constructor.
    + intros e k [].
  - apply flat_map_bkt_perm.
Qed.

Lemma tinv_init h ks : tinv table_initialize h ks [].
Proof.
  constructor; cbn; auto.
  - intros i _. apply inv_init.
  - constructor.
  - intros e k [].
Qed.

Lemma tstep_inv t h ks m o :
  tinv t h ks m -> tlegal m o ->
  exists t' h' ks', tstep (t, h, ks) o = Ok (t', h', ks') /\ tinv t' h' ks' (spec_step m o).
Proof.
  intros T L. destruct o as [|e k|e| |pr]; cbn [tstep spec_step tlegal] in *.
  - eexists _, _, _. split; [reflexivity|]. apply tinv_init.
  - destruct L as [Hn Hi].
    destruct (table_insert_spec t h ks m e k T Hn Hi) as (t' & h' & E & T' & _).
    rewrite E. cbn [obind]. eauto.
  - destruct (table_remove_spec t h ks m e T L) as (t' & h' & E & T' & _).
    rewrite E. cbn [obind]. eauto.
  - destruct (table_in_array_spec t h ks m T) as (t' & E & T' & _).
    rewrite E. cbn [obind]. eauto.
  - destruct (table_empty_spec pr t h ks m T L) as (t' & h' & log & E & T' & _).
    rewrite E. cbn [obind]. eauto.
Qed.

Lemma trun_inv ops t h ks m :
  tinv t h ks m -> tlegal_history m ops ->
  exists t' h' ks', trun ops (t, h, ks) = Ok (t', h', ks') /\
    tinv t' h' ks' (fold_left spec_step ops m).
Proof.
  revert t h ks m; induction ops as [|o ops IH]; intros t h ks m T L.
  - cbn. eauto 6.
  - destruct L as [L1 L2].
    destruct (tstep_inv t h ks m o T L1) as (t1 & h1 & ks1 & E & T1).
    unfold trun in *. cbn [ofold fold_left]. rewrite E. cbn [obind]. eauto.
Qed.

Lemma tinv_presents t h ks m : tinv t h ks m -> tpresents t h ks m.
Proof.
  intros T. pose proof T as [Tb Td Tk Tc Ta]. constructor; auto.
  - intros key. now apply table_lookup_spec.
  - destruct (tarray t); tauto.
Qed.
