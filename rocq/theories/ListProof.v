From Verif Require Import Base ListModel ListSpec.

Fixpoint dlseg (h : heap) (p : addr) (xs : list addr) (q : addr) : Prop :=
  match xs with
  | [] => True
  | x :: t => x <> NULL /\ h x = mknode p (hd q t) /\ dlseg h x t q
  end.

Fixpoint lastd (p : addr) (xs : list addr) : addr :=
  match xs with [] => p | x :: t => lastd x t end.

Lemma lastd_app p xs ys : lastd p (xs ++ ys) = lastd (lastd p xs) ys.
Proof. revert p; induction xs as [|x xs IH]; intros p; cbn; auto. Qed.

Lemma lastd_cons p x xs : lastd p (x :: xs) = lastd x xs.
Proof. reflexivity. Qed.

Lemma lastd_snoc p xs x : lastd p (xs ++ [x]) = x.
Proof. now rewrite lastd_app. Qed.

Lemma dlseg_app h p xs ys q :
  dlseg h p (xs ++ ys) q <-> dlseg h p xs (hd q ys) /\ dlseg h (lastd p xs) ys q.
Proof.
  revert p; induction xs as [|x xs IH]; intros p; cbn [app dlseg].
  - unfold lastd; cbn. tauto.
  - rewrite IH, lastd_cons.
    assert (hd q (xs ++ ys) = hd (hd q ys) xs) as -> by (destruct xs; reflexivity).
    tauto.
Qed.

Lemma dlseg_ext h h' p xs q :
  (forall x, In x xs -> h' x = h x) -> dlseg h p xs q -> dlseg h' p xs q.
Proof.
  revert p; induction xs as [|x xs IH]; intros p He; cbn [dlseg]; [auto|].
  intros (Hx & Hn & Hs). split; [auto|]. split.
  - rewrite He; [auto|now left].
  - apply IH; [|auto]. intros; apply He; now right.
Qed.

Lemma upd_same {A} (h : addr -> A) a v : upd h a v a = v.
Proof. unfold upd. now rewrite Z.eqb_refl. Qed.
Lemma upd_other {A} (h : addr -> A) a v x : x <> a -> upd h a v x = h x.
Proof. unfold upd. intros H. destruct (Z.eqb_spec x a); congruence. Qed.

Lemma dlseg_upd_notin h p xs q a v :
  ~ In a xs -> dlseg h p xs q -> dlseg (upd h a v) p xs q.
Proof.
  intros Hn. apply dlseg_ext. intros x Hx. apply upd_other. congruence.
Qed.

Lemma dlseg_nonnull h p xs q x : dlseg h p xs q -> In x xs -> x <> NULL.
Proof.
  revert p; induction xs as [|y xs IH]; cbn; intros p H Hi; [destruct Hi|].
  destruct Hi as [<-|Hi]; [tauto|]. eapply IH; [|exact Hi]. apply H.
Qed.

Lemma dlseg_set_last h p xs x q q' :
  NoDup (xs ++ [x]) ->
  dlseg h p (xs ++ [x]) q ->
  dlseg (upd h x (mknode (prev (h x)) q')) p (xs ++ [x]) q'.
Proof.
  intros Hd H. apply dlseg_app in H. destruct H as [H1 H2].
  apply dlseg_app. split.
  - apply dlseg_upd_notin; [|exact H1].
    apply NoDup_remove_2 in Hd. rewrite app_nil_r in Hd. exact Hd.
  - cbn in H2 |- *. destruct H2 as (Hx & Hn & _). split; [auto|]. split; [|auto].
    rewrite upd_same, Hn. reflexivity.
Qed.

Lemma dlseg_set_first h p p' y ys q :
  NoDup (y :: ys) ->
  dlseg h p (y :: ys) q ->
  dlseg (upd h y (mknode p' (next (h y)))) p' (y :: ys) q.
Proof.
  intros Hd H. inversion Hd as [|? ? Hni Hd']; subst. cbn in H |- *.
  destruct H as (Hy & Hn & Hs). split; [auto|]. split.
  - rewrite upd_same, Hn. reflexivity.
  - apply dlseg_upd_notin; auto.
Qed.

(** Invariant relating header+heap to the sequence. *)
Record inv (l : header) (h : heap) (xs : list addr) : Prop := {
  inv_first : first l = hd NULL xs;
  inv_last  : last l = lastd NULL xs;
  inv_seg   : dlseg h NULL xs NULL;
  inv_nodup : NoDup xs;
  inv_count : count l = zlen xs;
  inv_array : match array l with None => True | Some a => a = xs /\ xs <> [] end }.

Lemma eqb_NULL_neq x : x <> NULL -> (x =? NULL) = false.
Proof. apply Z.eqb_neq. Qed.

Lemma snoc_cases {A} (xs : list A) : xs = [] \/ exists ys y, xs = ys ++ [y].
Proof.
  destruct xs as [|x xs]; [now left|right].
  destruct (exists_last (l := x :: xs)) as (ys & y & ->); [discriminate|eauto].
Qed.

Lemma NoDup_app_inv {A} (xs ys : list A) :
  NoDup (xs ++ ys) -> NoDup xs /\ NoDup ys /\ (forall x, In x xs -> In x ys -> False).
Proof.
  induction xs as [|x xs IH]; cbn; intros H.
  - split; [constructor|split; [auto|tauto]].
  - inversion H as [|? ? Hn Hd]; subst. destruct (IH Hd) as (H1 & H2 & H3).
    rewrite in_app_iff in Hn.
    split; [constructor; tauto|]. split; [auto|].
    intros z [<-|Hz] Hy; [tauto|eauto].
Qed.

Lemma NoDup_mid {A} (xs ys : list A) x :
  NoDup (xs ++ ys) -> ~ In x (xs ++ ys) -> NoDup (xs ++ x :: ys).
Proof. intros H1 H2. apply NoDup_Add with (a := x) (l := xs ++ ys); [apply Add_app|]. auto. Qed.

Lemma set_prev_ok h p v : p <> NULL -> set_prev h p v = Ok (upd h p (mknode v (next (h p)))).
Proof. intros H. unfold set_prev. now rewrite (eqb_NULL_neq p H). Qed.
Lemma set_next_ok h p v : p <> NULL -> set_next h p v = Ok (upd h p (mknode (prev (h p)) v)).
Proof. intros H. unfold set_next. now rewrite (eqb_NULL_neq p H). Qed.

(** The heap effect of inserting between [xs] and [ys]. *)
Lemma list_insert_spec l h xs ys item :
  inv l h (xs ++ ys) -> item <> NULL -> ~ In item (xs ++ ys) ->
  exists l' h', list_insert l h (lastd NULL xs) item (hd NULL ys) = Ok (l', h') /\
    inv l' h' (xs ++ item :: ys) /\ array l' = None /\
    (forall a, ~ In a (item :: xs ++ ys) -> h' a = h a).
Proof.
  intros I Hnn Hni. destruct I as [If Il Is Id Ic Ia].
  assert (NoDup (xs ++ item :: ys)) as Hd' by now apply NoDup_mid.
  apply dlseg_app in Is. destruct Is as [Is1 Is2].
  unfold list_insert.
  rewrite (set_prev_ok _ item) by auto. cbn [obind].
  rewrite (set_next_ok _ item) by auto. cbn [obind].
  set (h1 := upd h item _). set (h2 := upd h1 item _).
  assert (h2 item = mknode (lastd NULL xs) (hd NULL ys)) as E2.
  { unfold h2. rewrite upd_same. unfold h1. rewrite upd_same. reflexivity. }
  assert (forall a, a <> item -> h2 a = h a) as E2o.
  { intros a Ha. unfold h2, h1. rewrite !upd_other by auto. reflexivity. }
  assert (~ In item xs /\ ~ In item ys) as [Hx Hy] by (rewrite in_app_iff in Hni; tauto).
  assert (dlseg h2 NULL xs (hd NULL ys)) as Is1'.
  { eapply dlseg_ext; [|exact Is1]. intros a Ha. apply E2o. congruence. }
  assert (dlseg h2 (lastd NULL xs) ys NULL) as Is2'.
  { eapply dlseg_ext; [|exact Is2]. intros a Ha. apply E2o. congruence. }
  apply NoDup_app_inv in Id. destruct Id as (Dx & Dy & Dxy).
  (* first half *)
  assert (exists h3,
    (if lastd NULL xs =? NULL
     then Ok (@pair header heap (mkheader item (last l) (array l) (count l)) h2)
     else obind (set_next h2 (lastd NULL xs) item) (fun h : heap => Ok (l, h))) =
    Ok (mkheader (hd item xs) (last l) (array l) (count l), h3) /\
    dlseg h3 NULL xs item /\ (forall a, ~ In a xs -> h3 a = h2 a)) as (h3 & -> & S1 & F1).
  { destruct (snoc_cases xs) as [->|(xs' & x & ->)].
    - exists h2. cbn. auto.
    - rewrite lastd_snoc.
      assert (x <> NULL) as Hxn.
      { eapply dlseg_nonnull; [exact Is1|]. apply in_or_app; right; now left. }
      rewrite (eqb_NULL_neq x Hxn), (set_next_ok _ x) by auto. cbn [obind]. eexists. split; [|split].
      + assert (hd item (xs' ++ [x]) = first l) as ->.
        { rewrite If. destruct xs'; reflexivity. }
        destruct l; reflexivity.
      + eapply dlseg_set_last; eauto.
      + intros a Ha. apply upd_other. intros ->. apply Ha, in_or_app; right; now left. }
  cbn [obind].
  assert (dlseg h3 (lastd NULL xs) ys NULL) as Is3.
  { eapply dlseg_ext; [|exact Is2']. intros a Ha. apply F1. intros Ha'; eauto. }
  assert (h3 item = mknode (lastd NULL xs) (hd NULL ys)) as E3.
  { rewrite F1 by auto. exact E2. }
  destruct ys as [|y ys]; cbn [hd] in *.
  - cbn. eexists _, _. split; [reflexivity|].
    split; [|split; [reflexivity|]].
    + constructor; cbn.
      * destruct xs; reflexivity.
      * now rewrite lastd_snoc.
      * apply dlseg_app. split; [exact S1|]. cbn. auto.
      * exact Hd'.
      * rewrite Ic, !zlen_app. cbn. lia.
      * exact I.
    + intros a Ha. cbn in Ha. rewrite app_nil_r in Ha.
      rewrite F1 by tauto. apply E2o. intros ->; tauto.
  - assert (y <> NULL) as Hyn by (cbn in Is2; tauto).
    rewrite (eqb_NULL_neq y Hyn), (set_prev_ok _ y) by auto. cbn [obind].
    eexists _, _. split; [reflexivity|].
    split; [|split; [reflexivity|]].
    + constructor; cbn.
      * destruct xs; reflexivity.
      * rewrite Il, !lastd_app, !lastd_cons. reflexivity.
      * apply dlseg_app. split.
        -- cbn [hd]. apply dlseg_upd_notin; [|exact S1]. intros Hy'. apply (Dxy y Hy'). now left.
        -- split; [auto|]. split.
           ++ cbn [hd]. rewrite upd_other by (intros ->; apply Hy; now left). exact E3.
           ++ eapply (dlseg_set_first _ _ item) in Is3; [|exact Dy]. exact Is3.
      * exact Hd'.
      * rewrite Ic, !zlen_app, !zlen_cons. lia.
      * exact I.
    + intros a Ha. rewrite upd_other.
      * cbn in Ha. rewrite in_app_iff in Ha. cbn in Ha.
        rewrite F1 by tauto. apply E2o. intros ->; tauto.
      * intros ->. apply Ha. right. apply in_or_app. right. now left.
Qed.

Lemma list_remove_spec l h xs x ys :
  inv l h (xs ++ x :: ys) ->
  exists l' h', list_remove l h x = Ok (l', h') /\
    inv l' h' (xs ++ ys) /\ array l' = None /\
    (forall a, ~ In a (xs ++ x :: ys) -> h' a = h a) /\
    h' x = mknode NULL NULL.
Proof.
  intros [If Il Is Id Ic Ia].
  pose proof Is as Is0.
  apply dlseg_app in Is. destruct Is as [Is1 Is2].
  cbn [dlseg hd] in Is1, Is2. destruct Is2 as (Hxn & Ex & Is2).
  pose proof (NoDup_remove_1 _ _ _ Id) as Id'.
  pose proof (NoDup_remove_2 _ _ _ Id) as Hni.
  assert (~ In x xs /\ ~ In x ys) as [Hx Hy] by (rewrite in_app_iff in Hni; tauto).
  pose proof (NoDup_app_inv _ _ Id') as (Dx & Dy & Dxy).
  unfold list_remove, get_prev, get_next.
  rewrite (eqb_NULL_neq x Hxn). cbn [obind]. rewrite Ex. cbn [prev next].
  assert (exists h1,
    (if lastd NULL xs =? NULL
     then Ok (@pair header heap (mkheader (hd NULL ys) (last l) (array l) (count l)) h)
     else obind (set_next h (lastd NULL xs) (hd NULL ys)) (fun h : heap => Ok (l, h))) =
    Ok (mkheader (hd (hd NULL ys) xs) (last l) (array l) (count l), h1) /\
    dlseg h1 NULL xs (hd NULL ys) /\ (forall a, ~ In a xs -> h1 a = h a)) as (h1 & -> & S1 & F1).
  { destruct (snoc_cases xs) as [->|(xs' & z & ->)].
    - exists h. cbn. auto.
    - rewrite lastd_snoc.
      assert (z <> NULL) as Hzn.
      { eapply dlseg_nonnull; [exact Is1|]. apply in_or_app; right; now left. }
      unfold set_next. rewrite (eqb_NULL_neq z Hzn). cbn [obind]. eexists. split; [|split].
      + assert (hd (hd NULL ys) (xs' ++ [z]) = first l) as ->.
        { rewrite If. destruct xs'; reflexivity. }
        destruct l; reflexivity.
      + eapply dlseg_set_last; eauto.
      + intros a Ha. apply upd_other. intros ->. apply Ha, in_or_app; right; now left. }
  cbn [obind]. rewrite F1 by auto. rewrite Ex. cbn [prev next first last array count].
  assert (dlseg h1 x ys NULL) as Is3.
  { eapply dlseg_ext; [|exact Is2]. intros a Ha. apply F1. intros Ha'; eauto. }
  assert (exists h2,
    (if hd NULL ys =? NULL
     then Ok (@pair header heap (mkheader (hd (hd NULL ys) xs) (lastd NULL xs) (array l) (count l)) h1)
     else obind (set_prev h1 (hd NULL ys) (lastd NULL xs))
            (fun h : heap => Ok (mkheader (hd (hd NULL ys) xs) (last l) (array l) (count l), h))) =
    Ok (mkheader (hd (hd NULL ys) xs) (lastd NULL (xs ++ ys)) (array l) (count l), h2) /\
    dlseg h2 NULL (xs ++ ys) NULL /\ (forall a, ~ In a (xs ++ ys) -> h2 a = h1 a))
    as (h2 & -> & S2 & F2).
  { destruct ys as [|y ys]; cbn [hd] in *.
    - exists h1. rewrite app_nil_r. cbn. auto.
    - assert (y <> NULL) as Hyn by (cbn in Is2; tauto).
      unfold set_prev. rewrite (eqb_NULL_neq y Hyn). cbn [obind].
      eexists. split; [|split].
      + rewrite Il, !lastd_app, !lastd_cons. reflexivity.
      + apply dlseg_app. cbn [hd]. split.
        * apply dlseg_upd_notin; [|exact S1]. intros Hy'. apply (Dxy y Hy'). now left.
        * eapply (dlseg_set_first _ _ (lastd NULL xs)) in Is3; [|exact Dy]. exact Is3.
      + intros a Ha. apply upd_other. intros ->. apply Ha, in_or_app; right; now left. }
  cbn [obind]. unfold set_next, set_prev. rewrite (eqb_NULL_neq x Hxn). cbn [obind].
  eexists _, _. split; [reflexivity|]. split; [|split; [reflexivity|split]].
  - constructor; cbn.
    + destruct xs; reflexivity.
    + reflexivity.
    + apply dlseg_upd_notin; [exact Hni|]. apply dlseg_upd_notin; [exact Hni|]. exact S2.
    + exact Id'.
    + rewrite Ic, !zlen_app, zlen_cons. lia.
    + exact I.
  - intros a Ha. rewrite in_app_iff in Ha. cbn in Ha.
    rewrite upd_other by (intros ->; tauto). rewrite upd_other by (intros ->; tauto).
    rewrite F2 by (rewrite in_app_iff; tauto). apply F1. tauto.
  - rewrite upd_same. rewrite upd_same. reflexivity.
Qed.

Lemma fill_array_spec h p xs :
  dlseg h p xs NULL -> fill_array h (List.length xs) (hd NULL xs) = Ok xs.
Proof.
  revert p; induction xs as [|x xs IH]; intros p; cbn [dlseg hd List.length fill_array].
  - reflexivity.
  - intros (Hx & Hn & Hs). rewrite (eqb_NULL_neq x Hx). rewrite Hn. cbn [next].
    rewrite (IH x Hs). reflexivity.
Qed.

Lemma list_in_array_spec l h xs :
  inv l h xs -> exists l', list_in_array l h = Ok l' /\ inv l' h xs /\
    (xs <> [] -> array l' = Some xs) /\
    first l' = first l /\ last l' = last l /\ count l' = count l.
Proof.
  intros I. pose proof I as [If Il Is Id Ic Ia].
  unfold list_in_array. destruct (array l) as [a|] eqn:Ea.
  - exists l. split; [reflexivity|]. split; [auto|]. split; [intros _; destruct Ia as [-> _]; exact Ea|auto].
  - destruct (Z.eqb_spec (count l) 0) as [E|E].
    + exists l. split; [reflexivity|]. split; [auto|]. split; [|auto].
      intros H. destruct xs; [congruence|]. rewrite Ic, zlen_cons in E.
      pose proof (zlen_nonneg xs). lia.
    + rewrite Ic, If. unfold zlen. rewrite Nat2Z.id.
      rewrite (fill_array_spec _ _ _ Is). cbn [obind].
      eexists. split; [reflexivity|]. split; [|cbn; auto].
      constructor; cbn; auto. split; [reflexivity|]. intros ->. now rewrite Ic in E.
Qed.

Lemma list_empty_spec pr xs l h :
  inv l h xs ->
  (forall done x todo h, xs = done ++ x :: todo -> forall y, In y todo -> pr x h y = h y) ->
  exists l' h', list_empty (List.length xs) pr l h = Ok (l', h', xs) /\ inv l' h' [] /\
    (forall y, ~ In y xs -> (forall x h, In x xs -> pr x h y = h y) -> h' y = h y).
Proof.
  revert l h; induction xs as [|x xs IH]; intros l h I Hp.
  - cbn [List.length list_empty]. rewrite (inv_first _ _ _ I). cbn.
    exists l, h. split; [reflexivity|]. split; [exact I|auto].
  - cbn [List.length list_empty]. rewrite (inv_first _ _ _ I). cbn [hd].
    pose proof (inv_seg _ _ _ I) as (Hxn & _).
    rewrite (eqb_NULL_neq x Hxn).
    destruct (list_remove_spec l h [] x xs I) as (l1 & h1 & E & I1 & A1 & F1 & _).
    rewrite E. cbn [obind app] in *.
    assert (inv l1 (pr x h1) xs) as I2.
    { destruct I1 as [a b c d e f]. constructor; auto.
      eapply dlseg_ext; [|exact c]. intros y Hy. eapply (Hp []); [reflexivity|exact Hy]. }
    destruct (IH _ _ I2) as (l2 & h2 & E2 & I3 & F3).
    + intros done z todo h' Hx y Hy. eapply (Hp (x :: done)); [rewrite Hx; reflexivity|exact Hy].
    + rewrite E2. cbn [obind]. exists l2, h2. split; [reflexivity|]. split; [exact I3|].
      intros y Hy Hpy. rewrite F3.
      * rewrite Hpy by now left. apply F1. exact Hy.
      * intros H. apply Hy. now right.
      * intros z h' Hz. apply Hpy. now right.
Qed.

Lemma In_split_first (r : addr) xs : In r xs ->
  exists ys zs, xs = ys ++ r :: zs /\ ~ In r ys.
Proof.
  induction xs as [|x xs IH]; [intros []|]. intros H.
  destruct (Z.eq_dec x r) as [->|Hne].
  - exists [], xs. auto.
  - destruct H as [->|H]; [congruence|]. destruct (IH H) as (ys & zs & -> & Hn).
    exists (x :: ys), zs. split; [reflexivity|]. intros [->|H']; auto.
Qed.

Lemma insert_before_split x r ys zs :
  ~ In r ys -> insert_before x r (ys ++ r :: zs) = ys ++ x :: r :: zs.
Proof.
  induction ys as [|y ys IH]; cbn; intros H; [now rewrite Z.eqb_refl|].
  destruct (Z.eqb_spec y r); [tauto|]. rewrite IH; tauto.
Qed.

Lemma insert_after_split x r ys zs :
  ~ In r ys -> insert_after r x (ys ++ r :: zs) = ys ++ r :: x :: zs.
Proof.
  induction ys as [|y ys IH]; cbn; intros H; [now rewrite Z.eqb_refl|].
  destruct (Z.eqb_spec y r); [tauto|]. rewrite IH; tauto.
Qed.

Lemma remove_split x ys zs :
  ~ In x ys -> ~ In x zs -> remove Z.eq_dec x (ys ++ x :: zs) = ys ++ zs.
Proof.
  intros Hy Hz. rewrite remove_app, remove_cons, !notin_remove by auto. reflexivity.
Qed.

Lemma lstep_inv l h xs o :
  inv l h xs -> legal xs o ->
  exists l' h', lstep (l, h) o = Ok (l', h') /\ inv l' h' (seq_step xs o).
Proof.
  intros I L. destruct o as [|x|x|x r|r x|x| |pr]; cbn [lstep seq_step legal] in *.
  - eexists _, _. split; [reflexivity|]. constructor; cbn; auto. constructor.
  - destruct L as [Hx Hn].
    destruct (list_insert_spec l h [] xs x I Hx Hn) as (l' & h' & E & I' & _ & _).
    exists l', h'. split; [|exact I'].
    unfold list_insert_first. rewrite (inv_first _ _ _ I). exact E.
  - destruct L as [Hx Hn].
    destruct (list_insert_spec l h xs [] x) as (l' & h' & E & I' & _ & _);
      [now rewrite app_nil_r|auto|now rewrite app_nil_r|].
    exists l', h'. split; [|exact I'].
    unfold list_insert_last. rewrite (inv_last _ _ _ I). exact E.
  - destruct L as (Hx & Hn & Hr).
    destruct (In_split_first r xs Hr) as (ys & zs & -> & Hry).
    destruct (list_insert_spec l h ys (r :: zs) x I Hx Hn) as (l' & h' & E & I' & _ & _).
    exists l', h'. rewrite insert_before_split by auto. split; [|exact I'].
    unfold list_insert_before, get_prev.
    pose proof (inv_seg _ _ _ I) as Hs. apply dlseg_app in Hs. cbn in Hs.
    destruct Hs as (_ & Hrn & Er & _).
    rewrite (eqb_NULL_neq r Hrn). cbn [obind]. rewrite Er. exact E.
  - destruct L as (Hx & Hn & Hr).
    destruct (In_split_first r xs Hr) as (ys & zs & -> & Hry).
    destruct (list_insert_spec l h (ys ++ [r]) zs x) as (l' & h' & E & I' & _ & _);
      [now rewrite <- app_assoc|auto|now rewrite <- app_assoc|].
    exists l', h'. rewrite insert_after_split by auto.
    rewrite <- app_assoc in I'. split; [|exact I'].
    unfold list_insert_after, get_next.
    pose proof (inv_seg _ _ _ I) as Hs. apply dlseg_app in Hs. cbn in Hs.
    destruct Hs as (_ & Hrn & Er & _).
    rewrite (eqb_NULL_neq r Hrn). cbn [obind]. rewrite Er. cbn [next].
    rewrite lastd_snoc in E. exact E.
  - destruct (In_split_first x xs L) as (ys & zs & -> & Hxy).
    destruct (list_remove_spec l h ys x zs I) as (l' & h' & E & I' & _).
    exists l', h'. rewrite remove_split; auto.
    pose proof (inv_nodup _ _ _ I) as Hd. apply NoDup_remove_2 in Hd.
    rewrite in_app_iff in Hd. tauto.
  - destruct (list_in_array_spec l h xs I) as (l' & E & I' & _).
    rewrite E. cbn. eauto.
  - rewrite (inv_count _ _ _ I). unfold zlen. rewrite Nat2Z.id.
    destruct (list_empty_spec pr xs l h I L) as (l' & h' & E & I' & _).
    rewrite E. cbn. eauto.
Qed.

Lemma inv_init h : inv list_initialize h [].
Proof. constructor; cbn; auto. constructor. Qed.

Lemma lrun_inv ops l h xs :
  inv l h xs -> legal_history xs ops ->
  exists l' h', lrun ops (l, h) = Ok (l', h') /\ inv l' h' (fold_left seq_step ops xs).
Proof.
  revert l h xs; induction ops as [|o ops IH]; intros l h xs I L.
  - cbn. eauto.
  - destruct L as [L1 L2].
    destruct (lstep_inv l h xs o I L1) as (l1 & h1 & E & I1).
    unfold lrun in *. cbn [ofold]. rewrite E. cbn [obind]. eauto.
Qed.

Lemma dlseg_chain_next h p xs : dlseg h p xs NULL -> chain (fun a => next (h a)) (hd NULL xs) xs.
Proof.
  revert p; induction xs as [|x xs IH]; intros p; cbn [dlseg hd]; [constructor|].
  intros (Hx & Hn & Hs). constructor; [auto|]. rewrite Hn. cbn [next]. eauto.
Qed.

Lemma dlseg_chain_prev h xs q :
  dlseg h NULL xs q -> chain (fun a => prev (h a)) (lastd NULL xs) (rev xs).
Proof.
  revert q; induction xs as [|x xs IH] using rev_ind; intros q H; [constructor|].
  apply dlseg_app in H. destruct H as [H1 H2]. cbn in H2.
  rewrite lastd_snoc, rev_unit. constructor; [tauto|].
  destruct H2 as (_ & E & _). rewrite E. cbn [prev]. eauto.
Qed.

Lemma inv_presents l h xs : inv l h xs -> presents l h xs.
Proof.
  intros [If Il Is Id Ic Ia]. constructor; auto.
  - rewrite If. eapply dlseg_chain_next; eauto.
  - rewrite Il. eapply dlseg_chain_prev; eauto.
Qed.

Lemma presents_inv l h xs : presents l h xs -> inv l h xs.
Proof.
  intros [Pf Pb Pc Pd Pa].
  assert (forall y x (ys : list addr), In x (ys ++ [x]) -> lastd y (ys ++ [x]) = x) as _.
  { intros; apply lastd_snoc. }
  assert (first l = hd NULL xs) as If by (inversion Pf; reflexivity).
  assert (last l = lastd NULL xs) as Il.
  { destruct (snoc_cases xs) as [->|(ys & y & ->)].
    - cbn in Pb. inversion Pb; reflexivity.
    - rewrite rev_unit in Pb. inversion Pb; subst. now rewrite lastd_snoc. }
  constructor; auto.
  assert (forall succ a ys, chain succ a ys -> forall y, In y ys -> y <> NULL) as Hnn.
  { clear. intros succ a ys H; induction H; intros y Hy; [destruct Hy|].
    destruct Hy as [<-|Hy]; auto. }
  assert (forall pre x post, xs = pre ++ x :: post ->
            next (h x) = hd NULL post) as Hnext.
  { clear - Pf If. intros pre. revert Pf. generalize (first l) as a. revert xs If.
    intros xs _. revert xs. induction pre as [|p pre IH]; intros xs a Hc x post ->.
    - cbn in Hc. inversion Hc as [|? ? Hx Hc']; subst. inversion Hc'; reflexivity.
    - cbn in Hc. inversion Hc as [|? ? Hx Hc']; subst. eapply IH; [exact Hc'|reflexivity]. }
  assert (forall ys a, chain (fun a => prev (h a)) a ys ->
            forall pre x post, ys = pre ++ x :: post -> prev (h x) = hd NULL post) as Hprev0.
  { clear. intros ys a Hc pre; revert ys a Hc. induction pre as [|p pre IH]; intros ys a Hc x post ->.
    - cbn in Hc. inversion Hc as [|? ? Hx Hc']; subst. inversion Hc'; reflexivity.
    - cbn in Hc. inversion Hc as [|? ? Hx Hc']; subst. eapply IH; [exact Hc'|reflexivity]. }
  assert (forall pre x post, xs = pre ++ x :: post ->
            prev (h x) = lastd NULL pre) as Hprev.
  { intros pre x post ->. rewrite (Hprev0 _ _ Pb (rev post) x (rev pre)).
    - destruct (snoc_cases pre) as [->|(ys & y & ->)]; [reflexivity|].
      rewrite rev_unit, lastd_snoc. reflexivity.
    - rewrite rev_app_distr. cbn [rev]. rewrite <- app_assoc. reflexivity. }
  assert (forall pre post, xs = pre ++ post -> dlseg h (lastd NULL pre) post NULL) as G.
  { intros pre post; revert pre. induction post as [|x post IH]; intros pre Hx; cbn; [auto|].
    split; [|split].
    - eapply Hnn; [exact Pf|]. rewrite Hx. apply in_or_app; right; now left.
    - rewrite <- (Hnext pre x post Hx), <- (Hprev pre x post Hx). destruct (h x); reflexivity.
    - specialize (IH (pre ++ [x])). rewrite lastd_snoc in IH. apply IH.
      rewrite <- app_assoc. exact Hx. }
  apply (G [] xs). reflexivity.
Qed.

(** What a callback that overwrites the item it is given leaves behind. *)
Lemma list_empty_junk junk xs l h :
  inv l h xs ->
  exists l' h',
    list_empty (List.length xs) (fun x h => upd h x (junk x)) l h = Ok (l', h', xs) /\
    inv l' h' [] /\
    (forall x, In x xs -> h' x = junk x) /\ (forall x, ~ In x xs -> h' x = h x).
Proof.
  revert l h; induction xs as [|x xs IH]; intros l h I.
  - cbn [List.length list_empty]. rewrite (inv_first _ _ _ I). cbn.
    exists l, h. split; [reflexivity|]. split; [exact I|]. split; [intros ? []|auto].
  - cbn [List.length list_empty]. rewrite (inv_first _ _ _ I). cbn [hd].
    pose proof (inv_seg _ _ _ I) as (Hxn & _).
    rewrite (eqb_NULL_neq x Hxn).
    destruct (list_remove_spec l h [] x xs I) as (l1 & h1 & E & I1 & A1 & F1 & _).
    rewrite E. cbn [obind app] in *.
    pose proof (inv_nodup _ _ _ I) as Hd. inversion Hd as [|? ? Hni Hd']; subst.
    assert (inv l1 (upd h1 x (junk x)) xs) as I2.
    { destruct I1 as [a b c d e f]. constructor; auto. apply dlseg_upd_notin; auto. }
    destruct (IH _ _ I2) as (l2 & h2 & E2 & I3 & J & F).
    rewrite E2. cbn [obind]. exists l2, h2. split; [reflexivity|]. split; [exact I3|]. split.
    + intros y [<-|Hy]; [|auto]. rewrite F by auto. apply upd_same.
    + intros y Hy. cbn in Hy. rewrite F by tauto.
      rewrite upd_other by (intros ->; tauto). apply F1. cbn. tauto.
Qed.
