(** Facts shared by the three synchronisation functions: save_match keeps the partition,
    number_matches numbers in order. *)
From Verif Require Import Base SyncModel SyncSpec EditProof.

(** *** Partitions as lists of substring tuples *)

Definition col (t : Z) (ls : list (list substr)) : list substr :=
  map (fun ss => match znth ss t with Some s => s | None => mksub (-1) (-1) (-1) end) ls.

Definition part (texts : list (list Z)) (ls : list (list substr)) : Prop :=
  Forall (fun ss => zlen ss = zlen texts) ls /\
  (forall t text, znth texts t = Some text -> consecutive 0 (col t ls) (zlen text)) /\
  Forall (fun ss => Exists (fun s => 0 < slen s) ss) ls.

Lemma part_partition texts l : part texts (map isubs l) <-> partition texts l.
Proof.
  unfold part, partition. rewrite !Forall_map.
  assert (forall t, col t (map isubs l) = column t l) as E.
  { intros t. unfold col, column. now rewrite map_map. }
  split; intros (H1 & H2 & H3); (split; [exact H1|split; [|exact H3]]);
    intros t text Ht; [rewrite <- E|rewrite E]; eauto.
Qed.

Lemma consecutive_app pos l1 l2 fin :
  consecutive pos (l1 ++ l2) fin <-> exists mid, consecutive pos l1 mid /\ consecutive mid l2 fin.
Proof.
  revert pos; induction l1 as [|s l1 IH]; intros pos; cbn [app consecutive].
  - split; [eauto|]. intros (mid & -> & H). exact H.
  - split.
    + intros (H1 & H2 & H3 & H4). apply IH in H4 as (mid & H4 & H5). exists mid. auto.
    + intros (mid & (H1 & H2 & H3 & H4) & H5). repeat split; auto. apply IH. eauto.
Qed.

Lemma consecutive_le pos l fin : consecutive pos l fin -> pos <= fin.
Proof.
  revert pos; induction l as [|s l IH]; intros pos; cbn; [lia|].
  intros (H1 & H2 & H3 & H4). apply IH in H4. lia.
Qed.

Lemma col_app t l1 l2 : col t (l1 ++ l2) = col t l1 ++ col t l2.
Proof. apply map_app. Qed.

Lemma col_cons t ss ls u : znth ss t = Some u -> col t (ss :: ls) = u :: col t ls.
Proof. intros H. cbn [col map]. now rewrite H. Qed.

(** *** save_match *)

Definition gen (texts : list (list Z)) (ss : list substr) : Prop :=
  exists w, w <> [] /\ ~ In tilde w /\
    forall t text, znth texts t = Some text ->
      exists s, znth ss t = Some s /\ slen s = zlen w /\ slice text (start s) (slen s) = w.

Definition ptrs (l : list sync) : list Z :=
  flat_map (fun s => match mptr s with Some p => [p] | None => [] end) l.

Record linv (texts : list (list Z)) (sl : synclist) : Prop := {
  li_part : part texts (map subs (items sl));
  li_gen : Forall (fun s => mptr s <> None -> gen texts (subs s)) (items sl);
  li_nodup : NoDup (map sid (items sl));
  li_fresh : Forall (fun s => sid s < fresh sl) (items sl) }.

Lemma znth_combine {A B} (l1 : list A) (l2 : list B) i :
  znth (combine l1 l2) i =
  match znth l1 i, znth l2 i with Some x, Some y => Some (x, y) | _, _ => None end.
Proof.
  unfold znth. destruct (i <? 0); [reflexivity|]. generalize (Z.to_nat i) as q. clear i.
  revert l2; induction l1 as [|x l1 IH]; intros [|y l2] [|q]; cbn; try reflexivity.
  - now destruct (nth_error l1 q).
  - apply IH.
Qed.

Lemma znth_zip f ss sts len t :
  znth (zip_starts f ss sts len) t =
  match znth ss t, znth sts t with Some s, Some st => Some (f s st len) | _, _ => None end.
Proof.
  unfold zip_starts. rewrite znth_map, znth_combine.
  destruct (znth ss t), (znth sts t); reflexivity.
Qed.

Lemma zlen_zip f ss sts len : zlen ss = zlen sts -> zlen (zip_starts f ss sts len) = zlen ss.
Proof.
  unfold zip_starts, zlen. intros H. rewrite map_length, combine_length. lia.
Qed.

Lemma get_item_mid l1 s l2 :
  NoDup (map sid (l1 ++ s :: l2)) -> get_item (l1 ++ s :: l2) (sid s) = Some s.
Proof.
  induction l1 as [|x l1 IH]; cbn [app map get_item].
  - intros _. now rewrite Z.eqb_refl.
  - intros H. inversion H as [|? ? Hn Hd]; subst.
    destruct (Z.eqb_spec (sid x) (sid s)) as [E|E]; [|auto].
    exfalso. apply Hn. rewrite E, map_app. apply in_or_app. right. now left.
Qed.

Lemma update_item_mid l1 s l2 x :
  ~ In (sid s) (map sid l1) -> update_item (l1 ++ s :: l2) (sid s) x = l1 ++ x :: l2.
Proof.
  induction l1 as [|y l1 IH]; cbn [app map update_item].
  - intros _. now rewrite Z.eqb_refl.
  - intros H. destruct (Z.eqb_spec (sid y) (sid s)) as [E|E].
    + exfalso. apply H. now left.
    + f_equal. apply IH. intros Hi. apply H. now right.
Qed.

Lemma insert_before_mid l1 s l2 x :
  ~ In (sid s) (map sid l1) -> insert_before (l1 ++ s :: l2) (sid s) x = l1 ++ x :: s :: l2.
Proof.
  induction l1 as [|y l1 IH]; cbn [app map insert_before].
  - intros _. now rewrite Z.eqb_refl.
  - intros H. destruct (Z.eqb_spec (sid y) (sid s)) as [E|E].
    + exfalso. apply H. now left.
    + f_equal. apply IH. intros Hi. apply H. now right.
Qed.

Lemma insert_after_mid l1 s l2 x :
  ~ In (sid s) (map sid l1) -> insert_after (l1 ++ s :: l2) (sid s) x = l1 ++ s :: x :: l2.
Proof.
  induction l1 as [|y l1 IH]; cbn [app map insert_after].
  - intros _. now rewrite Z.eqb_refl.
  - intros H. destruct (Z.eqb_spec (sid y) (sid s)) as [E|E].
    + exfalso. apply H. now left.
    + f_equal. apply IH. intros Hi. apply H. now right.
Qed.

Lemma valid_sync_Exists ss : valid_sync ss = true <-> Exists (fun s => 0 < slen s) ss.
Proof.
  unfold valid_sync. rewrite existsb_exists, Exists_exists.
  split; intros (s & H1 & H2); exists s; split; auto; now apply Z.ltb_lt.
Qed.

Lemma valid_sync_false ss t s : valid_sync ss = false -> znth ss t = Some s -> slen s <= 0.
Proof.
  intros H Ht. destruct (Z.le_gt_cases (slen s) 0) as [|Hc]; [assumption|].
  exfalso. assert (valid_sync ss = true); [|congruence].
  apply valid_sync_Exists, Exists_exists. exists s. split; [|lia]. eapply znth_In; eauto.
Qed.

Definition opt_item (x : sync) : list sync := if valid_sync (subs x) then [x] else [].

Definition left_of (sl : synclist) (s : sync) starts len : sync :=
  mksync (fresh sl) (zip_starts left_sub (subs s) starts len) None.
Definition right_of (sl : synclist) (s : sync) starts len : sync :=
  mksync (fresh sl + 1) (zip_starts right_sub (subs s) starts len) None.
Definition mid_of (s : sync) starts len m : sync :=
  mksync (sid s) (zip_starts mid_sub (subs s) starts len) (Some m).

(** The match lies inside the item, in every text. *)
Definition inside (s : sync) (starts : list Z) (len : Z) : Prop :=
  0 < len /\ zlen starts = zlen (subs s) /\
  forall t u st, znth (subs s) t = Some u -> znth starts t = Some st ->
    start u <= st /\ st + len <= start u + slen u.

Definition same_text (texts : list (list Z)) (starts : list Z) (len : Z) : Prop :=
  exists w, zlen w = len /\ ~ In tilde w /\
    forall t text, znth texts t = Some text ->
      exists st, znth starts t = Some st /\ slice text st len = w.

Lemma col_opt_consecutive t x y l2 pos fin u :
  znth (subs x) t = Some u ->
  consecutive pos (u :: y) fin ->
  (valid_sync (subs x) = false -> 0 <= slen u) ->
  l2 = y ->
  consecutive pos (col t (map subs (opt_item x)) ++ l2) fin.
Proof.
  intros Hu H Hv ->. unfold opt_item. destruct (valid_sync (subs x)) eqn:E.
  - cbn [map col app]. rewrite Hu. exact H.
  - cbn [map col app]. destruct H as (H1 & H2 & H3 & H4).
    pose proof (valid_sync_false _ _ _ E Hu).
    replace (start u + slen u) with pos in H4 by lia. exact H4.
Qed.

Lemma save_match_ok texts sl l1 s l2 starts len m :
  linv texts sl -> items sl = l1 ++ s :: l2 ->
  inside s starts len -> same_text texts starts len ->
  exists sl', save_match sl (sid s) starts len m = Ok sl' /\ linv texts sl' /\
    items sl' = l1 ++ opt_item (left_of sl s starts len) ++ mid_of s starts len m ::
                      opt_item (right_of sl s starts len) ++ l2 /\
    fresh sl' = fresh sl + 2.
Proof.
  intros [Hpart Hgen Hnd Hfr] Eit [Hlen [Hsts Hins]] Hsame.
  rewrite Eit in *.
  unfold save_match. rewrite Eit, get_item_mid by assumption.
  set (left := mksync (fresh sl) _ None). set (right := mksync (fresh sl + 1) _ None).
  set (s' := mksync (sid s) _ (Some m)).
  assert (~ In (sid s) (map sid l1)) as Hn1.
  { rewrite map_app in Hnd. cbn in Hnd. apply NoDup_remove_2 in Hnd.
    intros H. apply Hnd. apply in_or_app. now left. }
  rewrite update_item_mid by assumption.
  change (sid s) with (sid s').
  assert (sid left <> sid s') as Hls.
  { assert (In s (l1 ++ s :: l2)) as Hs by (apply in_or_app; right; now left).
    rewrite Forall_forall in Hfr. specialize (Hfr _ Hs). cbn in *. lia. }
  assert ((if valid_sync (subs left) then insert_before (l1 ++ s' :: l2) (sid s') left
           else l1 ++ s' :: l2) = (l1 ++ opt_item left) ++ s' :: l2) as E1.
  { unfold opt_item. destruct (valid_sync (subs left)).
    - rewrite insert_before_mid by exact Hn1. rewrite <- app_assoc. reflexivity.
    - rewrite app_nil_r. reflexivity. }
  rewrite E1.
  assert ((if valid_sync (subs right)
           then insert_after ((l1 ++ opt_item left) ++ s' :: l2) (sid s') right
           else (l1 ++ opt_item left) ++ s' :: l2)
          = l1 ++ opt_item left ++ s' :: opt_item right ++ l2) as E2.
  { replace ((l1 ++ opt_item left) ++ s' :: l2) with ((l1 ++ opt_item left) ++ s' :: [] ++ l2)
      by reflexivity.
    unfold opt_item at 2 4. destruct (valid_sync (subs right)).
    - rewrite insert_after_mid.
      + rewrite <- app_assoc. reflexivity.
      + rewrite map_app. intros H. apply in_app_or in H as [H|H]; [now apply Hn1|].
        unfold opt_item in H. destruct (valid_sync (subs left)); [|destruct H].
        destruct H as [H|[]]. now apply Hls.
    - rewrite <- app_assoc. reflexivity. }
  rewrite E2.
  eexists. split; [reflexivity|]. cbn [items fresh].
  split; [|split; reflexivity].
  assert (forall P : sync -> Prop, P left -> P right -> P s' -> Forall P l1 -> Forall P l2 ->
      (forall x, In x (l1 ++ opt_item left ++ s' :: opt_item right ++ l2) -> P x)) as Hall.
  { intros P Pl Pr Ps P1 P2 x Hx. rewrite Forall_forall in P1, P2.
    apply in_app_or in Hx as [Hx|Hx]; [auto|].
    apply in_app_or in Hx as [Hx|[<-|Hx]]; auto.
    - unfold opt_item in Hx. destruct (valid_sync (subs left)); [|destruct Hx].
      destruct Hx as [<-|[]]; auto.
    - apply in_app_or in Hx as [Hx|Hx]; auto.
      unfold opt_item in Hx. destruct (valid_sync (subs right)); [|destruct Hx].
      destruct Hx as [<-|[]]; auto. }
  destruct Hpart as (Hp1 & Hp2 & Hp3).
  rewrite map_app in Hp1, Hp3. cbn [map] in Hp1, Hp3.
  apply Forall_app in Hp1 as [Hp1a Hp1b]. apply Forall_cons_iff in Hp1b as [Hp1s Hp1c].
  apply Forall_app in Hp3 as [Hp3a Hp3b]. apply Forall_cons_iff in Hp3b as [Hp3s Hp3c].
  constructor; cbn [items fresh].
  - split; [|split].
    + rewrite Forall_map. apply Forall_forall. rewrite Forall_map in Hp1a, Hp1c.
      apply (Hall (fun x => zlen (subs x) = zlen texts)); auto;
        cbn [left right s' subs]; rewrite zlen_zip; auto; lia.
    + intros t text Ht.
      specialize (Hp2 t text Ht). rewrite map_app, col_app in Hp2. cbn [map] in Hp2.
      apply consecutive_app in Hp2 as (mid & C1 & C2).
      rewrite map_app, col_app. apply consecutive_app. exists mid. split; [exact C1|].
      assert (0 <= t < zlen (subs s)) as Htr.
      { apply znth_Some_lt in Ht. lia. }
      destruct (znth_lt_Some (subs s) t Htr) as [u Hu].
      destruct (znth_lt_Some starts t) as [st Hst]; [lia|].
      destruct (Hins t u st Hu Hst) as [I1 I2].
      cbn [col map] in C2. rewrite Hu in C2. fold (col t (map subs l2)) in C2.
      destruct C2 as (C3 & C4 & C5 & C6).
      rewrite map_app, col_app.
      eapply (col_opt_consecutive t left _ _ _ _ (left_sub u st len)); [| | |reflexivity].
      * cbn [left subs]. now rewrite znth_zip, Hu, Hst.
      * cbn [map]. rewrite (col_cons t (subs s') _ (mid_sub u st len))
          by (cbn [s' subs]; now rewrite znth_zip, Hu, Hst).
        cbn [left_sub mid_sub consecutive start slen stop]. repeat split; try lia.
        rewrite map_app, col_app.
        eapply (col_opt_consecutive t right _ _ _ _ (right_sub u st len)); [| | |reflexivity].
        -- cbn [right subs]. now rewrite znth_zip, Hu, Hst.
        -- cbn [right_sub consecutive start slen stop].
           repeat split; try lia.
           match goal with |- consecutive ?x _ _ => replace x with (start u + slen u) by lia end.
           exact C6.
        -- intros _. cbn. lia.
      * intros _. cbn. lia.
    + rewrite Forall_map. rewrite Forall_map in Hp3a, Hp3c. rewrite !Forall_app.
      rewrite Forall_cons_iff, Forall_app.
      assert (forall x, Forall (fun x => Exists (fun s0 => 0 < slen s0) (subs x)) (opt_item x)) as Ho.
      { intros x. unfold opt_item. destruct (valid_sync (subs x)) eqn:Ex; constructor; auto.
        now apply valid_sync_Exists. }
      repeat split; auto.
      cbn [s' subs]. apply Exists_exists in Hp3s as (u & Hu & _).
      apply In_znth in Hu as (t & Ht & Hu).
      destruct (znth_lt_Some starts t) as [st Hst]; [lia|].
      apply Exists_exists. exists (mid_sub u st len). split; [|cbn; lia].
      apply (znth_In _ t). now rewrite znth_zip, Hu, Hst.
  - apply Forall_app in Hgen as [Hg1 Hg2]. apply Forall_cons_iff in Hg2 as [_ Hg3].
    apply Forall_forall.
    apply (Hall (fun x => mptr x <> None -> gen texts (subs x))); auto;
      try (cbn [left right mptr]; congruence).
    intros _. cbn [s' subs]. destruct Hsame as (w & W1 & W2 & W3). exists w. split; [|split].
    + intros ->. cbn in W1. lia.
    + exact W2.
    + intros t text Ht. destruct (W3 t text Ht) as (st & Hst & Hw).
      destruct (znth_lt_Some (subs s) t) as [u Hu].
      { apply znth_Some_lt in Hst. lia. }
      exists (mid_sub u st len). rewrite znth_zip, Hu, Hst. repeat split; auto.
  - rewrite map_app in Hnd. cbn [map] in Hnd. apply Forall_app in Hfr as [Hf1 Hf2].
    apply Forall_cons_iff in Hf2 as [Hfs Hf3].
    assert (forall x l, Forall (fun s0 : sync => sid s0 < x) l -> ~ In x (map sid l)) as Hnin.
    { intros x l Hl Hi. apply in_map_iff in Hi as (y & <- & Hy). rewrite Forall_forall in Hl.
      specialize (Hl _ Hy). cbn in Hl. lia. }
    assert (Forall (fun s0 => sid s0 < fresh sl + 1) (l1 ++ l2)) as Hf1'.
    { apply Forall_app. split; eapply Forall_impl; eauto; cbn; intros; lia. }
    pose proof (Hnin _ _ Hf1') as Hr.
    assert (Forall (fun s0 => sid s0 < fresh sl) (l1 ++ l2)) as Hf1''.
    { apply Forall_app. auto. }
    pose proof (Hnin _ _ Hf1'') as Hl.
    rewrite map_app in Hr, Hl.
    rewrite map_app. cbn [map]. rewrite map_app. cbn [map]. rewrite map_app.
    change (sid s') with (sid s).
    assert (NoDup (map sid l1 ++ sid s :: map sid (opt_item right) ++ map sid l2)) as N1.
    { unfold opt_item. destruct (valid_sync (subs right)); cbn [map app]; [|exact Hnd].
      replace (map sid l1 ++ sid s :: sid right :: map sid l2)
        with ((map sid l1 ++ [sid s]) ++ sid right :: map sid l2) by (now rewrite <- app_assoc).
      apply NoDup_Add with (a := sid right) (l := (map sid l1 ++ [sid s]) ++ map sid l2).
      - apply Add_app.
      - split.
        + rewrite <- app_assoc. exact Hnd.
        + rewrite <- app_assoc. cbn [app right sid]. intros H. apply Hr.
          apply in_app_or in H as [H|[H|H]]; [apply in_or_app; now left|lia|
            apply in_or_app; now right]. }
    unfold opt_item at 1. destruct (valid_sync (subs left)); cbn [map app]; [|exact N1].
    apply NoDup_Add with (a := sid left) (l := map sid l1 ++ sid s :: map sid (opt_item right) ++ map sid l2).
    + apply Add_app.
    + split; [exact N1|]. cbn [left sid]. intros H.
      apply in_app_or in H as [H|[H|H]]; [apply Hl, in_or_app; now left|lia|].
      apply in_app_or in H as [H|H]; [|apply Hl, in_or_app; now right].
      unfold opt_item in H. destruct (valid_sync (subs right)); [|destruct H].
      destruct H as [H|[]]. cbn in H. lia.
  - apply Forall_forall. apply Forall_app in Hfr as [Hf1 Hf2].
    apply Forall_cons_iff in Hf2 as [Hfs Hf3].
    apply (Hall (fun x => sid x < fresh sl + 2)); cbn [left right s' sid]; try lia;
      eapply Forall_impl; eauto; cbn; intros; lia.
Qed.

Lemma ptrs_app l1 l2 : ptrs (l1 ++ l2) = ptrs l1 ++ ptrs l2.
Proof. apply flat_map_app. Qed.

Lemma ptrs_save l1 x s y l2 m :
  mptr x = None -> mptr y = None -> mptr s = Some m ->
  ptrs (l1 ++ opt_item x ++ s :: opt_item y ++ l2) = ptrs l1 ++ m :: ptrs l2.
Proof.
  intros Hx Hy Hs. rewrite !ptrs_app. unfold opt_item.
  assert (forall z : sync, mptr z = None ->
    ptrs (if valid_sync (subs z) then [z] else []) = []) as Hz.
  { intros z Ez. destruct (valid_sync _); [|reflexivity]. cbn. now rewrite Ez. }
  rewrite Hz by assumption. cbn [app].
  cbn [ptrs flat_map]. rewrite Hs. cbn [app]. fold (ptrs).
  change (flat_map (fun s0 => match mptr s0 with Some p => [p] | None => [] end)
     ((if valid_sync (subs y) then [y] else []) ++ l2))
    with (ptrs ((if valid_sync (subs y) then [y] else []) ++ l2)).
  rewrite ptrs_app, Hz by assumption. reflexivity.
Qed.

(** *** Numbering *)

Lemma number_matches_other l n mem q : ~ In q (ptrs l) -> number_matches l n mem q = mem q.
Proof.
  revert n mem; induction l as [|s l IH]; intros n mem; cbn [ptrs flat_map number_matches];
    [reflexivity|].
  destruct (mptr s) as [p|]; cbn [app].
  - intros H. rewrite IH by (intros Hi; apply H; now right).
    destruct (Z.eqb_spec q p); [|reflexivity]. exfalso. apply H. now left.
  - apply IH.
Qed.

Lemma number_matches_map l n mem :
  NoDup (ptrs l) ->
  map (number_matches l n mem) (ptrs l) = zrange (n + 1) (List.length (ptrs l)).
Proof.
  revert n mem; induction l as [|s l IH]; intros n mem; [reflexivity|].
  cbn [ptrs flat_map number_matches]. fold (ptrs l).
  destruct (mptr s) as [p|]; cbn [app]; [|apply IH].
  intros H. inversion H as [|? ? Hn Hd]; subst. cbn [map List.length zrange]. f_equal.
  - fold (ptrs l). rewrite number_matches_other by exact Hn. now rewrite Z.eqb_refl.
  - apply IH. exact Hd.
Qed.

Lemma view_filter mem l :
  map inum (filter is_match (view mem l)) = map Some (map mem (ptrs l)).
Proof.
  induction l as [|s l IH]; [reflexivity|]. cbn [view map filter]. unfold is_match at 1.
  cbn [inum]. cbn [ptrs flat_map]. destruct (mptr s) as [p|]; cbn [option_map app map].
  - f_equal. exact IH.
  - exact IH.
Qed.

Lemma view_numbered l :
  NoDup (ptrs l) -> numbered_in_order (view (number_matches l 0 no_numbers) l).
Proof.
  intros H. unfold numbered_in_order. rewrite view_filter.
  rewrite number_matches_map by exact H. f_equal.
  assert (List.length (filter is_match (view (number_matches l 0 no_numbers) l)) =
          List.length (ptrs l)) as ->; [|reflexivity].
  pose proof (view_filter (number_matches l 0 no_numbers) l) as E.
  apply (f_equal (@List.length _)) in E. rewrite !map_length in E. exact E.
Qed.

Lemma view_partition texts mem sl : linv texts sl -> partition texts (view mem (items sl)).
Proof.
  intros H. apply part_partition. unfold view. rewrite map_map. cbn [isubs].
  apply (li_part _ _ H).
Qed.

Lemma view_genuine texts mem sl : linv texts sl -> matches_genuine texts (view mem (items sl)).
Proof.
  intros H. unfold matches_genuine, view. rewrite Forall_map.
  eapply Forall_impl; [|apply (li_gen _ _ H)]. intros s Hs Hm. unfold genuine. cbn [isubs].
  apply Hs. intros E. unfold is_match in Hm. cbn in Hm. rewrite E in Hm. discriminate.
Qed.

(** *** The initial list *)

Lemma initialize_linv texts addr : linv texts (initialize_synclist texts addr).
Proof.
  unfold initialize_synclist. set (ss := map _ texts).
  assert (forall t text, znth texts t = Some text ->
            znth ss t = Some (mksub 0 (zlen text - 1) (zlen text))) as Hss.
  { intros t text Ht. unfold ss. rewrite znth_map, Ht. reflexivity. }
  destruct (valid_sync ss) eqn:E; constructor; cbn [items fresh map subs].
  - split; [|split].
    + constructor; [|constructor]. unfold ss, zlen. f_equal. apply map_length.
    + intros t text Ht. unfold col. cbn [map]. rewrite (Hss _ _ Ht).
      cbn [consecutive start slen stop]. pose proof (zlen_nonneg text). repeat split; lia.
    + constructor; [now apply valid_sync_Exists|constructor].
  - constructor; [|constructor]. cbn. congruence.
  - constructor; [intros []|constructor].
  - constructor; [cbn; lia|constructor].
  - split; [constructor|]. split; [|constructor]. intros t text Ht. cbn [col map consecutive].
    pose proof (valid_sync_false _ _ _ E (Hss _ _ Ht)) as H. cbn in H.
    pose proof (zlen_nonneg text). lia.
  - constructor.
  - constructor.
  - constructor.
Qed.

Lemma initialize_ptrs texts addr : ptrs (items (initialize_synclist texts addr)) = [].
Proof. unfold initialize_synclist. destruct (valid_sync _); reflexivity. Qed.
