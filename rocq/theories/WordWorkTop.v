(** The work of recognizing the words of a text. *)
From Coq Require Import String.
From Verif Require Import Base CLib LcsModel LcsSpec LcsProof LcsTop WorkProof WordWorkModel WordWorkProof.
Local Open Scope Z_scope.
Local Open Scope list_scope.

Lemma erase_recognize w0 w1 : recognize w0 w1 = (let! (marks, _, _) := recognize_counted w0 w1 in Ok marks).
Proof.
  unfold recognize, recognize_counted.
  destruct (ofold (setup_word false) w0 ([], [])) as [[t ids0]| | |]; cbn [obind]; [|reflexivity..].
  destruct (ofold (setup_word true) w1 (t, [])) as [[t' ids1]| | |]; cbn [obind]; [|reflexivity..].
  destruct (setup_array false t' ids0) as [a| | |]; cbn [obind]; [|reflexivity..].
  destruct (65535 <? zlen a); [reflexivity|].
  destruct (setup_array true t' ids1) as [b| | |]; cbn [obind]; [|reflexivity..].
  destruct (ofold (id_at ids0) a []) as [ida| | |]; cbn [obind]; [|reflexivity..].
  destruct (ofold (id_at ids1) b []) as [idb| | |]; cbn [obind]; [|reflexivity..].
  rewrite <- (erase_pathlist ida idb). destruct (compute_pathlist_counted ida idb) as [[l w]| | |]; cbn [obind erase]; [|reflexivity..].
  destruct (obtain _ _ _ _); reflexivity.
Qed.

Lemma recognize_counted_ok w0 w1 : zlen (common w0 w1) <= 65535 ->
  exists marks l w D, recognize_counted w0 w1 = Ok (marks, l, w) /\ D = zlen (common w0 w1) + zlen (common w1 w0) - 2 * zlen (select marks w0) /\ 0 <= D /\
    zlen l = D + 1 /\ 2 * kept l = (D + 1) * (D + 2) /\ w <= (2 * D + 1) * Z.min (zlen (common w0 w1)) (zlen (common w1 w0)) /\ zlen (select marks w0) <= w.
Proof.
  intros Len. unfold recognize_counted.
  destruct (setup_words_ok false w0 [] [] [] []) as (t0 & ids0 & r0 & E0 & En0 & Nu0 & K0).
  { split; [constructor|]. split; [intros i w fl E; apply znth_Some_lt in E; cbn in E; lia|]. intros w [[]|[]]. }
  { constructor. }
  unfold idtable in *. rewrite E0. cbn [obind app] in *.
  assert (entered true t0 [] w0) as En0'.
  { destruct En0 as (N & Fl & Al). split; [exact N|]. split.
    - intros i w fl E. destruct (Fl i w fl E). cbn [negb] in *. auto.
    - intros w Q. apply Al. tauto. }
  destruct (setup_words_ok true w1 t0 [] [] w0 En0') as (t & ids1 & r1 & E1 & En1 & Nu1 & K1); [constructor|].
  unfold idtable in *. rewrite E1. cbn [obind app] in *.
  pose proof (numbered_more _ _ _ _ _ K1 Nu0) as Nu0'.
  destruct En1 as (N & Fl & _). cbn [negb flag] in Fl.
  set (kf := fun i => match znth (keys t) i with Some w => w | None => [] end).
  assert (forall ws ids, numbered t ws ids -> ws = map kf ids /\ Forall (fun i => 0 <= i < zlen t) ids) as NK.
  { intros ws ids. induction 1 as [|w i ws ids E _ [IH0 IH1]]; [split; constructor|]. split.
    - cbn [map]. unfold kf at 1. rewrite E. now f_equal.
    - constructor; [|exact IH1]. apply znth_Some_lt in E. unfold keys, zlen in *. rewrite map_length in E. lia. }
  destruct (NK _ _ Nu0') as [W0 B0]. destruct (NK _ _ Nu1) as [W1 B1].
  assert (forall x y, 0 <= x < zlen t -> 0 <= y < zlen t -> kf x = kf y -> x = y) as INJ.
  { intros x y Hx Hy E. assert (zlen (keys t) = zlen t) as Lk by (unfold keys, zlen; now rewrite map_length).
    destruct (znth_lt_Some (keys t) x ltac:(lia)) as (wx & Ex). destruct (znth_lt_Some (keys t) y ltac:(lia)) as (wy & Ey).
    unfold kf in E. rewrite Ex, Ey in E. subst wy. exact (NoDup_znth _ _ _ _ N Ex Ey). }
  assert (forall i, 0 <= i < zlen t -> found_in false t i = existsb (streq (kf i)) w1 /\
                                       found_in true t i = existsb (streq (kf i)) w0) as FI.
  { intros i Hi. destruct (znth_lt_Some t i Hi) as ([w fl] & E). unfold found_in, kf, keys. rewrite znth_map, E. cbn [option_map fst snd].
    destruct (Fl i w fl E) as [F1 F0]. rewrite <- existsb_streq in F1, F0.
    split; apply eq_true_iff_eq; assumption. }
  rewrite Forall_forall in B0, B1.
  rewrite setup_array_ok by exact B0. cbn [obind].
  assert (filter (found_in false t) ids0 = filter (fun i => existsb (streq (kf i)) w1) ids0) as Fa
    by (apply filter_ext_in; intros i Hi; apply FI, B0, Hi).
  assert (filter (found_in true t) ids1 = filter (fun i => existsb (streq (kf i)) w0) ids1) as Fb
    by (apply filter_ext_in; intros i Hi; apply FI, B1, Hi).
  assert (forall (P : list Z -> bool) ids, map kf (filter (fun i => P (kf i)) ids) = filter P (map kf ids)) as MF.
  { intros P ids. induction ids as [|x ids IH]; cbn; [reflexivity|]. destruct (P (kf x)); cbn; now rewrite IH. }
  assert (map kf (filter (found_in false t) ids0) = common w0 w1) as Ca.
  { rewrite Fa, (MF (fun w => existsb (streq w) w1)). now rewrite <- W0. }
  assert (map kf (filter (found_in true t) ids1) = common w1 w0) as Cb.
  { rewrite Fb, (MF (fun w => existsb (streq w) w0)). now rewrite <- W1. }
  set (fl0 := map (found_in false t) ids0). set (fl1 := map (found_in true t) ids1).
  assert (zlen (positions fl0 0) = zlen (common w0 w1)) as Lp.
  { rewrite positions_count, <- (select_count fl0 ids0) by apply map_length. unfold fl0. rewrite select_filter, <- Ca.
    unfold zlen. now rewrite map_length. }
  rewrite Lp.
  destruct (Z.ltb_spec 65535 (zlen (common w0 w1))); [lia|].
  rewrite setup_array_ok by exact B1. cbn [obind]. fold fl1.
  pose proof (read_at ids0 ids0 fl0 [] [] eq_refl (map_length _ _)) as R0. change (zlen (@nil Z)) with 0 in R0.
  rewrite R0. clear R0. cbn [obind app].
  pose proof (read_at ids1 ids1 fl1 [] [] eq_refl (map_length _ _)) as R1. change (zlen (@nil Z)) with 0 in R1.
  rewrite R1. clear R1. cbn [obind app].
  assert (select fl0 ids0 = filter (found_in false t) ids0) as S0 by apply select_filter.
  assert (select fl1 ids1 = filter (found_in true t) ids1) as S1 by apply select_filter.
  set (a := select fl0 ids0) in *. set (b := select fl1 ids1) in *.
  assert (zlen a = zlen (common w0 w1)) as La by (rewrite S0, <- Ca; unfold zlen; now rewrite map_length).
  destruct (compute_pathlist_ok a b ltac:(lia)) as (l & p & f & L & U & El & Ch & O & C & Min).
  assert (zlen b = zlen (common w1 w0)) as Lb by (rewrite S1, <- Cb; unfold zlen; now rewrite map_length).
  destruct (row_cells _ _ _ _ _ _ (proj2 (chain_hd _ _ _ _ _ _ _ Ch)) _ O) as (v & Cv & Fv). rewrite (cell_fun _ _ _ _ _ Cv C) in Fv.
  destruct Fv as (_ & _ & Re & _). replace (zlen a + (zlen b - zlen a)) with (zlen b) in Re by lia.
  destruct (pathlist_counted_ok a b ltac:(lia) p Re Min) as (l2 & w & El2 & Z1 & Z2 & W & Lw2).
  assert (l2 = l) as ->. { pose proof (erase_pathlist a b) as X. rewrite El2, El in X. cbn [erase obind] in X. congruence. }
  rewrite El2. cbn [obind].
  assert (List.length w0 = List.length ids0) as Lw by (rewrite W0; apply map_length).
  destruct (obtain_ok a b (positions fl0 0) l p f L U Ch ltac:(lia) (zlen b - zlen a) (zlen a)
              (repeat false (List.length w0)) O C) as (sel & marks & (Sl & Ss & Sc) & Eo & Lm & Mm).
  { intros i q E. apply positions_range in E. rewrite repeat_zlen. unfold zlen, fl0 in E. rewrite map_length in E. lia. }
  replace (zlen a + (zlen b - zlen a)) with (zlen b) in Ss by lia. rewrite !tk_all in *.
  assert (marks = spread fl0 sel) as ->.
  { apply marks_ext.
    - rewrite spread_length. unfold fl0. rewrite map_length. rewrite repeat_zlen in Lm. unfold zlen in Lm. lia.
    - intros q. rewrite Mm, (spread_true fl0 sel 0 q), Z.add_0_r. split; [|auto].
      intros [Q|Q]; [|exact Q]. exfalso. unfold znth in Q. destruct (q <? 0); [discriminate|].
      apply nth_error_In, repeat_spec in Q. discriminate. }
  assert (select (spread fl0 sel) w0 = map kf (select sel a)) as Sw.
  { rewrite select_spread by (unfold fl0; rewrite map_length; lia). unfold a. now rewrite W0, !select_map. }
  exists (spread fl0 sel), l, w, p. split; [rewrite Eo; reflexivity|]. split; [|split; [exact (proj1 (LcsProof.reach_range _ _ _ _ _ Re))|split; [exact Z1|split; [exact Z2|]]]].
  - rewrite Sw. unfold zlen at 3. rewrite map_length. fold (zlen (select sel a)). lia.
  - rewrite <- La, <- Lb. split; [exact W|]. rewrite Sw. unfold zlen at 1. rewrite map_length. fold (zlen (select sel a)). lia.
Qed.
