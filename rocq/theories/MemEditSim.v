(** Proofs about MemEditModel: the choice of a move, the moves, the deletions. *)
From Coq Require Import String Permutation.
From Verif Require Import Base CLib ListModel ListSpec ListProof TextModel SyncModel EdoModel MemTextProof MemSyncModel MemSyncSpec MemSyncProof MemEditModel MemEditProof.
From Verif Require EditopModel EditopProof.
Local Open Scope Z_scope.
Local Open Scope list_scope.

(** *** The choice *)

Lemma cand_len m bs xs c cs i x : proper m -> Forall2 (is_block m) bs xs -> cands_at m c bs xs cs -> znth cs i = Some x ->
  exists y, (let! ys := get_cands m c in rd "candidate[i]" ys i) = Ok y /\ same_cand bs xs y x /\
    forall n, EditopModel.candidate_length x = Ok n -> len_of m (snd y) = Ok n.
Proof.
  intros P F (ys & Hc & Fc) E. destruct (znth_same _ _ _ _ _ Fc E) as (y & Ey & Sy). exists y. unfold get_cands. rewrite (at_ok _ _ _ P Hc). cbn [obind]. unfold rd. rewrite Ey.
  split; [reflexivity|]. split; [exact Sy|]. intros n En. destruct Sy as (_ & _ & S3). unfold EditopModel.candidate_length in En. destruct (EditopModel.csync x) as [b|]; [|discriminate En].
  injection En as <-. destruct S3 as (z & I & ->). apply len_ok; [exact P|]. eapply in_pairs; eauto.
Qed.

Lemma consider_sim m bs xs c cs st i st' : proper m -> Forall2 (is_block m) bs xs -> cands_at m c bs xs cs ->
  EditopModel.consider cs st i = Ok st' -> consider_cand m c st i = Ok st'.
Proof.
  intros P F C E. destruct st as [found red]. unfold EditopModel.consider in E. unfold consider_cand. unfold rd at 1 in E. destruct (znth cs i) as [x|] eqn:Ex; [|discriminate E]. cbn [obind] in E.
  destruct (cand_len _ _ _ _ _ _ _ P F C Ex) as (y & Ey & (S1 & S2 & _) & Len). destruct (get_cands m c) as [ys|?|?|]; try discriminate Ey. cbn [obind] in *. rewrite Ey. cbn [obind].
  destruct y as [[ins del] s]. cbn [fst snd] in *. subst ins del.
  set (r := 1 + (if EditopModel.for_insertion x then 1 else 0) + (if EditopModel.for_deletion x then 1 else 0)) in *.
  destruct (red <? r) eqn:Lt.
  - cbn [obind] in *. destruct (EditopModel.candidate_length x) as [n|?|?|] eqn:En; try discriminate E. now rewrite (Len n eq_refl).
  - destruct (r =? red).
    + destruct (EditopModel.candidate_length x) as [n|?|?|] eqn:En; try discriminate E. rewrite (Len n eq_refl). cbn [obind] in *.
      destruct found as [[mi ml]|]; [|discriminate E]. cbn [obind] in *. destruct (n <? ml); exact E.
    + exact E.
Qed.

Lemma find_cand_ok l m bs xs c cs b : proper m -> blist l m bs xs -> cands_at m c bs xs cs -> EditopModel.find_move bs cs = Ok b ->
  exists z, find_cand l m c = Ok (item_at z) /\ In (b, z) (combine bs xs).
Proof.
  intros P H C E. unfold EditopModel.find_move in E. unfold find_cand. rewrite (blist_count _ _ _ _ H). unfold zlen at 1. rewrite Nat2Z.id.
  destruct (ofold (EditopModel.consider cs) _ _) as [[found red]|?|?|] eqn:Ef; try discriminate E. cbn [obind] in E.
  assert (forall is st st', ofold (EditopModel.consider cs) is st = Ok st' -> ofold (consider_cand m c) is st = Ok st') as K.
  { induction is as [|i is IH]; intros st st' Q; [exact Q|]. cbn [ofold] in *. destruct (EditopModel.consider cs st i) as [st1|?|?|] eqn:E1; try discriminate Q.
    rewrite (consider_sim _ _ _ _ _ _ _ _ P (bl_cells _ _ _ _ H) C E1). cbn [obind] in *. now apply IH. }
  rewrite (K _ _ _ Ef). cbn [obind]. destruct found as [[mi ml]|]; [|discriminate E]. unfold rd at 1 in E. destruct (znth cs mi) as [x|] eqn:Ex; [|discriminate E]. cbn [obind] in E.
  destruct C as (ys & Hc & Fc). destruct (znth_same _ _ _ _ _ Fc Ex) as (y & Ey & (_ & _ & S3)). unfold get_cands. rewrite (at_ok _ _ _ P Hc). cbn [obind]. unfold rd. rewrite Ey. cbn [obind].
  destruct (EditopModel.csync x) as [b'|]; [|discriminate E]. injection E as ->. destruct S3 as (z & I & S). destruct y as [[i d] s]. cbn [snd] in S. subst s. exists z. auto.
Qed.

(** *** The move *)

Lemma pairs_split {A B} (bs : list A) (xs : list B) p b q z : NoDup bs -> List.length bs = List.length xs -> bs = p ++ b :: q -> In (b, z) (combine bs xs) ->
  exists XP XQ, xs = XP ++ z :: XQ /\ List.length XP = List.length p.
Proof.
  intros N L E. subst bs. revert xs L. induction p as [|b' p IH]; intros [|x xs] L I; cbn [app List.length] in L; try discriminate L.
  - cbn [combine app] in I. destruct I as [Q|I]; [injection Q as <-; exists [], xs; auto|]. exfalso. cbn [app] in N. inversion N as [|? ? N1 _]; subst. apply N1. eapply in_combine_l; eauto.
  - cbn [combine app] in I. cbn [app] in N. inversion N as [|? ? N1 N2]; subst. destruct I as [Q|I].
    + injection Q as Q1 Q2. exfalso. apply N1. rewrite Q1. apply in_or_app. right. now left.
    + destruct (IH N2 xs) as (XP & XQ & -> & L2); [now injection L|exact I|]. exists (x :: XP), XQ. split; [reflexivity|]. cbn. now rewrite L2.
Qed.

Lemma cand_at m c bs xs cs i b y : proper m -> cands_at m c bs xs cs -> znth cs i = Some y -> EditopModel.csync y = Some b ->
  exists ins del z, (let! ys := get_cands m c in rd "candidate[i]" ys i) = Ok (ins, del, item_at z) /\ In (b, z) (combine bs xs).
Proof.
  intros P (ys & Hc & Fc) E Ec. destruct (znth_same _ _ _ _ _ Fc E) as (x & Ey & (_ & _ & S3)). rewrite Ec in S3. destruct S3 as (z & I & S).
  unfold get_cands. rewrite (at_ok _ _ _ P Hc). cbn [obind]. unfold rd. rewrite Ey. destruct x as [[ins del] s]. cbn [snd] in S. subst s. eauto.
Qed.

Lemma split_len {A} (p q p' q' : list A) : p ++ q = p' ++ q' -> forall {B} (xs : list B), List.length xs = List.length (p ++ q) ->
  exists xp xq, xs = xp ++ xq /\ List.length xp = List.length p'.
Proof.
  intros E B xs L. exists (firstn (List.length p') xs), (skipn (List.length p') xs). rewrite firstn_skipn. split; [reflexivity|]. apply firstn_length_le. rewrite L, E, app_length. lia.
Qed.

Lemma nodup_blocks (bs : list eblock) : NoDup (map bmatch bs) -> NoDup bs.
Proof. apply NoDup_map_inv. Qed.

Lemma move_item_ok l m bs xs c cs p x q p' q' z d d' : proper m -> blist l m bs xs -> ~ In c (own xs) -> cands_at m c bs xs cs -> NoDup (map bmatch bs) ->
  bs = p ++ x :: q -> p ++ q = p' ++ q' -> In (x, z) (combine bs xs) ->
  (forall i, 1 <= i <= zlen bs -> exists y, znth cs i = Some y /\ EditopModel.csync y = EditopProof.lk bs i) ->
  1 < zlen bs -> 1 <= bmatch x <= zlen bs ->
  EditopProof.placed x p' q' -> EditopModel.perform_move bs cs x d = Ok (p' ++ x :: q', d') ->
  exists l' m' xs', move_item l m c (item_at z) d = Ok (l', m', d') /\ blist l' m' (p' ++ x :: q') xs' /\ held m' = held m /\
    (forall a, ~ In a (own xs) -> slinks m' a = slinks m a) /\ Permutation xs xs'.
Proof.
  intros P H Nc C N Eb Epq Iz Cs L1 Rg Pl E. pose proof (blist_len _ _ _ _ H) as Len. pose proof (nodup_blocks _ N) as Nb.
  destruct (pairs_split bs xs p x q z Nb Len Eb Iz) as (XP & XQ & Ex & Lp).
  pose proof (blist_alloc _ _ _ _ H) as Al. rewrite Forall_forall in Al.
  assert (forall a, In a (map item_at xs) -> allocated m a) as Ali by (intros a I; apply Al; unfold own; apply in_app_iff; now left).
  pose proof (bl_inv _ _ _ _ H) as I. pose proof I as I0. rewrite Ex, map_app in I0. cbn [map] in I0.
  destruct (take_out_ok l m (map item_at XP) (item_at z) (map item_at XQ) P I0) as (l1 & m1 & E1 & I1 & Hm1 & K1).
  { apply Forall_forall. intros a J. apply Ali. rewrite Ex, map_app. exact J. }
  unfold move_item. rewrite E1. cbn [obind]. assert (proper m1) as P1 by (unfold proper, allocated; now rewrite Hm1).
  assert (forall b y, is_block m b y -> is_block m1 b y) as Kb by (intros b y; unfold is_block; now rewrite Hm1).
  assert (is_block m x z) as Hz by (eapply in_pairs; [exact (bl_cells _ _ _ _ H)|exact Iz]).
  rewrite (number_ok _ _ _ P1 (Kb _ _ Hz)). cbn [obind].
  assert (cands_at m1 c bs xs cs) as C1 by (destruct C as (ys & C1 & C2); exists ys; split; [now rewrite Hm1|exact C2]).
  (* the items without z *)
  assert (Datatypes.length (XP ++ XQ) = Datatypes.length (p ++ q)) as Lpq.
  { rewrite Eb, Ex, !app_length in Len. cbn in Len. rewrite !app_length. lia. }
  destruct (split_len p q p' q' Epq (XP ++ XQ) Lpq) as (XP' & XQ' & Exq & Lp').
  assert (Datatypes.length XQ' = Datatypes.length q') as Lq'. { rewrite Exq, Epq, !app_length in Lpq. lia. }
  assert (Forall2 (is_block m) (p' ++ q') (XP' ++ XQ')) as Fpq.
  { rewrite <- Epq, <- Exq. pose proof (bl_cells _ _ _ _ H) as F. rewrite Eb, Ex in F. destruct (split_cells _ _ _ _ _ F (eq_sym Lp)) as [F1 F2]. inversion F2; subst. now apply Forall2_app. }
  destruct (split_cells _ _ _ _ _ Fpq (eq_sym Lp')) as [Fp' Fq'].
  rewrite <- map_app, Exq, map_app in I1.
  assert (~ In (item_at z) (map item_at (XP' ++ XQ'))) as Nz.
  { rewrite <- Exq, map_app. apply inv_nodup in I0. apply (NoDup_remove_2 _ _ _ I0). }
  assert (Forall (allocated m1) (item_at z :: map item_at XP' ++ map item_at XQ')) as Al1.
  { rewrite <- map_app, <- Exq. apply Forall_forall. intros a J. unfold allocated. rewrite Hm1. apply Ali. rewrite Ex, map_app. cbn [map].
    destruct J as [<-|J]; [apply in_or_app; right; now left|]. rewrite map_app in J. apply in_app_iff in J. apply in_or_app. cbn. tauto. }
  (* the reference item is what the array says *)
  assert (forall i b y, 1 <= i <= zlen bs -> In (b, y) (combine (p' ++ q') (XP' ++ XQ')) -> bmatch b = i ->
    exists ins del, (let! ys := get_cands m1 c in rd "candidate[i]" ys i) = Ok (ins, del, item_at y)) as Ref.
  { intros i b y Hi J Eb'. destruct (Cs i Hi) as (k & Ek & Es).
    assert (In b bs) as Ib. { apply in_combine_l in J. rewrite <- Epq in J. rewrite Eb. apply in_app_iff in J. apply in_or_app. cbn. tauto. }
    rewrite <- Eb' in Es. rewrite (EditopProof.lk_In bs b N Ib) in Es.
    destruct (cand_at m1 c bs xs cs i b k P1 C1 Ek Es) as (ins & del & y' & Ey & J'). exists ins, del. rewrite Ey.
    assert (y' = y); [|now subst].
    assert (In (b, y) (combine bs xs)) as J2.
    { rewrite <- Epq, <- Exq in J. rewrite Eb, Ex. clear -J Lp. revert XP Lp J. induction p as [|k p IH]; intros [|w XP] Lp J; try discriminate Lp; cbn [app combine] in *.
      - now right.
      - destruct J as [J|J]; [now left|]. right. apply IH; [now injection Lp|exact J]. }
    clear -Nb J' J2 Len. revert xs Len J' J2. induction bs as [|k bs IH]; intros [|w xs] Len J' J2; try discriminate Len; [destruct J'|]. cbn [combine] in *. inversion Nb as [|? ? N1 N2]; subst.
    destruct J' as [Q|J'], J2 as [Q2|J2].
    - congruence.
    - exfalso. apply N1. injection Q as -> _. eapply in_combine_l; eauto.
    - exfalso. apply N1. injection Q2 as -> _. eapply in_combine_l; eauto.
    - apply (IH N2 xs); auto. }
  assert (exists l2 m2, (let! cs0 := get_cands m1 c in
      if bmatch x =? 1 then let! (_, _, y) := rd "candidate[i]" cs0 2 in put_before l1 m1 (item_at z) y
      else let! (_, _, y) := rd "candidate[i]" cs0 (bmatch x - 1) in put_after l1 m1 y (item_at z)) = Ok (l2, m2) /\
    inv l2 (slinks m2) (map item_at (XP' ++ z :: XQ')) /\ held m2 = held m1 /\
    (forall a, ~ In a (map item_at (XP' ++ z :: XQ')) -> slinks m2 a = slinks m1 a)) as (l2 & m2 & E2 & I2 & Hm2 & K2).
  { destruct Pl as [Pl1 Pl2]. destruct (Z.eqb_spec (bmatch x) 1) as [Ex1|Ex1].
    - destruct (Pl1 Ex1) as (y & q2 & Eq & Ey). subst q'. inversion Fq' as [|? zy ? XQ2 Hy Fq2]; subst XQ'. subst x0 l0.
      destruct (Ref 2 y zy) as (ins & del & ER); [lia| |lia|].
      { clear -Lp'. revert p' Lp'. induction XP' as [|w XP' IH]; intros [|k p'] Lp'; try discriminate Lp'; [now left|]. right. apply IH. now injection Lp'. }
      destruct (get_cands m1 c) as [ys|?|?|]; try discriminate ER. cbn [obind] in *. rewrite ER. cbn [obind].
      cbn [map] in I1, Al1. rewrite map_app in Nz. cbn [map] in Nz.
      destruct (put_before_ok l1 m1 (map item_at XP') (item_at zy) (map item_at XQ2) (item_at z) P1 I1 Al1 Nz) as (l2 & m2 & E2 & I2 & H2 & K2).
      exists l2, m2. split; [exact E2|]. split; [rewrite map_app; exact I2|]. split; [exact H2|]. intros a J. apply K2. intros Q. apply J. rewrite map_app. cbn [map In] in *. rewrite in_app_iff in *. cbn [In] in *. tauto.
    - destruct (Pl2 Ex1) as (p2 & y & Ep & Ey). subst p'. destruct (snoc_cases XP') as [->|(XP2 & zy & ->)]; [rewrite app_length in Lp'; cbn in Lp'; lia|].
      assert (Datatypes.length p2 = Datatypes.length XP2) as Lp2 by (rewrite !app_length in Lp'; cbn in Lp'; lia).
      destruct (Ref (bmatch x - 1) y zy) as (ins & del & ER); [lia| |lia|].
      { rewrite <- !app_assoc. cbn [app]. clear -Lp2. revert XP2 Lp2. induction p2 as [|k p2 IH]; intros [|w XP2] Lp2; try discriminate Lp2; [now left|]. right. apply IH. now injection Lp2. }
      destruct (get_cands m1 c) as [ys|?|?|]; try discriminate ER. cbn [obind] in *. rewrite ER. cbn [obind].
      rewrite map_app, <- app_assoc in I1, Al1. cbn [map app] in I1, Al1. rewrite !map_app, <- app_assoc in Nz. cbn [map app] in Nz.
      destruct (put_after_ok l1 m1 (map item_at XP2) (item_at zy) (map item_at XQ') (item_at z) P1 I1 Al1 Nz) as (l2 & m2 & E2 & I2 & H2 & K2).
      exists l2, m2. split; [exact E2|]. split; [rewrite !map_app, <- app_assoc; exact I2|]. split; [exact H2|]. intros a J. apply K2. intros Q. apply J.
      rewrite !map_app, <- app_assoc. cbn [map In app] in *. rewrite in_app_iff in *. cbn [In] in *. tauto. }
  destruct (get_cands m1 c) as [ys|?|?|]; try discriminate E2. cbn [obind] in E2 |- *. rewrite E2. cbn [obind].
  assert (proper m2) as P2 by (unfold proper, allocated; rewrite Hm2; exact P1).
  assert (is_block m2 x z) as Hz2. { pose proof (Kb _ _ Hz) as Q. unfold is_block in *. now rewrite Hm2. }
  rewrite (len_ok _ _ _ P2 Hz2). cbn [obind].
  (* the counters *)
  unfold EditopModel.perform_move in E. destruct (EditopModel.list_remove bs x) as [lr|?|?|]; try discriminate E. cbn [obind] in E.
  match type of E with obind ?e _ = _ => destruct e as [li|?|?|]; try discriminate E end. cbn [obind] in E.
  destruct (add_at (moves d) (Z.min (blen x) MAX_MOVE_LENGTH) 1) as [ms|?|?|] eqn:Em; try discriminate E. cbn [obind] in E. injection E as _ Ed. cbn [obind]. rewrite Ed.
  assert (Permutation xs (XP' ++ z :: XQ')) as Pm.
  { rewrite Ex. eapply Permutation_trans; [apply Permutation_sym, Permutation_middle|]. eapply Permutation_trans; [|apply Permutation_middle]. rewrite Exq. apply Permutation_refl. }
  exists l2, m2, (XP' ++ z :: XQ'). split; [reflexivity|]. split; [|split; [congruence|split; [|exact Pm]]].
  - constructor; [exact I2| |eapply Permutation_NoDup; [apply Permutation_map; exact Pm|exact (bl_arr _ _ _ _ H)]|eapply Permutation_NoDup; [apply Permutation_map; exact Pm|exact (bl_num _ _ _ _ H)]].
    assert (forall bs0 ys0, Forall2 (is_block m) bs0 ys0 -> Forall2 (is_block m2) bs0 ys0) as K.
    { intros bs0 ys0 G. induction G as [|k w bs0 ys0 Hy G IH]; constructor; [|exact IH]. unfold is_block in *. now rewrite Hm2, Hm1. }
    apply Forall2_app; [now apply K|]. constructor; [exact Hz2|now apply K].
  - intros a Na. assert (~ In a (map item_at xs)) as Ni by (intros Q; apply Na; unfold own; apply in_app_iff; now left).
    rewrite K2, K1; [reflexivity| |].
    + intros Q. apply Ni. rewrite Ex, map_app. exact Q.
    + intros Q. apply Ni. eapply Permutation_in; [apply Permutation_sym, Permutation_map; exact Pm|exact Q].
Qed.
