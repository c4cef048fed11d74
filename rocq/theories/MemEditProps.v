(** C80: the memory of edit operations. *)
From Coq Require Import String Permutation.
From Verif Require Import Base CLib AccSpec SumProof ListModel ListSpec ListProof TextModel SyncModel SyncSpec EdoModel MemTextProof MemWordProof MemSyncModel MemSyncSpec MemSyncProof MemSyncSim MemTransProof MemSyncProps MemEditModel MemEditProof MemEditSim MemEditLoop.
From Verif Require EditopModel EditopSpec EditopProof EditopProps TraceProps.
Local Open Scope Z_scope.
Local Open Scope list_scope.

Lemma chain_single t : forall l pos, EditopProof.chain t pos l -> Forall single l.
Proof. induction l as [|it l IH]; intros pos H; constructor; cbn [EditopProof.chain] in H; destruct H as (u & E & H); [exists u; exact E|]. eapply IH. apply H. Qed.

Lemma adds_moved xs m m' : adds_exactly xs m m' -> proper m' -> moved m m' [] xs.
Proof.
  intros (N & F & A & K) P. rewrite Forall_forall in F. constructor; [| |auto].
  - intros a Aa _. destruct (K a Aa) as [K1 K2]. repeat split; auto. intros I. exact (F a I Aa).
  - intros a. rewrite A. cbn. tauto.
Qed.

Lemma blocks_total t : forall l pos, 0 <= pos -> EditopProof.chain t pos l -> zsum (map blen (EditopProof.blocks l)) = zlen (EditopSpec.matched_part t l).
Proof.
  induction l as [|it l IH]; intros pos Hp H; [reflexivity|]. cbn [EditopProof.chain] in H. destruct H as (u & E & E1 & E2 & E3 & E4 & E5).
  unfold EditopProof.blocks, EditopSpec.matched_part in *. cbn [flat_map filter]. unfold is_match at 1. destruct (inum it) as [k|]; [|cbn [app]; apply (IH (pos + slen u)); [lia|exact E5]].
  cbn [flat_map]. rewrite map_app, zsum_app, zlen_app, (IH (pos + slen u)) by (auto; lia). f_equal. unfold EditopSpec.piece. rewrite E. cbn [map EditopModel.blen].
  rewrite EditopProof.slice_len by lia. rewrite !zsum_cons. change (zsum []) with 0. lia.
Qed.

Lemma left_over t2 its2 its1 G' s' bs' l3 m3 xs3 : EditopProof.chain t2 0 its2 ->
  EditopProof.rep (EditopSpec.length_of its2) (fun n : Z => [n]) (EditopProof.blocks its2) (EditopSpec.numbers its2) (EditopSpec.numbers its1) ->
  EditopProof.rep (EditopSpec.length_of its2) G' bs' s' (EditopSpec.numbers its1) -> blist l3 m3 bs' xs3 -> proper m3 -> zlen bs' <= 1 ->
  Forall (fun x => number_of m3 (item_at x) = Ok 1 /\ len_of m3 (item_at x) = Ok (zlen t2 - zlen (EditopSpec.unmatched_part t2 its2))) xs3.
Proof.
  intros C R R3 B3 P L. pose proof (bl_cells _ _ _ _ B3) as F. destruct F as [|b x bs xs Hx F]; [constructor|].
  assert (bs = []) as -> by (destruct bs; [reflexivity|]; rewrite !zlen_cons in L; pose proof (zlen_nonneg bs); lia). inversion F; subst. constructor; [|constructor].
  pose proof (EditopProof.rep_range _ _ _ _ _ b R3 (or_introl eq_refl)) as Rb. change (zlen [b]) with 1 in Rb. assert (bmatch b = 1) as Eb by lia.
  split; [rewrite <- Eb; now apply number_ok|]. rewrite (len_ok _ _ _ P Hx). f_equal.
  pose proof (EditopProof.r_len _ _ _ _ _ R3) as Lb. apply Forall_cons_iff in Lb as [(Lb & _) _]. rewrite Lb, Eb.
  pose proof (EditopProof.r_tgt _ _ _ _ _ R3) as Tg. cbn [List.length zrange flat_map] in Tg. rewrite app_nil_r in Tg. rewrite Tg.
  assert (zsum (map (EditopSpec.length_of its2) (EditopSpec.numbers its1)) = zsum (map blen (EditopProof.blocks its2))) as ->.
  { rewrite <- (EditopProof.r_tgt _ _ _ _ _ R). assert (forall ks : list Z, flat_map (fun n : Z => [n]) ks = ks) as Q by (induction ks; cbn; congruence). rewrite Q.
    rewrite <- (TraceProps.zsum_perm _ _ (Permutation_map (EditopSpec.length_of its2) (EditopProof.r_perm _ _ _ _ _ R))), map_map. f_equal. apply map_ext_in. intros k I.
    pose proof (EditopProof.r_len _ _ _ _ _ R) as Lk. rewrite Forall_forall in Lk. destruct (Lk k I) as (Q2 & _). rewrite Q2. cbn [map]. rewrite zsum_cons. change (zsum []) with 0. lia. }
  rewrite (blocks_total t2 its2 0 ltac:(lia) C). pose proof (EditopProps.unmatched_bound t2 its2) as U. rewrite (EditopProof.chain_pieces t2 its2 0 ltac:(lia) C) in U. cbn [skipn Z.to_nat] in U. lia.
Qed.

(** The edit operations of editop, whatever addresses calloc returns (also those of blocks that were freed): either memory runs
    out, or the numbers of operations are those of the computation on sequences; no block is accessed that is not allocated,
    and none is freed that is not.  Afterwards exactly the items of the first list with their arrays, and at most one item of the second list with
    its array and its number are allocated in addition to what was allocated before, which is unchanged: all other items that transpose_sync made, all
    other numbers and all arrays of candidates have been freed.  The item that is left has the number 1 and covers all characters of the second text that
    are not deleted. *)
Theorem C80_operations : forall alloc m t1 t2, sound_calloc alloc -> proper m ->
  edit_lists alloc m t1 t2 = Fail no_memory \/
  exists l1 l2 m' d xs1 xs2, edit_lists alloc m t1 t2 = Ok (l1, l2, m', d) /\
    EditopModel.edit_operations t1 t2 = Ok d /\
    presents l1 (slinks m') (map item_at xs1) /\ presents l2 (slinks m') (map item_at xs2) /\ zlen xs2 <= 1 /\
    Forall (fun x => number_of m' (item_at x) = Ok 1 /\ len_of m' (item_at x) = Ok (zlen t2 - deletions d)) xs2 /\
    adds_exactly (map item_at xs1 ++ map array_at xs1 ++ map item_at xs2 ++ map array_at xs2 ++ map number_at xs2) m m' /\ proper m'.
Proof.
  intros alloc m t1 t2 A P. unfold edit_lists.
  destruct (C78_transpose alloc m t1 t2 A P) as [->|(l1 & l2 & m1 & its1 & its2 & xs1 & xs2 & -> & Et & S1 & S2 & Pm & Ad & P1)]; [now left|]. cbn [obind].
  destruct (EditopProps.edit_operations_ok t1 t2 its1 its2 Et) as (d & ls & Ed & _ & Dd & _ & _ & _ & _ & _ & C1 & C2 & R & _ & (bs' & Ec)).
  pose proof (EditopProof.insertions_ok t1 its1 0 0 ltac:(lia) C1) as Ei. pose proof (EditopProof.deletions_ok t2 its2 0 0 ltac:(lia) C2) as Edl. rewrite Z.add_0_l in Ei, Edl.
  destruct S1 as [Pr1 F1], S2 as [Pr2 F2]. apply presents_inv in Pr1. apply presents_inv in Pr2.
  pose proof Ad as (Nd & _). destruct (NoDup_app_inv _ _ Nd) as (_ & Nd1 & D1). destruct (NoDup_app_inv _ _ Nd1) as (Na1 & Nd2 & D2). destruct (NoDup_app_inv _ _ Nd2) as (_ & Nd3 & D3). destruct (NoDup_app_inv _ _ Nd3) as (Na2 & Nn1 & D4).
  assert (NoDup (numbers_at xs2)) as Nn2 by (eapply Permutation_NoDup; [exact Pm|exact Nn1]).
  assert (ilist l1 m1 its1 xs1) as I1 by (constructor; auto). assert (ilist l2 m1 its2 xs2) as I2 by (constructor; auto).
  rewrite (inv_first _ _ _ Pr1), (inv_count _ _ _ Pr1).
  rewrite (insertions_from_ok l1 t1 its1 xs1 [] [] m1 _ 0 _ P1 I1 eq_refl Ei).
  2:{ unfold zlen. rewrite map_length, (ilist_len _ _ _ _ I1). lia. }
  cbn [obind]. rewrite (inv_first _ _ _ Pr2), (inv_count _ _ _ Pr2).
  destruct (deletions_from_ok its2 xs2 (Z.to_nat (zlen (map item_at xs2))) l2 m1 [] [] 0 _ _ P1 I2 eq_refl (chain_single _ _ _ C2) Edl) as (l2' & m2 & its2' & xs2' & -> & I2' & Lk & M2 & P2).
  { unfold zlen. rewrite map_length, (ilist_len _ _ _ _ I2). lia. }
  cbn [obind app] in *. destruct (ilist_blist _ _ _ _ _ P2 I2' Lk) as [B2 Eo].
  match type of Ec with EditopModel.count_moves _ ?e = _ => set (d0 := e) in * end.
  destruct (moves_list_ok alloc A (EditopSpec.length_of its2) _ _ _ _ d0 l2' m2 xs2' bs' d R eq_refl P2 B2 Ec) as [->|(l3 & m3 & xs3 & -> & B3 & L3 & (G' & s' & R3) & M3 & P3)]; [now left|].
  cbn [obind]. right.
  assert (moved m1 m3 (iown xs2) (own xs3)) as M.
  { eapply moved_trans; [exact M2|]. eapply moved_equiv; [| |exact M3]; [intros a; symmetry; apply Eo|reflexivity]. }
  set (ones := map item_at xs1 ++ map array_at xs1).
  assert (forall a, In a ones -> ~ In a (iown xs2)) as Dis.
  { intros a J K. unfold ones in J. unfold iown in K. rewrite !in_app_iff in *.
    assert (In a (map item_at xs2) \/ In a (map array_at xs2) \/ In a (numbers_at xs1)) as K2.
    { destruct K as [K|[K|K]]; auto. right. right. eapply Permutation_in; [apply Permutation_sym; exact Pm|exact K]. }
    destruct J as [J|J]; [apply (D1 a J)|apply (D2 a J)]; rewrite ?in_app_iff; tauto. }
  assert (Forall (allocated m1) ones) as Al1.
  { apply Forall_forall. intros a J. apply (proj1 (proj2 (proj2 Ad)) a). right. unfold ones in J. rewrite !in_app_iff in *. tauto. }
  assert (moved m m3 [] (own xs3 ++ ones)) as Mall.
  { eapply moved_trans; [apply (adds_moved _ _ _ Ad P1)|]. eapply moved_equiv; [| |apply (moved_frame _ _ _ _ ones M Al1)].
    - intros a. unfold ones, iown. rewrite !in_app_iff. assert (In a (numbers_at xs2) <-> In a (numbers_at xs1)) as Q by (split; intros J; [eapply Permutation_in; [apply Permutation_sym; exact Pm|exact J]|eapply Permutation_in; [exact Pm|exact J]]). tauto.
    - reflexivity.
    - intros a J K. exact (Dis a J K). }
  assert (forall a, In a ones -> held m3 a = held m1 a /\ slinks m3 a = slinks m1 a /\ ~ In a (own xs3)) as Same.
  { intros a J. rewrite Forall_forall in Al1. apply (mv_same _ _ _ _ M a (Al1 a J) (Dis a J)). }
  exists l1, l3, m3, d, xs1, xs3. split; [reflexivity|]. split; [exact Ed|]. split; [|split; [|split; [|split; [|split]]]].
  - apply inv_presents. eapply inv_frame; [|exact Pr1]. intros a J. apply Same. unfold ones. apply in_or_app. now left.
  - apply inv_presents. exact (bl_inv _ _ _ _ B3).
  - unfold zlen in *. rewrite <- (blist_len _ _ _ _ B3). exact L3.
  - replace (deletions d) with (zlen (EditopSpec.unmatched_part t2 its2)) by (symmetry; exact Dd). eapply left_over; eauto.
  - rewrite app_assoc. fold ones. fold (own xs3). apply moved_adds.
    + eapply moved_equiv; [| |exact Mall]; [reflexivity|]. intros a. rewrite !in_app_iff. tauto.
    + apply NoDup_join.
      * unfold ones. apply NoDup_join; [apply inv_nodup in Pr1; exact Pr1|exact Na1|]. intros a J K. apply (D1 a J). rewrite in_app_iff. tauto.
      * destruct B3 as [Bi Bf Ba Bn]. unfold own. apply NoDup_join; [apply inv_nodup in Bi; exact Bi|apply NoDup_join; [exact Ba|exact Bn|]|].
        -- intros a J K. apply in_map_iff in J as (x & <- & J). apply in_map_iff in K as (y & Q & K).
           destruct (cells_kind _ _ _ _ Bf J) as (b & _ & Hb). destruct (cells_kind _ _ _ _ Bf K) as (b' & _ & Hb'). destruct (block_kinds _ _ _ _ _ Hb Hb') as (_ & _ & K3). congruence.
        -- intros a J K. apply in_map_iff in J as (x & <- & J). destruct (cells_kind _ _ _ _ Bf J) as (b & _ & Hb). apply in_app_iff in K as [K|K]; apply in_map_iff in K as (y & Q & K);
             destruct (cells_kind _ _ _ _ Bf K) as (b' & _ & Hb'); destruct (block_kinds _ _ _ _ _ Hb Hb') as (K1 & K2 & _); congruence.
      * intros a J K. exact (proj2 (proj2 (Same a J)) K).
  - exact P3.
Qed.
Print Assumptions C80_operations.

(** The first list still has the addresses of numbers that have been freed with items of the second: a program that used it
    after counting the moves would read memory that is not allocated.  (editop does not.) *)
Definition first_numbers_usable (r : outcome (header * header * store * edodata)) : Prop :=
  match r with
  | Ok (l1, _, m, _) => match number_of m (first l1), number_of m (next (slinks m (first l1))) with Ok _, Ok _ => True | _, _ => False end
  | _ => False
  end.
Theorem C80_first_list_refuted :
  ~ (forall alloc m t1 t2, sound_calloc alloc -> proper m -> edit_lists alloc m t1 t2 = Fail no_memory \/ first_numbers_usable (edit_lists alloc m t1 t2)).
Proof.
  intros H. destruct (H counting nothing [97; 98] [98; 97] (proj1 C78_ex_calloc) (proj1 (proj2 C78_ex_calloc))) as [E|E].
  - assert (match edit_lists counting nothing [97; 98] [98; 97] with Fail _ => false | _ => true end = true) as Q by (vm_compute; reflexivity). now rewrite E in Q.
  - vm_compute in E. exact E.
Qed.
Print Assumptions C80_first_list_refuted.

(** Two texts with a deletion, an insertion and a move; memory does not run out. *)
Example C80_ex : match edit_lists counting nothing [97; 98; 99; 120] [121; 99; 97; 98] with
  | Ok (l1, l2, m, d) => insertions d = 1 /\ deletions d = 1 /\ total_moves d = 1 /\ count l1 = 3 /\ count l2 = 1 /\
      number_of m (first l2) = Ok 1 /\ len_of m (first l2) = Ok 3
  | _ => False end.
Proof. vm_compute. repeat split. Qed.
