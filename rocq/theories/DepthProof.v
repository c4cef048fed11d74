(** Proofs about the depth of the calls (DepthModel). *)
From Coq Require Import String Permutation.
From Verif Require Import Base SortModel SortSpec SortProof SyncModel WordTable WordModel DepthModel.
Local Open Scope Z_scope.
Local Open Scope list_scope.

(** *** The depth is at most the fuel, and the results are those of the models without depth. *)

Lemma quicksort_depth_fuel {A} (cmp : A -> A -> Z) : forall fuel a left right r,
  quicksort cmp fuel a left right = Ok r ->
  exists d, quicksort_depth cmp fuel a left right = Ok (r, d) /\ 1 <= d <= Z.of_nat fuel.
Proof.
  induction fuel as [|f IH]; intros a left right r E; cbn [quicksort quicksort_depth] in *; [discriminate E|].
  destruct (rd "sort index" a left) as [ref| | |]; cbn [obind] in *; try discriminate E.
  destruct (partition_loop _ _ _ _ _ _) as [[[a1 i] j]| | |]; cbn [obind] in *; try discriminate E.
  destruct (wr "sort index" a1 j ref) as [a2| | |]; cbn [obind] in *; try discriminate E.
  assert (exists a3 d1, (if left <? j - 1 then quicksort_depth cmp f a2 left (j - 1) else Ok (a2, 0)) = Ok (a3, d1) /\
            (if left <? j - 1 then quicksort cmp f a2 left (j - 1) else Ok a2) = Ok a3 /\
            0 <= d1 <= Z.of_nat f) as (a3 & d1 & E1 & E2 & B1).
  { destruct (left <? j - 1).
    - destruct (quicksort cmp f a2 left (j - 1)) as [a3| | |] eqn:Q; cbn [obind] in E; try discriminate E.
      destruct (IH _ _ _ _ Q) as (d & Ed & Bd). exists a3, d. repeat split; auto; lia.
    - exists a2, 0. repeat split; auto; lia. }
  rewrite E2 in E. cbn [obind] in E. rewrite E1. cbn [obind].
  destruct (i + 1 <? right).
  - destruct (IH _ _ _ _ E) as (d & -> & Bd). cbn [obind]. exists (1 + Z.max d1 d). split; [reflexivity|lia].
  - injection E as <-. cbn [obind]. exists (1 + Z.max d1 0). split; [reflexivity|lia].
Qed.

Lemma recursive_depth_fuel texts : forall fuel sl id r,
  recursive_sync fuel texts sl id = Ok r ->
  exists d, recursive_depth fuel texts sl id = Ok (r, d) /\ 1 <= d <= Z.of_nat fuel.
Proof.
  induction fuel as [|f IH]; intros sl id r E; cbn [recursive_sync recursive_depth] in *; [discriminate E|].
  destruct (get_item (items sl) id) as [s|]; [|discriminate E].
  destruct (existsb _ (subs s)). { injection E as <-. exists 1. split; [reflexivity|lia]. }
  destruct texts as [|t0 trest]; [discriminate E|]. destruct (subs s) as [|s0 srest]; [discriminate E|].
  destruct (match_rest _ _ _ _) as [[[starts len]|]| | |]; cbn [obind] in *; try discriminate E.
  2:{ injection E as <-. exists 1. split; [reflexivity|lia]. }
  destruct (save_match _ _ _ _ _) as [sl1| | |]; cbn [obind] in *; try discriminate E.
  assert (exists sl2 d1,
            match prev_id None (items sl1) id with Some p => recursive_depth f (t0 :: trest) sl1 p | None => Ok (sl1, 0) end = Ok (sl2, d1) /\
            match prev_id None (items sl1) id with Some p => recursive_sync f (t0 :: trest) sl1 p | None => Ok sl1 end = Ok sl2 /\
            0 <= d1 <= Z.of_nat f) as (sl2 & d1 & E1 & E2 & B1).
  { destruct (prev_id None (items sl1) id) as [p|].
    - destruct (recursive_sync f (t0 :: trest) sl1 p) as [sl2| | |] eqn:Q; cbn [obind] in E; try discriminate E.
      destruct (IH _ _ _ Q) as (d & Ed & Bd). exists sl2, d. repeat split; auto; lia.
    - exists sl1, 0. repeat split; auto; lia. }
  rewrite E2 in E. cbn [obind] in E. rewrite E1. cbn [obind].
  destruct (next_id (items sl2) id) as [q|].
  - destruct (IH _ _ _ E) as (d & -> & Bd). cbn [obind]. exists (1 + Z.max d1 d). split; [reflexivity|lia].
  - injection E as <-. cbn [obind]. exists (1 + Z.max d1 0). split; [reflexivity|lia].
Qed.

Lemma synchronize_depth_ok texts l : synchronize texts = Ok l ->
  exists d, synchronize_depth texts = Ok (l, d) /\ 0 <= d <= zlen (hd [] texts) + 1.
Proof.
  unfold synchronize, synchronize_depth. destruct (_ || _); [intros E; discriminate E|]. intros E.
  destruct (items (initialize_synclist texts 1)) as [|s rest] eqn:Ei.
  - cbn [obind] in *. injection E as <-. exists 0. split; [reflexivity|]. pose proof (zlen_nonneg (hd [] texts)). lia.
  - destruct (recursive_sync _ _ _ _) as [sl| | |] eqn:R; cbn [obind] in E; try discriminate E.
    injection E as <-. apply recursive_depth_fuel in R as (d & -> & B). cbn [obind].
    exists d. split; [reflexivity|]. unfold zlen. lia.
Qed.

(** *** sort: one call less than elements *)

Lemma quicksort_less {A} (cmp : A -> A -> Z) : forall fuel a left right,
  0 <= left -> left < right -> right < zlen a -> right - left <= Z.of_nat fuel ->
  exists a', quicksort cmp fuel a left right = Ok a' /\ zlen a' = zlen a.
Proof.
  induction fuel as [|fuel IH]; intros a left right Hl Hlr Hr Hf; [lia|].
  cbn [quicksort]. destruct (rd_in "sort index" a left) as (ref & Er & ->); [lia|]. cbn [obind].
  destruct (partition_loop_spec cmp (Z.to_nat (right - left)) a ref left right left right a)
    as (a1 & k & b & E1 & Hk & L1 & _ & _ & _ & _); try lia.
  { split; [reflexivity|]. intros p. destruct (Z.eqb_spec p left) as [->|]; auto. }
  rewrite E1. cbn [obind].
  destruct (wr_in "sort index" a1 k ref) as (b' & W & Lb & Zb); [lia|].
  rewrite W. cbn [obind].
  assert (exists b1, (if left <? k - 1 then quicksort cmp fuel b' left (k - 1) else Ok b') = Ok b1 /\ zlen b1 = zlen a)
    as (b1 & -> & L2).
  { destruct (Z.ltb_spec left (k - 1)).
    - destruct (IH b' left (k - 1)) as (b1 & E & L); try lia. exists b1. split; [exact E|lia].
    - exists b'. split; [reflexivity|lia]. }
  cbn [obind].
  destruct (Z.ltb_spec (k + 1) right).
  - destruct (IH b1 (k + 1) right) as (b2 & E & L); try lia. exists b2. split; [exact E|lia].
  - exists b1. split; [reflexivity|lia].
Qed.

Lemma quicksort_more {A} (cmp : A -> A -> Z) : forall fuel a left right r d,
  quicksort_depth cmp fuel a left right = Ok (r, d) -> forall m, (fuel <= m)%nat ->
  quicksort_depth cmp m a left right = Ok (r, d).
Proof.
  induction fuel as [|f IH]; intros a left right r d E m Hm; cbn [quicksort_depth] in *; [discriminate E|].
  destruct m as [|m]; [lia|]. cbn [quicksort_depth].
  destruct (rd "sort index" a left) as [ref| | |]; cbn [obind] in *; try discriminate E.
  destruct (partition_loop _ _ _ _ _ _) as [[[a1 i] j]| | |]; cbn [obind] in *; try discriminate E.
  destruct (wr "sort index" a1 j ref) as [a2| | |]; cbn [obind] in *; try discriminate E.
  assert (exists a3 d1, (if left <? j - 1 then quicksort_depth cmp f a2 left (j - 1) else Ok (a2, 0)) = Ok (a3, d1) /\
            (if left <? j - 1 then quicksort_depth cmp m a2 left (j - 1) else Ok (a2, 0)) = Ok (a3, d1)) as (a3 & d1 & E1 & E2).
  { destruct (left <? j - 1); [|eauto].
    destruct (quicksort_depth cmp f a2 left (j - 1)) as [[a3 d1]| | |] eqn:Q; cbn [obind] in E; try discriminate E.
    exists a3, d1. split; [reflexivity|]. apply (IH _ _ _ _ _ Q). lia. }
  rewrite E1 in E. rewrite E2. cbn [obind] in *.
  destruct (i + 1 <? right); [|exact E].
  destruct (quicksort_depth cmp f a3 (i + 1) right) as [[a4 d2]| | |] eqn:Q; cbn [obind] in E; try discriminate E.
  rewrite (IH _ _ _ _ _ Q m) by lia. exact E.
Qed.

Lemma sort_depth_ok {A} (cmp : A -> A -> Z) a :
  exists r d, sort_depth cmp (zlen a) a = Ok (r, d) /\ sort cmp (zlen a) a = Ok r /\ 0 <= d <= Z.max 0 (zlen a - 1).
Proof.
  unfold sort_depth, sort. destruct (Z.ltb_spec (zlen a) 2) as [H|H].
  - exists a, 0. repeat split; lia.
  - destruct (quicksort_less cmp (Z.to_nat (zlen a - 1)) a 0 (zlen a - 1)) as (r & E & _); try lia.
    destruct (quicksort_depth_fuel _ _ _ _ _ _ E) as (d & Ed & Bd).
    exists r, d. split; [|split; [|lia]].
    + apply (quicksort_more _ _ _ _ _ _ _ Ed). lia.
    + destruct (quicksort_spec cmp (fun _ => True) (Z.to_nat (zlen a)) a 0 (zlen a - 1)) as (r' & E' & _); try lia.
      destruct (quicksort_depth_fuel _ _ _ _ _ _ E') as (d' & Ed' & _).
      pose proof (quicksort_more _ _ _ _ _ _ _ Ed (Z.to_nat (zlen a)) ltac:(lia)) as M. congruence.
Qed.

(** *** Elements already in order *)

(** Every element is before every later one in the order. *)
Definition increasing {A} (cmp : A -> A -> Z) (a : list A) : Prop :=
  forall p q x y, p < q -> znth a p = Some x -> znth a q = Some y -> cmp x y < 0.

Lemma scan_down_increasing {A} (cmp : A -> A -> Z) a ref : increasing cmp a -> forall fuel i j, 0 <= i <= j -> j < zlen a ->
  znth a i = Some ref -> j - i <= Z.of_nat fuel -> scan_down cmp fuel a ref i j = Ok i.
Proof.
  intros Inc. induction fuel as [|f IH]; intros i j Hi Hj Er Hf; cbn [scan_down].
  - replace (i <? j) with false by lia. f_equal. lia.
  - destruct (Z.ltb_spec i j); [|f_equal; lia].
    destruct (rd_in "sort index" a j) as (x & Ex & ->); [lia|]. cbn [obind].
    replace (cmp ref x <? 0) with true; [apply IH; auto; lia|].
    symmetry. apply Z.ltb_lt. now apply (Inc i j).
Qed.

Lemma partition_increasing {A} (cmp : A -> A -> Z) a ref i j : increasing cmp a -> 0 <= i < j -> j < zlen a ->
  znth a i = Some ref -> partition_loop cmp (Z.to_nat (j - i)) a ref i j = Ok (a, i, i).
Proof.
  intros Inc Hi Hj Er.
  assert (Z.to_nat (j - i) = Datatypes.S (Z.to_nat (j - i - 1))) as En by lia.
  rewrite En at 1. cbn [partition_loop].
  replace (i <? j) with true by lia.
  rewrite (scan_down_increasing cmp a ref Inc) by (auto; lia). cbn [obind]. rewrite Z.eqb_refl. cbn [obind].
  rewrite Z.sub_diag. cbn [Z.to_nat scan_up]. rewrite Z.ltb_irrefl. cbn [obind]. rewrite Z.eqb_refl. cbn [obind].
  destruct (Z.to_nat (j - i - 1)); cbn [partition_loop]; now rewrite Z.ltb_irrefl.
Qed.

Lemma quicksort_increasing {A} (cmp : A -> A -> Z) a : increasing cmp a -> forall fuel left right,
  0 <= left < right -> right < zlen a -> right - left <= Z.of_nat fuel ->
  quicksort_depth cmp fuel a left right = Ok (a, right - left).
Proof.
  intros Inc. induction fuel as [|f IH]; intros left right Hl Hr Hf; [lia|]. cbn [quicksort_depth].
  destruct (rd_in "sort index" a left) as (ref & Er & ->); [lia|]. cbn [obind].
  rewrite partition_increasing by (auto; lia). cbn [obind].
  destruct (wr_in "sort index" a left ref) as (b & -> & Lb & Zb); [lia|]. cbn [obind].
  assert (b = a) as ->.
  { apply znth_ext; [lia|]. intros p Hp. rewrite Zb. destruct (Z.eqb_spec p left) as [->|]; auto. }
  replace (left <? left - 1) with false by lia. cbn [obind].
  destruct (Z.ltb_spec (left + 1) right).
  - rewrite IH by lia. cbn [obind]. do 2 f_equal. lia.
  - cbn [obind]. do 2 f_equal. lia.
Qed.

Lemma sort_increasing {A} (cmp : A -> A -> Z) a : increasing cmp a -> 2 <= zlen a ->
  sort_depth cmp (zlen a) a = Ok (a, zlen a - 1).
Proof.
  intros Inc H. unfold sort_depth. replace (zlen a <? 2) with false by lia.
  rewrite quicksort_increasing by (auto; lia). do 2 f_equal. lia.
Qed.

(** *** The binary search *)

Lemma search_same : forall fuel table c left right p, search_for_property fuel table c left right = Ok p ->
  forall k, 0 <= left -> right - left + 1 < 2 ^ Z.of_nat k ->
  exists d, search_depth fuel table c left right = Ok (p, d) /\ 1 <= d <= Z.of_nat k + 1.
Proof.
  induction fuel as [|f IH]; intros table c left right p E k Hl Hk; cbn [search_for_property search_depth] in *.
  - destruct (right <? left); [|discriminate E]. injection E as <-. exists 1. split; [reflexivity|lia].
  - destruct (Z.ltb_spec right left). { injection E as <-. exists 1. split; [reflexivity|lia]. }
    rewrite Z.quot_div_nonneg in * by lia.
    destruct (rd _ table _) as [m| | |]; cbn [obind] in *; try discriminate E.
    destruct k as [|k]; [cbn in Hk; lia|].
    rewrite Nat2Z.inj_succ, Z.pow_succ_r in Hk by lia.
    assert (0 <= (right - left) / 2) by (apply Z.div_pos; lia).
    assert (right - left = 2 * ((right - left) / 2) + (right - left) mod 2) by (apply Z.div_mod; lia).
    pose proof (Z.mod_pos_bound (right - left) 2 ltac:(lia)).
    destruct (c <? _).
    + destruct (IH _ _ _ _ _ E k) as (d & -> & B); [lia|lia|]. cbn [obind]. exists (1 + d). split; [reflexivity|lia].
    + destruct (_ <? c).
      * destruct (IH _ _ _ _ _ E k) as (d & -> & B); [lia|lia|]. cbn [obind]. exists (1 + d). split; [reflexivity|lia].
      * injection E as <-. exists 1. split; [reflexivity|lia].
Qed.

Lemma search_whole table c p : search_for_property (List.length table) table c 0 (zlen table - 1) = Ok p ->
  zlen table < 2048 ->
  exists d, search_depth (List.length table) table c 0 (zlen table - 1) = Ok (p, d) /\ 1 <= d <= 12.
Proof.
  intros E L. destruct (search_same _ _ _ _ _ _ E 11%nat) as (d & Ed & B); [lia| |].
  - change (2 ^ Z.of_nat 11) with 2048. lia.
  - exists d. split; [exact Ed|lia].
Qed.

Lemma ranges_number : zlen WORD_BREAK_PROPERTY < 2048.
Proof. apply Z.ltb_lt. vm_compute. reflexivity. Qed.

Lemma property_depth_ok c p : property c = Ok p -> exists d, property_depth c = Ok (p, d) /\ 1 <= d <= 12.
Proof. unfold property, property_depth. intros E. apply search_whole; [exact E|exact ranges_number]. Qed.
