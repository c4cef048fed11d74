(** C23, C24: the transposing synchronisation of two texts (transpose_sync). *)
From Coq Require Import String Permutation.
From Verif Require Import Base SyncModel SyncSpec EditProof SyncProof LongestProof HeurProof TransProof.
Local Open Scope Z_scope.
Local Open Scope list_scope.

(** The two items hold the same non-empty string without '~' in their texts. *)
Definition same_match (t1 t2 : list Z) (i1 i2 : item) : Prop :=
  exists u1 u2 w, isubs i1 = [u1] /\ isubs i2 = [u2] /\ w <> [] /\ ~ In tilde w /\
    zlen w = slen u1 /\ zlen w = slen u2 /\
    slice t1 (start u1) (slen u1) = w /\ slice t2 (start u2) (slen u2) = w.

(** Positions [y .. y+l-1] overlap a matched item at least [l] long. *)
Definition taken (li : list item) (y l : Z) : Prop :=
  exists it u, In it li /\ is_match it = true /\ isubs it = [u] /\ l <= slen u /\
    start u < y + l /\ y < start u + slen u.

Lemma transpose_ok t1 t2 : exists sl1 sl2 m,
  transpose_sync t1 t2 =
    Ok (view (number_matches (items sl1) 0 no_numbers) (items sl1),
        view (number_matches (items sl1) 0 no_numbers) (items sl2)) /\
  tinv t1 t2 sl1 sl2 m /\
  forall y z l, 0 < l -> 0 <= y -> y + l <= zlen t1 -> 0 <= z -> z + l <= zlen t2 ->
    cm t1 t2 y z l -> blocked sl1 y l \/ blocked sl2 z l.
Proof.
  destruct (transpose_loop_ok t1 t2) as (sl1 & sl2 & m & E & H & G).
  exists sl1, sl2, m. unfold transpose_sync. rewrite E. cbn [obind]. auto.
Qed.

Lemma blocked_taken mem sl y l : blocked sl y l -> taken (view mem (items sl)) y l.
Proof.
  intros (s & u & H1 & H2 & H3 & H4). exists (mkitem (subs s) (option_map mem (mptr s))), u.
  split; [apply in_map_iff; eauto|]. split; [|auto].
  unfold is_match. cbn. destruct (mptr s); [reflexivity|congruence].
Qed.

(** C23: it always succeeds; each list partitions its text; matched items correspond one
    to one by their numbers, which run from 1 in the order of the first list; items with
    the same number hold the same '~'-free string. *)
Theorem C23_transpose : forall t1 t2 : list Z,
  exists l1 l2, transpose_sync t1 t2 = Ok (l1, l2) /\
    partition [t1] l1 /\ partition [t2] l2 /\
    numbered_in_order l1 /\
    Permutation (map inum (filter is_match l2)) (map inum (filter is_match l1)) /\
    (forall i1 i2 n, In i1 l1 -> In i2 l2 -> inum i1 = Some n -> inum i2 = Some n ->
       same_match t1 t2 i1 i2).
Proof.
  intros t1 t2. destruct (transpose_ok t1 t2) as (sl1 & sl2 & m & E & H & _).
  destruct H as [L1 L2 D1 D2 T1 T2 Tset Tsame _].
  set (mem := number_matches (items sl1) 0 no_numbers) in *.
  exists (view mem (items sl1)), (view mem (items sl2)). split; [exact E|].
  split; [now apply view_partition|]. split; [now apply view_partition|].
  split; [now apply view_numbered|]. split.
  - rewrite !view_filter. apply Permutation_map, Permutation_map.
    apply NoDup_Permutation; auto. intros p. symmetry. apply Tset.
  - assert (NoDup (map mem (ptrs (items sl1)))) as Hnd.
    { unfold mem. rewrite number_matches_map by exact D1. apply NoDup_zrange. }
    intros i1 i2 n Hi1 Hi2 En1 En2.
    apply in_map_iff in Hi1 as (s1 & <- & Hs1). apply in_map_iff in Hi2 as (s2 & <- & Hs2).
    cbn in En1, En2. destruct (mptr s1) as [p|] eqn:Ep; [|discriminate].
    destruct (mptr s2) as [q|] eqn:Eq; [|discriminate]. cbn in En1, En2.
    assert (p = q) as <-.
    { apply (map_inj_NoDup mem (ptrs (items sl1))); auto; [| |congruence].
      - apply In_ptrs. eauto.
      - apply Tset, In_ptrs. eauto. }
    destruct (Tsame s1 s2 p Hs1 Hs2 Ep Eq) as (u1 & u2 & U1 & U2 & Hs).
    pose proof (li_gen _ _ L1) as G1. rewrite Forall_forall in G1.
    destruct (G1 s1 Hs1) as (w & W1 & W2 & W3); [congruence|].
    destruct (W3 0 t1 eq_refl) as (v & Hv & Hvl & Hvs). rewrite U1 in Hv. injection Hv as <-.
    pose proof (li_gen _ _ L2) as G2. rewrite Forall_forall in G2.
    destruct (G2 s2 Hs2) as (w' & _ & _ & W3'); [congruence|].
    destruct (W3' 0 t2 eq_refl) as (v & Hv & Hvl' & Hvs'). rewrite U2 in Hv. injection Hv as <-.
    exists u1, u2, w. cbn [isubs]. assert (w = w') by congruence. subst w'.
    repeat (split; [auto; congruence|]). congruence.
Qed.
Print Assumptions C23_transpose.

(** C24: longest first.  Every occurrence of a common '~'-free substring (at [y] in the
    first text, at [z] in the second) overlaps, in one of the texts, a matched item at
    least as long. *)
Theorem C24_longest_first : forall (t1 t2 : list Z) l1 l2,
  transpose_sync t1 t2 = Ok (l1, l2) ->
  forall y z l, 0 < l -> 0 <= y -> y + l <= zlen t1 -> 0 <= z -> z + l <= zlen t2 ->
    slice t1 y l = slice t2 z l -> ~ In tilde (slice t1 y l) ->
    taken l1 y l \/ taken l2 z l.
Proof.
  intros t1 t2 l1 l2 E0. destruct (transpose_ok t1 t2) as (sl1 & sl2 & m & E & _ & G).
  rewrite E0 in E. injection E as -> ->. intros y z l Hl Y1 Y2 Z1 Z2 Heq Hno.
  destruct (G y z l) as [Hb|Hb]; auto.
  - intros x Hx. destruct (znth_lt_Some t1 (y + x)) as [c Hc]; [lia|]. exists c.
    split; [exact Hc|]. split.
    + rewrite <- (znth_slice t2 z l x) by lia. rewrite <- Heq, znth_slice by lia. exact Hc.
    + intros ->. apply Hno. apply (znth_In _ x). now rewrite znth_slice by lia.
  - left. now apply blocked_taken.
  - right. now apply blocked_taken.
Qed.
Print Assumptions C24_longest_first.

Lemma partition_disjoint t l i j u v x :
  partition [t] l -> In i l -> In j l -> isubs i = [u] -> isubs j = [v] ->
  start u <= x < start u + slen u -> start v <= x < start v + slen v -> i = j.
Proof.
  intros (_ & H & _) Hi Hj Hu Hv Hx Hy. specialize (H 0 t eq_refl). unfold column in H.
  enough (forall pos fin, consecutive pos (column 0 l) fin -> In i l -> In j l -> i = j) as Hen by eauto.
  clear H Hi Hj. unfold column.
  induction l as [|a l IH]; intros pos fin; cbn [map consecutive In]; [tauto|].
  intros (H1 & H2 & H3 & H4).
  assert (forall k w, In k l -> isubs k = [w] ->
     start (match znth (isubs a) 0 with Some s => s | None => mksub (-1) (-1) (-1) end) +
     slen (match znth (isubs a) 0 with Some s => s | None => mksub (-1) (-1) (-1) end) <= start w) as Hr.
  { intros k w Hk Hw. apply consecutive_sub with (u := w) in H4; [lia|].
    apply in_map_iff. exists k. rewrite Hw. auto. }
  intros [->|Hi] [->|Hj]; auto.
  - rewrite Hu in Hr. specialize (Hr j v Hj Hv). change (znth [u] 0) with (Some u) in Hr.
    cbv iota in Hr. lia.
  - rewrite Hv in Hr. specialize (Hr i u Hi Hu). change (znth [v] 0) with (Some v) in Hr.
    cbv iota in Hr. lia.
  - apply (IH _ fin H4); auto.
Qed.

(** C24: no character except '~' occurs both in an unmatched item of the first list and
    in an unmatched item of the second. *)
Theorem C24_nothing_left : forall (t1 t2 : list Z) l1 l2,
  transpose_sync t1 t2 = Ok (l1, l2) ->
  forall i1 i2 u1 u2 c, In i1 l1 -> In i2 l2 -> is_match i1 = false -> is_match i2 = false ->
    isubs i1 = [u1] -> isubs i2 = [u2] -> c <> tilde ->
    ~ (occurs t1 u1 c /\ occurs t2 u2 c).
Proof.
  intros t1 t2 l1 l2 E i1 i2 u1 u2 c H1 H2 M1 M2 U1 U2 Hc [(y & Y1 & Y2) (z & Z1 & Z2)].
  destruct (C23_transpose t1 t2) as (l1' & l2' & E' & P1 & P2 & _).
  rewrite E in E'. injection E' as <- <-.
  pose proof (znth_Some_lt _ _ _ Y2). pose proof (znth_Some_lt _ _ _ Z2).
  assert (forall t x, znth t x = Some c -> slice t x 1 = [c]) as Hs.
  { intros t x Hx. pose proof (znth_Some_lt _ _ _ Hx).
    assert (zlen (slice t x 1) = 1) as Hz by (apply zlen_slice; lia).
    apply znth_ext; [exact Hz|]. intros i Hi. rewrite Hz in Hi. replace i with 0 by lia.
    rewrite znth_slice by lia. rewrite Z.add_0_r. exact Hx. }
  destruct (C24_longest_first t1 t2 l1 l2 E y z 1) as [T|T]; try lia.
  - rewrite (Hs _ _ Y2), (Hs _ _ Z2). reflexivity.
  - rewrite (Hs _ _ Y2). intros [?|[]]. congruence.
  - destruct T as (it & u & I1 & I2 & I3 & I4 & I5 & I6).
    assert (i1 = it) as <- by (apply (partition_disjoint t1 l1 i1 it u1 u y); auto; lia).
    congruence.
  - destruct T as (it & u & I1 & I2 & I3 & I4 & I5 & I6).
    assert (i2 = it) as <- by (apply (partition_disjoint t2 l2 i2 it u2 u z); auto; lia).
    congruence.
Qed.
Print Assumptions C24_nothing_left.

(** Two swapped halves and a reject. *)
Example transpose_nonvacuous :
  transpose_sync (bytes "brown fox quick~") (bytes "quick brown fox") =
  Ok ([mkitem [mksub 0 8 9] (Some 1); mkitem [mksub 9 9 1] (Some 2);
       mkitem [mksub 10 14 5] (Some 3); mkitem [mksub 15 15 1] None],
      [mkitem [mksub 0 4 5] (Some 3); mkitem [mksub 5 5 1] (Some 2); mkitem [mksub 6 14 9] (Some 1)]).
Proof. vm_compute. reflexivity. Qed.
