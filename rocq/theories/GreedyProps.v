(** C60: the choice of the moves by editop. *)
From Coq Require Import String Permutation.
From Verif Require Import Base AccSpec SumProof SyncModel SyncSpec EdoModel EdoSpec EditopModel EditopSpec EditopProof EditopProps GreedySpec GreedyProof.
Local Open Scope Z_scope.
Local Open Scope list_scope.

(** C60: the recorded moves are those that are made by moving home, as long as the matched items
    are not in order, the run of items that leaves the fewest runs; the shortest one, in
    characters, if there are several; and among these the first one of the correct text. *)
Theorem C60_greedy : forall t1 t2 l1 l2,
  transpose_sync t1 t2 = Ok (l1, l2) ->
  exists d ls, edit_operations t1 t2 = Ok d /\ greedy (length_of l2) (numbers l2) ls /\ records ls d.
Proof.
  intros t1 t2 l1 l2 E.
  destruct (edit_operations_ok t1 t2 l1 l2 E) as (d & _ & H1 & _ & _ & _ & _ & _ & _ & _ & _ & _ & R & Num & l' & Ec).
  rewrite Num in R.
  destruct (greedy_moves_ok _ _ _ _ _ _ R (eq_refl : zlen (moves (mkedo (zlen (filter plain (unmatched_part t1 l1)))
      (zlen (unmatched_part t2 l2)) 0 (repeat 0 101))) = 101)) as (l'' & d' & ls & E2 & Gr & B1 & B2 & B3 & B4).
  rewrite Ec in E2. injection E2 as <- <-. exists d, ls. split; [exact H1|]. split; [exact Gr|].
  split; [exact B1|]. split; [exact B2|]. split; [exact B3|]. intros i Hi. rewrite B4. cbn [moves].
  replace (entry (repeat 0 101) i) with 0; [reflexivity|]. unfold entry.
  destruct (znth (repeat 0 101) i) as [z|] eqn:Ez; [|reflexivity]. apply znth_In in Ez.
  apply (repeat_spec 101 0 z) in Ez. congruence.
Qed.
Print Assumptions C60_greedy.

Lemma concat_split s : concat (split_runs s) = s.
Proof.
  induction s as [|x s IH]; [reflexivity|]. cbn [split_runs]. destruct (split_runs s) as [|[|y w] rs].
  - cbn in *. congruence.
  - cbn in *. congruence.
  - destruct (y =? x + 1); cbn [concat app] in *; congruence.
Qed.

Lemma split_nonempty s : Forall (fun w => w <> []) (split_runs s).
Proof.
  induction s as [|x s IH]; [constructor|]. cbn [split_runs]. destruct (split_runs s) as [|[|y w] rs].
  - constructor; [discriminate|constructor].
  - constructor; [discriminate|exact IH].
  - inversion IH; subst. destruct (y =? x + 1); repeat (constructor; [discriminate|]); assumption.
Qed.

(** In a list of runs without repetition, a run is at one place. *)
Lemma place_unique (z : Z) : forall c v d c2 v2 d2 ws, NoDup (concat ws) -> ws = c ++ v :: d -> ws = c2 ++ v2 :: d2 ->
  In z v -> In z v2 -> c = c2 /\ v = v2 /\ d = d2.
Proof.
  induction c as [|a c IH]; intros v d c2 v2 d2 ws N E1 E2 I1 I2.
  - destruct c2 as [|b c2].
    + cbn [app] in *. subst ws. injection E2 as -> ->. auto.
    + exfalso. cbn [app] in *. rewrite E1 in E2. injection E2 as -> ->. subst ws. cbn [concat] in N.
      rewrite concat_app in N. cbn [concat] in N. revert N. generalize (concat c2) (concat d2). clear - I1 I2.
      intros x y N. apply in_split in I1. destruct I1 as (p & q & ->). rewrite <- app_assoc in N. cbn [app] in N.
      apply NoDup_remove_2 in N. apply N. rewrite !in_app_iff. auto.
  - destruct c2 as [|b c2].
    + exfalso. cbn [app] in *. rewrite E1 in E2. injection E2 as <- E2. subst ws. cbn [concat] in N.
      rewrite concat_app in N. cbn [concat] in N. revert N. generalize (concat c) (concat d). clear - I1 I2.
      intros x y N. apply in_split in I2. destruct I2 as (p & q & ->). rewrite <- app_assoc in N. cbn [app] in N.
      apply NoDup_remove_2 in N. apply N. rewrite !in_app_iff. auto.
    + cbn [app] in *. rewrite E1 in E2. injection E2 as <- E2. subst ws. cbn [concat] in N.
      assert (N' : NoDup (concat (c ++ v :: d))).
      { clear - N. induction a as [|x a IHa]; [exact N|]. cbn [app] in N. inversion N; subst. auto. }
      destruct (IH v d c2 v2 d2 _ N' eq_refl E2 I1 I2) as (-> & -> & ->). auto.
Qed.

Lemma first_In w : w <> [] -> In (first_of w) w.
Proof. destruct w; [congruence|]. intros _. left. reflexivity. Qed.
Lemma last_In w : w <> [] -> In (last_of w) w.
Proof.
  intros H. unfold last_of. destruct (exists_last H) as (k & a & ->). rewrite last_last. apply in_or_app. right. left. reflexivity.
Qed.

Lemma put_home_unique s before w after s1 s2 : NoDup s -> split_runs s = before ++ w :: after ->
  put_home before w after s1 -> put_home before w after s2 -> s1 = s2 /\ Permutation s s1.
Proof.
  intros N E (C & D & E1 & -> & P1 & P2) (C2 & D2 & E3 & -> & P3 & P4).
  pose proof (split_nonempty s) as F. rewrite E in F. rewrite <- (concat_split s), E in N.
  assert (F2 : Forall (fun w => w <> []) (before ++ after)).
  { apply Forall_app in F. destruct F as [F1 F2]. inversion F2; subst. apply Forall_app. auto. }
  assert (N2 : NoDup (concat (before ++ after))).
  { rewrite concat_app in N |- *. cbn [concat] in N. revert N. generalize (concat before) (concat after). clear. intros x y N.
    induction w as [|z w IH]; [exact N|]. apply IH. cbn [app] in N. apply NoDup_remove_1 in N. exact N. }
  split.
  - destruct (Z.eq_dec (first_of w) 1) as [X|X].
    + destruct (P1 X) as (v & d & -> & Ev). destruct (P3 X) as (v2 & d2 & -> & Ev2).
      rewrite Forall_forall in F2.
      assert (v <> []) by (apply F2; rewrite E1; apply in_or_app; right; left; reflexivity).
      assert (v2 <> []) by (apply F2; rewrite E3; apply in_or_app; right; left; reflexivity).
      destruct (place_unique (first_of v) C v d C2 v2 d2 _ N2 E1 E3) as (-> & -> & ->); [apply first_In; assumption| |reflexivity].
      replace (first_of v) with (first_of v2) by lia. apply first_In. assumption.
    + destruct (P2 X) as (c & v & -> & Ev). destruct (P4 X) as (c2 & v2 & -> & Ev2).
      rewrite <- app_assoc in E1, E3. cbn [app] in E1, E3. rewrite Forall_forall in F2.
      assert (v <> []) by (apply F2; rewrite E1; apply in_or_app; right; left; reflexivity).
      assert (v2 <> []) by (apply F2; rewrite E3; apply in_or_app; right; left; reflexivity).
      destruct (place_unique (last_of v) c v D c2 v2 D2 _ N2 E1 E3) as (-> & -> & ->); [apply last_In; assumption| |reflexivity].
      replace (last_of v) with (last_of v2) by lia. apply last_In. assumption.
  - rewrite <- (concat_split s), E, concat_app. cbn [concat].
    rewrite (Permutation_app_comm w (concat after)), app_assoc, <- concat_app, E1, concat_app, <- app_assoc.
    apply Permutation_app_head, Permutation_app_comm.
Qed.

(** C60: so the lengths of the moves are determined, one after the other. *)
Theorem C60_unique : forall wt s ls ls2,
  NoDup s -> greedy wt s ls -> greedy wt s ls2 -> ls = ls2.
Proof.
  intros wt s ls ls2 N H. revert ls2 N. induction H as [s R|s before w after s' ls R E P B G IH]; intros ls2 N H2.
  - inversion H2; subst; [reflexivity|]. lia.
  - inversion H2 as [? R2|? before2 w2 after2 s2 ls3 R2 E2 P2 B2 G2]; subst; [lia|].
    pose proof (B _ _ _ _ E2 P2) as X. pose proof (B2 _ _ _ _ E P) as Y. unfold preferred in X, Y.
    assert (Ew : first_of w = first_of w2) by lia.
    pose proof (split_nonempty s) as F. rewrite Forall_forall in F.
    destruct (place_unique (first_of w) before w after before2 w2 after2 (split_runs s)) as (<- & <- & <-).
    + rewrite concat_split. exact N.
    + exact E.
    + exact E2.
    + apply first_In, F. rewrite E. apply in_or_app. right. left. reflexivity.
    + rewrite Ew. apply first_In, F. rewrite E2. apply in_or_app. right. left. reflexivity.
    + destruct (put_home_unique s before w after s' s2 N E P P2) as [<- Pm]. f_equal. apply IH; [|exact G2].
      eapply Permutation_NoDup; [exact Pm|exact N].
Qed.
Print Assumptions C60_unique.

(** A case: either run of 3, 1, 2 could be moved; 3 is the shorter one. *)
Example C60_case : greedy each [3; 1; 2] [1].
Proof.
  apply (greedy_move each [3; 1; 2] [] [3] [[1; 2]] [1; 2; 3] []).
  - reflexivity.
  - reflexivity.
  - exists [[1; 2]], []. split; [reflexivity|]. split; [reflexivity|]. split; [discriminate|].
    intros _. exists [], [1; 2]. split; reflexivity.
  - intros b w a s2 E P. assert (1 <= runs s2).
    { destruct P as (C & D & _ & -> & _). destruct (split_runs (concat C ++ w ++ concat D)) eqn:X.
      - exfalso. pose proof (concat_split (concat C ++ w ++ concat D)) as Y. rewrite X in Y.
        pose proof (split_nonempty [3; 1; 2]) as F. rewrite E in F. apply Forall_app in F. destruct F as [_ F].
        inversion F; subst. destruct w; [congruence|]. destruct (concat C); discriminate.
      - unfold runs. rewrite X, zlen_cons. pose proof (zlen_nonneg l0). lia. }
    unfold preferred. replace (runs [1; 2; 3]) with 1 by reflexivity.
    destruct (Z.eq_dec (runs s2) 1); [right; split; [lia|]|left; lia].
    change (split_runs [3; 1; 2]) with [[3]; [1; 2]] in E.
    destruct b as [|b1 [|b2 b]]; cbn [app] in E.
    + injection E as <- <-. right. split; [reflexivity|]. cbn. lia.
    + injection E as <- <- <-. left. reflexivity.
    + apply (f_equal (@List.length (list Z))) in E. cbn in E. rewrite app_length in E. cbn in E. lia.
  - constructor. cbn. lia.
Qed.
