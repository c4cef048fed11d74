(** C97: accuracy never counts more errors than the edit operations that editop finds. *)
From Coq Require Import String Permutation.
From Verif Require Import Base CLib AccSpec SumProof Utf8Model TextModel CompareModel SyncModel SyncSpec EditProof FastukkSync MetricProof TraceProps TransProps
  AccModel AccProof AccCount AccTop AccProps EdoModel EdoSpec EditopModel EditopSpec EditopProof EditopProps MetricSpec WildProps.
Local Open Scope Z_scope.
Local Open Scope list_scope.

Lemma inserts_lev a b n : inserts a b n -> lev b a <= n + tildes b.
Proof.
  intros H. assert (exists c, edits b a c /\ c <= n + tildes b) as (c & E & L).
  { induction H as [|x a b n H (c & E & L)|x a b n N H (c & E & L)|a b n H (c & E & L)].
    - exists 0. split; [constructor|]. cbn; lia.
    - destruct (Z.eq_dec x 126) as [->|N].
      + exists (c + 1). split; [now apply edits_subst|]. rewrite tildes_tilde. lia.
      + exists c. split; [now apply edits_keep|]. now rewrite tildes_plain.
    - exists (c + 1). split; [now apply edits_delete|]. rewrite tildes_plain by exact N. lia.
    - exists (c + 1). split; [now apply edits_delete|]. rewrite tildes_tilde. lia. }
  apply lev_min in E. lia.
Qed.

Lemma deletes_lev a b n : deletes a b n -> ~ In 126 b -> lev b a <= n.
Proof.
  intros H N. apply lev_min. induction H as [|x a b n H IH|x a b n H IH].
  - constructor.
  - apply edits_keep; [intros ->; apply N; now left|apply IH; intros I; apply N; now right].
  - apply edits_insert. now apply IH.
Qed.

Lemma lev_taken p w q : ~ In 126 (p ++ w ++ q) -> lev (p ++ w ++ q) (p ++ q) <= zlen w.
Proof.
  intros N. rewrite lev_prefix by (intros I; apply N, in_or_app; now left).
  change (lev (w ++ q) q) with (lev (w ++ q) ([] ++ q)). pose proof (lev_app w [] q q) as A. rewrite lev_nil_r in A.
  assert (lev q q <= 0); [|lia]. apply lev_same. intros I. apply N. apply in_or_app. right. apply in_or_app. now right.
Qed.

Lemma moved_perm {A} wt (s s' : list A) n : moved wt s n s' -> Permutation s s'.
Proof.
  intros (p & w & q & p' & q' & -> & -> & E & _). rewrite !(Permutation_app_swap_app _ w). now rewrite E.
Qed.

Lemma each_len w : zsum (map each w) = zlen w.
Proof. induction w as [|x w IH]; [reflexivity|]. cbn [map]. rewrite zsum_cons, IH, zlen_cons. unfold each. lia. Qed.

Lemma moved_lev s n s' : moved each s n s' -> ~ In 126 s -> lev s s' <= 2 * n.
Proof.
  intros M N. assert (N' : ~ In 126 s') by (intros I; apply N; eapply Permutation_in; [apply Permutation_sym, (moved_perm _ _ _ _ M)|exact I]).
  destruct M as (p & w & q & p' & q' & -> & -> & E & _ & ->). rewrite each_len.
  pose proof (lev_taken p w q N). pose proof (lev_taken p' w q' N') as T. rewrite lev_sym in T. pose proof (lev_triangle (p ++ w ++ q) (p ++ q) (p' ++ w ++ q')) as R.
  rewrite E in *. lia.
Qed.

Lemma moves_lev s ls s' : moves_to each s ls s' -> ~ In 126 s -> lev s s' <= 2 * zsum ls.
Proof.
  intros M. induction M as [s|s n s' ls s'' M1 M IH]; intros N; [now apply lev_same|]. rewrite zsum_cons.
  pose proof (moved_lev _ _ _ M1 N). assert (N' : ~ In 126 s') by (intros I; apply N; eapply Permutation_in; [apply Permutation_sym, (moved_perm _ _ _ _ M1)|exact I]).
  specialize (IH N'). pose proof (lev_triangle s s' s''). lia.
Qed.

(** The matched parts are free of '~'. *)
Lemma matched_plain t1 t2 l1 l2 : transpose_sync t1 t2 = Ok (l1, l2) -> ~ In 126 (matched_part t2 l2).
Proof.
  intros E. destruct (C23_transpose t1 t2) as (l1' & l2' & E' & _ & _ & _ & Pm & G). rewrite E in E'. injection E' as <- <-.
  intros I. apply in_flat_map in I as (it & Hit & Hin). pose proof Hit as Hf. apply filter_In in Hit as (Hl & Hm).
  unfold is_match in Hm. destruct (inum it) as [n|] eqn:En; [|discriminate].
  assert (In (Some n) (map inum (filter is_match l1))) as H1.
  { eapply Permutation_in; [exact Pm|]. rewrite <- En. now apply in_map. }
  apply in_map_iff in H1 as (i1 & E1 & H1). apply filter_In in H1 as (H1 & _).
  destruct (G i1 it n H1 Hl E1 En) as (u1 & u2 & w & _ & S2 & _ & N & _ & _ & _ & W).
  unfold piece in Hin. rewrite S2, W in Hin. contradiction.
Qed.

(** C97: accuracy never counts more errors than it takes to carry out the operations that editop
    finds for the same files, when a character inserted or deleted counts one and a block moved
    counts twice its length (deleted here and inserted there). *)
Theorem C97_bound : forall uc t0 t1, inputs_ok uc t0 t1 ->
  exists d e ls, accuracy_data uc t0 t1 = Ok d /\ edit_operations (map value t0) (map value t1) = Ok e /\ records ls e /\
    errors d <= insertions e + deletions e + 2 * zsum ls.
Proof.
  intros uc t0 t1 I. destruct (WildProps.C98_errors uc t0 t1 I) as (d & Ed & _).
  destruct (C23_transpose (map value t0) (map value t1)) as (l1 & l2 & E & _).
  destruct (edit_operations_ok _ _ l1 l2 E) as (e & ls & H1 & H2 & H3 & _ & H4 & H5 & _ & _ & C1 & C2 & _).
  exists d, e, ls. split; [exact Ed|]. split; [exact H1|]. split; [exact H5|].
  rewrite (errors_lev uc t0 t1 d I Ed). pose proof (chain_pieces _ l1 0 ltac:(lia) C1) as Q1. pose proof (chain_pieces _ l2 0 ltac:(lia) C2) as Q2. cbn in Q1, Q2.
  pose proof (matched_plain _ _ _ _ E) as N. set (k1 := matched_part (map value t0) l1) in *. set (k2 := matched_part (map value t1) l2) in *.
  assert (D : lev k2 (map value t1) <= deletions e).
  { apply deletes_lev; [|exact N]. rewrite H3. rewrite <- Q2 at 1. apply parts_deletes. }
  assert (S : lev (map value t0) k1 <= insertions e + tildes (map value t0)).
  { apply inserts_lev. rewrite H2. pose proof (parts_inserts (map value t0) l1) as X. rewrite Q1 in X. exact X. }
  pose proof (moves_lev _ _ _ H4 N) as M. rewrite lev_sym in M.
  pose proof (lev_triangle (map value t0) k1 (map value t1)). pose proof (lev_triangle k1 k2 (map value t1)). lia.
Qed.
Print Assumptions C97_bound.

(** C97: the factor 2 is needed: for "aab" and "baa" editop moves a block of one character, and
    accuracy counts two errors.  (The case also meets the hypotheses of [C97_bound].) *)
Theorem C97_bound_sharp : forall uc, nul_hidden uc ->
  let t0 := map (mkchar false) [97; 97; 98] in let t1 := map (mkchar false) [98; 97; 97] in
  inputs_ok uc t0 t1 /\
  exists d e, accuracy_data uc t0 t1 = Ok d /\ edit_operations (map value t0) (map value t1) = Ok e /\
    records [1] e /\ insertions e = 0 /\ deletions e = 0 /\ errors d = 2.
Proof.
  intros uc N t0 t1. assert (I : inputs_ok uc t0 t1).
  { split; [exact N|]. unfold text_ok, tabulable, t0, t1. cbn [map].
    split; [repeat (apply Forall_cons; [cbn [value]; unfold TextSpec.scalar; lia|]); apply Forall_nil|].
    split; [repeat (apply Forall_cons; [cbn [value]; unfold TextSpec.scalar; lia|]); apply Forall_nil|].
    split; [repeat (apply Forall_cons; [cbn [value]; lia|]); apply Forall_nil|]. unfold MAX_F. cbn. lia. }
  split; [exact I|]. destruct (WildProps.C98_errors uc t0 t1 I) as (d & Ed & _). exists d.
  eexists. split; [exact Ed|]. split; [cbn [t0 t1 map value]; vm_compute; reflexivity|].
  split; [|split; [reflexivity|split; [reflexivity|]]].
  - split; [apply Forall_cons; [lia|apply Forall_nil]|]. split; [reflexivity|]. split; [reflexivity|].
    intros i Hi. assert (C : forallb (fun i => entry (0 :: 1 :: repeat 0 99) i =? zlen (filter (fun n => Z.min n 100 =? i) [1])) (zrange 0 101) = true) by (vm_compute; reflexivity).
    rewrite forallb_forall in C. specialize (C i). apply Z.eqb_eq. apply C. apply In_zrange. lia.
  - rewrite (errors_lev uc t0 t1 d I Ed). reflexivity.
Qed.
Print Assumptions C97_bound_sharp.
