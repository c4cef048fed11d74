(** C43, C44: the edit operations between two texts (editop). *)
From Coq Require Import String Permutation.
From Verif Require Import Base CLib AccSpec SumProof Utf8Model TextModel SyncModel SyncSpec TransProps EdoModel EdoSpec EdoProof ReportSpec ReportProof EdoProps EditopModel EditopSpec EditopProof.
Local Open Scope Z_scope.
Local Open Scope list_scope.

Lemma edit_operations_ok t1 t2 l1 l2 : transpose_sync t1 t2 = Ok (l1, l2) ->
  exists d ls,
    edit_operations t1 t2 = Ok d /\
    insertions d = zlen (filter plain (unmatched_part t1 l1)) /\
    deletions d = zlen (unmatched_part t2 l2) /\
    moves_to (length_of l2) (numbers l2) ls (numbers l1) /\
    moves_to each (matched_part t2 l2) ls (matched_part t1 l1) /\
    records ls d /\ zlen ls <= Z.max 0 (zlen (numbers l2) - 1) /\
    (numbers l2 = numbers l1 -> total_moves d = 0) /\
    chain t1 0 l1 /\ chain t2 0 l2 /\
    rep (length_of l2) (fun n => [n]) (blocks l2) (numbers l2) (numbers l1) /\
    numbers l1 = zrange 1 (List.length (numbers l1)) /\
    exists l', count_moves (blocks l2) (mkedo (zlen (filter plain (unmatched_part t1 l1)))
      (zlen (unmatched_part t2 l2)) 0 (repeat 0 101)) = Ok (l', d).
Proof.
  intros E. destruct (C23_transpose t1 t2) as (l1' & l2' & E' & P1 & P2 & Num & Pm & Same).
  rewrite E in E'. injection E' as <- <-.
  pose proof (partition_chain _ _ P1) as C1. pose proof (partition_chain _ _ P2) as C2.
  unfold edit_operations. rewrite E. cbn [obind].
  rewrite (insertions_ok t1 l1 0 0 ltac:(lia) C1). cbn [obind].
  rewrite (deletions_ok t2 l2 0 0 ltac:(lia) C2). cbn [obind]. rewrite !Z.add_0_l.
  unfold numbered_in_order in Num. rewrite numbers_filter in Num. apply map_Some_inj in Num.
  assert (Len : List.length (filter is_match l1) = List.length (numbers l1)).
  { rewrite <- (map_length inum), numbers_filter, map_length. reflexivity. }
  rewrite Len in Num. rewrite !numbers_filter in Pm. apply Permutation_map_inv in Pm.
  destruct Pm as (n2 & Q1 & Q2). apply map_Some_inj in Q1. subst n2. apply Permutation_sym in Q2.
  assert (N1 : NoDup (numbers l1)) by (rewrite Num; apply NoDup_zrange).
  assert (N2 : NoDup (numbers l2)) by (eapply Permutation_NoDup; [symmetry; exact Q2|exact N1]).
  set (f := string_of t1 l1).
  assert (F2 : forall it n, In it l2 -> inum it = Some n ->
    piece t2 it = f n /\ length_of l2 n = zlen (f n) /\ f n <> []).
  { intros it n I En. assert (J : In n (numbers l1)).
    { eapply Permutation_in; [exact Q2|]. apply In_numbers. eauto. }
    destruct (string_of_In t1 l1 n J) as (it1 & I1 & En1 & Es).
    destruct (Same it1 it n I1 I En1 En) as (u1 & u2 & w & W1 & W2 & W3 & W4 & W5 & W6 & W7 & W8).
    unfold f. rewrite Es, (length_of_one l2 it n N2 I En). unfold piece. rewrite W1, W2, W7, W8. cbn [map].
    rewrite zsum_cons. change (zsum []) with 0. split; [reflexivity|]. split; [lia|exact W3]. }
  assert (F1 : forall it n, In it l1 -> inum it = Some n -> piece t1 it = f n).
  { intros it n I En. assert (J : In n (numbers l1)) by (apply In_numbers; eauto).
    assert (J2 : In n (numbers l2)) by (eapply Permutation_in; [symmetry; exact Q2|exact J]).
    apply In_numbers in J2. destruct J2 as (it2 & I2 & En2).
    destruct (F2 it2 n I2 En2) as (X & _ & _). rewrite <- X.
    destruct (Same it it2 n I I2 En En2) as (u1 & u2 & w & W1 & W2 & W3 & W4 & W5 & W6 & W7 & W8).
    unfold piece. rewrite W1, W2. congruence. }
  assert (Lb : List.length (blocks l2) = List.length (numbers l2)).
  { rewrite <- blocks_numbers, map_length. reflexivity. }
  assert (L12 : List.length (numbers l2) = List.length (numbers l1)) by (apply Permutation_length; exact Q2).
  assert (R : rep (length_of l2) (fun n => [n]) (blocks l2) (numbers l2) (numbers l1)).
  { constructor.
    - rewrite blocks_numbers, Lb, L12, <- Num. exact Q2.
    - apply Forall_forall. intros b Hb. unfold blocks in Hb. apply in_flat_map in Hb. destruct Hb as (it & I & Hb).
      destruct (inum it) as [n|] eqn:En; [|destruct Hb]. destruct Hb as [<- |[]]. cbn [bmatch blen map].
      rewrite zsum_cons. change (zsum []) with 0. rewrite (length_of_one l2 it n N2 I En).
      destruct (F2 it n I En) as (_ & X1 & X2). rewrite (length_of_one l2 it n N2 I En) in X1.
      split; [lia|]. split; [discriminate|]. rewrite X1. destruct (f n); [congruence|]. rewrite zlen_cons.
      pose proof (zlen_nonneg l). lia.
    - rewrite <- (flat_map_map (fun n => [n]) bmatch), blocks_numbers. clear. induction (numbers l2); cbn; congruence.
    - rewrite Lb, L12. etransitivity; [|symmetry; exact Num]. clear. generalize 1.
      induction (List.length (numbers l1)) as [|k IH]; intros a; cbn [zrange flat_map app]; [reflexivity|f_equal; apply IH]. }
  set (d0 := mkedo (zlen (filter plain (unmatched_part t1 l1))) (zlen (unmatched_part t2 l2)) 0 (repeat 0 101)).
  destruct (count_moves_ok (length_of l2) _ _ _ _ d0 R eq_refl) as (l' & d & ls & Ec & Mv & B1 & B2 & B3 & B4 & B5 & B6 & B7).
  rewrite Ec. cbn [obind]. exists d, ls. split; [reflexivity|]. split; [exact B3|]. split; [exact B4|].
  split; [exact Mv|]. split.
  { rewrite (matched_numbers t1 l1 f F1), (matched_numbers t2 l2 f).
    - eapply moves_flatten; [|exact Mv]. intros n Hn. apply In_numbers in Hn. destruct Hn as (it & I & En).
      destruct (F2 it n I En) as (_ & X). exact X.
    - intros it n I En. apply (F2 it n I En). }
  split.
  { split; [exact B2|]. split; [exact B5|]. split; [exact B6|]. intros i Hi. rewrite B7. cbn [moves d0].
    replace (entry (repeat 0 101) i) with 0; [reflexivity|]. unfold entry.
    destruct (znth (repeat 0 101) i) as [z|] eqn:Ez; [|reflexivity]. apply znth_In in Ez.
    apply (repeat_spec 101 0 z) in Ez. congruence. }
  split.
  { replace (zlen (numbers l2)) with (zlen (blocks l2)) by (unfold zlen; congruence). exact B1. }
  split; [|split; [exact C1|split; [exact C2|split; [exact R|split; [exact Num|exists l'; reflexivity]]]]].
  intros Eq. destruct (count_moves_sorted (blocks l2) d0) as (l'' & Es).
  { rewrite blocks_numbers, Lb, L12, Eq. exact Num. }
  rewrite Ec in Es. injection Es as _ ->. reflexivity.
Qed.

(** C43: the insertions are the characters of the correct text, other than '~', that are in no
    matched item; the deletions are the characters of the generated text that are in none. *)
Theorem C43_counts : forall t1 t2 l1 l2,
  transpose_sync t1 t2 = Ok (l1, l2) ->
  exists d, edit_operations t1 t2 = Ok d /\
    insertions d = zlen (filter (fun c => negb (c =? tilde)) (unmatched_part t1 l1)) /\
    deletions d = zlen (unmatched_part t2 l2).
Proof.
  intros t1 t2 l1 l2 E. destruct (edit_operations_ok t1 t2 l1 l2 E) as (d & ls & H1 & H2 & H3 & _). exists d. auto.
Qed.
Print Assumptions C43_counts.

(** C43: the counts are those of an edit script.  For any two texts, deleting that many
    characters of the generated text, then moving parts of it, of the recorded lengths, and then
    inserting that many characters (and '~'s) gives the correct text. *)
Theorem C43_script : forall t1 t2,
  exists d k2 ls k1, edit_operations t1 t2 = Ok d /\
    deletes t2 k2 (deletions d) /\ moves_to each k2 ls k1 /\ inserts k1 t1 (insertions d) /\
    records ls d.
Proof.
  intros t1 t2. destruct (C23_transpose t1 t2) as (l1 & l2 & E & _).
  destruct (edit_operations_ok t1 t2 l1 l2 E) as (d & ls & H1 & H2 & H3 & _ & H4 & H5 & _ & _ & C1 & C2 & _).
  exists d, (matched_part t2 l2), ls, (matched_part t1 l1). split; [exact H1|].
  pose proof (chain_pieces t1 l1 0 ltac:(lia) C1) as Q1. pose proof (chain_pieces t2 l2 0 ltac:(lia) C2) as Q2.
  cbn in Q1, Q2. split; [|split; [exact H4|split; [|exact H5]]].
  - rewrite H3, <- Q2 at 1. apply parts_deletes.
  - rewrite H2. pose proof (parts_inserts t1 l1) as X. rewrite Q1 in X. exact X.
Qed.
Print Assumptions C43_script.

(** C44: the moves turn the order of the matched items in the generated text into that in the
    correct text; each takes out some consecutive items and puts them back elsewhere, and is
    recorded under its number of characters, or 100; there are fewer than there are items. *)
Theorem C44_moves : forall t1 t2 l1 l2,
  transpose_sync t1 t2 = Ok (l1, l2) ->
  exists d ls, edit_operations t1 t2 = Ok d /\
    moves_to (length_of l2) (numbers l2) ls (numbers l1) /\ records ls d /\
    (zlen ls < zlen (numbers l2) \/ ls = []) /\
    (numbers l2 = numbers l1 <-> ls = []).
Proof.
  intros t1 t2 l1 l2 E. destruct (edit_operations_ok t1 t2 l1 l2 E) as (d & ls & H1 & H2 & H3 & H4 & H5 & H6 & H7 & H8 & _).
  exists d, ls. split; [exact H1|]. split; [exact H4|]. split; [exact H6|].
  assert (X : zlen ls = 0 -> ls = []).
  { destruct ls; [reflexivity|]. rewrite zlen_cons. pose proof (zlen_nonneg ls). lia. }
  pose proof (zlen_nonneg ls). split.
  - destruct (Z.eq_dec (zlen ls) 0); [right; auto|left; lia].
  - split.
    + intros Eq. apply X. destruct H6 as (_ & T & _). rewrite <- T. apply H8. exact Eq.
    + intros ->. inversion H4. reflexivity.
Qed.
Print Assumptions C44_moves.


Lemma records_same ls d d' : insertions d = insertions d' -> deletions d = deletions d' ->
  records ls d -> records ls d' -> d = d'.
Proof.
  intros I D (_ & T & L & M) (_ & T' & L' & M'). destruct d as [i0 d0 t0 m0], d' as [i1 d1 t1 m1].
  cbn [insertions deletions total_moves moves] in *. subst. f_equal. apply znth_ext; [congruence|].
  intros i Hi. destruct (znth_lt_Some m0 i) as (x & Ex); [lia|]. destruct (znth_lt_Some m1 i) as (y & Ey); [lia|].
  specialize (M i ltac:(lia)). specialize (M' i ltac:(lia)). unfold entry in M, M'. rewrite Ex in M |- *.
  rewrite Ey in M' |- *. congruence.
Qed.

Lemma chain_bound t l : forall pos, 0 <= pos -> chain t pos l -> zlen (flat_map (piece t) l) <= zlen t.
Proof.
  intros pos Hp H. rewrite (chain_pieces t l pos Hp H). unfold zlen. rewrite skipn_length. lia.
Qed.

Lemma unmatched_bound t l : zlen (unmatched_part t l) + zlen (matched_part t l) = zlen (flat_map (piece t) l).
Proof.
  unfold unmatched_part, matched_part. induction l as [|it l IH]; [reflexivity|]. cbn [filter flat_map].
  destruct (is_match it); cbn [negb flat_map]; rewrite !zlen_app; lia.
Qed.

Lemma numbers_bound t l : forall pos, 0 <= pos -> chain t pos l ->
  Forall (fun it => Exists (fun s => 0 < slen s) (isubs it)) l -> zlen (numbers l) <= zlen (flat_map (piece t) l).
Proof.
  unfold numbers. induction l as [|it l IH]; intros pos P0 C2 Q; [reflexivity|]. inversion Q as [|? ? Q1 Q2]; subst.
  cbn [chain] in C2. destruct C2 as (u & E & E1 & E2 & E3 & E4 & E5). specialize (IH (pos + slen u) ltac:(lia) E5 Q2).
  cbn [flat_map]. rewrite !zlen_app. unfold piece at 1. rewrite E. rewrite E in Q1.
  inversion Q1 as [? ? X|? ? X]; [|inversion X]. subst. rewrite slice_len by lia.
  destruct (inum it); [change (zlen [z]) with 1|change (zlen (@nil Z)) with 0]; lia.
Qed.

(** C44: the recorded moves add up; no figure exceeds the length of its text. *)
Theorem C44_reportable : forall t1 t2 d, edit_operations t1 t2 = Ok d ->
  ereportable d /\ insertions d <= zlen t1 /\ deletions d <= zlen t2 /\ total_moves d <= zlen t2.
Proof.
  intros t1 t2 d E. destruct (C23_transpose t1 t2) as (l1 & l2 & Et & P1 & P2 & _).
  destruct (edit_operations_ok t1 t2 l1 l2 Et) as (d' & ls & H1 & H2 & H3 & H4 & H5 & H6 & H7 & H8 & C1 & C2 & _).
  rewrite E in H1. injection H1 as <-.
  destruct (C46_recorded (insertions d) (deletions d) ls) as (d2 & A1 & A2 & A3 & A4);
    [rewrite H2; apply zlen_nonneg|rewrite H3; apply zlen_nonneg|apply H6|].
  rewrite (records_same ls d d2) by auto. split; [exact A3|]. rewrite A1, A2, H2, H3.
  pose proof (chain_bound t1 l1 0 ltac:(lia) C1). pose proof (chain_bound t2 l2 0 ltac:(lia) C2).
  pose proof (unmatched_bound t1 l1). pose proof (unmatched_bound t2 l2).
  pose proof (zlen_nonneg (matched_part t1 l1)). pose proof (zlen_nonneg (matched_part t2 l2)).
  split.
  { assert (zlen (filter plain (unmatched_part t1 l1)) <= zlen (unmatched_part t1 l1)); [|lia].
    clear. induction (unmatched_part t1 l1) as [|x l IH]; [reflexivity|]. cbn [filter].
    destruct (plain x); rewrite ?zlen_cons in *; lia. }
  split; [lia|]. destruct A4 as (_ & T & _). rewrite T.
  assert (zlen (numbers l2) <= zlen (flat_map (piece t2) l2)).
  { destruct P2 as (_ & _ & Q). exact (numbers_bound t2 l2 0 ltac:(lia) C2 Q). }
  pose proof (zlen_nonneg t2). lia.
Qed.
Print Assumptions C44_reportable.

(** C43, C45: the program.  It writes a report, from which the figures of the two texts can be
    read back (into any buffer). *)
Theorem C43_report : forall uc j j4 f1 f2 c1 c2 found,
  read_text uc j j4 (mkopt true true 0 true false) [] f1 = Ok (c1, false) ->
  read_text uc j j4 (mkopt true true 0 true false) [] f2 = Ok (c2, found) ->
  zlen c1 < 9223372036854775808 -> zlen c2 < 9223372036854775808 ->
  exists d f, edit_operations (map value c1) (map value c2) = Ok d /\ editop uc j j4 f1 f2 = Ok f /\
    forall b, line_buffer b -> exists b', read_edorpt b edo_empty f = Ok (d, b').
Proof.
  intros uc j j4 f1 f2 c1 c2 found R1 R2 B1 B2. unfold editop, editop_opt. rewrite R1. cbn [obind]. rewrite R2. cbn [obind].
  destruct (C43_script (map value c1) (map value c2)) as (d & _ & _ & _ & E & _). rewrite E. cbn [obind].
  destruct (C44_reportable _ _ _ E) as (R & I & D & M).
  assert (L : forall l : list char, zlen (map value l) = zlen l) by (intros; unfold zlen; rewrite map_length; reflexivity).
  rewrite L in I, D, M.
  assert (Bl : ebelow 9223372036854775808 d).
  { intros x. destruct x as [| | |i]; cbn [efig]; [lia|lia|lia|].
    assert (entry (moves d) i <= total_moves d); [|lia]. rewrite (er_sum d R). unfold entry.
    assert (P : Forall (fun x => 0 <= x) (moves d)).
    { apply Forall_forall. intros x Hx. apply In_znth in Hx. destruct Hx as (k & _ & Ek).
      pose proof (er_nonneg d R (EMove k)) as N. cbn [efig] in N. unfold entry in N. rewrite Ek in N. exact N. }
    destruct (znth (moves d) i) as [x|] eqn:Ex.
    - apply znth_In in Ex. clear - P Ex. induction (moves d) as [|y l IH]; [destruct Ex|]. rewrite zsum_cons.
      inversion P; subst. pose proof (zsum_nonneg l H2). destruct Ex as [-> |Ex]; [lia|]. specialize (IH H2 Ex). lia.
    - apply zsum_nonneg. exact P. }
  destruct (C45_round_trip (repeat 0 100) d) as (f & b' & W & _).
  { split; reflexivity. } { exact R. } { exact Bl. }
  exists d, f. split; [reflexivity|]. split; [exact W|]. intros b Hb.
  destruct (C45_round_trip b d Hb R Bl) as (f' & b'' & W' & Rd). rewrite W in W'. injection W' as <-. eauto.
Qed.
Print Assumptions C43_report.

(** C43: a first file with a report header instead of the correct text is refused. *)
Theorem C43_no_correct_file : forall uc j j4 f1 f2 c1,
  read_text uc j j4 (mkopt true true 0 true false) [] f1 = Ok (c1, true) ->
  editop uc j j4 f1 f2 = Fail "no correct file specified".
Proof. intros. unfold editop, editop_opt. rewrite H. reflexivity. Qed.
Print Assumptions C43_no_correct_file.

(** A case with moves: "a bcd~" for "bcd!a". *)
Example C43_C44_case :
  let t1 := bytes "a bcd~" in let t2 := bytes "bcd!a" in
  exists l1 l2 d, transpose_sync t1 t2 = Ok (l1, l2) /\ edit_operations t1 t2 = Ok d /\
    numbers l1 = [1; 2] /\ numbers l2 = [2; 1] /\
    insertions d = 1 /\ deletions d = 1 /\ total_moves d = 1 /\ entry (moves d) 1 = 1.
Proof. do 3 eexists. split; [vm_compute; reflexivity|]. split; [vm_compute; reflexivity|]. repeat split. Qed.
