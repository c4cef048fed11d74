(** C25-C28: the figures computed by accuracy. *)
From Coq Require Import String.
From Verif Require Import Base CLib Utf8Model TextModel TextSpec CharclassModel CompareModel
  SyncModel SyncSpec EditProof AccModel AccSpec SumProof AccProof AccCount AccTop TextProps.
Local Open Scope Z_scope.
Local Open Scope list_scope.

(** The two texts as read_text delivers them, within the limits of the program. *)
Definition inputs_ok (uc : unicode_data) (t0 t1 : list char) : Prop :=
  nul_hidden uc /\ text_ok t0 /\ text_ok t1 /\ tabulable t0 /\ zlen t0 <= MAX_F.

(** C25: accuracy succeeds; Characters is the number of non-'~' characters of the correct
    text; Errors is at most the edit distance, and equal to it when the correct text has
    no '~'. *)
Theorem C25_figures : forall uc t0 t1,
  inputs_ok uc t0 t1 ->
  exists d, accuracy_data uc t0 t1 = Ok d /\
    characters d = num plain t0 /\
    0 <= errors d /\
    forall dist, distance (map value t0) (map value t1) dist ->
      errors d <= dist /\ (~ In tilde (map value t0) -> errors d = dist).
Proof.
  intros uc t0 t1 (N & T0 & T1 & Tab & L).
  destruct (accuracy_counted uc t0 t1 N T0 T1 Tab L) as (l & d & E & Ed & C & F & P0 & P1 & G & D).
  exists d. split; [exact Ed|]. destruct C.
  split; [|split].
  - rewrite cn_characters. transitivity (num plain (flat_map (correct t0) l)); [|now rewrite P0].
    symmetry. apply num_flat_map.
  - rewrite cn_errors. apply zsum_nonneg, Forall_map, Forall_forall. intros it _.
    unfold group_errors, group_chars. pose proof (num_nonneg plain (correct t0 it)). lia.
  - intros dist Dd. apply distance_lev in Dd, D. rewrite <- D in Dd. subst dist.
    rewrite cn_errors, (total_cost_unmatched t0 t1) by exact F. split.
    + apply zsum_map_le. intros it _. apply group_errors_cost.
    + intros Nt. apply zsum_map_ext. intros it Hit. apply no_tilde in Nt.
      assert (num is_tilde (correct t0 it) = 0) as Z0.
      { rewrite <- P0, num_flat_map in Nt.
        apply (zsum_map_zero_inv (fun it => num is_tilde (correct t0 it)) l); auto.
        - intros; apply num_nonneg.
        - apply filter_In in Hit. tauto. }
      unfold group_errors, group_chars, group_gen. pose proof (num_split (correct t0 it)).
      pose proof (zlen_nonneg (generated t1 it)). pose proof (zlen_nonneg (correct t0 it)). lia.
Qed.
Print Assumptions C25_figures.

(** C25: identical texts (even with '~') have no errors. *)
Theorem C25_identical : forall uc t0 t1 d,
  inputs_ok uc t0 t1 -> map value t0 = map value t1 ->
  accuracy_data uc t0 t1 = Ok d -> errors d = 0.
Proof.
  intros uc t0 t1 d (N & T0 & T1 & Tab & L) Eq Hd.
  destruct (accuracy_counted uc t0 t1 N T0 T1 Tab L) as (l & d' & E & Ed & C & F & P0 & P1 & G & D).
  assert (d' = d) by congruence. subst d'. rewrite (cn_errors _ _ _ _ _ C).
  now apply identical_no_errors.
Qed.
Print Assumptions C25_identical.

(** Finding: a correct text containing U+10FFFF indexes the class table out of bounds. *)
Theorem C25_last_code_point_refuted : forall uc,
  accuracy_data uc [mkchar false 1114111] [] = UB "class[value]".
Proof. intros uc. vm_compute. reflexivity. Qed.
Print Assumptions C25_last_code_point_refuted.

(** C26: the figures are consistent with each other (see [consistent] in AccSpec). *)
Theorem C26_consistent : forall uc t0 t1 d,
  inputs_ok uc t0 t1 -> accuracy_data uc t0 t1 = Ok d -> consistent d.
Proof.
  intros uc t0 t1 d (N & T0 & T1 & Tab & L) Hd.
  destruct (accuracy_counted uc t0 t1 N T0 T1 Tab L) as (l & d' & E & Ed & C & F & P0 & P1 & G & D).
  assert (d' = d) by congruence. subst d'. destruct C.
  assert (forall l0, ops_consistent (ops_sum t0 t1 l0)) as Ops.
  { intros l0. unfold ops_sum, ops_consistent. cbn [ins subst del errs].
    rewrite <- !zsum_map_add. split.
    - apply zsum_map_ext. intros it _. unfold group_ops. cbn [ins subst del errs].
      unfold group_errors. unfold group_chars, group_gen. pose proof (num_nonneg plain (correct t0 it)).
      lia.
    - repeat split; apply zsum_nonneg, Forall_map, Forall_forall; intros it _; unfold group_ops;
        cbn [ins subst del]; unfold group_chars, group_gen;
        pose proof (num_nonneg plain (correct t0 it)); lia. }
  constructor; auto.
  - lia.
  - rewrite cn_total, cn_marked, cn_unmarked. unfold ops_sum. cbn [ins subst del errs].
    f_equal; apply (filter_split_sum _ (group_marked t1)).
  - now rewrite cn_marked.
  - now rewrite cn_unmarked.
  - rewrite cn_errors, cn_total. reflexivity.
  - lia.
  - rewrite cn_conf_marked, cn_marked. reflexivity.
  - rewrite cn_rejects. apply zsum_nonneg, Forall_map, Forall_forall. intros; apply num_nonneg.
  - rewrite cn_false, cn_suspects. split.
    + apply zsum_nonneg, Forall_map, Forall_forall. intros; apply num_nonneg.
    + rewrite (filter_split_sum _ is_match l). fold (matched_items l).
      set (r := zsum (map _ (filter _ l))). assert (0 <= r); [|lia].
      apply zsum_nonneg, Forall_map, Forall_forall. intros; apply num_nonneg.
Qed.
Print Assumptions C26_consistent.

(** C26: the per-character table counts the characters of the correct text, and as missed
    those outside the matched substrings. *)
Theorem C26_character_table : forall uc t0 t1 d,
  inputs_ok uc t0 t1 -> accuracy_data uc t0 t1 = Ok d ->
  exists l, fastukk_sync (map value t0) (map value t1) = Ok l /\
  forall v, ccount (small d v) = num (plain_value v) t0 /\
            cmissed (small d v) = num (plain_value v) (flat_map (correct t0) (unmatched_items l)).
Proof.
  intros uc t0 t1 d (N & T0 & T1 & Tab & L) Hd.
  destruct (accuracy_counted uc t0 t1 N T0 T1 Tab L) as (l & d' & E & Ed & C & F & P0 & P1 & G & D).
  assert (d' = d) by congruence. subst d'. exists l. split; [exact E|]. intros v. destruct C.
  rewrite cn_count, cn_missed, <- !num_flat_map, P0. auto.
Qed.
Print Assumptions C26_character_table.

(** C26: each confusion is listed once, with the errors of the groups that show it, and as
    marked those of the marked ones. *)
Theorem C26_confusions : forall uc t0 t1 d,
  inputs_ok uc t0 t1 -> accuracy_data uc t0 t1 = Ok d ->
  exists l, fastukk_sync (map value t0) (map value t1) = Ok l /\
  NoDup (map ckey (conftable d)) /\
  forall key (p : item -> bool),
    (forall it, In it (unmatched_items l) -> p it = true <-> group_key uc t0 t1 it key) ->
    conf_errors (conftable d) key = zsum (map (group_errors t0 t1) (filter p (unmatched_items l))) /\
    conf_marked (conftable d) key =
      zsum (map (group_errors t0 t1) (filter (group_marked t1) (filter p (unmatched_items l)))).
Proof.
  intros uc t0 t1 d (N & T0 & T1 & Tab & L) Hd.
  destruct (accuracy_counted uc t0 t1 N T0 T1 Tab L) as (l & d' & E & Ed & C & F & P0 & P1 & G & D).
  assert (d' = d) by congruence. subst d'. exists l. split; [exact E|]. destruct C.
  split; [apply cn_confs|]. intros key p Hp. rewrite cn_conf_of, cn_marked_of.
  assert (filter (listed_under uc t0 t1 key) (unmatched_items l) = filter p (unmatched_items l)) as ->;
    [|auto].
  apply filter_ext_in. intros it Hit. specialize (Hp it Hit).
  assert (Forall scalar (map value (correct t0 it)) /\ Forall scalar (map value (generated t1 it))) as [S0 S1].
  { unfold correct, generated, nth_part. split; apply Forall_map.
    - destruct (znth (isubs it) 0); [|constructor]. now apply (part_Forall (fun c => scalar (value c))).
    - destruct (znth (isubs it) 1); [|constructor]. now apply (part_Forall (fun c => scalar (value c))). }
  destruct (make_key_ok uc _ _ N S0 S1) as (k & Ek & Ik & _). unfold listed_under. rewrite Ek.
  fold (group_key uc t0 t1 it k) in Ik.
  destruct (list_eq_dec Z.eq_dec k key) as [->|Hk].
  - symmetry. now apply Hp.
  - destruct (p it); [|reflexivity]. destruct Hk. eapply is_key_fun; [exact Ik|]. now apply Hp.
Qed.
Print Assumptions C26_confusions.

(** C27: reject and suspect counts. *)
Theorem C27_marks : forall uc t0 t1 d,
  inputs_ok uc t0 t1 -> accuracy_data uc t0 t1 = Ok d ->
  exists l, fastukk_sync (map value t0) (map value t1) = Ok l /\
  rejects d = num is_tilde t1 /\
  suspects d = num plain_suspect t1 /\
  false_marks d = num plain_suspect (flat_map (generated t1) (matched_items l)) /\
  errs (marked_ops d) =
    zsum (map (group_errors t0 t1) (filter (group_marked t1) (unmatched_items l))) /\
  errs (unmarked_ops d) =
    zsum (map (group_errors t0 t1)
              (filter (fun it => negb (group_marked t1 it)) (unmatched_items l))).
Proof.
  intros uc t0 t1 d (N & T0 & T1 & Tab & L) Hd.
  destruct (accuracy_counted uc t0 t1 N T0 T1 Tab L) as (l & d' & E & Ed & C & F & P0 & P1 & G & D).
  assert (d' = d) by congruence. subst d'. exists l. split; [exact E|]. destruct C.
  rewrite cn_rejects, cn_suspects, cn_false, cn_marked, cn_unmarked, <- !num_flat_map, P1.
  repeat split.
Qed.
Print Assumptions C27_marks.

(** C27: insertions, substitutions and deletions of each row: a group with c correct and g
    generated characters counts min(c, g) substitutions and the rest as insertions or
    deletions. *)
Theorem C27_operations : forall uc t0 t1 d,
  inputs_ok uc t0 t1 -> accuracy_data uc t0 t1 = Ok d ->
  exists l, fastukk_sync (map value t0) (map value t1) = Ok l /\
  let c it := group_chars t0 it in
  let g it := group_gen t0 t1 it in
  let u := unmatched_items l in
  let m := filter (group_marked t1) u in
  ins (total_ops d) = zsum (map (fun it => Z.max 0 (c it - g it)) u) /\
  subst (total_ops d) = zsum (map (fun it => Z.min (c it) (g it)) u) /\
  del (total_ops d) = zsum (map (fun it => Z.max 0 (g it - c it)) u) /\
  ins (marked_ops d) = zsum (map (fun it => Z.max 0 (c it - g it)) m) /\
  subst (marked_ops d) = zsum (map (fun it => Z.min (c it) (g it)) m) /\
  del (marked_ops d) = zsum (map (fun it => Z.max 0 (g it - c it)) m).
Proof.
  intros uc t0 t1 d (N & T0 & T1 & Tab & L) Hd.
  destruct (accuracy_counted uc t0 t1 N T0 T1 Tab L) as (l & d' & E & Ed & C & F & P0 & P1 & G & D).
  assert (d' = d) by congruence. subst d'. exists l. split; [exact E|]. destruct C.
  rewrite cn_total, cn_marked. repeat split.
Qed.
Print Assumptions C27_operations.

(** C28: the key of any confusion is built without overflowing a buffer; it shows each side,
    cut after at most 24 bytes, and is a single line of at most 60 bytes. *)
Theorem C28_key : forall uc vs0 vs1,
  nul_hidden uc -> Forall scalar vs0 -> Forall scalar vs1 ->
  exists key line, make_key uc vs0 vs1 = Ok key /\ is_key uc vs0 vs1 key /\
    key = line ++ [10] /\ ~ In 10 line /\ ~ In 0 line /\ zlen key <= 60.
Proof.
  intros uc vs0 vs1 N S0 S1. destruct (make_key_ok uc vs0 vs1 N S0 S1) as (key & E & K & L).
  destruct K as (s0 & s1 & H0 & H1 & ->).
  exists (bytes "{" ++ s0 ++ bytes "}-{" ++ s1 ++ bytes "}" ++ [10]),
         (bytes "{" ++ s0 ++ bytes "}-{" ++ s1 ++ bytes "}").
  split; [exact E|]. split; [exists s0, s1; auto|]. split; [now rewrite <- !app_assoc|].
  destruct (shown_bytes uc _ _ N S0 H0) as (_ & A0 & B0).
  destruct (shown_bytes uc _ _ N S1 H1) as (_ & A1 & B1).
  rewrite !in_app_iff. split; [|split]; [| |exact L];
    (intros [H|[H|[H|[H|H]]]]; [revert H; cbn; lia|tauto|revert H; cbn; lia|tauto|revert H; cbn; lia]).
Qed.
Print Assumptions C28_key.

(** C28: hence every key of the confusion table is such a line. *)
Theorem C28_table_keys : forall uc t0 t1 d c,
  inputs_ok uc t0 t1 -> accuracy_data uc t0 t1 = Ok d -> In c (conftable d) ->
  exists line, ckey c = line ++ [10] /\ ~ In 10 line /\ ~ In 0 line /\ zlen (ckey c) <= 60.
Proof.
  intros uc t0 t1 d c (N & T0 & T1 & Tab & L) Hd Hc.
  destruct (accuracy_counted uc t0 t1 N T0 T1 Tab L) as (l & d' & E & Ed & C & F & P0 & P1 & G & D).
  assert (d' = d) by congruence. subst d'. destruct C.
  rewrite Forall_forall in cn_keys. destruct (cn_keys c Hc) as (Lc & it & Hit & K).
  assert (Forall scalar (map value (correct t0 it)) /\ Forall scalar (map value (generated t1 it))) as [S0 S1].
  { unfold correct, generated, nth_part. split; apply Forall_map.
    - destruct (znth (isubs it) 0); [|constructor]. now apply (part_Forall (fun c => scalar (value c))).
    - destruct (znth (isubs it) 1); [|constructor]. now apply (part_Forall (fun c => scalar (value c))). }
  destruct (C28_key uc _ _ N S0 S1) as (key & line & _ & K' & E1 & E2 & E3 & E4).
  assert (ckey c = key) as -> by (eapply is_key_fun; eauto). exists line. auto.
Qed.
Print Assumptions C28_table_keys.

(** A concrete case: suspects, a reject, a wildcard, a substitution and an insertion. *)
Definition sample_text (s : string) : list char := map (mkchar false) (bytes s).
Definition sample_generated : list char :=
  sample_text "teh qu" ++ [mkchar true 105; mkchar false 126; mkchar true 107] ++
  sample_text " brwn f0xy".

Example C25_nonvacuous :
  inputs_ok sample_uc (sample_text "the qu~ck brown fox") sample_generated /\
  match accuracy_data sample_uc (sample_text "the qu~ck brown fox") sample_generated with
  | Ok d => characters d = 18 /\ errors d = 6 /\ rejects d = 1 /\ suspects d = 2 /\
            false_marks d = 1 /\ errs (marked_ops d) = 1 /\
            zlen (conftable d) = 6 /\ ccount (small d 111) = 2 /\ cmissed (small d 111) = 2
  | _ => False
  end.
Proof.
  split.
  - unfold inputs_ok, nul_hidden, text_ok, tabulable, scalar.
    repeat apply conj; try reflexivity; try (vm_compute; discriminate);
      unfold sample_generated, sample_text; rewrite ?Forall_forall;
      intros c Hc; vm_compute in Hc; intuition (subst; cbn [value] in *; lia).
  - vm_compute. repeat split.
Qed.
