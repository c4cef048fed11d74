(** C96: synctext shows the errors that accuracy counts. *)
From Coq Require Import String Permutation.
From Verif Require Import Base CLib CLibProof Utf8Model Utf8Proof TextModel TextSpec TextProof TextIO TextProps ReadProof SyncModel SyncSpec
  EditProof FastukkProps HeurProps TransProps AccModel AccSpec SumProof AccProof AccCount AccTop AccProps ReportModel ReportProof SynctextModel
  SynctextSpec SynctextProof SynctextUniq SynctextProps ShownSpec.
Local Open Scope Z_scope.
Local Open Scope list_scope.

Lemma filter_of_map {A B} (g : A -> B) (f : B -> bool) l : filter f (map g l) = map g (filter (fun x => f (g x)) l).
Proof. induction l as [|x l IH]; cbn [map filter]; [reflexivity|]. rewrite IH. now destruct (f (g x)). Qed.

(** The two parts of a group. *)
Definition parts (t0 t1 : list char) (it : item) : list char * list char := (correct t0 it, generated t1 it).

Lemma pieces_two t0 t1 it : Forall2 sub_ok [t0; t1] (isubs it) -> pieces [t0; t1] it = [correct t0 it; generated t1 it].
Proof.
  intros H. inversion H as [|? u0 ? ss O0 H' X1 X2]; subst. inversion H' as [|? u1 ? ss' O1 H'' X3 X4]; subst. inversion H''; subst.
  unfold pieces, correct, generated, nth_part. rewrite <- X2. reflexivity.
Qed.

Lemma build_differences t0 t1 l : Forall (fun it => Forall2 sub_ok [t0; t1] (isubs it)) l ->
  differences (build [t0; t1] l) = map (parts t0 t1) (unmatched_items l).
Proof.
  unfold differences. induction 1 as [|it l H F IH]; [reflexivity|]. cbn [build unmatched_items filter]. fold (unmatched_items l).
  destruct (is_match it); cbn [negb steps map fst]; [exact IH|]. rewrite IH. f_equal. rewrite (pieces_two t0 t1 it H). reflexivity.
Qed.

Lemma build_common t0 t1 l : Forall (fun it => Forall2 sub_ok [t0; t1] (isubs it)) l ->
  common (build [t0; t1] l) = flat_map (generated t1) (matched_items l).
Proof.
  unfold common. intros F. induction F as [|it l H F IH]; [reflexivity|]. cbn [build matched_items filter]. fold (matched_items l).
  destruct (is_match it); cbn [beginning steps flat_map fst snd].
  - rewrite piece_joined by (rewrite pieces_zlen, build_beginning; auto). rewrite <- app_assoc, IH, (pieces_two t0 t1 it H). reflexivity.
  - rewrite piece_empties. cbn [app]. exact IH.
Qed.

Lemma figures_build uc t0 t1 l d : inputs_ok uc t0 t1 -> fastukk_sync (map value t0) (map value t1) = Ok l ->
  accuracy_data uc t0 t1 = Ok d -> Forall (fun it => Forall2 sub_ok [t0; t1] (isubs it)) l ->
  figures_of uc (build [t0; t1] l) d.
Proof.
  intros I E Ed F. destruct (C26_confusions uc t0 t1 d I Ed) as (l' & E' & _ & Cf). assert (l' = l) by congruence. subst l'.
  destruct I as (N & T0 & T1 & Tab & L).
  destruct (accuracy_counted uc t0 t1 N T0 T1 Tab L) as (l' & d' & E'' & Ed' & C & _).
  assert (l' = l) by congruence. assert (d' = d) by congruence. subst l' d'. destruct C.
  assert (Ops : forall m, operations_of (map (parts t0 t1) m) (ops_sum t0 t1 m)).
  { intros m. unfold operations_of, sum_over. rewrite !map_map. unfold ops_sum. cbn [ins subst del errs]. repeat split. }
  constructor; rewrite ?(build_differences t0 t1 l F), ?(build_common t0 t1 l F).
  - rewrite cn_errors. unfold sum_over. rewrite map_map. reflexivity.
  - rewrite cn_total. apply Ops.
  - rewrite cn_marked, filter_of_map. apply Ops.
  - rewrite cn_unmarked, filter_of_map. apply Ops.
  - rewrite cn_false. symmetry. apply num_flat_map.
  - intros v. rewrite cn_missed. unfold sum_over. rewrite map_map. reflexivity.
  - intros key f Hf. destruct (Cf key (fun it => f (parts t0 t1 it))) as [C1 C2].
    { intros it Hit. apply (Hf (parts t0 t1 it)). now apply in_map. }
    rewrite C1, C2. rewrite !filter_of_map. unfold sum_over. rewrite !map_map. split; reflexivity.
Qed.

(** The texts that synctext reads are fit for accuracy, if the first has no U+10FFFF. *)
Lemma suitable_inputs uc line buf show files t0 t1 : suitable uc line buf false show files [t0; t1] -> tabulable t0 -> inputs_ok uc t0 t1.
Proof.
  intros St Tab. pose proof (suitable_fits _ _ _ _ _ _ _ St) as Fit. destruct St as [_ N _ _ _ _ Sz _].
  assert (T : forall t, In t [t0; t1] -> text_ok t).
  { intros t Ht. rewrite Forall_forall in Fit. specialize (Fit t Ht). unfold text_ok. rewrite Forall_forall in *. intros c Hc. apply (Fit c Hc). }
  split; [exact N|]. split; [apply T, or_introl, eq_refl|]. split; [apply T, or_intror, or_introl, eq_refl|]. split; [exact Tab|].
  specialize (Sz t0 (or_introl eq_refl)). unfold MAX_F. lia.
Qed.

(** C96: for the correct text and the generated text, synctext (without option -H) shows an
    alignment from whose differences all figures of accuracy's report can be counted. *)
Theorem C96_shown : forall uc line buf show f0 f1 t0 t1,
  suitable uc line buf false show [f0; f1] [t0; t1] -> tabulable t0 ->
  exists al d, aligned [t0; t1] al /\
    synctext uc line buf false false show false [f0; f1] = Ok (printed uc show [fst f0; fst f1] al) /\
    accuracy_data uc t0 t1 = Ok d /\ figures_of uc al d.
Proof.
  intros uc line buf show f0 f1 t0 t1 St Tab. pose proof (suitable_inputs _ _ _ _ _ _ _ St Tab) as I.
  pose proof (suitable_fits _ _ _ _ _ _ _ St) as Fit. destruct St as [J N Lo B R _ Sz Nm].
  destruct (C25_figures uc t0 t1 I) as (d & Ed & _).
  destruct (C17_fastukk_partition (map value t0) (map value t1)) as (l & El & P).
  { rewrite zlen_map. destruct I as (_ & _ & _ & _ & L). exact L. }
  pose proof (proj1 (C18_fastukk_matches _ _ _ El)) as G. change [map value t0; map value t1] with (map (map value) [t0; t1]) in P, G.
  pose proof (partition_good [t0; t1] l P) as Good.
  exists (build [t0; t1] l), d. split; [now apply build_aligned|]. split; [|split; [exact Ed|now apply figures_build]].
  unfold synctext, synctext_texts. change (zlen [f0; f1]) with 2. change (zlen (map fst [f0; f1])) with 2.
  change (2 <? 2) with false. cbn [andb orb].
  rewrite (read_all _ _ _ _ _ _ R). cbn [obind app].
  change (nth 0 (map (map value) [t0; t1]) []) with (map value t0). change (nth 1 (map (map value) [t0; t1]) []) with (map value t1).
  rewrite El. cbn [obind].
  unfold write_matches. rewrite (match_loop_ok uc show [t0; t1] l N ltac:(cbn; lia) Good G Fit). cbn [obind].
  unfold write_differences.
  assert (Ln : zlen (map fst [f0; f1]) = zlen [t0; t1]) by reflexivity.
  change [fst f0; fst f1] with (map fst [f0; f1]).
  rewrite maxlen_longest by exact Ln.
  assert (W : 0 <= longest (map fst [f0; f1]) < 10 ^ 15).
  { apply longest_small; try lia. intros nm Hnm. apply in_map_iff in Hnm as ((nm' & f) & <- & Hin). exact (Nm _ _ Hin). }
  rewrite format_fits by exact W. rewrite (difference_loop_ok uc show _ _ [t0; t1] l N (proj1 W) Good Fit). cbn [obind].
  f_equal. unfold printed, common_part. change (0 + 1) with 1. unfold write_separator, separator. now rewrite <- !app_assoc.
Qed.
Print Assumptions C96_shown.

(** C96: any alignment of the two texts, such as the one shown with option -H, edits at least
    as many characters as accuracy counts errors. *)
Lemma differ p q : exists c, edits p q c /\ c <= Z.max (zlen p) (zlen q).
Proof. exists (lev p q). split; [apply lev_edits|apply lev_upper]. Qed.

Lemma piece_In i ps : 0 <= i < zlen ps -> In (piece i ps) ps.
Proof. intros H. unfold piece. destruct (znth_lt_Some ps i H) as [p E]. rewrite E. eapply znth_In, E. Qed.

Lemma alike_edits ps : zlen ps = 2 -> alike ps -> edits (map value (piece 0 ps)) (map value (piece 1 ps)) 0.
Proof.
  intros L (vs & Nt & H). rewrite (H (piece 0 ps)), (H (piece 1 ps)) by (apply piece_In; lia). now apply edits_refl.
Qed.

Lemma aligned_edits t0 t1 al : aligned [t0; t1] al -> exists c, edits (map value t0) (map value t1) c /\ c <= edited al.
Proof.
  intros (T & (L & A) & S). rewrite <- (T 0 t0 eq_refl), <- (T 1 t1 eq_refl). clear T. change (zlen [t0; t1]) with 2 in *.
  unfold text_of. rewrite !map_app. pose proof (alike_edits _ L A) as E0. clear L A. destruct al as [b st]. cbn [beginning steps] in *.
  assert (exists c, edits (map value (flat_map (fun s => piece 0 (fst s) ++ piece 0 (snd s)) st))
                          (map value (flat_map (fun s => piece 1 (fst s) ++ piece 1 (snd s)) st)) c /\ c <= edited (mkal b st)) as (c & E & Lc).
  { clear E0. induction st as [|s st IH]; [exists 0; split; [apply edits_nil|unfold edited; cbn; lia]|].
    destruct IH as (c & E & Lc); [intros; apply S; now right|]. destruct (S s (or_introl eq_refl)) as (L1 & L2 & A). pose proof (alike_edits _ L2 A) as E2.
    destruct (differ (map value (piece 0 (fst s))) (map value (piece 1 (fst s)))) as (c1 & E1 & Lc1). rewrite !zlen_map in Lc1.
    exists (c1 + 0 + c). split.
    - cbn [flat_map]. rewrite !map_app. apply edits_app; [|exact E]. now apply edits_app.
    - unfold edited in *. cbn [steps map] in *. rewrite zsum_cons.
      assert (M : Z.max (zlen (piece 0 (fst s))) (zlen (piece 1 (fst s))) <= fold_right Z.max 0 (map zlen (fst s))).
      { destruct (fst s) as [|p [|q [|? ?]]]; try (exfalso; clear - L1; unfold zlen in L1; cbn [List.length] in L1; lia).
        cbn [map fold_right]. change (piece 0 [p; q]) with p. change (piece 1 [p; q]) with q. lia. }
      lia. }
  exists (0 + c). split; [now apply edits_app|lia].
Qed.

Theorem C96_at_least : forall uc t0 t1 al d,
  inputs_ok uc t0 t1 -> aligned [t0; t1] al -> accuracy_data uc t0 t1 = Ok d -> errors d <= edited al.
Proof.
  intros uc t0 t1 al d I A Ed. destruct (aligned_edits t0 t1 al A) as (c & E & Lc).
  destruct (C25_figures uc t0 t1 I) as (d' & Ed' & _ & _ & D). assert (d' = d) by congruence. subst d'.
  destruct (D _ (lev_distance (map value t0) (map value t1))) as [H _]. pose proof (lev_min _ _ _ E). lia.
Qed.
Print Assumptions C96_at_least.

(** With option -H as without it synctext shows such an alignment. *)
Theorem C96_heuristic : forall uc line buf heuristic show f0 f1 t0 t1,
  suitable uc line buf false show [f0; f1] [t0; t1] -> tabulable t0 ->
  exists al d, aligned [t0; t1] al /\
    synctext uc line buf heuristic false show false [f0; f1] = Ok (printed uc show [fst f0; fst f1] al) /\
    accuracy_data uc t0 t1 = Ok d /\ errors d <= edited al.
Proof.
  intros uc line buf heuristic show f0 f1 t0 t1 St Tab. pose proof (suitable_inputs _ _ _ _ _ _ _ St Tab) as I.
  destruct (C59_output uc line buf heuristic false show [f0; f1] [t0; t1] St) as (al & A & E & _); [change (zlen [f0; f1]) with 2; lia|].
  destruct (C25_figures uc t0 t1 I) as (d & Ed & _). exists al, d. split; [exact A|]. split; [exact E|]. split; [exact Ed|].
  exact (C96_at_least uc t0 t1 al d I A Ed).
Qed.
Print Assumptions C96_heuristic.

(** The files of the example of C59: an 'e' that is read as 'o', and one that is lost; the
    mark of the 'n' is false. *)
Definition shown_correct : list char := map (mkchar false) (bytes "the" ++ [10] ++ bytes "end.").
Definition shown_ocr : list char := map (mkchar false) (bytes "tho" ++ [10]) ++ [mkchar true 110] ++ map (mkchar false) (bytes "d.").
Definition shown_files : list (list Z * list Z) :=
  [(bytes "correct", bytes "the" ++ [10] ++ bytes "end."); (bytes "ocr", bytes "tho" ++ [10; 94] ++ bytes "nd.")].

Example C96_ex :
  suitable sample_uc sample_line sample_buf false true shown_files [shown_correct; shown_ocr] /\ tabulable shown_correct /\
  match accuracy_data sample_uc shown_correct shown_ocr with
  | Ok d => errors d = 2 /\ subst (total_ops d) = 1 /\ ins (total_ops d) = 1 /\ del (total_ops d) = 0 /\ false_marks d = 1 /\
            cmissed (small d 101) = 2 /\ conf_errors (conftable d) (bytes "{e}-{o}" ++ [10]) = 1
  | _ => False
  end.
Proof.
  split; [|split; [repeat (apply Forall_cons; [vm_compute; discriminate|]); apply Forall_nil|vm_compute; repeat split]].
  constructor.
  - repeat split. repeat constructor; unfold is_byte; lia.
  - reflexivity.
  - discriminate.
  - intros nm f [[= <- <-]|[[= <- <-]|[]]]; repeat constructor; unfold is_byte; lia.
  - repeat constructor; exists false; reflexivity.
  - intros _ t c [<-|[<-|[]]] Hc; left; revert c Hc; apply Forall_forall; repeat constructor; lia.
  - intros t [<-|[<-|[]]]; vm_compute; reflexivity.
  - intros nm f [[= <- <-]|[[= <- <-]|[]]]; vm_compute; reflexivity.
Qed.
