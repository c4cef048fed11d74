(** C55: accuracy of the characters of a group. *)
From Coq Require Import String.
From Verif Require Import Base CLib CLibProof SumProof Utf8Model TextIO TextModel TextSpec CharclassModel AccModel AccSpec AccProof
  ReportModel ReportSpec ReportProof AccrptModel AccrptSpec AccrptTop TextProps GroupModel.
Local Open Scope Z_scope.
Local Open Scope list_scope.

(** Specification: the characters listed are those of the text that the report has, other than
    blanks and newlines, in their order and as often as they occur. *)
Definition listed (d : accdata) (vs : list Z) : list Z :=
  filter (fun v => negb (v =? 32) && negb (v =? 10) && (0 <? fig (FCharacter false v) d)) vs.
(** Columns of figures and percentage. *)
Definition figures_of (fmt8 : Z -> Z -> list Z) (count missed : Z) : list Z :=
  pad 32 8 (dec count) ++ bytes " " ++ pad 32 8 (dec missed) ++ bytes " " ++
  (if count =? 0 then bytes "  ------" else fmt8 (count - missed) count) ++ bytes "   ".
Definition group_row (uc : unicode_data) (fmt8 : Z -> Z -> list Z) (d : accdata) (v : Z) : list Z :=
  figures_of fmt8 (fig (FCharacter false v) d) (fig (FCharacter true v) d) ++ bytes "{" ++ display uc v ++ bytes "}" ++ [10].
Definition group_listing (uc : unicode_data) (fmt8 : Z -> Z -> list Z) (d : accdata) (vs : list Z) : list Z :=
  let chars := listed d vs in
  bytes "   Count   Missed   %Right" ++ [10] ++
  List.concat (map (group_row uc fmt8 d) chars) ++
  figures_of fmt8 (zsum (map (fun v => fig (FCharacter false v) d) chars)) (zsum (map (fun v => fig (FCharacter true v) d) chars)) ++
  bytes "Total" ++ [10].

Lemma line_figures fmt8 count missed : write_line fmt8 count missed = figures_of fmt8 count missed.
Proof. unfold write_line, figures_of. destruct (count =? 0); reflexivity. Qed.

Lemma write_chars_ok uc fmt8 d : nul_hidden uc -> reportable d -> forall vs tc tm,
  Forall (fun v => 0 <= v < 1114111) vs ->
  write_chars uc fmt8 d vs tc tm = Ok (List.concat (map (group_row uc fmt8 d) (listed d vs)),
    (tc + zsum (map (fun v => fig (FCharacter false v) d) (listed d vs)),
     tm + zsum (map (fun v => fig (FCharacter true v) d) (listed d vs)))).
Proof.
  intros N R. induction vs as [|v vs IH]; intros tc tm F.
  - cbn [write_chars listed filter map List.concat]. change (zsum []) with 0. now rewrite !Z.add_0_r.
  - apply Forall_cons_iff in F as [Hv F]. cbn [write_chars]. unfold NUM_CHARVALUES, BLANK, NEWLINE.
    replace ((0 <=? v) && (v <? 1114111)) with true by lia. cbn [negb].
    unfold listed. cbn [filter]. cbn [fig cell].
    replace ((0 <? ccount (small d v)) && negb (v =? 32) && negb (v =? 10)) with
      (negb (v =? 32) && negb (v =? 10) && (0 <? ccount (small d v)))
      by (now destruct (v =? 32), (v =? 10), (0 <? ccount (small d v))).
    destruct (negb (v =? 32) && negb (v =? 10) && (0 <? ccount (small d v))) eqn:E.
    + assert (ccount (small d v) <> 0) by lia.
      rewrite (char_string_ok uc v N) by (apply (rp_values d R); assumption). cbn [obind].
      rewrite (IH _ _ F). cbn [obind]. cbn [map List.concat]. rewrite !zsum_cons. unfold listed. cbn [fig cell].
      rewrite line_figures. unfold group_row. cbn [fig cell]. rewrite <- !app_assoc, !Z.add_assoc. reflexivity.
    + rewrite (IH _ _ F). reflexivity.
Qed.

Lemma listing_ok uc fmt8 d vs : nul_hidden uc -> reportable d -> Forall (fun v => 0 <= v < 1114111) vs ->
  write_report uc fmt8 d vs = Ok (group_listing uc fmt8 d vs).
Proof.
  intros N R F. unfold write_report. rewrite (write_chars_ok uc fmt8 d N R vs 0 0 F). cbn [obind fst snd].
  rewrite line_figures, !Z.add_0_l. unfold group_listing. reflexivity.
Qed.

Lemma listing_same uc fmt8 d d' vs : same_figures d d' -> group_listing uc fmt8 d vs = group_listing uc fmt8 d' vs.
Proof.
  intros S. assert (E : forall m v, fig (FCharacter m v) d = fig (FCharacter m v) d') by (intros; apply S).
  unfold group_listing, listed. cbv zeta.
  replace (filter (fun v => negb (v =? 32) && negb (v =? 10) && (0 <? fig (FCharacter false v) d)) vs)
    with (filter (fun v => negb (v =? 32) && negb (v =? 10) && (0 <? fig (FCharacter false v) d')) vs)
    by (apply filter_ext; intros v; now rewrite E).
  set (l := filter _ vs). clearbody l.
  rewrite (map_ext (group_row uc fmt8 d) (group_row uc fmt8 d')) by (intros v; unfold group_row; now rewrite !E).
  rewrite (map_ext (fun v => fig (FCharacter false v) d) (fun v => fig (FCharacter false v) d')) by (intros; apply E).
  rewrite (map_ext (fun v => fig (FCharacter true v) d) (fun v => fig (FCharacter true v) d')) by (intros; apply E).
  reflexivity.
Qed.

(** C55: for a group file and an accuracy report, and whether or not a third file is named,
    the listing of the group is written; other numbers of files are an error. *)
Theorem C55_program : forall uc j j4 fmt fmt8 b groupfile text found d report,
  nul_hidden uc -> marks_wide uc -> pct_ok fmt -> line_buffer b -> report_of uc fmt d report ->
  read_text uc j j4 (mkopt false true 0 true false) [] groupfile = Ok (text, found) ->
  Forall (fun c => 0 <= value c < 1114111) text ->
  groupacc uc j j4 fmt8 b [groupfile; report] = Ok (group_listing uc fmt8 d (map value text)) /\
  (forall third, groupacc uc j j4 fmt8 b [groupfile; report; third] = Ok (group_listing uc fmt8 d (map value text))) /\
  (forall files, zlen files < 2 \/ 3 < zlen files -> groupacc uc j j4 fmt8 b files = Fail "invalid number of files").
Proof.
  intros uc j j4 fmt fmt8 b groupfile text found d report N W F B H Et Ft.
  destruct (read_one uc fmt N W F b acc_empty d report B H acc_empty_reportable) as (D & b' & E & _ & R & G).
  assert (X : write_report uc fmt8 D (map value text) = Ok (group_listing uc fmt8 d (map value text))).
  { rewrite (listing_ok uc fmt8 D _ N R); [|now apply Forall_map]. f_equal. apply listing_same.
    intros x. rewrite G, acc_empty_fig. lia. }
  split; [|split].
  - unfold groupacc, group_opt. change (zlen [groupfile; report]) with 2. cbn [Z.ltb Z.compare Pos.compare Pos.compare_cont orb nth].
    rewrite Et. cbn [obind]. rewrite E. cbn [obind]. exact X.
  - intros third. unfold groupacc, group_opt. change (zlen [groupfile; report; third]) with 3. cbn [Z.ltb Z.compare Pos.compare Pos.compare_cont orb nth].
    rewrite Et. cbn [obind]. rewrite E. cbn [obind]. exact X.
  - intros files L. unfold groupacc. replace ((zlen files <? 2) || (3 <? zlen files)) with true by lia. reflexivity.
Qed.
Print Assumptions C55_program.

(** C55: if the group file repeats no character, the totals are at most those of any wider set
    of characters. *)
Theorem C55_totals : forall d vs missed, reportable d -> NoDup vs ->
  0 <= zsum (map (fun v => fig (FCharacter missed v) d) (listed d vs)) /\
  (forall all, NoDup all -> (forall v, In v vs -> In v all) ->
     zsum (map (fun v => fig (FCharacter missed v) d) (listed d vs)) <= zsum (map (fun v => fig (FCharacter missed v) d) all)).
Proof.
  intros d vs m R N.
  assert (P : forall l, 0 <= zsum (map (fun v => fig (FCharacter m v) d) l)).
  { intros l. apply zsum_nonneg. apply Forall_map. apply Forall_forall. intros v _. apply (rp_nonneg d R). }
  split; [apply P|]. intros all Na Hv.
  assert (Nl : NoDup (listed d vs)) by (apply NoDup_filter; exact N).
  assert (Hl : forall v, In v (listed d vs) -> In v all) by (intros v Hi; apply filter_In in Hi as [Hi _]; now apply Hv).
  clear - P Na Nl Hl R. revert all Na Hl. induction (listed d vs) as [|v l IH]; intros all Na Hl; [apply P|].
  destruct (in_split v all (Hl v (or_introl eq_refl))) as (a & c & ->).
  inversion Nl as [|? ? N1 N2]; subst. specialize (IH N2 (a ++ c)).
  cbn [map]. rewrite zsum_cons, map_app. cbn [map]. rewrite zsum_app, zsum_cons.
  rewrite map_app, zsum_app in IH. apply NoDup_remove in Na as [Na _].
  assert (forall u, In u l -> In u (a ++ c)) as X.
  { intros u Hu. specialize (Hl u (or_intror Hu)). apply in_app_or in Hl as [Hl|[Hl|Hl]]; apply in_or_app; auto.
    subst u. contradiction. }
  specialize (IH Na X). lia.
Qed.
Print Assumptions C55_totals.

(** C55 refuted for a group file with U+10FFFF: there is no such entry in the table. *)
Theorem C55_last_refuted : forall uc fmt8 d vs, Forall (fun v => 0 <= v < 1114111) vs -> nul_hidden uc -> reportable d ->
  write_report uc fmt8 d (vs ++ [1114111]) = UB "small_class[c->value]".
Proof.
  intros uc fmt8 d vs F N R. unfold write_report.
  assert (forall tc tm, write_chars uc fmt8 d (vs ++ [1114111]) tc tm = UB "small_class[c->value]") as H.
  { induction F as [|v vs Hv F IH]; intros tc tm; [reflexivity|]. cbn [app write_chars]. unfold NUM_CHARVALUES, BLANK, NEWLINE.
    replace ((0 <=? v) && (v <? 1114111)) with true by lia. cbn [negb].
    destruct ((0 <? ccount (small d v)) && negb (v =? 32) && negb (v =? 10)) eqn:E; [|apply IH].
    rewrite (char_string_ok uc v N) by (apply (rp_values d R); lia). cbn [obind]. rewrite IH. reflexivity. }
  rewrite H. reflexivity.
Qed.
Print Assumptions C55_last_refuted.

Definition small_data : accdata :=
  mkacc 0 0 0 0 0 no_ops no_ops no_ops (fun _ => mkcls 0 0) (mkcls 0 0) [] (fun v => if v =? 97 then mkcls 4 1 else if v =? 32 then mkcls 9 0 else if v =? 98 then mkcls 2 2 else mkcls 0 0).
Example C55_ex :
  group_listing sample_uc (fun n d => pad 32 8 (dec (100 * n / d) ++ bytes ".00")) small_data (bytes "xba a") =
  bytes "   Count   Missed   %Right" ++ [10] ++
  bytes "       2        2     0.00   {b}" ++ [10] ++
  bytes "       4        1    75.00   {a}" ++ [10] ++
  bytes "       4        1    75.00   {a}" ++ [10] ++
  bytes "      10        4    60.00   Total" ++ [10].
Proof. vm_compute. reflexivity. Qed.
