(** C97: what accuracy and editop print for the same two files. *)
From Coq Require Import String Permutation.
From Verif Require Import Base CLib CLibProof Utf8Model TextModel TextSpec TextIO TextProps ReadProof SyncModel SyncSpec
  TransProps AccModel AccSpec SumProof AccProof AccCount AccProps ReportModel ReportSpec ReportProof AccrptModel AccrptSpec AccrptFig AccrptTop AccrptProof
  EdoModel EdoSpec EdoProof EditopModel EditopProps GreedySpec TraceSpec EditProof EditopDebugModel TraceProps
  UtilModel ArgsProps MainModel MainSpec MainProof MainProps MainProgProps MainWacProps MainTextSpec MainTextProps MainEditProps WildSpec WildProps WildProgProps BoundProps.
Local Open Scope Z_scope.
Local Open Scope list_scope.
#[local] Opaque all_values.

(** C97: given the same two files, accuracy prints at most as many errors as editop's report has
    insertions, deletions and, counted twice, characters in the blocks moved. *)
Theorem C97_bound_program : forall sys uc line buf order fmt items argv items2 argv2 n0 n1 dest dest2 f0 f1 t0 t1 h,
  nul_hidden uc -> marks_wide uc -> pct_ok fmt -> permutes order -> junk_ok line buf ->
  command_line [] items argv -> plain_args items = with_third [n0; n1] dest -> can_deliver sys dest ->
  command_line [MainModel.flag_option 68] items2 argv2 -> plain_args items2 = with_third [n0; n1] dest2 -> says_flag items2 68 false -> can_deliver sys dest2 ->
  has_file sys n0 f0 -> has_file sys n1 f1 -> Forall is_byte f0 -> Forall is_byte f1 ->
  file_text uc false f0 false t0 -> file_text uc false f1 h t1 ->
  ~ In 1114111 (map value t0) -> zlen t0 <= MAX_F -> zlen t0 + zlen t1 < 100000000 ->
  exists r report errors r2 ins del lengths,
    accuracy_main sys uc line buf order fmt argv = Ok (Done r) /\ delivered sys dest [] report r /\ shows report 3 (bytes "Errors") errors /\
    editop_main sys uc line buf argv2 = Ok (Done r2) /\ delivered sys dest2 [] (edit_report ins del lengths) r2 /\
    errors <= ins + del + 2 * zsum lengths.
Proof.
  intros sys uc line buf order fmt items argv items2 argv2 n0 n1 dest dest2 f0 f1 t0 t1 h N W P O J CL PA D CL2 PA2 SF D2 F0 F1 B0 B1 T0 T1 Tab Lm Ls.
  destruct (C98_program sys uc line buf order fmt items argv n0 n1 dest f0 f1 t0 t1 h N W P O J CL PA F0 F1 B0 B1 T0 T1 Tab Lm Ls D) as (r & report & er & Er & Dl & Sh & Fd).
  pose proof (read_file_text uc line buf false f0 false t0 J B0 T0) as R0. pose proof (read_file_text uc line buf false f1 h t1 J B1 T1) as R1.
  assert (I : inputs_ok uc t0 t1).
  { split; [exact N|]. split; [eapply (read_text_scalar uc line buf (mkopt true true 0 true false)); [exact J|exact B0|discriminate|exact R0]|].
    split; [eapply (read_text_scalar uc line buf (mkopt true true 0 true false)); [exact J|exact B1|discriminate|exact R1]|].
    split; [|exact Lm]. unfold tabulable. rewrite Forall_forall. intros c Hc E. apply Tab. rewrite <- E. now apply in_map. }
  destruct (C97_bound uc t0 t1 I) as (d & e & ls & Ed & Ee & Rc & B).
  destruct (C98_errors uc t0 t1 I) as (d' & Ed' & Fd' & _). assert (d' = d) by congruence. subst d'.
  assert (er = errors d) as ->. { destruct Fd as (A1 & A2), Fd' as (A3 & A4). apply A2 in A3. apply A4 in A1. lia. }
  destruct (C44_reportable _ _ e Ee) as (Rp & _). pose proof (write_edorpt_text e (er_size e Rp)) as Ew. rewrite (edit_report_text e ls Rc (er_size e Rp)) in Ew.
  destruct (write_delivered sys dest2 [] (edit_report (insertions e) (deletions e) ls) D2) as (r2 & Er2 & Dl2).
  exists r, report, (errors d), r2, (insertions e), (deletions e), ls. split; [exact Er|]. split; [exact Dl|]. split; [exact Sh|]. split; [|split; [exact Dl2|exact B]].
  unfold editop_main. enter editop_options CL2 vars V. destruct (flag_at _ _ _ 0 68 V eq_refl) as (b & Eb & SF'). rewrite Eb. cbn [obind].
  rewrite (says_flag_fun _ _ _ _ SF' SF). rewrite PA2, zlen_with_third, third_with. cbv iota.
  change (rd "argv[0]" (with_third [n0; n1] dest2) 0) with (Ok n0). cbn [obind]. rewrite (open_file sys n0 f0 F0). cbn [obind].
  change (rd "argv[1]" (with_third [n0; n1] dest2) 1) with (Ok n1). cbn [obind]. rewrite (open_file sys n1 f1 F1). cbn [obind].
  unfold editop_opt. rewrite R0. cbn [obind]. rewrite R1. cbn [obind]. rewrite (C66_silent _ _ _ Ee). cbn [obind]. rewrite Ew, Er2. reflexivity.
Qed.
Print Assumptions C97_bound_program.

(** The hypotheses of [C97_bound_program] hold of the files of [C69_ex] (the other ones are about
    the Unicode data, the printing of percentages and the order of the tables, as in C62). *)
Example C97_bound_program_ex :
  command_line [] text_items (map bytes ["program"; "correct"; "generated"]%string) /\
  command_line [MainModel.flag_option 68] text_items (map bytes ["program"; "correct"; "generated"]%string) /\ says_flag text_items 68 false /\
  plain_args text_items = with_third [bytes "correct"; bytes "generated"] None /\ can_deliver text_system None /\ nul_hidden main_uc /\
  exists f0 f1, has_file text_system (bytes "correct") f0 /\ has_file text_system (bytes "generated") f1 /\ Forall is_byte f0 /\ Forall is_byte f1 /\
    file_text main_uc false f0 false correct_text /\ (exists h, file_text main_uc false f1 h generated_text) /\
    ~ In 1114111 (map value correct_text) /\ zlen correct_text + zlen generated_text < 100000000 /\
    zsum [1; 3] = 4 /\ lev (map value correct_text) (map value generated_text) = 6.
Proof.
  split; [apply text_line|]. split; [apply text_line|]. split; [apply text_flag|]. split; [reflexivity|]. split; [exact I|]. split; [reflexivity|].
  destruct C69_ex as (H & _). inversion H as [|? ? ? ? (f0 & h0 & F0 & B0 & T0) H']; subst. inversion H' as [|? ? ? ? (f1 & h1 & F1 & B1 & T1) _]; subst.
  exists f0, f1. split; [exact F0|]. split; [exact F1|]. split; [exact B0|]. split; [exact B1|]. 
  assert (h0 = false) as ->.
  { assert (J : junk_ok sample_line sample_buf) by (split; [reflexivity|]; split; [reflexivity|]; repeat constructor; unfold is_byte; lia).
    pose proof (read_file_text main_uc sample_line sample_buf false f0 h0 _ J B0 T0) as R. injection F0 as <-. vm_compute in R. congruence. }
  split; [exact T0|]. split; [exists h1; exact T1|]. split; [cbn; intuition lia|]. split; [reflexivity|]. split; reflexivity.
Qed.
