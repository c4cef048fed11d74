(** C98: the errors that the program accuracy prints. *)
From Coq Require Import String Permutation.
From Verif Require Import Base CLib CLibProof Utf8Model TextModel TextSpec TextIO TextProps ReadProof SyncModel SyncSpec FastukkProps
  CompareModel AccModel AccSpec AccProof AccProps ReportSpec AccrptModel AccrptSpec AccrptFig AccrptChar AccrptProof AccrptTop AccrptAcc AccrptProps
  UtilModel ArgsProps MainModel MainSpec MainProof MainProps WildSpec WildProps.
Local Open Scope Z_scope.
Local Open Scope list_scope.
#[local] Opaque all_values.

(** C98: the report of the program, given its files, shows as errors the least number of edits
    when each '~' of the correct file stands for any one character or for none. *)
Theorem C98_program : forall sys uc line buf order fmt items argv n0 n1 dest f0 f1 t0 t1 h,
  nul_hidden uc -> marks_wide uc -> pct_ok fmt -> permutes order -> junk_ok line buf ->
  command_line [] items argv -> plain_args items = with_third [n0; n1] dest ->
  has_file sys n0 f0 -> has_file sys n1 f1 -> Forall is_byte f0 -> Forall is_byte f1 ->
  file_text uc false f0 false t0 -> file_text uc false f1 h t1 ->
  ~ In 1114111 (map value t0) -> zlen t0 <= MAX_F -> zlen t0 + zlen t1 < 100000000 ->
  can_deliver sys dest ->
  exists r report e, accuracy_main sys uc line buf order fmt argv = Ok (Done r) /\
    delivered sys dest [] report r /\ shows report 3 (bytes "Errors") e /\
    forgiving_distance (map value t0) (map value t1) e.
Proof.
  intros sys uc line buf order fmt items argv n0 n1 dest f0 f1 t0 t1 h N W P O J CL PA F0 F1 B0 B1 T0 T1 Tab Lm Ls D.
  destruct (C62_accuracy sys uc line buf order fmt items argv n0 n1 dest f0 f1 t0 t1 h N W P O J CL PA F0 F1 B0 B1 T0 T1 Tab Lm Ls D)
    as (r & report & d & Er & Dl & Ed & (Rp & Below & order' & O' & Ew) & _).
  assert (I : inputs_ok uc t0 t1).
  { pose proof (read_file_text uc line buf false f0 false t0 J B0 T0) as R0. pose proof (read_file_text uc line buf false f1 h t1 J B1 T1) as R1.
    split; [exact N|]. split; [eapply (read_text_scalar uc line buf (mkopt true true 0 true false)); [exact J|exact B0|discriminate|exact R0]|].
    split; [eapply (read_text_scalar uc line buf (mkopt true true 0 true false)); [exact J|exact B1|discriminate|exact R1]|].
    split; [|exact Lm]. unfold tabulable. rewrite Forall_forall. intros c Hc E. apply Tab. rewrite <- E. now apply in_map. }
  exists r, report, (errors d). split; [exact Er|]. split; [exact Dl|]. split.
  - destruct (write_accrpt_text uc fmt N order' d Rp O') as (a & _ & Ew' & _). rewrite Ew in Ew'. injection Ew' as ->.
    pose proof (rp_nonneg d Rp) as Nn. destruct (report_head uc fmt d a P) as (_ & S3 & _); [..|exact S3].
    { split; [apply (Nn FCharacters)|apply (Below FCharacters)]. } { split; [apply (Nn FErrors)|apply (Below FErrors)]. }
    { apply (Nn FRejects). } { apply (Nn FSuspects). } { apply (Nn FFalseMarks). }
  - destruct (C98_errors uc t0 t1 I) as (d' & Ed' & Fd & _). assert (d' = d) by congruence. subst d'. exact Fd.
Qed.
Print Assumptions C98_program.
