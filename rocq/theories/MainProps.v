(** C62: the program accuracy, from command line and files to the report. *)
From Coq Require Import String Permutation.
From Verif Require Import Base CLib CLibProof Utf8Model TextModel TextSpec TextIO TextProps ReadProof SyncModel SyncSpec FastukkProps
  CompareModel AccModel AccSpec AccProof AccProps ReportSpec AccrptModel AccrptSpec AccrptFig AccrptChar AccrptProof AccrptTop AccrptAcc AccrptProps
  UtilModel ArgsProps MainModel MainSpec MainProof.
Local Open Scope Z_scope.
Local Open Scope list_scope.
#[local] Opaque all_values.

(** Past the command line. *)
Ltac enter G CL vars V :=
  match goal with |- context [run_main ?t ?a ?b] =>
    let E := fresh "E" in destruct (run_main_items t _ a b G CL) as (vars & V & E); rewrite E; clear E; cbv beta
  end.

Lemma no_options : good_table [].
Proof. apply good_flags; constructor. Qed.

(** The figures at the head of an accuracy report. *)
Lemma report_head uc fmt d a : pct_ok fmt -> 0 <= characters d < 100000000 -> 0 <= errors d < 100000000 -> 0 <= rejects d -> 0 <= suspects d ->
  0 <= false_marks d ->
  let f := report_text uc fmt d a in
  shows f 2 (bytes "Characters") (characters d) /\ shows f 3 (bytes "Errors") (errors d) /\
  shows f 6 (bytes "Reject Characters") (rejects d) /\ shows f 7 (bytes "Suspect Markers") (suspects d) /\
  shows f 8 (bytes "False Marks") (false_marks d).
Proof.
  intros P C E R S F f.
  assert (N : forall s, forallb (fun c => negb (c =? 10)) s = true -> ~ In 10 s).
  { intros s H I. rewrite forallb_forall in H. specialize (H 10 I). discriminate H. }
  destruct (value_line (characters d) (bytes "Characters")) as (l2 & E2 & N2 & L2); [lia|now apply N|].
  destruct (value_line (errors d) (bytes "Errors")) as (l3 & E3 & N3 & L3); [lia|now apply N|].
  destruct (value_line (rejects d) (bytes "Reject Characters")) as (l6 & E6 & N6 & L6); [lia|now apply N|].
  destruct (value_line (suspects d) (bytes "Suspect Markers")) as (l7 & E7 & N7 & L7); [lia|now apply N|].
  destruct (value_line (false_marks d) (bytes "False Marks")) as (l8 & E8 & N8 & L8); [lia|now apply N|].
  set (l0 := bytes "ocreval Accuracy Report Version 7.0").
  set (l1 := bytes "-----------------------------------").
  set (l4 := write_pct fmt (characters d - errors d) (characters d) ++ bytes "%  Accuracy").
  assert (N4 : ~ In 10 l4).
  { intros I. apply in_app_or in I as [I|I]; [|revert I; now apply N]. unfold write_pct in I.
    destruct (Z.eqb_spec (characters d) 0); [revert I; now apply N|].
    destruct (P (characters d - errors d) (characters d)) as (Q & _); [lia|lia|contradiction]. }
  assert (Ef : exists rest, f = l0 ++ [10] ++ l1 ++ [10] ++ l2 ++ [10] ++ l3 ++ [10] ++ l4 ++ [10] ++ [] ++ [10] ++
                             l6 ++ [10] ++ l7 ++ [10] ++ l8 ++ [10] ++ rest).
  { unfold f, report_text. rewrite E2, E3, E6, E7, E8. unfold ACC_TITLE, ACC_DIVIDER. fold l0 l1 l4. rewrite <- !app_assoc.
    eexists. reflexivity. }
  destruct Ef as [rest Ef].
  assert (N0 : ~ In 10 l0) by now apply N. assert (N1 : ~ In 10 l1) by now apply N.
  clearbody l0 l1 l4 f. rewrite Ef.
  split; [|split; [|split; [|split]]]; eexists; (split; [|eassumption]).
  - exists [l0; l1]. eexists. split; [|split; [reflexivity|repeat (constructor; [assumption|]); constructor]].
    cbn [map concat]. rewrite <- !app_assoc. reflexivity.
  - exists [l0; l1; l2]. eexists. split; [|split; [reflexivity|repeat (constructor; [assumption|]); constructor]].
    cbn [map concat]. rewrite <- !app_assoc. reflexivity.
  - exists [l0; l1; l2; l3; l4; []]. eexists. split; [|split; [reflexivity|]].
    + cbn [map concat]. rewrite <- !app_assoc. reflexivity.
    + repeat (constructor; [assumption|]). constructor; [intros []|]. repeat (constructor; [assumption|]). constructor.
  - exists [l0; l1; l2; l3; l4; []; l6]. eexists. split; [|split; [reflexivity|]].
    + cbn [map concat]. rewrite <- !app_assoc. reflexivity.
    + repeat (constructor; [assumption|]). constructor; [intros []|]. repeat (constructor; [assumption|]). constructor.
  - exists [l0; l1; l2; l3; l4; []; l6; l7]. eexists. split; [|split; [reflexivity|]].
    + cbn [map concat]. rewrite <- !app_assoc. reflexivity.
    + repeat (constructor; [assumption|]). constructor; [intros []|]. repeat (constructor; [assumption|]). constructor.
Qed.

(** C62: given a correct file and a generated file in UTF-8, the program leaves a report, on the
    standard output or in the file of the third argument.  The report is that of the two texts the
    files stand for (see C25 to C29); it shows the number of characters other than '~' of the
    correct text, and as errors the edit distance of the two texts, or less if the correct text has
    '~'s. *)
Theorem C62_accuracy : forall sys uc line buf order fmt items argv n0 n1 dest f0 f1 t0 t1 h,
  nul_hidden uc -> marks_wide uc -> pct_ok fmt -> permutes order -> junk_ok line buf ->
  command_line [] items argv -> plain_args items = with_third [n0; n1] dest ->
  has_file sys n0 f0 -> has_file sys n1 f1 -> Forall is_byte f0 -> Forall is_byte f1 ->
  file_text uc false f0 false t0 -> file_text uc false f1 h t1 ->
  ~ In 1114111 (map value t0) -> zlen t0 <= MAX_F -> zlen t0 + zlen t1 < 100000000 ->
  can_deliver sys dest ->
  exists r report d, accuracy_main sys uc line buf order fmt argv = Ok (Done r) /\
    delivered sys dest [] report r /\
    accuracy_data uc t0 t1 = Ok d /\ report_of uc fmt d report /\
    shows report 2 (bytes "Characters") (zlen (filter (fun c => negb (value c =? 126)) t0)) /\
    exists e, shows report 3 (bytes "Errors") e /\
      forall dist, distance (map value t0) (map value t1) dist ->
        0 <= e <= dist /\ (~ In 126 (map value t0) -> e = dist).
Proof.
  intros sys uc line buf order fmt items argv n0 n1 dest f0 f1 t0 t1 h N W P O J CL PA F0 F1 B0 B1 T0 T1 Tab Lm Ls D.
  pose proof (read_file_text uc line buf false f0 false t0 J B0 T0) as R0.
  pose proof (read_file_text uc line buf false f1 h t1 J B1 T1) as R1.
  assert (I : inputs_ok uc t0 t1).
  { split; [exact N|]. split; [eapply (read_text_scalar uc line buf (mkopt true true 0 true false)); [exact J|exact B0|discriminate|exact R0]|].
    split; [eapply (read_text_scalar uc line buf (mkopt true true 0 true false)); [exact J|exact B1|discriminate|exact R1]|].
    split; [|exact Lm]. unfold tabulable. rewrite Forall_forall. intros c Hc E. apply Tab. rewrite <- E. now apply in_map. }
  destruct (C25_figures uc t0 t1 I) as (d & Ed & Ec & Ee & Edist).
  destruct (accuracy_reportable uc t0 t1 d I Ed) as [Rp Bl].
  destruct (write_accrpt_text uc fmt N order d Rp O) as (a & Pa & Ew & _).
  assert (Below : below 100000000 d). { intros x. specialize (Bl x). lia. }
  destruct (write_delivered sys dest [] (report_text uc fmt d a) D) as (r & Er & Dl).
  exists r, (report_text uc fmt d a), d. split.
  { unfold accuracy_main. enter no_options CL vars V. rewrite PA, zlen_with_third, third_with. cbv iota.
    change (rd "argv[0]" (with_third [n0; n1] dest) 0) with (Ok n0). cbn [obind]. rewrite (open_file sys n0 f0 F0). cbn [obind].
    unfold accuracy_opt. rewrite R0. cbn [obind].
    change (rd "argv[1]" (with_third [n0; n1] dest) 1) with (Ok n1). cbn [obind]. rewrite (open_file sys n1 f1 F1). cbn [obind].
    rewrite R1. cbn [obind]. rewrite Ed. cbn [obind]. rewrite Ew, Er. reflexivity. }
  split; [exact Dl|]. split; [exact Ed|]. split; [split; [exact Rp|]; split; [exact Below|]; exists order; auto|].
  pose proof (rp_nonneg d Rp) as Nn.
  destruct (report_head uc fmt d a P) as (S2 & S3 & _).
  { split; [apply (Nn FCharacters)|apply (Below FCharacters)]. } { split; [apply (Nn FErrors)|apply (Below FErrors)]. }
  { apply (Nn FRejects). } { apply (Nn FSuspects). } { apply (Nn FFalseMarks). }
  split.
  - rewrite Ec in S2. exact S2.
  - exists (errors d). split; [exact S3|]. intros dist Dd. destruct (Edist dist Dd) as [X Y]. split; [lia|exact Y].
Qed.
Print Assumptions C62_accuracy.

(** What the program needs: two or three arguments, the first the name of a file without header,
    both first files in UTF-8, the correct text not too long, a place for the report. *)
Definition accuracy_possible (sys : system) (uc : unicode_data) (args : list (list Z)) : Prop :=
  exists n0 n1 dest f0 f1 t0 h t1, args = with_third [n0; n1] dest /\
    has_file sys n0 f0 /\ has_file sys n1 f1 /\ file_text uc false f0 false t0 /\ file_text uc false f1 h t1 /\
    zlen t0 <= MAX_F /\ can_deliver sys dest.

(** C62: otherwise it ends with an error message; it never ends in another way, unless the correct
    text has U+10FFFF (C25_last_code_point_refuted). *)
Theorem C62_ends : forall sys uc line buf order fmt items argv,
  nul_hidden uc -> permutes order -> junk_ok line buf ->
  command_line [] items argv ->
  (forall n f, has_file sys n f -> regular_file f) ->
  (forall n0 more f0 t0, plain_args items = n0 :: more -> has_file sys n0 f0 -> file_text uc false f0 false t0 ->
     ~ In 1114111 (map value t0)) ->
  (accuracy_possible sys uc (plain_args items) /\
     exists r, accuracy_main sys uc line buf order fmt argv = Ok (Done r)) \/
  (~ accuracy_possible sys uc (plain_args items) /\
     exists msg, accuracy_main sys uc line buf order fmt argv = Fail msg).
Proof.
  intros sys uc line buf order fmt items argv N O J CL Reg Tab.
  unfold accuracy_main. enter no_options CL vars V. set (args := plain_args items) in *.
  destruct ((zlen args <? 2) || (3 <? zlen args)) eqn:En.
  { right. cbn [obind]. split; [|eauto]. intros (n0 & n1 & dest & f0 & f1 & t0 & h & t1 & Ea & _).
    rewrite Ea, zlen_with_third in En. discriminate En. }
  destruct (with_third_dec args En) as (n0 & n1 & dest & Ea).
  assert (U : accuracy_possible sys uc args -> exists f0 f1 t0 h t1, 
    has_file sys n0 f0 /\ has_file sys n1 f1 /\ file_text uc false f0 false t0 /\ file_text uc false f1 h t1 /\
    zlen t0 <= MAX_F /\ can_deliver sys dest).
  { intros (m0 & m1 & dest' & f0 & f1 & t0 & h & t1 & Em & H). rewrite Ea in Em. apply with_third_inj in Em as (-> & -> & ->). eauto 8. }
  rewrite Ea, third_with. change (rd "argv[0]" (with_third [n0; n1] dest) 0) with (Ok n0). cbn [obind].
  change (rd "argv[1]" (with_third [n0; n1] dest) 1) with (Ok n1). cbn [obind].
  rewrite <- Ea.
  unfold open_read. destruct (contents sys n0) as [f0|] eqn:C0; cbn [obind].
  2: { right. split; [|eauto]. intros H. destruct (U H) as (f0 & f1 & t0 & h & t1 & H0 & _). unfold has_file in H0. congruence. }
  pose proof (Reg n0 f0 C0) as Rg0. unfold accuracy_opt.
  destruct (read_cases uc line buf false f0 J Rg0) as [(t0 & h0 & T0 & R0)|(No & msg & R0)]; rewrite R0; cbn [obind].
  2: { right. split; [|eauto]. intros H. destruct (U H) as (f0' & f1 & t0 & h & t1 & H0 & _ & H2 & _).
       unfold has_file in H0. replace f0' with f0 in H2 by congruence. exact (No _ _ H2). }
  assert (Th : forall t h, file_text uc false f0 h t -> h = h0 /\ t = t0).
  { intros t h H. pose proof (read_file_text uc line buf false f0 h t J (proj1 Rg0) H). split; congruence. }
  destruct h0.
  { cbn [obind]. right. split; [|eauto]. intros H. destruct (U H) as (f0' & f1 & t & h & t1 & H0 & _ & H2 & _).
    unfold has_file in H0. replace f0' with f0 in H2 by congruence. destruct (Th _ _ H2) as [X _]. discriminate X. }
  destruct (contents sys n1) as [f1|] eqn:C1; cbn [obind].
  2: { right. split; [|eauto]. intros H. destruct (U H) as (f0' & f1 & t & h & t1 & _ & H1 & _). unfold has_file in H1. congruence. }
  pose proof (Reg n1 f1 C1) as Rg1.
  destruct (read_cases uc line buf false f1 J Rg1) as [(t1 & h1 & T1 & R1)|(No & msg & R1)]; rewrite R1; cbn [obind].
  2: { right. split; [|eauto]. intros H. destruct (U H) as (f0' & f1' & t & h & t1 & _ & H1 & _ & H3 & _).
       unfold has_file in H1. replace f1' with f1 in H3 by congruence. exact (No _ _ H3). }
  destruct (Z.ltb_spec MAX_F (zlen t0)) as [Long|Short].
  { right. split.
    - intros H. destruct (U H) as (f0' & f1' & t & h & t1' & H0 & _ & H2 & _ & Hl & _).
      unfold has_file in H0. replace f0' with f0 in H2 by congruence. destruct (Th _ _ H2) as [_ ->]. lia.
    - unfold accuracy_data, fastukk_sync. replace (zlen (map value t0)) with (zlen t0) by (unfold zlen; now rewrite map_length).
      replace (MAX_F <? zlen t0) with true by lia. cbn [obind]. eauto. }
  assert (I : inputs_ok uc t0 t1).
  { split; [exact N|]. split; [eapply (read_text_scalar uc line buf (mkopt true true 0 true false)); [exact J|exact (proj1 Rg0)|discriminate|exact R0]|].
    split; [eapply (read_text_scalar uc line buf (mkopt true true 0 true false)); [exact J|exact (proj1 Rg1)|discriminate|exact R1]|].
    split; [|exact Short]. unfold tabulable. rewrite Forall_forall. intros c Hc E.
    apply (Tab n0 (n1 :: match dest with None => [] | Some n => [n] end) f0 t0 Ea C0 T0). rewrite <- E. now apply in_map. }
  destruct (C25_figures uc t0 t1 I) as (d & Ed & _). rewrite Ed. cbn [obind].
  destruct (accuracy_reportable uc t0 t1 d I Ed) as [Rp _].
  destruct (write_accrpt_text uc fmt N order d Rp O) as (a & _ & Ew & _). rewrite Ew.
  assert (Cd : can_deliver sys dest \/ exists n, dest = Some n /\ writable sys n = false).
  { destruct dest as [n|]; [|now left]. cbn. destruct (writable sys n) eqn:Wn; eauto. }
  destruct Cd as [Cd|(n & -> & Wn)].
  - left. split.
    + exists n0, n1, dest, f0, f1, t0, h1, t1. split; [exact Ea|]. auto 10.
    + destruct (write_delivered sys dest [] (report_text uc fmt d a) Cd) as (r & Er & _). rewrite Er. cbn [obind]. eauto.
  - right. split.
    + intros H. destruct (U H) as (_ & _ & _ & _ & _ & _ & _ & _ & _ & _ & X). cbn in X. congruence.
    + unfold write_to. rewrite Wn. cbn [obind]. eauto.
Qed.
Print Assumptions C62_ends.

(** A case: accuracy correct generated report. *)
Definition sample_system : system :=
  mksys (fun n => if list_eq_dec Z.eq_dec n (bytes "correct") then Some (bytes "the  cat" ++ [10])
                  else if list_eq_dec Z.eq_dec n (bytes "generated") then Some (bytes "t^he ~at")
                  else None)
        (fun n => if list_eq_dec Z.eq_dec n (bytes "report") then true else false).
Definition sample_items : list item := [Plain (bytes "correct"); Plain (bytes "generated"); Plain (bytes "report")].

Lemma plain_command ns : (0 < List.length ns <= 10)%nat ->
  Forall (fun n => forallb (fun c => negb (c =? 0) && negb (c =? 45)) n = true) ns ->
  command_line [] (map Plain ns) (bytes "program" :: ns).
Proof.
  intros L F. exists (bytes "program").
  assert (E : List.concat (map written (map Plain ns)) = ns). { clear. induction ns as [|n ns IH]; [reflexivity|]. cbn. now rewrite IH. }
  rewrite E. split; [reflexivity|]. split; [cbn; lia|]. split; [destruct ns; [cbn in L; lia|discriminate]|].
  assert (Q : Forall (fun n => ~ dashed n /\ Forall (fun c => c <> 0) n) ns).
  { eapply Forall_impl; [|exact F]. intros n H. cbv beta in H. rewrite forallb_forall in H. split.
    - intros (c & v & ->). specialize (H 45 (or_introl eq_refl)). discriminate H.
    - rewrite Forall_forall. intros c Hc ->. specialize (H 0 Hc). discriminate H. }
  split; [|split; [|split]].
  - rewrite Forall_forall in *. intros it I. apply in_map_iff in I as (n & <- & I). cbn. now apply Q.
  - unfold no_repeats, option_chars. clear. induction ns; [constructor|exact IHns].
  - eapply Forall_impl; [|exact Q]. tauto.
  - unfold zlen. lia.
Qed.

Example C62_ex :
  command_line [] sample_items (bytes "program" :: [bytes "correct"; bytes "generated"; bytes "report"]) /\
  plain_args sample_items = with_third [bytes "correct"; bytes "generated"] (Some (bytes "report")) /\
  can_deliver sample_system (Some (bytes "report")) /\
  (forall n f, has_file sample_system n f -> regular_file f) /\
  exists f0 f1 t0 t1, has_file sample_system (bytes "correct") f0 /\ has_file sample_system (bytes "generated") f1 /\
    file_text sample_uc false f0 false t0 /\ file_text sample_uc false f1 false t1 /\
    ~ In 1114111 (map value t0) /\ map value t0 = bytes "the cat" ++ [10] /\ map value t1 = bytes "the ~at".
Proof.
  assert (J : junk_ok sample_line sample_buf).
  { split; [reflexivity|]. split; [reflexivity|]. repeat constructor; unfold is_byte; lia. }
  assert (B : forall s, forallb (fun b => (0 <=? b) && (b <? 256)) s = true -> Forall is_byte s).
  { intros s H. rewrite Forall_forall. intros c Hc. rewrite forallb_forall in H. specialize (H c Hc). unfold is_byte. lia. }
  assert (NT : forall s, strneq s title_start 3 = false -> ~ starts_with title_start s).
  { intros s H [r ->]. discriminate H. }
  split; [apply (plain_command [bytes "correct"; bytes "generated"; bytes "report"]); [cbn; lia|repeat constructor]|].
  split; [reflexivity|]. split; [reflexivity|]. split.
  - intros n f H. unfold has_file, sample_system in H. cbn [contents] in H.
    destruct (list_eq_dec Z.eq_dec n (bytes "correct")); [|destruct (list_eq_dec Z.eq_dec n (bytes "generated")); [|discriminate H]];
      injection H as <-; (split; [now apply B|]); eexists; exists false; (split; [now apply NT|reflexivity]).
  - exists (bytes "the  cat" ++ [10]), (bytes "t^he ~at"). do 2 eexists. split; [reflexivity|]. split; [reflexivity|].
    split; [apply (read_without_header sample_uc sample_line sample_buf); [exact J|now apply B|vm_compute; reflexivity]|].
    split; [apply (read_without_header sample_uc sample_line sample_buf); [exact J|now apply B|vm_compute; reflexivity]|].
    split; [cbn; intuition lia|]. split; reflexivity.
Qed.
