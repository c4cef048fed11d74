(** C63: the program wordacc, from command line and files to the report. *)
From Coq Require Import String Permutation.
From Verif Require Import Base CLib CLibProof Utf8Model TextModel TextSpec TextIO TextProps ReadProof CompareModel
  AccSpec AccrptModel AccrptSpec ReportSpec LcsSpec WordTable WordModel WordSpec WordModel WordProof WordProps StopModel StopProps WacModel WacSpec WacProof WacProps
  WacrptModel WacrptSpec WacrptProof WacrptTop WacrptProps UtilModel ArgsProps MainModel MainSpec MainProof MainProps.
Local Open Scope Z_scope.
Local Open Scope list_scope.

Lemma stop_option : good_table [string_option 83].
Proof.
  apply good_flags; [repeat constructor; intros []|].
  constructor; [split; [discriminate|right; reflexivity]|constructor].
Qed.

Lemma wac_head fmt d sa na : pct_ok fmt -> sane (wtotal d) -> wcount (wtotal d) < 100000000 ->
  let f := report_wtext fmt d sa na in
  shows f 2 (bytes "Words") (wcount (wtotal d)) /\ shows f 3 (bytes "Misrecognized") (wmissed (wtotal d)).
Proof.
  intros P Sn B f. unfold sane in Sn.
  assert (N : forall s, forallb (fun c => negb (c =? 10)) s = true -> ~ In 10 s).
  { intros s H I. rewrite forallb_forall in H. specialize (H 10 I). discriminate H. }
  destruct (value_line (wcount (wtotal d)) (bytes "Words")) as (l2 & E2 & N2 & L2); [lia|now apply N|].
  destruct (value_line (wmissed (wtotal d)) (bytes "Misrecognized")) as (l3 & E3 & N3 & L3); [lia|now apply N|].
  set (l0 := removelast WAC_TITLE). set (l1 := removelast WAC_DIVIDER).
  assert (Ef : exists rest, f = l0 ++ [10] ++ l1 ++ [10] ++ l2 ++ [10] ++ l3 ++ [10] ++ rest).
  { unfold f, report_wtext. rewrite E2, E3. change WAC_TITLE with (l0 ++ [10]). change WAC_DIVIDER with (l1 ++ [10]).
    rewrite <- !app_assoc. eexists. reflexivity. }
  destruct Ef as [rest Ef].
  assert (N0 : ~ In 10 l0) by now apply N. assert (N1 : ~ In 10 l1) by now apply N.
  clearbody l0 l1 f. rewrite Ef. split; eexists; (split; [|eassumption]).
  - exists [l0; l1]. eexists. split; [|split; [reflexivity|repeat (constructor; [assumption|]); constructor]].
    cbn [map concat]. rewrite <- !app_assoc. reflexivity.
  - exists [l0; l1; l2]. eexists. split; [|split; [reflexivity|repeat (constructor; [assumption|]); constructor]].
    cbn [map concat]. rewrite <- !app_assoc. reflexivity.
Qed.

(** C63: given a correct file and a generated file in UTF-8, the program leaves a report, on the
    standard output or in the file of the third argument.  Its words are those of the correct file,
    and misrecognized are those outside a longest common subsequence with the words of the generated
    file.  All other figures are counted over the same words and marks (C38, C39), the stopwords being
    those of the file given with -S, or otherwise the default. *)
Theorem C63_wordacc : forall sys uc NFC line buf order fmt items argv n0 n1 dest f0 f1 h w0 w1 stopname ws,
  pct_ok fmt -> permutes_terms order -> junk_ok line buf -> (forall c, scalar c -> scalar (tolower uc c)) ->
  command_line [string_option 83] items argv -> plain_args items = with_third [n0; n1] dest ->
  says_value items 83 stopname -> stopwords_of sys uc NFC stopname ws ->
  has_file sys n0 f0 -> has_file sys n1 f1 -> Forall is_byte f0 -> Forall is_byte f1 ->
  file_words uc NFC f0 false w0 -> file_words uc NFC f1 h w1 ->
  zlen (shared w0 w1) <= 65535 -> zlen w0 < 99999999 ->
  (forall w, In w w0 -> 1 <= zlen w <= 50 /\ ~ In 10 w /\ Forall (fun c => 0 < c < 256) w) ->
  can_deliver sys dest ->
  exists r report marks d stop, wordacc_main sys uc NFC line buf order fmt argv = Ok (Done r) /\
    delivered sys dest [] report r /\ wreport_of fmt d report /\
    (forall w, stop w = true <-> In w ws) /\
    lcs_marks marks w0 w1 /\ figures stop w0 marks d /\ phrases marks (phrase d) /\
    shows report 2 (bytes "Words") (zlen w0) /\
    shows report 3 (bytes "Misrecognized") (zlen w0 - zlen (select marks w0)).
Proof.
  intros sys uc NFC line buf order fmt items argv n0 n1 dest f0 f1 h w0 w1 stopname ws P O J Low CL PA SV SW F0 F1 B0 B1
    (t0 & T0 & W0) (t1 & T1 & W1) Sh Lw Hw D.
  pose proof (read_file_text uc line buf true f0 false t0 J B0 T0) as R0.
  pose proof (read_file_text uc line buf true f1 h t1 J B1 T1) as R1.
  assert (X0 : find_words uc NFC [] (map value t0) = Ok w0).
  { apply text_words_found; [|exact W0]. apply (read_text_scalar uc line buf (mkopt true true 0 true true) f0 t0 false J B0); [|exact R0]. intros _. exact Low. }
  assert (X1 : find_words uc NFC [] (map value t1) = Ok w1).
  { apply text_words_found; [|exact W1]. apply (read_text_scalar uc line buf (mkopt true true 0 true true) f1 t1 h J B1); [|exact R1]. intros _. exact Low. }
  assert (St : exists stopfile, match stopname with Some name => let! f := open_read sys name in Ok (Some f) | None => Ok None end = Ok stopfile /\
            exists s, init_stopwords uc NFC line buf at_start stopfile = Ok s /\ forall w, lookup s w = true <-> In w ws).
  { destruct stopname as [n|]; cbn in SW.
    - destruct SW as (f & Hf & Hs). exists (Some f). rewrite (open_file sys n f Hf). split; [reflexivity|].
      destruct (init_ok uc NFC line buf (Some f) ws) as (s & Es & _ & Hl); [now apply read_stop_file|]. eauto.
    - exists None. split; [reflexivity|]. destruct (init_ok uc NFC line buf None ws SW) as (s & Es & _ & Hl). eauto. }
  destruct St as (stopfile & Ef & s & Es & Hl).
  destruct (wordacc_ok (lookup s) order w0 w1 O Sh) as (marks & d & Lm & Ed & Fg & Ph).
  { intros w I. apply Hw, I. }
  destruct (wordacc_reportable (lookup s) w0 marks d (proj1 Lm)) as [Rp Bl]; [|exact Fg|exact Ph|].
  { intros w I. destruct (Hw w I) as ([_ L50] & N & Bt). split; [exact N|]. split; [exact Bt|lia]. }
  destruct (write_wacrpt_text fmt order d Rp O) as (sa & na & _ & _ & Ew & _).
  destruct (write_delivered sys dest [] (report_wtext fmt d sa na) D) as (r & Er & Dl).
  exists r, (report_wtext fmt d sa na), marks, d, (lookup s). split.
  { unfold wordacc_main. enter stop_option CL vars V. rewrite PA, zlen_with_third, third_with. cbv iota.
    destruct (value_at _ _ _ 0 83 V eq_refl) as (v & Ev & SV'). rewrite Ev. cbn [obind].
    rewrite (says_value_fun _ _ _ _ SV' SV), Ef. cbn [obind]. rewrite Es. cbn [obind].
    change (rd "filename[0]" (with_third [n0; n1] dest) 0) with (Ok n0). cbn [obind]. rewrite (open_file sys n0 f0 F0). cbn [obind].
    unfold wordacc_opt. rewrite R0. cbn [obind]. rewrite X0. cbn [obind].
    change (rd "filename[1]" (with_third [n0; n1] dest) 1) with (Ok n1). cbn [obind]. rewrite (open_file sys n1 f1 F1). cbn [obind].
    rewrite R1. cbn [obind]. rewrite X1. cbn [obind]. rewrite Ed. cbn [obind]. rewrite Ew, Er. reflexivity. }
  assert (Bw : wbelow 100000000 d). { intros x. specialize (Bl x). lia. }
  split; [exact Dl|]. split; [split; [exact Rp|]; split; [exact Bw|]; exists order; auto|].
  split; [exact Hl|]. split; [exact Lm|]. split; [exact Fg|]. split; [exact Ph|].
  destruct (wac_head fmt d sa na P (wr_total d Rp)) as [S2 S3]; [apply (Bw (WWords false))|].
  rewrite (fg_words _ _ _ _ Fg) in S2. rewrite (fg_missed _ _ _ _ Fg) in S3. auto.
Qed.
Print Assumptions C63_wordacc.

(** A case: wordacc -S stop correct generated. *)
Definition main_uc : unicode_data :=
  mkuc (fun c => if c =? 32 then ZS else if c =? 0 then CC else LL) (fun c => if (65 <=? c) && (c <=? 90) then c + 32 else c).
Definition main_system : system :=
  mksys (fun n => if list_eq_dec Z.eq_dec n (bytes "correct") then Some (bytes "The cat  sat")
                  else if list_eq_dec Z.eq_dec n (bytes "generated") then Some (bytes "the ^cab Sat")
                  else if list_eq_dec Z.eq_dec n (bytes "stop") then Some (bytes "Sat")
                  else None)
        (fun _ => false).
Definition main_items : list item := [Separate 83 (bytes "stop"); Plain (bytes "correct"); Plain (bytes "generated")].

Lemma found_words t words : text_ok t -> find_words main_uc (fun s => s) [] (map value t) = Ok words ->
  forallb (fun c => match property c with Ok Extend | Ok Format => false | Ok _ => true | _ => false end) (map value t) = true ->
  text_words main_uc (fun s => s) t words.
Proof.
  intros T E X.
  assert (Hx : of_properties extends_follow (map value t)).
  { exists (map WordModel.prop (map value t)). split; [now apply WordProof.has_properties|].
    intros l1 p l2 El Hp. exfalso. assert (I : In p (map WordModel.prop (map value t))) by (rewrite El; apply in_elt).
    apply in_map_iff in I as (c & <- & I). rewrite forallb_forall in X. specialize (X c I). unfold WordModel.prop in Hp.
    destruct (property c) as [q| | |]; try discriminate X. destruct Hp as [->| ->]; discriminate X. }
  split; [exact Hx|]. assert (Ts : Forall scalar (map value t)) by (rewrite Forall_map; exact T).
  destruct (WordProps.C35_boundaries (map value t) Ts Hx) as (segs & C & B & _ & W). exists segs. split; [exact C|]. split; [exact B|].
  rewrite W in E. injection E as <-. reflexivity.
Qed.

Example C63_ex :
  command_line [string_option 83] main_items (bytes "wordacc" :: [bytes "-S"; bytes "stop"; bytes "correct"; bytes "generated"]) /\
  plain_args main_items = with_third [bytes "correct"; bytes "generated"] None /\
  says_value main_items 83 (Some (bytes "stop")) /\
  stopwords_of main_system main_uc (fun s => s) (Some (bytes "stop")) [bytes "sat"] /\
  (exists f0 f1, has_file main_system (bytes "correct") f0 /\ has_file main_system (bytes "generated") f1 /\
    file_words main_uc (fun s => s) f0 false [bytes "the"; bytes "cat"; bytes "sat"] /\
    file_words main_uc (fun s => s) f1 false [bytes "the"; bytes "cab"; bytes "sat"]) /\
  match wordacc_main main_system main_uc (fun s => s) sample_line sample_buf (fun l => l) (fun _ _ => bytes "   50.00")
          (bytes "wordacc" :: [bytes "-S"; bytes "stop"; bytes "correct"; bytes "generated"]) with
  | Ok (Done r) => starts_with (WAC_TITLE ++ WAC_DIVIDER ++ bytes "       3   Words" ++ [10] ++
                                bytes "       1   Misrecognized" ++ [10]) (standard_output r)
  | _ => False
  end.
Proof.
  assert (J : junk_ok sample_line sample_buf).
  { split; [reflexivity|]. split; [reflexivity|]. repeat constructor; unfold is_byte; lia. }
  assert (B : forall s, forallb (fun b => (0 <=? b) && (b <? 256)) s = true -> Forall is_byte s).
  { intros s H. rewrite Forall_forall. intros c Hc. rewrite forallb_forall in H. specialize (H c Hc). unfold is_byte. lia. }
  assert (TO : forall t, forallb (fun c => (0 <=? value c) && (value c <? 1000)) t = true -> text_ok t).
  { intros t H. unfold text_ok. rewrite Forall_forall. intros c Hc. rewrite forallb_forall in H. specialize (H c Hc). unfold scalar. lia. }
  split; [|split; [reflexivity|split; [|split; [|split]]]].
  - exists (bytes "wordacc"). split; [reflexivity|]. split; [cbn; lia|]. split; [discriminate|]. split; [|split; [|split]].
    + assert (Nd : forall n, forallb (fun c => negb (c =? 45)) n = true -> ~ dashed n).
      { intros n H (c & v & ->). discriminate H. }
      constructor; [|constructor; [now apply Nd|constructor; [now apply Nd|constructor]]].
      split; [left; reflexivity|]. intros (_ & rest & E). discriminate E.
    + repeat constructor. intros [].
    + unfold real_args. repeat constructor; discriminate.
    + cbn. lia.
  - intros s. split.
    + intros [= <-]. right. left. reflexivity.
    + intros [[H|[H|[H|[]]]]|[H|[H|[H|[]]]]]; inversion H. reflexivity.
  - exists (bytes "Sat"). split; [reflexivity|]. exists (bytes "Sat"), (map (mkchar false) (bytes "Sat")).
    split; [rewrite Forall_forall; intros c Hc; cbn in Hc; unfold scalar; intuition lia|]. split; [reflexivity|]. split.
    + apply (TextProps.C11_idempotent main_uc). vm_compute. reflexivity.
    + apply found_words; [now apply TO|vm_compute; reflexivity|vm_compute; reflexivity].
  - do 2 eexists. split; [reflexivity|]. split; [reflexivity|]. split.
    + eexists. split; [apply (read_without_header main_uc sample_line sample_buf); [exact J|now apply B|vm_compute; reflexivity]|].
      apply found_words; [now apply TO|vm_compute; reflexivity|vm_compute; reflexivity].
    + eexists. split; [apply (read_without_header main_uc sample_line sample_buf); [exact J|now apply B|vm_compute; reflexivity]|].
      apply found_words; [now apply TO|vm_compute; reflexivity|vm_compute; reflexivity].
  - match goal with |- match ?x with _ => _ end => let y := eval vm_compute in x in change x with y end.
    cbv iota. eexists. cbn [standard_output]. vm_compute. reflexivity.
Qed.
