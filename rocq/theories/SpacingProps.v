(** C94: the layout of the text files does not matter. *)
From Coq Require Import String.
From Verif Require Import Base CLib Utf8Model TextModel TextSpec TextProof TextIO TextProps SyncModel CompareModel DoubleModel WordModel UtilModel
  AccModel AccrptModel StopModel WacModel WacrptModel EdoModel EditopModel EditopDebugModel FreqModel NgramModel SynctextModel
  VoteModel VoteSelModel MainModel SpacingSpec SpacingProof.
Local Open Scope Z_scope.
Local Open Scope list_scope.

(** Whatever program reads it: the same characters with the same marks. *)
Theorem C94_read : forall uc line buf opt text f f',
  junk_ok line buf -> normalize opt = true ->
  let m := if suspect_marker opt =? 0 then 94 else suspect_marker opt in
  marker_visible uc m -> respaced_files uc m f f' ->
  read_text uc line buf opt text f = read_text uc line buf opt text f'.
Proof. intros uc line buf opt text f f' J N m V F. exact (read_respaced uc line buf opt text f f' J N V F). Qed.
Print Assumptions C94_read.

Section Programs.
Variable uc : unicode_data.
Variable NFC : list Z -> list Z.
Variables line buf : list Z.
Variable conf_order : list conf -> list conf.
Variable term_order : list term -> list term.
Variable seq_order : list NgramModel.entry -> list NgramModel.entry.
Variable vseq_order : list vseq -> list vseq.
Variable fmt : Z -> Z -> list Z.
Variable signed_char : bool.
Variables sys sys' : system.
Hypothesis J : junk_ok line buf.
Hypothesis V : marker_visible uc 94.
Hypothesis R : respaced_system uc sys sys'.

Ltac bind := apply alike_bind; intros.
Ltac iff := apply alike_if; [first [apply alike_fail|idtac]|].
Ltac rd := apply (alike_read uc line buf J V sys sys' R); [reflexivity|reflexivity|intros].

Lemma accuracy_alike argv :
  end_alike sys sys' (accuracy_main sys uc line buf conf_order fmt argv) (accuracy_main sys' uc line buf conf_order fmt argv).
Proof.
  apply run_alike. intros args vars. iff. bind. rd. iff. bind. rd. bind. apply (alike_write uc sys sys' R).
Qed.

Lemma editop_alike argv : end_alike sys sys' (editop_main sys uc line buf argv) (editop_main sys' uc line buf argv).
Proof.
  apply run_alike. intros args vars. bind. iff. bind. rd. iff. bind. rd. bind. match goal with a : (edodata * list Z)%type |- _ => destruct a end. apply (alike_write uc sys sys' R).
Qed.

Lemma wordacc_alike argv :
  end_alike sys sys' (wordacc_main sys uc NFC line buf term_order fmt argv) (wordacc_main sys' uc NFC line buf term_order fmt argv).
Proof.
  apply run_alike. intros args vars. iff. bind.
  apply alike_two.
  - destruct a as [n|]; [|reflexivity].
    transitivity (obind (open_read sys n) (fun f => init_stopwords uc NFC line buf at_start (Some f))); [destruct (open_read sys n); reflexivity|].
    transitivity (obind (open_read sys' n) (fun f => init_stopwords uc NFC line buf at_start (Some f))); [|destruct (open_read sys' n); reflexivity].
    apply (open_alike uc sys sys' R). intros f f' F. unfold init_stopwords, words_in.
    rewrite (read_alike uc line buf J V stopword_opt f f' eq_refl eq_refl F). reflexivity.
  - intros stop. bind. rd. iff. bind. bind. rd. bind. bind. apply (alike_write uc sys sys' R).
Qed.

Lemma wordfreq_alike argv :
  end_alike sys sys' (wordfreq_main sys uc NFC line buf term_order argv) (wordfreq_main sys' uc NFC line buf term_order argv).
Proof.
  apply run_alike. intros args vars. iff.
  match goal with |- alike _ _ (obind (ofold ?g _ _) _) (obind (ofold ?h _ _) _) => rewrite (ofold_alike g h) end.
  - bind. apply (alike_write uc sys sys' R).
  - intros st n. apply (open_alike uc sys sys' R). intros f f' F. unfold words_in.
    rewrite (read_alike uc line buf J V wordfreq_opt f f' eq_refl eq_refl F). reflexivity.
Qed.

Lemma ngram_alike argv :
  end_alike sys sys' (ngram_main sys uc line buf seq_order argv) (ngram_main sys' uc line buf seq_order argv).
Proof.
  apply run_alike. intros args vars. bind. iff. bind.
  match goal with |- alike _ _ (obind (ofold ?g _ _) _) (obind (ofold ?h _ _) _) => rewrite (ofold_alike g h) end.
  - bind. apply (alike_write uc sys sys' R).
  - intros st n. apply (open_alike uc sys sys' R). intros f f' F.
    rewrite (read_alike uc line buf J V ngram_opt f f' eq_refl eq_refl F). reflexivity.
Qed.

Lemma synctext_alike argv : end_alike sys sys' (synctext_main sys uc line buf argv) (synctext_main sys' uc line buf argv).
Proof.
  apply run_alike. intros args vars. bind. bind. bind. bind. iff.
  match goal with |- alike _ _ (obind (ofold ?g _ _) _) (obind (ofold ?h _ _) _) => rewrite (ofold_alike g h) end.
  - bind. apply (alike_write uc sys sys' R).
  - intros st n. apply (open_alike uc sys sys' R). intros f f' F.
    rewrite (read_alike uc line buf J V (synctext_opt a0) f f' eq_refl eq_refl F). reflexivity.
Qed.

Lemma vote_alike argv :
  end_alike sys sys' (vote_main sys uc line buf vseq_order signed_char argv) (vote_main sys' uc line buf vseq_order signed_char argv).
Proof.
  apply run_alike. intros args vars. bind. bind. bind. bind. bind. iff.
  match goal with |- alike _ _ (obind (ofold ?g _ _) _) (obind (ofold ?h _ _) _) => rewrite (ofold_alike g h) end.
  - bind. bind. match goal with a : (list Z * _)%type |- _ => destruct a end. apply (alike_write uc sys sys' R).
  - intros st n. apply (open_alike uc sys sys' R). intros f f' F.
    rewrite (read_alike uc line buf J V vote_opt f f' eq_refl eq_refl F). reflexivity.
Qed.
End Programs.

(** The programs that compare, count, align or vote on texts, with the same command line: the same output, or the
    same error.  A file of stopwords may be laid out differently, too. *)
Theorem C94_programs : forall uc NFC line buf conf_order term_order seq_order vseq_order fmt signed_char sys sys' argv,
  junk_ok line buf -> marker_visible uc 94 -> respaced_system uc sys sys' ->
  end_alike sys sys' (accuracy_main sys uc line buf conf_order fmt argv) (accuracy_main sys' uc line buf conf_order fmt argv) /\
  end_alike sys sys' (wordacc_main sys uc NFC line buf term_order fmt argv) (wordacc_main sys' uc NFC line buf term_order fmt argv) /\
  end_alike sys sys' (editop_main sys uc line buf argv) (editop_main sys' uc line buf argv) /\
  end_alike sys sys' (wordfreq_main sys uc NFC line buf term_order argv) (wordfreq_main sys' uc NFC line buf term_order argv) /\
  end_alike sys sys' (ngram_main sys uc line buf seq_order argv) (ngram_main sys' uc line buf seq_order argv) /\
  end_alike sys sys' (synctext_main sys uc line buf argv) (synctext_main sys' uc line buf argv) /\
  end_alike sys sys' (vote_main sys uc line buf vseq_order signed_char argv) (vote_main sys' uc line buf vseq_order signed_char argv).
Proof.
  intros uc NFC line buf co to so vo fmt sc sys sys' argv J V R. repeat split.
  - exact (accuracy_alike uc line buf co fmt sys sys' J V R argv).
  - exact (wordacc_alike uc NFC line buf to fmt sys sys' J V R argv).
  - exact (editop_alike uc line buf sys sys' J V R argv).
  - exact (wordfreq_alike uc NFC line buf to sys sys' J V R argv).
  - exact (ngram_alike uc line buf so sys sys' J V R argv).
  - exact (synctext_alike uc line buf sys sys' J V R argv).
  - exact (vote_alike uc line buf vo sc sys sys' J V R argv).
Qed.
Print Assumptions C94_programs.

(** What is not layout: the newline at the end of the file, and the white space between a suspect marker and the
    end of the line (the mark belongs to the newline or to the white space). *)
Definition plain : unicode_data := mkuc (fun c => if c =? 32 then ZS else LL) (fun c => c).
Theorem C94_not_layout :
  let read f := read_text plain (repeat 0 100) [0; 0; 0; 0] accuracy_opt [] f in
  read [97] <> read [97; 10] /\
  read [97; 94; 10; 98] <> read [97; 94; 32; 10; 98] /\
  read [97; 32; 98] <> read [97; 98].
Proof.
  intros read. repeat split; unfold read; intros E;
    apply (f_equal (fun o => match o with Ok (t, _) => map (fun c => (suspect c, value c)) t | _ => [] end)) in E;
    vm_compute in E; discriminate E.
Qed.
Print Assumptions C94_not_layout.

Lemma plain_white c : white plain c <-> In c [9; 11; 12; 13; 160; 32].
Proof.
  unfold white. cbn [plain cat In]. destruct (Z.eqb_spec c 32).
  - subst c. split; [intros _; tauto|]. intros _. split; [lia|]. right. left. reflexivity.
  - split.
    + intros (_ & [I|[E|[E|E]]]); [tauto|discriminate E..].
    + intros I. split; [|left]; repeat (destruct I as [I|I]; [try lia; tauto|]); lia || tauto.
Qed.

(** "a^ b" and "c" on two lines with blanks and tabs, ended by CR LF, with an empty line between; the same tidied. *)
Definition wide : list Z := [32; 9; 97; 94; 32; 9; 98; 32; 13; 10; 13; 10; 99].
Definition tight : list Z := [97; 94; 32; 98; 10; 99].
Example C94_ex :
  marker_visible plain 94 /\ respaced_files plain 94 wide tight /\
  respaced_system plain (mksys (fun n => if list_eq_dec Z.eq_dec n [49] then Some wide else Some [98]) (fun _ => true))
                        (mksys (fun n => if list_eq_dec Z.eq_dec n [49] then Some tight else Some [98]) (fun _ => true)) /\
  read_text plain (repeat 0 100) [0; 0; 0; 0] accuracy_opt [] wide =
    Ok ([mkchar false 97; mkchar true 32; mkchar false 98; mkchar false 10; mkchar false 99], false).
Proof.
  assert (R : respaced_files plain 94 wide tight).
  { repeat split; [repeat constructor; unfold is_byte; lia..| | |].
    - intros [r E]. discriminate E.
    - intros [r E]. discriminate E.
    - exists wide, tight. split; [repeat constructor; unfold scalar; lia|]. split; [repeat constructor; unfold scalar; lia|].
      split; [reflexivity|]. split; [reflexivity|].
      assert (W : forall b, In b [9; 11; 12; 13; 160; 32] -> white plain b) by (intros b; apply plain_white).
      assert (W32 : white plain 32) by (apply W; cbn; tauto). assert (W9 : white plain 9) by (apply W; cbn; tauto).
      assert (W13 : white plain 13) by (apply W; cbn; tauto). clear W. unfold wide, tight. apply rs_back.
      eapply rs_then; [apply (rs_start plain 94 9); now left|]. eapply rs_then; [apply (rs_start plain 94 32); now left|].
      eapply rs_then; [apply (rs_other plain 94 [32; 9; 97; 94] 32 9 _ W32 W9)|].
      eapply rs_then; [apply (rs_more plain 94 [32; 9; 97; 94] 9 32 _ W9 W32)|].
      eapply rs_then; [apply (rs_line_end plain 94 [32; 9; 97; 94; 32; 9; 98] 13)|]; [|exact W13|].
      { intros [|? [|? [|? [|? [|? [|? [|? [|? u]]]]]]]] E; discriminate E. }
      eapply rs_then; [apply (rs_more plain 94 [32; 9; 97; 94; 32; 9; 98] 13 32 _ W13 W32)|].
      eapply rs_then; [apply (rs_empty_line plain 94 [32; 9; 97; 94; 32; 9; 98; 32; 13])|].
      eapply rs_then; [apply (rs_line_start plain 94 [32; 9; 97; 94; 32; 9; 98; 32; 13] 13 _ W13)|].
      apply rs_same. }
  split; [|split; [exact R|split]].
  - split; [|lia]. rewrite plain_white. cbn. lia.
  - split; [reflexivity|]. intros n. cbn [contents]. destruct (list_eq_dec Z.eq_dec n [49]); [|left; reflexivity].
    right. exists wide, tight. split; [reflexivity|]. split; [reflexivity|exact R].
  - vm_compute. reflexivity.
Qed.
