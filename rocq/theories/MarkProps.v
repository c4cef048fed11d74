(** C86: suspect marks change no figure but the counts of marks. *)
From Coq Require Import String.
From Verif Require Import Base CLib Utf8Model TextModel TextSpec TextProof TextProps CharclassModel CompareModel SyncModel
  AccModel WordModel WordFileProof StopModel FreqModel NgramModel EditopModel StringProps MarkSpec MarkProof.
Local Open Scope Z_scope.
Local Open Scope list_scope.

(** Any marks in either text: accuracy counts the same characters, errors, rejected characters, edit
    operations, classes and confusions. *)
Theorem C86_accuracy : forall uc t0 t0' t1 t1' d,
  same_characters t0 t0' -> same_characters t1 t1' ->
  accuracy_data uc t0 t1 = Ok d ->
  exists d', accuracy_data uc t0' t1' = Ok d' /\ same_but_marks d d'.
Proof.
  intros uc t0 t0' t1 t1' d E0 E1 H.
  pose proof (accuracy_rel uc t0 t0 _ _ eq_refl (unmarked_more t1)) as R1. rewrite H in R1.
  pose proof (accuracy_rel uc t0 t0' _ _ E0 (unmarked_more t1')) as R2. rewrite <- (unmarked_same _ _ E1) in R2.
  destruct (accuracy_data uc t0 (unmarked t1)) as [d0| | |]; cbn in R1; try contradiction.
  destruct (accuracy_data uc t0' t1') as [d'| | |]; cbn in R2; try contradiction.
  exists d'. split; [reflexivity|]. destruct R1 as [R1 _], R2 as [R2 _]. eapply same_but_trans; eassumption.
Qed.
Print Assumptions C86_accuracy.

(** Marks in the correct text change nothing at all. *)
Theorem C86_correct : forall uc t0 t0' t1, same_characters t0 t0' ->
  accuracy_data uc t0 t1 = accuracy_data uc t0' t1.
Proof. intros uc t0 t0' t1 H. now apply accuracy_correct. Qed.
Print Assumptions C86_correct.

(** With more marks in the generated text, more characters are counted as marked, more marks as false,
    more errors as marked (in all and for each confusion) and fewer as unmarked. *)
Theorem C86_more : forall uc t0 t1 t1' d d', more_marks t1 t1' ->
  accuracy_data uc t0 t1 = Ok d -> accuracy_data uc t0 t1' = Ok d' -> marks_grow d d'.
Proof.
  intros uc t0 t1 t1' d d' M H H'. pose proof (accuracy_rel uc t0 t0 _ _ eq_refl M) as R. rewrite H, H' in R. exact (proj2 R).
Qed.
Print Assumptions C86_more.

(** ngram: the same sequences with the same counts. *)
Theorem C86_ngram : forall uc n texts texts' t,
  Forall2 same_characters texts texts' ->
  ofold (process_text uc n) texts (mktable [] 0 0) = Ok t ->
  exists t', ofold (process_text uc n) texts' (mktable [] 0 0) = Ok t' /\
    map (fun e => (fst e, svalue (snd e), scount (snd e))) (entries t) =
    map (fun e => (fst e, svalue (snd e), scount (snd e))) (entries t') /\
    total_count t = total_count t'.
Proof.
  intros uc n texts texts' t F H.
  assert (E : ngram_rel (mktable [] 0 0) (mktable [] 0 0)) by (split; [constructor|cbn; lia]).
  assert (G : forall l, Forall2 more_marks (map unmarked l) l).
  { intros l. induction l as [|x l IH]; constructor; [apply unmarked_more|exact IH]. }
  assert (Q : forall l, orel ngram_rel (ofold (process_text uc n) (map unmarked l) (mktable [] 0 0)) (ofold (process_text uc n) l (mktable [] 0 0))).
  { intros l. eapply orel_ofold; [apply G| |exact E]. intros b b' x x' Hb Hx. now apply process_text_rel. }
  pose proof (Q texts) as R1. pose proof (Q texts') as R2. rewrite H in R1.
  assert (U : map unmarked texts = map unmarked texts').
  { clear - F. induction F as [|x x' l l' H F IH]; [reflexivity|]. cbn. now rewrite (unmarked_same _ _ H), IH. }
  rewrite <- U in R2. destruct (ofold _ (map unmarked texts) _) as [t0| | |]; cbn in R1; try contradiction.
  destruct (ofold _ texts' _) as [t'| | |]; cbn in R2; try contradiction. exists t'. split; [reflexivity|].
  destruct R1 as (F1 & C1 & _), R2 as (F2 & C2 & _). split; [|congruence].
  assert (K : forall l l', Forall2 (fun e e' : entry => fst e = fst e' /\ svalue (snd e) = svalue (snd e') /\ scount (snd e) = scount (snd e') /\
       ssuspect (snd e) <= ssuspect (snd e')) l l' ->
     map (fun e => (fst e, svalue (snd e), scount (snd e))) l = map (fun e => (fst e, svalue (snd e), scount (snd e))) l').
  { induction 1 as [|e e' l l' (A & B & C & _) _ IH]; [reflexivity|]. cbn. congruence. }
  rewrite <- (K _ _ F1). now apply K.
Qed.
Print Assumptions C86_ngram.

Lemma utf8_caret c : scalar c -> In 94 (utf8 c) -> c = 94.
Proof.
  unfold scalar, utf8. intros [B _].
  destruct (Z.ltb_spec c 128); [intros [Q|[]]; exact Q|].
  destruct (Z.ltb_spec c 2048); [intros [Q|[Q|[]]]; exfalso; revert Q; Z.to_euclidean_division_equations; lia|].
  destruct (Z.ltb_spec c 65536); [intros [Q|[Q|[Q|[]]]]; exfalso; revert Q; Z.to_euclidean_division_equations; lia|].
  intros [Q|[Q|[Q|[Q|[]]]]]; exfalso; revert Q; Z.to_euclidean_division_equations; lia.
Qed.
Lemma filter_all {A} (p : A -> bool) l : (forall x, In x l -> p x = true) -> filter p l = l.
Proof. induction l as [|x l IH]; intros H; [reflexivity|]. cbn. rewrite H by now left. f_equal. apply IH. intros y Hy. apply H. now right. Qed.
Lemma utf8s_filter cs : Forall scalar cs ->
  filter (fun b => negb (b =? 94)) (utf8s cs) = utf8s (filter (fun c => negb (c =? 94)) cs).
Proof.
  induction 1 as [|c cs S _ IH]; [reflexivity|]. cbn [utf8s flat_map filter]. rewrite filter_app.
  change (flat_map utf8 cs) with (utf8s cs). rewrite IH. destruct (Z.eqb_spec c 94) as [->|N]; [reflexivity|].
  cbn [negb utf8s flat_map]. f_equal. apply filter_all. intros b Hb. apply negb_true_iff, Z.eqb_neq. intros ->.
  apply N. now apply utf8_caret.
Qed.

(** Two files with the same bytes up to circumflexes are read as the same characters. *)
Theorem C86_read : forall uc line buf ci f f' t t',
  junk_ok line buf -> Forall is_byte f -> Forall is_byte f' ->
  ~ starts_with title_start f -> ~ starts_with title_start f' ->
  same_up_to_carets f f' ->
  read_text uc line buf (mkopt true true 0 true ci) [] f = Ok (t, false) ->
  read_text uc line buf (mkopt true true 0 true ci) [] f' = Ok (t', false) ->
  same_characters t t'.
Proof.
  intros uc line buf ci f f' t t' J B B' H H' E R R'.
  destruct (read_values_ok uc line buf J ci f t B H R) as (cs & S & -> & V).
  destruct (read_values_ok uc line buf J ci f' t' B' H' R') as (cs' & S' & -> & V').
  unfold same_characters. rewrite V, V'. unfold read_values, raw_values. do 3 f_equal.
  unfold same_up_to_carets in E. rewrite !utf8s_filter in E by assumption.
  apply utf8s_inj in E; [exact E| |]; apply Forall_forall; intros c Hc; apply filter_In in Hc as [Hc _];
    [rewrite Forall_forall in S; auto|rewrite Forall_forall in S'; auto].
Qed.
Print Assumptions C86_read.

(** A file that is read, without a header. *)
Definition readable (f : list Z) : Prop :=
  Forall is_byte f /\ ~ starts_with title_start f /\ exists cs, Forall scalar cs /\ f = utf8s cs.

Lemma readable_read uc line buf ci f : junk_ok line buf -> readable f ->
  exists t, read_text uc line buf (mkopt true true 0 true ci) [] f = Ok (t, false).
Proof.
  intros J (B & H & cs & S & ->). rewrite (C13_no_header uc line buf (mkopt true true 0 true ci) [] _ J eq_refl H).
  destruct (C08_reject uc line buf (mkopt false true 0 true ci) [] (utf8s cs) J B eq_refl) as [R _]. apply R. eauto.
Qed.

(** The words of the two files are the same, so is the report of wordfreq. *)
Theorem C86_words : forall uc NFC line buf ci f f',
  junk_ok line buf -> readable f -> readable f' -> same_up_to_carets f f' ->
  words_in uc NFC line buf (mkopt true true 0 true ci) f = words_in uc NFC line buf (mkopt true true 0 true ci) f'.
Proof.
  intros uc NFC line buf ci f f' J Rf Rf' E. unfold words_in.
  destruct (readable_read uc line buf ci f J Rf) as (t & G). destruct (readable_read uc line buf ci f' J Rf') as (t' & G').
  rewrite G, G'. cbn [obind]. destruct Rf as (B & H & _), Rf' as (B' & H' & _).
  pose proof (C86_read uc line buf ci f f' t t' J B B' H H' E G G') as Q. unfold same_characters in Q. now rewrite Q.
Qed.
Print Assumptions C86_words.

Theorem C86_wordfreq : forall order uc NFC line buf files files',
  junk_ok line buf -> Forall (readable) files -> Forall (readable) files' ->
  Forall2 same_up_to_carets files files' ->
  wordfreq order uc NFC line buf files = wordfreq order uc NFC line buf files'.
Proof.
  intros order uc NFC line buf files files' J R R' F. unfold wordfreq.
  assert (L : zlen files = zlen files') by (unfold zlen; f_equal; clear - F; induction F; cbn; congruence).
  rewrite L. destruct (_ =? 0); [reflexivity|].
  enough (Q : forall tab, ofold (fun tab f => let! words := words_in uc NFC line buf wordfreq_opt f in Ok (count_words tab words)) files tab =
                     ofold (fun tab f => let! words := words_in uc NFC line buf wordfreq_opt f in Ok (count_words tab words)) files' tab) by now rewrite Q.
  clear L. induction F as [|f f' l l' E F IH]; intros tab; [reflexivity|]. inversion_clear R. inversion_clear R'. cbn [ofold].
  change wordfreq_opt with (mkopt true true 0 true true). rewrite (C86_words uc NFC line buf true f f') by assumption.
  destruct (words_in _ _ _ _ _ f'); cbn [obind]; [|reflexivity..]. now apply IH.
Qed.
Print Assumptions C86_wordfreq.

(** So is the report of editop. *)
Theorem C86_editop : forall uc line buf f1 f1' f2 f2',
  junk_ok line buf -> readable f1 -> readable f1' -> readable f2 -> readable f2' ->
  same_up_to_carets f1 f1' -> same_up_to_carets f2 f2' ->
  editop uc line buf f1 f2 = editop uc line buf f1' f2'.
Proof.
  intros uc line buf f1 f1' f2 f2' J R1 R1' R2 R2' E1 E2. unfold editop. change editop_opt with (mkopt true true 0 true false).
  destruct (readable_read uc line buf false f1 J R1) as (t1 & G1). destruct (readable_read uc line buf false f1' J R1') as (t1' & G1').
  destruct (readable_read uc line buf false f2 J R2) as (t2 & G2). destruct (readable_read uc line buf false f2' J R2') as (t2' & G2').
  rewrite G1, G1', G2, G2'. cbn [obind].
  destruct R1 as (B1 & H1 & _), R1' as (B1' & H1' & _), R2 as (B2 & H2 & _), R2' as (B2' & H2' & _).
  pose proof (C86_read uc line buf false _ _ _ _ J B1 B1' H1 H1' E1 G1 G1') as Q1.
  pose proof (C86_read uc line buf false _ _ _ _ J B2 B2' H2 H2' E2 G2 G2') as Q2.
  unfold same_characters in Q1, Q2. now rewrite Q1, Q2.
Qed.
Print Assumptions C86_editop.

(** accuracy on files. *)
Theorem C86_accuracy_files : forall uc line buf f0 f0' f1 f1' t0 t1 d,
  junk_ok line buf -> readable f0 -> readable f0' -> readable f1 -> readable f1' ->
  same_up_to_carets f0 f0' -> same_up_to_carets f1 f1' ->
  read_text uc line buf (mkopt true true 0 true false) [] f0 = Ok (t0, false) ->
  read_text uc line buf (mkopt true true 0 true false) [] f1 = Ok (t1, false) ->
  accuracy_data uc t0 t1 = Ok d ->
  exists t0' t1' d',
    read_text uc line buf (mkopt true true 0 true false) [] f0' = Ok (t0', false) /\
    read_text uc line buf (mkopt true true 0 true false) [] f1' = Ok (t1', false) /\
    accuracy_data uc t0' t1' = Ok d' /\ same_but_marks d d'.
Proof.
  intros uc line buf f0 f0' f1 f1' t0 t1 d J R0 R0' R1 R1' E0 E1 G0 G1 H.
  destruct (readable_read uc line buf false f0' J R0') as (t0' & G0'). destruct (readable_read uc line buf false f1' J R1') as (t1' & G1').
  exists t0', t1'. destruct R0 as (B0 & H0 & _), R0' as (B0' & H0' & _), R1 as (B1 & H1 & _), R1' as (B1' & H1' & _).
  pose proof (C86_read uc line buf false _ _ _ _ J B0 B0' H0 H0' E0 G0 G0') as Q0.
  pose proof (C86_read uc line buf false _ _ _ _ J B1 B1' H1 H1' E1 G1 G1') as Q1.
  destruct (C86_accuracy uc t0 t0' t1 t1' d Q0 Q1 H) as (d' & X & Y). exists d'. auto.
Qed.
Print Assumptions C86_accuracy_files.

Example C86_ex :
  let t0 := [mkchar false 97; mkchar false 98] in
  let t1 := [mkchar false 97; mkchar false 99] in
  let t1' := [mkchar true 97; mkchar true 99] in
  more_marks t1 t1' /\ same_characters t1 t1' /\
  exists d d', accuracy_data sample_uc t0 t1 = Ok d /\ accuracy_data sample_uc t0 t1' = Ok d' /\
    (errors d, suspects d, false_marks d, errs (marked_ops d), errs (unmarked_ops d)) = (1, 0, 0, 0, 1) /\
    (errors d', suspects d', false_marks d', errs (marked_ops d'), errs (unmarked_ops d')) = (1, 2, 1, 1, 0).
Proof.
  split; [|split; [reflexivity|]].
  - constructor; [cbn; auto|]. constructor; [cbn; auto|constructor].
  - eexists _, _. split; [vm_compute; reflexivity|]. split; [vm_compute; reflexivity|]. split; vm_compute; reflexivity.
Qed.

Example C86_ex_file :
  same_up_to_carets (bytes "th^e c^^at") (bytes "the ca^t") /\
  readable (bytes "th^e c^^at") /\ readable (bytes "the ca^t").
Proof.
  split; [reflexivity|]. split.
  - split; [cbn; repeat (constructor; [unfold is_byte; lia|]); constructor|]. split; [intros (r & E); discriminate E|].
    exists (bytes "th^e c^^at"). split; [cbn; repeat (constructor; [unfold scalar; lia|]); constructor|reflexivity].
  - split; [cbn; repeat (constructor; [unfold is_byte; lia|]); constructor|]. split; [intros (r & E); discriminate E|].
    exists (bytes "the ca^t"). split; [cbn; repeat (constructor; [unfold scalar; lia|]); constructor|reflexivity].
Qed.
