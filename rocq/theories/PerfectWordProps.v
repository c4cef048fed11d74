(** C97: a text without errors has no misrecognized words. *)
From Coq Require Import String Permutation.
From Verif Require Import Base CLib Utf8Model TextModel TextSpec TextIO TextProps ReadProof WordModel WordSpec SyncModel SyncSpec AccModel AccSpec AccProof AccProps
  LcsSpec MetricSpec StopModel MainSpec MainProof MainProps MainWacProps MainEditProps PerfectProps.
From Verif Require Import WacModel WacSpec WacProof WacProps.
Local Open Scope Z_scope.
Local Open Scope list_scope.

Lemma sample_junk : junk_ok sample_line sample_buf.
Proof. split; [reflexivity|]. split; [reflexivity|]. repeat constructor; unfold is_byte; lia. Qed.

Lemma text_lowered uc f h t lt : Forall is_byte f -> file_text uc false f h t -> file_text uc true f h lt ->
  lt = map (fun c => mkchar (suspect c) (tolower uc (value c))) t.
Proof.
  intros B T (body & Bo & cs & raw & norm & S & E & M & Nm & ->). f_equal.
  assert (T' : file_text uc false f h norm) by (exists body; split; [exact Bo|]; exists cs, raw, norm; auto).
  pose proof (read_file_text uc sample_line sample_buf false f h t sample_junk B T) as R. rewrite (read_file_text uc sample_line sample_buf false f h norm sample_junk B T') in R. congruence.
Qed.

(** C97: if accuracy finds no error (the correct text has no '~'), wordacc finds the same words in
    both files and none misrecognized. *)
Theorem C97_perfect_words : forall uc NFC f0 f1 h0 h1 t0 t1 w0 w1 d,
  (forall c, scalar c -> scalar (tolower uc c)) -> Forall is_byte f0 -> Forall is_byte f1 ->
  file_text uc false f0 h0 t0 -> file_text uc false f1 h1 t1 -> inputs_ok uc t0 t1 -> no_reject t0 ->
  accuracy_data uc t0 t1 = Ok d -> errors d = 0 ->
  file_words uc NFC f0 h0 w0 -> file_words uc NFC f1 h1 w1 ->
  w0 = w1 /\
  forall stop order, (forall l, Permutation (order l) l) -> zlen (shared w0 w1) <= 65535 ->
    (forall w, In w w0 -> 1 <= zlen w <= MAX_WORDLENGTH) ->
    exists wd, wordacc stop order w0 w1 = Ok wd /\ wcount (wtotal wd) = zlen w0 /\ wmissed (wtotal wd) = 0.
Proof.
  intros uc NFC f0 f1 h0 h1 t0 t1 w0 w1 d Lo B0 B1 T0 T1 I N Ed Z0 (l0 & L0 & W0) (l1 & L1 & W1).
  destruct (C97_perfect uc t0 t1 I N) as (d' & _ & Ed' & _ & H & _). assert (d' = d) by congruence. subst d'. apply H in Z0.
  pose proof (text_lowered uc f0 h0 t0 l0 B0 T0 L0) as E0. pose proof (text_lowered uc f1 h1 t1 l1 B1 T1 L1) as E1.
  destruct I as (_ & O0 & O1 & _ & _).
  assert (G : forall t, text_ok t -> text_ok (map (fun c => mkchar (suspect c) (tolower uc (value c))) t)).
  { intros t O. unfold text_ok in *. rewrite Forall_map. eapply Forall_impl; [|exact O]. intros c Hc. cbn [value]. now apply Lo. }
  assert (W : w0 = w1).
  { apply text_words_found in W0; [|subst l0; now apply G]. apply text_words_found in W1; [|subst l1; now apply G].
    assert (map value l0 = map value l1) as V.
    { subst l0 l1. rewrite !map_map. cbn [value]. rewrite <- (map_map value (tolower uc) t0), <- (map_map value (tolower uc) t1). now rewrite Z0. }
    rewrite V in W0. congruence. }
  split; [exact W|]. intros stop order P Sh Wl. subst w1.
  destruct (C37_misrecognized stop order w0 w0 P Sh Wl) as (wd & c & Ew & S0 & _ & M & C1 & C2). exists wd. split; [exact Ew|]. split; [exact C1|].
  assert (subseq w0 w0) as Sr by (clear; induction w0; constructor; auto).
  specialize (M w0 Sr Sr). rewrite C2. assert (zlen c <= zlen w0); [|lia]. clear - S0. induction S0; rewrite ?zlen_cons; try lia.
Qed.
Print Assumptions C97_perfect_words.

(** A case: a file with more blanks and one with a mark. *)
Example C97_perfect_words_ex :
  let t0 := correct_text in let t1 := map (fun c => mkchar (value c =? 98) (value c)) correct_text in
  file_text main_uc false (bytes "ab  cde") false t0 /\ file_text main_uc false (bytes "a^b cde") false t1 /\
  inputs_ok main_uc t0 t1 /\ no_reject t0 /\ (exists d, accuracy_data main_uc t0 t1 = Ok d /\ errors d = 0) /\
  file_words main_uc (fun s => s) (bytes "ab  cde") false [bytes "ab"; bytes "cde"] /\
  file_words main_uc (fun s => s) (bytes "a^b cde") false [bytes "ab"; bytes "cde"].
Proof.
  intros t0 t1. pose proof sample_junk as J.
  assert (B : forall s, forallb (fun b => (0 <=? b) && (b <? 256)) s = true -> Forall is_byte s).
  { intros s H. rewrite Forall_forall. intros c Hc. rewrite forallb_forall in H. specialize (H c Hc). unfold is_byte. lia. }
  assert (TO : forall t, forallb (fun c => (0 <=? value c) && (value c <? 1000)) t = true -> text_ok t).
  { intros t H. unfold text_ok. rewrite Forall_forall. intros c Hc. rewrite forallb_forall in H. specialize (H c Hc). unfold scalar. lia. }
  assert (I : inputs_ok main_uc t0 t1).
  { split; [reflexivity|]. split; [now apply TO|]. split; [now apply TO|]. split; [|unfold MAX_F; cbn; lia].
    unfold tabulable. rewrite Forall_forall. intros c Hc E. assert (X : forallb (fun c => value c <? 1000) t0 = true) by reflexivity.
    rewrite forallb_forall in X. specialize (X c Hc). lia. }
  assert (N : no_reject t0) by (unfold no_reject; cbn; intuition lia).
  split; [apply (read_without_header main_uc sample_line sample_buf); [exact J|now apply B|vm_compute; reflexivity]|].
  split; [apply (read_without_header main_uc sample_line sample_buf); [exact J|now apply B|vm_compute; reflexivity]|].
  split; [exact I|]. split; [exact N|]. split.
  { destruct (C97_perfect main_uc t0 t1 I N) as (d & _ & Ed & _ & H & _). exists d. split; [exact Ed|]. apply H. reflexivity. }
  split; (eexists; split; [apply (read_without_header main_uc sample_line sample_buf); [exact J|now apply B|vm_compute; reflexivity]|]);
    (apply found_words; [now apply TO|vm_compute; reflexivity|vm_compute; reflexivity]).
Qed.
