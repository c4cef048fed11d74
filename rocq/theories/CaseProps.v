(** C87: with case ignored, files that differ in the case of letters only are read as the same text. *)
From Coq Require Import String.
From Verif Require Import Base CLib Utf8Model TextModel TextSpec TextProof TextIO TextProps WordModel
  StopModel FreqModel FreqProps SynctextModel.
Local Open Scope Z_scope.
Local Open Scope list_scope.

(** Specification.  Two files of characters that are pairwise the same in lower case. *)
Definition same_up_to_case (uc : unicode_data) (f f' : list Z) : Prop :=
  exists cs cs', Forall scalar cs /\ Forall scalar cs' /\ f = utf8s cs /\ f' = utf8s cs' /\
    Forall2 (fun c c' => tolower uc c = tolower uc c') cs cs'.

(** What the Unicode data base says about case: lower-casing keeps spacing, and only the suspect marker
    itself is lower-cased to it. *)
Definition case_ok (uc : unicode_data) (marker : Z) : Prop :=
  lower_keeps_spacing uc /\ (forall c, tolower uc c = marker <-> c = marker).

Section Case.
Variable uc : unicode_data.
Definition lowc (c : char) : char := mkchar (suspect c) (tolower uc (value c)).

Lemma low_blank : lower_keeps_spacing uc -> forall v,
  tolower uc (if is_blank uc v then BLANK else v) = (if is_blank uc (tolower uc v) then BLANK else tolower uc v).
Proof.
  intros K v. destruct (K 32) as (_ & [_ K32] & _). specialize (K32 eq_refl). destruct (K v) as (_ & Kv & B).
  rewrite !is_blank_spec in B.
  destruct (is_blank uc v), (is_blank uc (tolower uc v)); [exact K32| | |reflexivity].
  - destruct (proj2 B (or_introl eq_refl)) as [X|X]; [discriminate X|]. rewrite X. exact K32.
  - destruct (proj1 B (or_introl eq_refl)) as [X|X]; [discriminate X|]. rewrite X. exact K32.
Qed.

Lemma cl_low : lower_keeps_spacing uc -> forall l found s, map lowc (cl found s l) = cl found s (map lowc l).
Proof.
  intros K. assert (B : forall v, (tolower uc v =? BLANK) = (v =? BLANK)).
  { intros v. destruct (K v) as (_ & H & _). apply Bool.eq_iff_eq_true. rewrite !Z.eqb_eq. exact H. }
  assert (N : forall v, (tolower uc v =? NEWLINE) = (v =? NEWLINE)).
  { intros v. destruct (K v) as (H & _). apply Bool.eq_iff_eq_true. rewrite !Z.eqb_eq. exact H. }
  induction l as [|c next IH]; intros found s; [reflexivity|]. cbn [map]. rewrite !cl_cons.
  cbn [lowc value suspect]. rewrite B, N.
  assert (E : forall X, match map lowc next with n :: _ => value n =? X | [] => false end =
              match next with n :: _ => tolower uc (value n) =? X | [] => false end) by (intros; destruct next; reflexivity).
  rewrite !E.
  replace (match next with n :: _ => tolower uc (value n) =? BLANK | [] => false end) with
    (match next with n :: _ => value n =? BLANK | [] => false end) by (destruct next; [reflexivity|now rewrite B]).
  replace (match next with n :: _ => tolower uc (value n) =? NEWLINE | [] => false end) with
    (match next with n :: _ => value n =? NEWLINE | [] => false end) by (destruct next; [reflexivity|now rewrite N]).
  replace (match map lowc next with [] => true | _ => false end) with (match next with [] => true | _ => false end) by (destruct next; reflexivity).
  destruct (_ || _); [apply IH|]. cbn [map lowc value suspect]. f_equal. apply IH.
Qed.

Lemma tag_low fm m : (forall c, tolower uc c = m <-> c = m) -> forall cs s,
  map lowc (tag fm m s cs) = tag fm m s (map (tolower uc) cs).
Proof.
  intros H. induction cs as [|c cs IH]; intros s; [reflexivity|]. cbn [map tag].
  replace (tolower uc c =? m) with (c =? m) by (apply Bool.eq_iff_eq_true; rewrite !Z.eqb_eq; symmetry; apply H).
  destruct (fm && _); [apply IH|]. cbn [map lowc value suspect]. f_equal. apply IH.
Qed.

Lemma post_low opt cs : case_insensitive opt = true -> case_ok uc (marker_of opt) ->
  post uc opt (tag (find_markers opt) (marker_of opt) false cs) =
  (let l := tag (find_markers opt) (marker_of opt) false (map (tolower uc) cs) in
   if normalize opt then cl false false (blanks_to_blank uc l) else l).
Proof.
  intros Ci [K M]. unfold post. rewrite Ci. change (fun c => mkchar (suspect c) (tolower uc (value c))) with lowc.
  cbn zeta. rewrite <- (tag_low _ _ M). destruct (normalize opt); [|reflexivity].
  rewrite cl_low by exact K. f_equal. unfold blanks_to_blank. rewrite !map_map. apply map_ext. intros c.
  pose proof (low_blank K (value c)) as E. cbn [lowc value suspect].
  destruct (is_blank uc (value c)); cbn [lowc value suspect] in *; destruct (is_blank uc (tolower uc (value c))); unfold lowc; cbn [value suspect]; congruence.
Qed.
End Case.

Lemma marker_id opt : suspect_marker opt = 0 -> marker_of opt = 94.
Proof. intros H. unfold marker_of. now rewrite H. Qed.

(** Any program that ignores case reads the same text: the same characters with the same marks. *)
Theorem C87_read : forall uc line buf opt text f f',
  junk_ok line buf -> Forall is_byte f -> Forall is_byte f' ->
  case_insensitive opt = true -> case_ok uc (if suspect_marker opt =? 0 then 94 else suspect_marker opt) ->
  (find_header opt = true -> ~ starts_with title_start f /\ ~ starts_with title_start f') ->
  same_up_to_case uc f f' ->
  read_text uc line buf opt text f = read_text uc line buf opt text f'.
Proof.
  intros uc line buf opt text f f' J B B' Ci Ck Ht (cs & cs' & S & S' & E & E' & F).
  enough (H : forall o, find_header o = false -> case_insensitive o = true -> case_ok uc (marker_of o) ->
            read_text uc line buf o text f = read_text uc line buf o text f').
  { destruct (find_header opt) eqn:Hh; [|apply H; assumption]. destruct (Ht eq_refl) as [T T'].
    rewrite (C13_no_header uc line buf opt text f J Hh T), (C13_no_header uc line buf opt text f' J Hh T').
    apply H; [reflexivity|exact Ci|exact Ck]. }
  clear Ht Ci Ck opt. intros o Hh Ci Ck.
  destruct (read_text_ok uc line buf o text f Hh B (proj2 J)) as [(c1 & S1 & E1 & R1)|(N & _)]; [|exfalso; exact (N cs S E)].
  destruct (read_text_ok uc line buf o text f' Hh B' (proj2 J)) as [(c2 & S2 & E2 & R2)|(N & _)]; [|exfalso; exact (N cs' S' E')].
  rewrite E in E1. apply utf8s_inj in E1; [|assumption..]. rewrite E' in E2. apply utf8s_inj in E2; [|assumption..]. subst c1 c2.
  rewrite R1, R2, !post_low by assumption. replace (map (tolower uc) cs') with (map (tolower uc) cs); [reflexivity|].
  clear - F. induction F as [|c c' l l' H _ IH]; [reflexivity|]. cbn. now rewrite H, IH.
Qed.
Print Assumptions C87_read.

(** The words wordacc and wordfreq count. *)
Theorem C87_words : forall uc NFC line buf f f',
  junk_ok line buf -> Forall is_byte f -> Forall is_byte f' -> case_ok uc 94 ->
  ~ starts_with title_start f -> ~ starts_with title_start f' -> same_up_to_case uc f f' ->
  words_in uc NFC line buf wordfreq_opt f = words_in uc NFC line buf wordfreq_opt f'.
Proof.
  intros uc NFC line buf f f' J B B' K T T' E. unfold words_in. rewrite (C87_read uc line buf wordfreq_opt [] f f'); auto.
Qed.
Print Assumptions C87_words.

(** Stopwords: no header and no marks are looked for. *)
Theorem C87_stopwords : forall uc NFC line buf s f f',
  junk_ok line buf -> Forall is_byte f -> Forall is_byte f' -> case_ok uc 94 -> same_up_to_case uc f f' ->
  init_stopwords uc NFC line buf s (Some f) = init_stopwords uc NFC line buf s (Some f').
Proof.
  intros uc NFC line buf s f f' J B B' K E. unfold init_stopwords, words_in.
  rewrite (C87_read uc line buf stopword_opt [] f f'); auto. intros X. discriminate X.
Qed.
Print Assumptions C87_stopwords.

Theorem C87_wordfreq : forall order uc NFC line buf files files',
  junk_ok line buf -> Forall (Forall is_byte) files -> Forall (Forall is_byte) files' -> case_ok uc 94 ->
  Forall (fun f => ~ starts_with title_start f) files -> Forall (fun f => ~ starts_with title_start f) files' ->
  Forall2 (same_up_to_case uc) files files' ->
  wordfreq order uc NFC line buf files = wordfreq order uc NFC line buf files'.
Proof.
  intros order uc NFC line buf files files' J B B' K T T' F. unfold wordfreq.
  assert (L : zlen files = zlen files') by (unfold zlen; f_equal; clear - F; induction F; cbn; congruence).
  rewrite L. destruct (_ =? 0); [reflexivity|].
  enough (Q : forall tab, ofold (fun tab f => let! words := words_in uc NFC line buf wordfreq_opt f in Ok (count_words tab words)) files tab =
                     ofold (fun tab f => let! words := words_in uc NFC line buf wordfreq_opt f in Ok (count_words tab words)) files' tab) by now rewrite Q.
  clear L. induction F as [|f f' l l' E F IH]; intros tab; [reflexivity|].
  inversion_clear B. inversion_clear B'. inversion_clear T. inversion_clear T'. cbn [ofold].
  rewrite (C87_words uc NFC line buf f f') by assumption.
  destruct (words_in _ _ _ _ _ f'); cbn [obind]; [|reflexivity..]. now apply IH.
Qed.
Print Assumptions C87_wordfreq.

(** synctext -i prints the same for files that differ in case only (the names are printed). *)
Theorem C87_synctext : forall uc line buf heuristic show_suspect transpose files files',
  junk_ok line buf -> case_ok uc 94 ->
  Forall2 (fun nf nf' => fst nf = fst nf' /\ Forall is_byte (snd nf) /\ Forall is_byte (snd nf') /\
             ~ starts_with title_start (snd nf) /\ ~ starts_with title_start (snd nf') /\
             same_up_to_case uc (snd nf) (snd nf')) files files' ->
  synctext uc line buf heuristic true show_suspect transpose files =
  synctext uc line buf heuristic true show_suspect transpose files'.
Proof.
  intros uc line buf heuristic show_suspect transpose files files' J K F. unfold synctext.
  assert (L : zlen files = zlen files') by (unfold zlen; f_equal; clear - F; induction F; cbn; congruence).
  assert (M : map fst files = map fst files').
  { clear - F. induction F as [|x y l l' (H & _) _ IH]; [reflexivity|]. cbn. now rewrite H, IH. }
  rewrite L, M. destruct (_ || _); [reflexivity|].
  enough (Q : forall acc, ofold (fun acc nf => let! (text, _) := read_text uc line buf (synctext_opt true) [] (snd nf) in Ok (acc ++ [text])) files acc =
                     ofold (fun acc nf => let! (text, _) := read_text uc line buf (synctext_opt true) [] (snd nf) in Ok (acc ++ [text])) files' acc).
  { pose proof (Q []) as Q'. cbv beta in Q'. rewrite Q'. reflexivity. }
  clear L M. induction F as [|x y l l' (_ & B & B' & T & T' & E) _ IH]; intros acc; [reflexivity|]. cbn [ofold].
  rewrite (C87_read uc line buf (synctext_opt true) [] (snd x) (snd y)); auto.
  destruct (read_text _ _ _ _ _ (snd y)) as [[t h]| | |]; cbn [obind]; [|reflexivity..]. apply IH.
Qed.
Print Assumptions C87_synctext.

Definition case_uc : unicode_data :=
  mkuc (fun c => if c =? 32 then ZS else LL) (fun c => if (65 <=? c) && (c <=? 90) then c + 32 else c).

Lemma case_uc_ok : case_ok case_uc 94.
Proof.
  assert (H : forall c, (65 <= c <= 90 /\ tolower case_uc c = c + 32) \/ (~ 65 <= c <= 90 /\ tolower case_uc c = c)).
  { intros c. cbn. destruct (Z.leb_spec 65 c), (Z.leb_spec c 90); cbn; [left|right..]; split; try reflexivity; lia. }
  split; [intros c; destruct (H c) as [(R & ->)|(R & ->)]|intros c; destruct (H c) as [(R & ->)|(R & ->)]; lia].
  - split; [lia|]. split; [lia|]. unfold blankish. cbn [case_uc cat].
    destruct (Z.eqb_spec (c + 32) 32), (Z.eqb_spec c 32); try lia.
    split; intros (A & B); (split; [lia|]); repeat (destruct B as [B|B]; [try lia; try discriminate B|]); discriminate B.
  - tauto.
Qed.

Example C87_ex :
  same_up_to_case case_uc (bytes "The ^Cat") (bytes "tHE ^cat") /\
  words_in case_uc (fun s => s) (repeat 0 100) [0; 0; 0; 0] wordfreq_opt (bytes "The ^Cat") = Ok [bytes "the"; bytes "cat"] /\
  words_in case_uc (fun s => s) (repeat 0 100) [0; 0; 0; 0] wordfreq_opt (bytes "tHE ^cat") = Ok [bytes "the"; bytes "cat"].
Proof.
  split; [|split; vm_compute; reflexivity]. exists (bytes "The ^Cat"), (bytes "tHE ^cat").
  split; [cbn; repeat (constructor; [unfold scalar; lia|]); constructor|].
  split; [cbn; repeat (constructor; [unfold scalar; lia|]); constructor|]. split; [reflexivity|]. split; [reflexivity|].
  cbn. repeat (constructor; [reflexivity|]). constructor.
Qed.
