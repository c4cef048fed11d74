(** C85: the words of a text are the words of its lines, one line after the other; cutting a file at
    a newline changes none of the words counted. *)
From Coq Require Import String.
From Verif Require Import Base CLib Utf8Model TextModel TextSpec TextProof TextIO TextProps WordTable WordModel
  WordSpec WordProof WordProps WordLineProof WordFileProof StopModel FreqModel.
Local Open Scope Z_scope.
Local Open Scope list_scope.
#[local] Opaque property.

(** Specification.  The word-break property of the first character of the text, if there is one, is
    neither Extend nor Format. *)
Definition plain_start (text : list Z) : Prop :=
  forall c rest p, text = c :: rest -> has_property c p -> ~ extend_or_format p.

(** Lines, each but the last followed by a newline. *)
Fixpoint joined_lines (lines : list (list Z)) : list Z :=
  match lines with
  | [] => []
  | [l] => l
  | l :: rest => l ++ 10 :: joined_lines rest
  end.

Lemma plain_start_main t : plain_start t -> starts_main t.
Proof.
  intros H. destruct t as [|c t]; [exact I|]. cbn. specialize (H c t (prop c) eq_refl (proj2 (has_property_prop c _) eq_refl)).
  destruct (ext c) eqn:E; [|reflexivity]. exfalso. apply H. now apply ExtendOrFormat_spec.
Qed.
Lemma plain_start_F t : plain_start t -> t = [] \/ F t <> [].
Proof.
  intros H. apply plain_start_main in H. destruct t as [|x l]; [now left|right]. rewrite F_main by exact H. discriminate.
Qed.
Lemma no_cr_13 t : ~ In 13 t -> no_cr t.
Proof. intros H x Hx E. apply prop_cr in E. subst x. exact (H Hx). Qed.

(** Any text, cut at a character that stands apart: one of no particular word-break property (a blank,
    say), or a line feed or other newline that is no carriage return. *)
Theorem C85_cut : forall uc NFC wl a c b,
  Forall scalar (a ++ c :: b) ->
  (has_property c Other \/ has_property c LF \/ has_property c Newline) ->
  wordy (cat uc c) = false ->
  ~ In 13 a -> (a = [] \/ ~ only_extends a) -> plain_start b ->
  exists wa wb,
    find_words uc NFC [] a = Ok wa /\
    find_words uc NFC [] b = Ok wb /\
    find_words uc NFC wl (a ++ c :: b) = Ok (wl ++ wa ++ wb).
Proof.
  intros uc NFC wl a c b S P W N A B. pose proof (scalars _ S) as U.
  assert (P' : apart (prop c)).
  { unfold apart. rewrite !has_property_prop in P. destruct P as [P|[P|P]]; auto. }
  assert (A' : a = [] \/ F a <> []).
  { destruct A as [A|A]; [now left|right]. now rewrite only_extends_F in A. }
  pose proof U as U0. apply Forall_app in U0 as [Ua Ub]. inversion_clear Ub as [|? ? Uc Ub'].
  destruct (segments_of a Ua A') as (ga & _ & _ & Wa). destruct (segments_of b Ub' (plain_start_F b B)) as (gb & _ & _ & Wb).
  specialize (Wa uc NFC []). specialize (Wb uc NFC []). cbn [app] in Wa, Wb.
  exists (words_of uc NFC ga), (words_of uc NFC gb). split; [exact Wa|]. split; [exact Wb|].
  apply find_words_join; auto; [now apply no_cr_13|now apply plain_start_main].
Qed.
Print Assumptions C85_cut.

Lemma joined_scalar lines : Forall (Forall scalar) lines -> Forall scalar (joined_lines lines).
Proof.
  induction 1 as [|l lines H _ IH]; [constructor|]. cbn. destruct lines; [exact H|].
  apply Forall_app. split; [exact H|]. constructor; [unfold scalar; lia|exact IH].
Qed.
Lemma joined_start l lines : plain_start l -> plain_start (joined_lines (l :: lines)).
Proof.
  intros H c rest p E Hp. cbn in E. destruct lines; [exact (H c rest p E Hp)|]. destruct l as [|x l].
  - cbn in E. injection E as <- _. apply has_property_prop in Hp. rewrite prop_nl in Hp. subst p. intros [X|X]; discriminate X.
  - cbn in E. injection E as -> _. exact (H c l p eq_refl Hp).
Qed.

(** The words of a text are those of its lines. *)
Theorem C85_lines : forall uc NFC wl lines,
  Forall (Forall scalar) lines -> Forall plain_start lines -> Forall (fun l => ~ In 13 l) lines ->
  wordy (cat uc 10) = false ->
  exists words,
    Forall2 (fun l w => find_words uc NFC [] l = Ok w) lines words /\
    find_words uc NFC wl (joined_lines lines) = Ok (wl ++ concat words).
Proof.
  intros uc NFC wl lines S P N W. revert wl. induction lines as [|l lines IH]; intros wl.
  - exists []. split; [constructor|]. cbn [joined_lines concat]. rewrite app_nil_r. now apply find_words_empty.
  - inversion_clear S as [|? ? S1 S2]. inversion_clear P as [|? ? P1 P2]. inversion_clear N as [|? ? N1 N2].
    destruct lines as [|l2 lines].
    + destruct (segments_of l (scalars _ S1) (plain_start_F l P1)) as (g & _ & _ & Wg).
      exists [words_of uc NFC g]. split; [constructor; [exact (Wg uc NFC [])|constructor]|].
      cbn [joined_lines concat]. rewrite app_nil_r. apply Wg.
    + destruct (IH S2 P2 N2 []) as (words & F2 & E). clear IH.
      destruct (C85_cut uc NFC wl l 10 (joined_lines (l2 :: lines))) as (wa & wb & Ea & Eb & Ej).
      * apply Forall_app. split; [exact S1|]. constructor; [unfold scalar; lia|now apply joined_scalar].
      * right. left. apply has_property_prop. symmetry. exact prop_nl.
      * exact W.
      * exact N1.
      * destruct (plain_start_F l P1) as [X|X]; [now left|right]. now rewrite only_extends_F.
      * apply joined_start. now inversion_clear P2.
      * exists (wa :: words). split; [constructor; assumption|].
        change (joined_lines (l :: l2 :: lines)) with (l ++ 10 :: joined_lines (l2 :: lines)). rewrite Ej.
        rewrite E in Eb. cbn [app concat] in Eb |- *. congruence.
Qed.
Print Assumptions C85_lines.

(** The words read from a file are those read from its two parts, when it is cut at a newline. *)
Theorem C85_file : forall uc NFC line buf ci f1 f2 t1 t2,
  let opt := mkopt true true 0 true ci in
  junk_ok line buf -> Forall is_byte f1 -> Forall is_byte f2 ->
  (ci = true -> lower_keeps_spacing uc) -> (ci = true -> forall c, scalar c -> scalar (tolower uc c)) ->
  wordy (cat uc 10) = false ->
  ~ starts_with title_start f1 -> ~ starts_with title_start f2 ->
  read_text uc line buf opt [] f1 = Ok (t1, false) -> plain_start (map value t1) ->
  read_text uc line buf opt [] f2 = Ok (t2, false) -> plain_start (map value t2) ->
  exists w1 w2,
    words_in uc NFC line buf opt f1 = Ok w1 /\
    words_in uc NFC line buf opt f2 = Ok w2 /\
    words_in uc NFC line buf opt (f1 ++ 10 :: f2) = Ok (w1 ++ w2).
Proof.
  intros uc NFC line buf ci f1 f2 t1 t2 opt J B1 B2 K L W H1 H2 E1 P1 E2 P2.
  apply (words_join uc NFC line buf J ci K L f1 f2 t1 t2); auto using plain_start_main.
Qed.
Print Assumptions C85_file.

(** wordfreq prints the same report for a file and for its two parts given one after the other. *)
Theorem C85_wordfreq : forall order uc NFC line buf pre f1 f2 post t1 t2,
  junk_ok line buf -> Forall is_byte f1 -> Forall is_byte f2 ->
  lower_keeps_spacing uc -> (forall c, scalar c -> scalar (tolower uc c)) ->
  wordy (cat uc 10) = false ->
  ~ starts_with title_start f1 -> ~ starts_with title_start f2 ->
  read_text uc line buf wordfreq_opt [] f1 = Ok (t1, false) -> plain_start (map value t1) ->
  read_text uc line buf wordfreq_opt [] f2 = Ok (t2, false) -> plain_start (map value t2) ->
  wordfreq order uc NFC line buf (pre ++ [f1 ++ 10 :: f2] ++ post) =
  wordfreq order uc NFC line buf (pre ++ [f1; f2] ++ post).
Proof.
  intros order uc NFC line buf pre f1 f2 post t1 t2 J B1 B2 K L W H1 H2 E1 P1 E2 P2.
  destruct (C85_file uc NFC line buf true f1 f2 t1 t2) as (w1 & w2 & G1 & G2 & G3); auto.
  unfold wordfreq. cbn [app].
  pose proof (zlen_nonneg pre) as Z1. pose proof (zlen_nonneg post) as Z2. pose proof (zlen_nonneg (f2 :: post)) as Z3.
  destruct (Z.eqb_spec (zlen (pre ++ (f1 ++ 10 :: f2) :: post)) 0) as [X|_];
    [exfalso; rewrite zlen_app, zlen_cons in X; clear - X Z1 Z2; lia|].
  destruct (Z.eqb_spec (zlen (pre ++ f1 :: f2 :: post)) 0) as [X|_];
    [exfalso; rewrite zlen_app, zlen_cons in X; clear - X Z1 Z3; lia|].
  rewrite !ofold_app. destruct (ofold _ pre []) as [tab| | |]; cbn [obind]; [|reflexivity..].
  cbn [ofold]. change wordfreq_opt with (mkopt true true 0 true true). rewrite G1, G2, G3. cbn [obind].
  replace (count_words tab (w1 ++ w2)) with (count_words (count_words tab w1) w2); [reflexivity|].
  unfold count_words. now rewrite fold_left_app.
Qed.
Print Assumptions C85_wordfreq.

(** Why the first character matters: after a blank, a combining mark is part of the blank's segment; at
    the start of a text it is part of the word that follows. *)
Theorem C85_mark_refuted : exists uc NFC a b wa wb,
  Forall scalar (a ++ 32 :: b) /\ ~ In 13 a /\ wordy (cat uc 32) = false /\ has_property 32 Other /\
  find_words uc NFC [] a = Ok wa /\ find_words uc NFC [] b = Ok wb /\
  find_words uc NFC [] (a ++ 32 :: b) <> Ok (wa ++ wb).
Proof.
  exists word_uc, (fun s => s), [97], [769; 98], [[97]], [[204; 129; 98]].
  split; [repeat constructor; unfold scalar; lia|]. split; [intros [X|[]]; discriminate X|].
  split; [reflexivity|]. split; [apply has_property_prop; vm_compute; reflexivity|].
  split; [vm_compute; reflexivity|]. split; [vm_compute; reflexivity|]. vm_compute. intros X. discriminate X.
Qed.
Print Assumptions C85_mark_refuted.

Example C85_ex :
  find_words word_uc (fun s => s) [] (joined_lines [bytes "it's 3.5"; []; bytes "no "; bytes "x"]) =
  Ok [bytes "it's"; bytes "3.5"; bytes "no"; bytes "x"].
Proof. vm_compute. reflexivity. Qed.

Example C85_ex_file :
  let uc := mkuc (fun c => if c =? 32 then ZS else if c =? 10 then CC else LL) (fun c => if (65 <=? c) && (c <=? 90) then c + 32 else c) in
  exists t1 t2,
  junk_ok (repeat 0 100) [0; 0; 0; 0] /\ wordy (cat uc 10) = false /\
  read_text uc (repeat 0 100) [0; 0; 0; 0] wordfreq_opt [] (bytes "The cat ") = Ok (t1, false) /\ plain_start (map value t1) /\
  read_text uc (repeat 0 100) [0; 0; 0; 0] wordfreq_opt [] (bytes "^the hat") = Ok (t2, false) /\ plain_start (map value t2) /\
  words_in uc (fun s => s) (repeat 0 100) [0; 0; 0; 0] wordfreq_opt (bytes "The cat " ++ 10 :: bytes "^the hat") =
  Ok [bytes "the"; bytes "cat"; bytes "the"; bytes "hat"].
Proof.
  intros uc. eexists _, _. split; [split; [reflexivity|split; [reflexivity|repeat constructor; unfold is_byte; lia]]|]. split; [reflexivity|].
  split; [vm_compute; reflexivity|]. split.
  - intros c rest p E H. injection E as <- _. apply has_property_prop in H. vm_compute in H. subst p. intros [X|X]; discriminate X.
  - split; [vm_compute; reflexivity|]. split.
    + intros c rest p E H. injection E as <- _. apply has_property_prop in H. vm_compute in H. subst p. intros [X|X]; discriminate X.
    + vm_compute. reflexivity.
Qed.
