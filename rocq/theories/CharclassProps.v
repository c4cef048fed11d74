(** C32: character classes. *)
From Coq Require Import String.
From Verif Require Import Base CLib TextModel CharclassModel CharclassSpec CharclassProof.
Local Open Scope Z_scope.
Local Open Scope list_scope.

(** Every code point below U+10FFFF gets a class number that charclass_name accepts, and the
    name is that of the last listed range containing the code point, or "Unassigned" if
    there is none. *)
Theorem C32_class_name : forall v,
  0 <= v < 1114111 ->
  exists c name, charclass v = Ok c /\ 0 <= c < 256 /\ charclass_name c = Ok name /\
    (assigned range v name \/ unassigned range v /\ name = bytes "Unassigned").
Proof.
  intros v Hv. destruct charclass_ok as (t & E & [ND L _ F A]).
  unfold charclass, charclass_name. rewrite E. cbn [obind].
  unfold NUM_CHARVALUES, MAX_CHARCLASSES in *.
  replace ((0 <=? v) && (v <? 1114111)) with true by lia.
  assert (exists name, znth (class_names t) (class_at t v) = Some name /\
    (assigned range v name \/ unassigned range v /\ name = bytes "Unassigned")) as (name & N & S).
  { destruct (A v) as [(n & As & N)|[U Z0]]; [eauto|].
    exists (bytes "Unassigned"). rewrite Z0. split; [|auto]. eapply F. reflexivity. }
  pose proof (znth_Some_lt _ _ _ N) as B. exists (class_at t v), name.
  split; [reflexivity|]. split; [lia|]. split; [|exact S].
  replace (zlen (class_names t) <=? class_at t v) with false by lia.
  unfold rd. rewrite N. reflexivity.
Qed.
Print Assumptions C32_class_name.

(** Classes are the same exactly when their names are. *)
Theorem C32_equal_names : forall v w c d,
  charclass v = Ok c -> charclass w = Ok d ->
  (c = d <-> charclass_name c = charclass_name d).
Proof.
  intros v w c d Hc Hd. assert (0 <= v < 1114111 /\ 0 <= w < 1114111) as [Bv Bw].
  { unfold charclass in *. destruct charclass_ok as (t & E & _). rewrite E in Hc, Hd. clear E. cbn [obind] in Hc, Hd.
    unfold NUM_CHARVALUES in *.
    destruct ((0 <=? v) && (v <? 1114111)) eqn:E1; [|discriminate].
    destruct ((0 <=? w) && (w <? 1114111)) eqn:E2; [|discriminate]. lia. }
  split; [congruence|]. intros E.
  destruct (C32_class_name v Bv) as (c' & n & Ec & _ & Nc & _).
  destruct (C32_class_name w Bw) as (d' & m & Ed & _ & Nd & _).
  assert (c' = c) by congruence. assert (d' = d) by congruence. subst c' d'.
  assert (n = m) by congruence. subst m.
  destruct charclass_ok as (t & Et & [ND _ _ _ _]). unfold charclass_name in Nc, Nd.
  rewrite Et in Nc, Nd. clear Et. cbn [obind] in Nc, Nd.
  destruct (zlen (class_names t) <=? c); [discriminate Nc|].
  destruct (zlen (class_names t) <=? d); [discriminate Nd|].
  apply rd_Ok in Nc, Nd. eapply znth_NoDup; eauto.
Qed.
Print Assumptions C32_equal_names.

(** An invalid class number is reported as an error, never read outside the table. *)
Theorem C32_invalid_class : forall c,
  0 <= c ->
  (exists name, charclass_name c = Ok name) \/ charclass_name c = Fail "invalid character class".
Proof.
  intros c Hc. destruct charclass_ok as (t & E & _). unfold charclass_name. rewrite E. cbn [obind].
  destruct (Z.leb_spec (zlen (class_names t)) c); [auto|]. left.
  destruct (znth_lt_Some (class_names t) c) as [x Hx]; [lia|]. unfold rd. rewrite Hx. eauto.
Qed.
Print Assumptions C32_invalid_class.

(** Finding: the array has no element for the last code point U+10FFFF, which read_text can
    deliver. *)
Theorem C32_last_code_point_refuted : charclass 1114111 = UB "class[value]".
Proof. vm_compute. reflexivity. Qed.
Print Assumptions C32_last_code_point_refuted.

Example C32_nonvacuous :
  obind (charclass 97) charclass_name = Ok (bytes "ASCII Lowercase Letters") /\
  obind (charclass 0) charclass_name = Ok (bytes "ASCII Control Codes") /\
  obind (charclass 247) charclass_name = Ok (bytes "Latin1 Special Symbols") /\
  obind (charclass 66560) charclass_name = Ok (bytes "Unassigned") /\
  charclass 33 = charclass 64 /\
  unassigned range 66560.
Proof.
  repeat apply conj; try (vm_compute; reflexivity).
  unfold unassigned, range. repeat (apply Forall_cons; [unfold contains; lia|]). apply Forall_nil.
Qed.
