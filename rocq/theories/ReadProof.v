(** What read_text returns. *)
From Coq Require Import String.
From Verif Require Import Base CLib Utf8Model TextModel TextSpec Utf8Proof TextProof CLibProof TextIO TextProps AccSpec.
Local Open Scope Z_scope.
Local Open Scope list_scope.

Lemma tag_scalar fm m s cs : Forall scalar cs -> text_ok (tag fm m s cs).
Proof.
  intros F. revert s. induction F as [|c cs H F IH]; intros s; cbn [tag]; [constructor|].
  destruct (fm && (c =? m)); [apply IH|]. constructor; [exact H|apply IH].
Qed.

Lemma blanks_scalar uc l : text_ok l -> text_ok (blanks_to_blank uc l).
Proof.
  unfold text_ok, blanks_to_blank. intros F. apply Forall_map. eapply Forall_impl; [|exact F].
  intros c H. cbv beta. destruct (is_blank uc (value c)); [cbn [value]; unfold scalar, BLANK; lia|exact H].
Qed.

Lemma cl_scalar l : text_ok l -> forall a b, text_ok (cl a b l).
Proof.
  unfold text_ok. induction 1 as [|c l H F IH]; intros a b; cbn [cl]; [constructor|].
  cbn zeta. match goal with |- context [if ?x then _ else _] => destruct x end; [apply IH|]. constructor; [exact H|apply IH].
Qed.

(** A text that has been read consists of scalar values. *)
Lemma read_text_scalar uc line buf opt f t h :
  junk_ok line buf -> Forall is_byte f ->
  (case_insensitive opt = true -> forall c, scalar c -> scalar (tolower uc c)) ->
  read_text uc line buf opt [] f = Ok (t, h) -> text_ok t.
Proof.
  intros (Hl & Hb) Hf Hlow R.
  assert (G : forall o g, find_header o = false -> Forall is_byte g -> case_insensitive o = case_insensitive opt ->
            forall t h, read_text uc line buf o [] g = Ok (t, h) -> text_ok t).
  { clear t h R. intros o g Ho Hg Hc t h R.
    destruct (read_text_ok uc line buf o [] g Ho Hg Hb) as [(cs & S & _ & E)|(_ & msg & E)]; rewrite E in R; [|discriminate R].
    injection R as <- _. cbn [app]. unfold post.
    assert (T : text_ok (if normalize o then cl false false (blanks_to_blank uc (tag (find_markers o) (marker_of o) false cs))
                         else tag (find_markers o) (marker_of o) false cs)).
    { pose proof (tag_scalar (find_markers o) (marker_of o) false cs S) as T.
      destruct (normalize o); [|exact T]. apply cl_scalar, blanks_scalar, T. }
    destruct (case_insensitive o) eqn:C; [|exact T]. unfold text_ok. apply Forall_map. eapply Forall_impl; [|exact T].
    intros c Hc'. cbn. apply Hlow; [now rewrite <- Hc|exact Hc']. }
  destruct (find_header opt) eqn:F; [|now apply (G opt f F Hf eq_refl t h)].
  destruct (read_header_total line f Hl) as (found & a & b & E & Rh).
  rewrite (read_text_header uc line buf opt [] f found b F Rh) in R.
  destruct (read_text uc line buf (no_header opt) [] b) as [[t' h']| | |] eqn:E'; cbn [obind] in R; try discriminate R.
  injection R as <- _. apply (G (no_header opt) b eq_refl) with (h := h') (3 := E'); [|reflexivity].
  rewrite E in Hf. apply Forall_app in Hf. tauto.
Qed.

(** read_text ends with a text or with an error. *)
Lemma read_text_total uc line buf opt text f : junk_ok line buf -> Forall is_byte f ->
  (exists t h, read_text uc line buf opt text f = Ok (t, h)) \/ exists msg, read_text uc line buf opt text f = Fail msg.
Proof.
  intros (Hl & Hb) Hf.
  destruct (find_header opt) eqn:F.
  2: { destruct (read_text_ok uc line buf opt text f F Hf Hb) as [(cs & S & _ & E)|(_ & msg & E)]; eauto. }
  destruct (read_header_total line f Hl) as (found & a & b & E & Rh).
  rewrite (read_text_header uc line buf opt text f found b F Rh).
  destruct (read_text_ok uc line buf (no_header opt) text b eq_refl) as [(cs & S & _ & E')|(_ & msg & E')]; auto.
  - rewrite E in Hf. apply Forall_app in Hf. tauto.
  - rewrite E'. cbn [obind]. eauto.
  - rewrite E'. cbn [obind]. eauto.
Qed.
