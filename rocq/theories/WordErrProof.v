(** How many words a number of edits of a text can change. *)
From Verif Require Import Base WordTable Utf8Model TextSpec WordModel WordSpec WordProof LcsSpec LcsTop SyncSpec MetricSpec MetricProof WordEditProof WordErrSpec.
Local Open Scope Z_scope.
Local Open Scope list_scope.

Definition points (t : list Z) : Prop := Forall (fun c => 0 <= c <= 1114111) t.

Section Words.
Variable uc : unicode_data.
Variable NFC : list Z -> list Z.
Definition wrd (t : list Z) : Z := Z.b2z (starts_word uc t).
Notation W := (words_of uc NFC).

Lemma W_app s t : W (s ++ t) = W s ++ W t.
Proof. unfold words_of. now rewrite filter_app, map_app. Qed.
Lemma W_tot s : zlen (W s) = tot wrd s.
Proof.
  induction s as [|t s IH]; [reflexivity|]. unfold words_of in *. cbn [filter tot fold_right]. fold (tot wrd s). unfold wrd at 1.
  destruct (starts_word uc t); cbn [map Z.b2z]; [rewrite zlen_cons|]; lia.
Qed.
Lemma wrd_range t : 0 <= wrd t <= 1.
Proof. unfold wrd. destruct (starts_word uc t); cbn; lia. Qed.

Variable h : Z.
Hypothesis (H0 : 0 <= h) (Hm : forall z t, mid (prop z) -> wrd (z :: t) <= h).
Notation K := (3 + 2 * h).

(** [k] words of the first list, or fewer, are not in a common subsequence. *)
Definition near (k : Z) (wa wb : list (list Z)) : Prop := exists c, subseq c wa /\ subseq c wb /\ zlen wa - zlen c <= k.

Lemma near_trans k k' wa wb wc : near k wa wb -> near k' wb wc -> near (k + k') wa wc.
Proof.
  intros (c & A1 & A2 & A3) (d & B1 & B2 & B3). destruct (subseq_common wb c d A2 B1) as (e & E1 & E2 & L).
  exists e. split; [exact (subseq_trans _ _ _ E1 A1)|]. split; [exact (subseq_trans _ _ _ E2 B2)|]. lia.
Qed.

Lemma nil_subseq {T} (l : list T) : subseq [] l.
Proof. induction l; constructor; auto. Qed.
Lemma subseq_pre {T} (u v w : list T) : subseq v w -> subseq (u ++ v) (u ++ w).
Proof. intros H. induction u; cbn; [exact H|now constructor]. Qed.
Lemma subseq_mid {T} (u v w : list T) : subseq (u ++ w) (u ++ v ++ w).
Proof. apply subseq_pre. induction v; cbn; [apply subseq_refl|now constructor]. Qed.

Lemma words_exist t : points t -> exists w, find_words uc NFC [] t = Ok w.
Proof.
  intros P. destruct (F t) as [|p f] eqn:E.
  - exists []. now apply find_words_empty.
  - destruct (find_words_ok t P) as (s & _ & _ & X); [rewrite E; discriminate|]. exists (W s). now rewrite X.
Qed.

Lemma one_near u x y v wa wb : (List.length x <= 1)%nat -> (List.length y <= 1)%nat -> points (u ++ x ++ v) -> points (u ++ y ++ v) ->
  find_words uc NFC [] (u ++ x ++ v) = Ok wa -> find_words uc NFC [] (u ++ y ++ v) = Ok wb -> near K wa wb.
Proof.
  intros Lx Ly Pa Pb Fa Fb.
  destruct (F (u ++ x ++ v)) as [|p f] eqn:EA.
  { rewrite find_words_empty in Fa by exact EA. injection Fa as <-. exists []. split; [constructor|]. split; [apply nil_subseq|]. unfold zlen; cbn [List.length Z.of_nat]; lia. }
  assert (NA : F (u ++ x ++ v) <> []) by (rewrite EA; discriminate).
  destruct (find_words_ok _ Pa NA) as (SA & CA & EnA & XA). rewrite XA in Fa. cbn [app] in Fa. injection Fa as <-.
  destruct (F (u ++ y ++ v)) as [|q g] eqn:EB.
  - exists []. split; [apply nil_subseq|]. split; [apply nil_subseq|]. replace (zlen []) with 0 by reflexivity. rewrite W_tot.
    assert (List.length (F (u ++ x ++ v)) <= 1)%nat as L1.
    { rewrite !F_app in EB. apply app_eq_nil in EB as [Eu EB]. apply app_eq_nil in EB as [_ Ev]. rewrite !F_app, Eu, Ev, app_nil_r. cbn [app].
      unfold F. rewrite map_length. clear - Lx. destruct x as [|z [|]]; cbn [filter List.length] in *; [lia| |lia]. destruct (negb (ext z)); cbn [List.length]; lia. }
    destruct SA as [|s [|t SA]]; [cbn [tot fold_right]; lia|cbn [tot fold_right]; pose proof (wrd_range s); lia|]. exfalso.
    destruct CA as [CA NS]. apply Forall_cons_iff in NS as [N1 NS]. apply Forall_cons_iff in NS as [N2 _]. cbn [concat] in CA.
    assert (cut_place [] s (t ++ concat SA)) as C.
    { apply (EnA _ _ CA). exists [s], (t :: SA). split; [reflexivity|]. cbn [concat]. now rewrite app_nil_r. }
    destruct C as [Z|[Z|(z & l & El & X & Ns & _)]]; [exact (N1 Z)|apply app_eq_nil in Z as [Z _]; exact (N2 Z)|].
    rewrite <- CA, F_app, El, F_main, app_length in L1 by exact X. cbn [List.length] in L1. destruct (F s); [apply Ns; reflexivity|]. cbn [List.length] in L1. lia.
  - assert (NB : F (u ++ y ++ v) <> []) by (rewrite EB; discriminate).
    destruct (find_words_ok _ Pb NB) as (SB & CB & EnB & XB). rewrite XB in Fb. cbn [app] in Fb. injection Fb as <-.
    destruct (edit_segments u x y v Lx Ly wrd h wrd_range Hm H0 SA SB CA EnA CB EnB) as (c & MA & MB & d & -> & -> & T).
    exists (W c ++ W d). rewrite !W_app. split; [apply subseq_mid|]. split; [apply subseq_mid|]. rewrite !zlen_app, !W_tot.
    assert (zlen x <= 1) by (unfold zlen; lia). lia.
Qed.

(** Edits, including those of the character '~' into itself. *)
Inductive steps : list Z -> list Z -> Z -> Prop :=
| steps_nil : steps [] [] 0
| steps_keep x a b c : steps a b c -> steps (x :: a) (x :: b) c
| steps_subst x y a b c : steps a b c -> steps (x :: a) (y :: b) (c + 1)
| steps_delete x a b c : steps a b c -> steps (x :: a) b (c + 1)
| steps_insert y a b c : steps a b c -> steps a (y :: b) (c + 1).

Lemma edits_steps f a b n : edits a b n -> steps (map f a) (map f b) n.
Proof. induction 1; cbn [map]; constructor; auto. Qed.

Lemma steps_near a b n : steps a b n -> forall u wa wb, points (u ++ a) -> points (u ++ b) ->
  find_words uc NFC [] (u ++ a) = Ok wa -> find_words uc NFC [] (u ++ b) = Ok wb -> near (K * n) wa wb.
Proof.
  induction 1 as [|x a b c S IH|x y a b c S IH|x a b c S IH|y a b c S IH]; intros u wa wb Pa Pb Fa Fb.
  - rewrite Fa in Fb. injection Fb as <-. exists wa. split; [apply subseq_refl|]. split; [apply subseq_refl|]. lia.
  - apply (IH (u ++ [x])); rewrite <- app_assoc; assumption.
  - assert (Pm : points (u ++ [y] ++ a)).
    { unfold points in *. rewrite Forall_app in *. cbn [app]. rewrite Forall_cons_iff in *. tauto. }
    destruct (words_exist _ Pm) as [wm Fm].
    replace (K * (c + 1)) with (K + K * c) by lia. apply (near_trans _ _ _ wm).
    + now apply (one_near u [x] [y] a).
    + apply (IH (u ++ [y])); rewrite <- app_assoc; assumption.
  - assert (Pm : points (u ++ [] ++ a)).
    { unfold points in *. rewrite Forall_app in *. cbn [app]. rewrite Forall_cons_iff in *. tauto. }
    destruct (words_exist _ Pm) as [wm Fm].
    replace (K * (c + 1)) with (K + K * c) by lia. apply (near_trans _ _ _ wm).
    + apply (one_near u [x] [] a); auto.
    + now apply (IH u).
  - assert (Pm : points (u ++ [y] ++ a)).
    { unfold points in *. rewrite Forall_app in *. cbn [app]. rewrite Forall_cons_iff in *. tauto. }
    destruct (words_exist _ Pm) as [wm Fm].
    replace (K * (c + 1)) with (K + K * c) by lia. apply (near_trans _ _ _ wm).
    + apply (one_near u [] [y] a); auto.
    + apply (IH (u ++ [y])); rewrite <- app_assoc; assumption.
Qed.
End Words.

Lemma edits_five uc NFC f a b n wa wb : points (map f a) -> points (map f b) -> edits a b n ->
  find_words uc NFC [] (map f a) = Ok wa -> find_words uc NFC [] (map f b) = Ok wb -> near (5 * n) wa wb.
Proof.
  intros Pa Pb E Fa Fb. replace (5 * n) with ((3 + 2 * 1) * n) by lia.
  apply (steps_near uc NFC 1 ltac:(lia) (fun z t _ => proj2 (wrd_range uc (z :: t))) _ _ _ (edits_steps f _ _ _ E) []); assumption.
Qed.

Lemma edits_three uc NFC f a b n wa wb : separators uc -> points (map f a) -> points (map f b) -> edits a b n ->
  find_words uc NFC [] (map f a) = Ok wa -> find_words uc NFC [] (map f b) = Ok wb -> near (3 * n) wa wb.
Proof.
  intros S Pa Pb E Fa Fb. replace (3 * n) with ((3 + 2 * 0) * n) by lia.
  apply (steps_near uc NFC 0 ltac:(lia)) with (a := map f a) (b := map f b) (u := []); auto.
  - intros z t M. unfold wrd. cbn [starts_word]. rewrite (S z (prop z)); [cbn; lia|now apply has_property_prop|exact M].
  - now apply edits_steps.
Qed.
