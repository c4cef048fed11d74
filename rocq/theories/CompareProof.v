From Verif Require Import Base SortSpec CompareModel.
Ltac Zify.zify_post_hook ::= Z.div_mod_to_equations.

Definition bytes_ok (s : list Z) : Prop := Forall (fun b => 0 < b < 256) s.
Definition figure (z : Z) : Prop := 0 <= z < 2147483648.

Lemma to_int_small z : - 2147483648 <= z < 2147483648 -> to_int z = z.
Proof. unfold to_int. lia. Qed.

Lemma ustrcmp_flip a b : bytes_ok a -> bytes_ok b -> (ustrcmp a b < 0 <-> 0 < ustrcmp b a).
Proof.
  revert b; induction a as [|x a IH]; intros [|y b] Ha Hb; cbn [ustrcmp hd0].
  - lia.
  - inversion Hb; subst. destruct (Z.ltb_spec 0 y), (Z.ltb_spec y 0); lia.
  - inversion Ha; subst. destruct (Z.ltb_spec 0 x), (Z.ltb_spec x 0); lia.
  - inversion Ha; subst. inversion Hb; subst.
    destruct (Z.eqb_spec x y), (Z.eqb_spec y x); try lia; try (apply IH; assumption);
    destruct (Z.ltb_spec x y), (Z.ltb_spec y x); lia.
Qed.

Lemma ustrcmp_eq a b : bytes_ok a -> bytes_ok b -> ustrcmp a b = 0 <-> a = b.
Proof.
  revert b; induction a as [|x a IH]; intros [|y b] Ha Hb; cbn [ustrcmp hd0].
  - tauto.
  - split; [|discriminate]. destruct (0 <? y); discriminate.
  - split; [|discriminate]. destruct (x <? 0); discriminate.
  - inversion Ha; subst. inversion Hb; subst. destruct (Z.eqb_spec x y) as [->|].
    + rewrite IH by auto. split; congruence.
    + split; [destruct (x <? y); discriminate|congruence].
Qed.

Lemma ustrcmp_trans a b c : bytes_ok a -> bytes_ok b -> bytes_ok c ->
  ustrcmp a b <= 0 -> ustrcmp b c <= 0 -> ustrcmp a c <= 0.
Proof.
  revert b c; induction a as [|x a IH]; intros [|y b] [|z c] Ha Hb Hc; cbn [ustrcmp hd0];
    repeat match goal with H : bytes_ok (_ :: _) |- _ => inversion H; clear H; subst end;
    repeat (match goal with
            | |- context [?p =? ?q] => destruct (Z.eqb_spec p q); subst
            | |- context [?p <? ?q] => destruct (Z.ltb_spec p q)
            end); try lia; eauto.
Qed.

Lemma ustrcmp_range a b : -1 <= ustrcmp a b <= 1.
Proof.
  revert b; induction a as [|x a IH]; intros [|y b]; cbn [ustrcmp hd0]; try lia.
  - destruct (_ <? _); lia.
  - destruct (_ <? _); lia.
  - destruct (x =? y); [auto|]. destruct (_ <? _); lia.
Qed.

(** Lexicographic combination: a figure compared downwards, then a preorder. *)
Lemma lex_preorder {A} (P : A -> Prop) (key : A -> Z) (next : A -> A -> Z) :
  (forall x, P x -> figure (key x)) -> preorder_on P next ->
  preorder_on P (fun x y => if negb (key x =? key y) then to_int (key y - key x) else next x y).
Proof.
  intros Hf [F T]. constructor.
  - intros x y Px Py. pose proof (Hf x Px). pose proof (Hf y Py). unfold figure in *.
    destruct (Z.eqb_spec (key x) (key y)), (Z.eqb_spec (key y) (key x)); cbn [negb]; try lia; auto.
    rewrite !to_int_small by lia. lia.
  - intros x y z Px Py Pz. pose proof (Hf x Px). pose proof (Hf y Py). pose proof (Hf z Pz).
    unfold figure in *.
    destruct (Z.eqb_spec (key x) (key y)), (Z.eqb_spec (key y) (key z)), (Z.eqb_spec (key x) (key z));
      cbn [negb]; rewrite ?to_int_small by lia; try lia. apply T; auto.
Qed.

Lemma lex_eq {A} (P : A -> Prop) (key : A -> Z) (next : A -> A -> Z) x y :
  (forall x, P x -> figure (key x)) -> P x -> P y ->
  (if negb (key x =? key y) then to_int (key y - key x) else next x y) = 0 ->
  key x = key y /\ next x y = 0.
Proof.
  intros Hf Px Py. pose proof (Hf x Px). pose proof (Hf y Py). unfold figure in *.
  destruct (Z.eqb_spec (key x) (key y)); cbn [negb]; [auto|]. rewrite to_int_small by lia. lia.
Qed.

Definition conf_ok (c : conf) : Prop := bytes_ok (ckey c) /\ figure (cerrors c) /\ figure (cmarked c).
Definition term_ok (t : term) : Prop := bytes_ok (tkey t) /\ figure (tcnt t).
Definition seq_ok (n : nat) (s : sequence) : Prop :=
  List.length (svalue s) = n /\ figure (scount s) /\ figure (ssuspect s).

Lemma key_preorder {A} (P : A -> Prop) (key : A -> list Z) :
  (forall x, P x -> bytes_ok (key x)) -> preorder_on P (fun x y => ustrcmp (key x) (key y)).
Proof.
  intros H. constructor; intros.
  - apply ustrcmp_flip; auto.
  - eapply ustrcmp_trans with (b := key y); auto.
Qed.

Lemma compare_conf_preorder : preorder_on conf_ok compare_conf.
Proof.
  unfold compare_conf. apply (lex_preorder conf_ok cerrors); [intros ? H; apply H|].
  apply (lex_preorder conf_ok cmarked); [intros ? H; apply H|].
  apply key_preorder. intros ? H; apply H.
Qed.

Lemma compare_conf_eq c1 c2 : conf_ok c1 -> conf_ok c2 -> compare_conf c1 c2 = 0 -> c1 = c2.
Proof.
  intros H1 H2 E. unfold compare_conf in E.
  apply (lex_eq conf_ok cerrors (fun c1 c2 => if negb (cmarked c1 =? cmarked c2)
     then to_int (cmarked c2 - cmarked c1) else ustrcmp (ckey c1) (ckey c2))) in E;
    [|intros ? H; apply H|auto|auto].
  destruct E as [E1 E]. apply (lex_eq conf_ok cmarked (fun c1 c2 => ustrcmp (ckey c1) (ckey c2))) in E;
    [|intros ? H; apply H|auto|auto].
  destruct E as [E2 E]. apply ustrcmp_eq in E; [|apply H1|apply H2].
  destruct c1, c2; cbn in *; congruence.
Qed.

Lemma compare_term_preorder : preorder_on term_ok compare_term.
Proof. apply key_preorder. intros ? H; apply H. Qed.

Lemma term_by_count_preorder : preorder_on term_ok term_by_count.
Proof.
  apply (lex_preorder term_ok tcnt); [intros ? H; apply H|]. apply compare_term_preorder.
Qed.

Lemma values_order_flip a b : List.length a = List.length b ->
  (values_order a b < 0 <-> 0 < values_order b a).
Proof.
  revert b; induction a as [|x a IH]; intros [|y b]; cbn; try discriminate; [lia|].
  intros [= Hl]. destruct (Z.eqb_spec x y), (Z.eqb_spec y x); try lia; auto;
  destruct (Z.ltb_spec x y), (Z.ltb_spec y x); lia.
Qed.

Lemma values_order_eq a b : List.length a = List.length b -> values_order a b = 0 -> a = b.
Proof.
  revert b; induction a as [|x a IH]; intros [|y b]; cbn; try discriminate; [auto|].
  intros [= Hl]. destruct (Z.eqb_spec x y) as [->|].
  - intros H. f_equal. auto.
  - destruct (x <? y); discriminate.
Qed.

Lemma values_order_trans a b c : List.length a = List.length b -> List.length b = List.length c ->
  values_order a b <= 0 -> values_order b c <= 0 -> values_order a c <= 0.
Proof.
  revert b c; induction a as [|x a IH]; intros [|y b] [|z c] H1 H2;
    cbn [values_order List.length] in *; try lia; injection H1 as H1; injection H2 as H2.
  repeat (match goal with
            | |- context [?p =? ?q] => destruct (Z.eqb_spec p q); subst
            | |- context [?p <? ?q] => destruct (Z.ltb_spec p q)
            end); try lia; eauto.
Qed.

Lemma order_by_value_preorder n : preorder_on (seq_ok n) order_by_value.
Proof.
  constructor; unfold order_by_value, seq_ok; intros.
  - apply values_order_flip. intuition congruence.
  - eapply values_order_trans with (b := svalue y); intuition congruence.
Qed.

Lemma seq_by_count_preorder n : preorder_on (seq_ok n) seq_by_count.
Proof.
  unfold seq_by_count. apply (lex_preorder (seq_ok n) scount); [intros ? H; apply H|].
  apply (lex_preorder (seq_ok n) ssuspect); [intros ? H; apply H|].
  apply order_by_value_preorder.
Qed.

Lemma seq_by_count_eq n s1 s2 : seq_ok n s1 -> seq_ok n s2 -> seq_by_count s1 s2 = 0 -> s1 = s2.
Proof.
  intros H1 H2 E. unfold seq_by_count in E.
  apply (lex_eq (seq_ok n) scount (fun c1 c2 => if negb (ssuspect c1 =? ssuspect c2)
     then to_int (ssuspect c2 - ssuspect c1) else order_by_value c1 c2)) in E;
    [|intros ? H; apply H|auto|auto].
  destruct E as [E1 E]. apply (lex_eq (seq_ok n) ssuspect order_by_value) in E;
    [|intros ? H; apply H|auto|auto].
  destruct E as [E2 E]. apply values_order_eq in E; [|unfold seq_ok in *; intuition congruence].
  destruct s1, s2; cbn in *; congruence.
Qed.
