(** Proofs about the character class table. *)
From Coq Require Import String.
From Verif Require Import Base CLib TextModel TextIO CharclassModel CharclassSpec.
Local Open Scope Z_scope.
Local Open Scope list_scope.

Lemma class_index_spec names name :
  0 <= class_index names name <= zlen names /\
  (class_index names name < zlen names -> znth names (class_index names name) = Some name) /\
  (class_index names name = zlen names -> ~ In name names).
Proof.
  induction names as [|n t IH]; cbn [class_index].
  - change (zlen (@nil (list Z))) with 0. split; [lia|]. split; [lia|intros _ []].
  - rewrite zlen_cons. destruct (streq n name) eqn:E.
    + apply streq_spec in E. subst n. pose proof (zlen_nonneg t).
      split; [lia|]. split; [reflexivity|lia].
    + destruct IH as (B & IH1 & IH2). split; [lia|]. split.
      * intros H. rewrite znth_cons_S by lia.
        replace (1 + class_index t name - 1) with (class_index t name) by lia. apply IH1. lia.
      * intros H [H'|H']; [|apply IH2; [lia|exact H']].
        assert (streq n name = true) by (apply streq_spec; exact H'). congruence.
Qed.

Record class_inv (rs : list (Z * Z * list Z)) (t : classes) : Prop := {
  ci_nodup : NoDup (class_names t);
  ci_len : zlen (class_names t) <= MAX_CHARCLASSES;
  ci_empty : rs = [] -> class_names t = [];
  ci_first : forall s e n r, rs = (s, e, n) :: r -> znth (class_names t) 0 = Some n;
  ci_at : forall v,
    (exists n, assigned rs v n /\ znth (class_names t) (class_at t v) = Some n) \/
    (unassigned rs v /\ class_at t v = 0) }.

Lemma add_range_inv rs t r t' :
  class_inv rs t -> add_range t r = Ok t' -> class_inv (rs ++ [r]) t'.
Proof.
  destruct r as [[s e] n]. intros [ND L Em F A]. unfold add_range.
  destruct (class_index_spec (class_names t) n) as (B & I1 & I2).
  set (j := class_index (class_names t) n) in *.
  set (rn := if j =? zlen (class_names t) then _ else _).
  assert (forall names, rn = Ok names ->
            NoDup names /\ zlen names <= MAX_CHARCLASSES /\ znth names j = Some n /\
            j < 256 /\ (forall i x, znth (class_names t) i = Some x -> znth names i = Some x)) as H.
  { intros names. subst rn. destruct (Z.eqb_spec j (zlen (class_names t))) as [E|E].
    - destruct (Z.eqb_spec (zlen (class_names t)) MAX_CHARCLASSES) as [E'|E']; [discriminate|].
      intros [= <-]. unfold MAX_CHARCLASSES in *. repeat apply conj.
      + apply (NoDup_Add (a := n) (l := class_names t)); [|auto].
        rewrite <- (app_nil_r (class_names t)) at 1. apply Add_app.
      + rewrite zlen_app, zlen_cons, zlen_nil. lia.
      + rewrite znth_app2 by lia. replace (j - zlen (class_names t)) with 0 by lia. reflexivity.
      + lia.
      + intros i x Hx. rewrite znth_app1; [exact Hx|]. apply znth_Some_lt in Hx. lia.
    - intros [= <-]. unfold MAX_CHARCLASSES in *. repeat apply conj; auto; [apply I1|]; lia. }
  destruct rn as [names| | |]; cbn [obind]; try discriminate.
  destruct (H names eq_refl) as (ND' & L' & J & J256 & Keep).
  destruct (_ && _); [discriminate|]. intros [= <-]. constructor; cbn [class_names class_at]; auto.
  - intros E. destruct rs; discriminate.
  - intros s0 e0 n0 r0 E. destruct rs as [|r1 rs].
    + cbn in E. injection E as <- <- <- <-. rewrite <- J. f_equal.
      subst j. rewrite (Em eq_refl). reflexivity.
    + injection E as -> <-. apply Keep. eapply F. reflexivity.
  - intros v.
    assert (s <= v <= e \/ ~ (s <= v <= e)) as [D|D] by lia.
    + left. exists n. split.
      * exists rs, s, e, []. split; [reflexivity|]. split; [lia|constructor].
      * replace ((s <=? v) && (v <=? e)) with true by lia. rewrite Z.mod_small by lia. exact J.
    + replace ((s <=? v) && (v <=? e)) with false by lia.
      destruct (A v) as [(n0 & (b & s0 & e0 & a & -> & R & Fa) & N)|[U Z0]].
      * left. exists n0. split; [|apply Keep; exact N].
        exists b, s0, e0, (a ++ [(s, e, n)]). rewrite <- app_assoc. split; [reflexivity|].
        split; [exact R|]. apply Forall_app. split; [exact Fa|]. constructor; [exact D|constructor].
      * right. split; [|exact Z0]. apply Forall_app. split; [exact U|].
        constructor; [exact D|constructor].
Qed.

Lemma ranges_inv rs : forall rs0 t t',
  class_inv rs0 t -> ofold add_range rs t = Ok t' -> class_inv (rs0 ++ rs) t'.
Proof.
  induction rs as [|r rs IH]; cbn [ofold]; intros rs0 t t' I E.
  - injection E as <-. rewrite app_nil_r. exact I.
  - apply obind_Ok in E as (t1 & E1 & E). change (r :: rs) with ([r] ++ rs).
    rewrite app_assoc. eapply IH; [|exact E]. eapply add_range_inv; eauto.
Qed.

Lemma is_ok_inv {A} (x : outcome A) : is_ok x = true -> exists a, x = Ok a.
Proof. destruct x; try discriminate. eauto. Qed.

(** The tables are built without error, and describe the ranges. *)
Lemma charclass_ok : exists t, initialize_charclass = Ok t /\ class_inv range t.
Proof.
  assert (is_ok initialize_charclass = true) as H by (vm_compute; reflexivity).
  destruct (is_ok_inv _ H) as [t E]. exists t.
  split; [exact E|]. apply (ranges_inv range [] (mkclasses [] (fun _ => 0)) t); [|exact E].
  constructor; cbn [class_names class_at].
  - constructor.
  - unfold MAX_CHARCLASSES. cbn. lia.
  - reflexivity.
  - discriminate.
  - intros v. right. split; [constructor|reflexivity].
Qed.

Lemma znth_NoDup {A} (l : list A) i k x :
  NoDup l -> znth l i = Some x -> znth l k = Some x -> i = k.
Proof.
  intros ND Hi Hk. pose proof (znth_Some_lt _ _ _ Hi). pose proof (znth_Some_lt _ _ _ Hk).
  unfold znth in *. replace (i <? 0) with false in Hi by lia. replace (k <? 0) with false in Hk by lia.
  assert (Z.to_nat i = Z.to_nat k); [|lia].
  rewrite NoDup_nth_error in ND. apply ND; [|congruence]. unfold zlen in *. lia.
Qed.

#[global] Opaque initialize_charclass.
