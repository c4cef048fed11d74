(** Common vocabulary of the model: outcomes, arrays, bytes. *)
From Coq Require Export List ZArith Lia Bool.
From Coq Require Import String Ascii.
Export ListNotations.
Global Open Scope Z_scope.
Global Open Scope list_scope.

(** Result of running a piece of C code.
    - [Ok a]      : normal return with result [a];
    - [Fail msg]  : the program called error()/error_string() (util.c:265-278), which
                    prints the message and exits with status 1;
    - [UB msg]    : undefined behaviour (out-of-bounds access, NULL dereference,
                    use of an unset variable);
    - [OutOfFuel] : the model's loop bound was exhausted (never a C behaviour;
                    excluded by the theorems). *)
Inductive outcome (A : Type) : Type :=
| Ok (a : A)
| Fail (msg : string)
| UB (msg : string)
| OutOfFuel.
Arguments Ok {A} a.
Arguments Fail {A} msg.
Arguments UB {A} msg.
Arguments OutOfFuel {A}.

Definition obind {A B} (x : outcome A) (f : A -> outcome B) : outcome B :=
  match x with
  | Ok a => f a
  | Fail m => Fail m
  | UB m => UB m
  | OutOfFuel => OutOfFuel
  end.

Notation "'let!' p ':=' e 'in' k" :=
  (obind e (fun x => match x with p => k end))
  (at level 200, p pattern, e at level 100, k at level 200).

Definition is_ok {A} (x : outcome A) : bool :=
  match x with Ok _ => true | _ => false end.

(** Array read: [None] outside the bounds (a C out-of-bounds access). *)
Definition znth {A} (l : list A) (i : Z) : option A :=
  if i <? 0 then None else nth_error l (Z.to_nat i).

(** Array write: [None] outside the bounds. *)
Fixpoint set_nth {A} (l : list A) (i : nat) (x : A) : option (list A) :=
  match l, i with
  | [], _ => None
  | _ :: t, O => Some (x :: t)
  | h :: t, S i' => match set_nth t i' x with Some t' => Some (h :: t') | None => None end
  end.
Definition zset {A} (l : list A) (i : Z) (x : A) : option (list A) :=
  if i <? 0 then None else set_nth l (Z.to_nat i) x.

Definition rd {A} (msg : string) (l : list A) (i : Z) : outcome A :=
  match znth l i with Some x => Ok x | None => UB msg end.
Definition wr {A} (msg : string) (l : list A) (i : Z) (x : A) : outcome (list A) :=
  match zset l i x with Some l' => Ok l' | None => UB msg end.

Definition zlen {A} (l : list A) : Z := Z.of_nat (List.length l).

(** [zrange lo n] = lo, lo+1, ..., lo+n-1. *)
Fixpoint zrange (lo : Z) (n : nat) : list Z :=
  match n with O => [] | S n' => lo :: zrange (lo + 1) n' end.

(** Bytes of a string literal. *)
Definition bytes (s : string) : list Z :=
  map (fun a => Z.of_N (N_of_ascii a)) (list_ascii_of_string s).

(** Monadic left fold. *)
Fixpoint ofold {A B} (f : B -> A -> outcome B) (l : list A) (b : B) : outcome B :=
  match l with
  | [] => Ok b
  | x :: t => let! b' := f b x in ofold f t b'
  end.

(** ** Elementary facts *)

Lemma zlen_nonneg {A} (l : list A) : 0 <= zlen l.
Proof. unfold zlen; lia. Qed.

Lemma zlen_app {A} (l1 l2 : list A) : zlen (l1 ++ l2) = zlen l1 + zlen l2.
Proof. unfold zlen; rewrite app_length; lia. Qed.

Lemma zlen_cons {A} (x : A) l : zlen (x :: l) = zlen l + 1.
Proof. unfold zlen; cbn [List.length]; lia. Qed.

Lemma zlen_nil {A} : zlen (@nil A) = 0.
Proof. reflexivity. Qed.

Lemma znth_Some_lt {A} (l : list A) i x : znth l i = Some x -> 0 <= i < zlen l.
Proof.
  unfold znth, zlen. destruct (Z.ltb_spec i 0) as [H|H]; [discriminate|].
  intros E. assert (nth_error l (Z.to_nat i) <> None) as E' by congruence.
  apply nth_error_Some in E'. lia.
Qed.

Lemma znth_lt_Some {A} (l : list A) i : 0 <= i < zlen l -> exists x, znth l i = Some x.
Proof.
  unfold znth, zlen. intros H. destruct (Z.ltb_spec i 0) as [H'|_]; [lia|].
  destruct (nth_error l (Z.to_nat i)) as [x|] eqn:E; [eauto|].
  apply nth_error_None in E. lia.
Qed.

Lemma znth_nth {A} (l : list A) (i : nat) : znth l (Z.of_nat i) = nth_error l i.
Proof.
  unfold znth. destruct (Z.ltb_spec (Z.of_nat i) 0); [lia|]. now rewrite Nat2Z.id.
Qed.

Lemma znth_app1 {A} (l1 l2 : list A) i : i < zlen l1 -> znth (l1 ++ l2) i = znth l1 i.
Proof.
  unfold znth, zlen. intros H. destruct (Z.ltb_spec i 0); [reflexivity|].
  apply nth_error_app1. lia.
Qed.

Lemma znth_app2 {A} (l1 l2 : list A) i :
  zlen l1 <= i -> znth (l1 ++ l2) i = znth l2 (i - zlen l1).
Proof.
  unfold znth, zlen. intros H. destruct (Z.ltb_spec i 0); [lia|].
  destruct (Z.ltb_spec (i - Z.of_nat (List.length l1)) 0); [lia|].
  rewrite nth_error_app2 by lia. f_equal. lia.
Qed.

Lemma znth_cons_0 {A} (x : A) l : znth (x :: l) 0 = Some x.
Proof. reflexivity. Qed.

Lemma znth_cons_S {A} (x : A) l i : 0 < i -> znth (x :: l) i = znth l (i - 1).
Proof.
  intros H. change (x :: l) with ([x] ++ l). rewrite znth_app2 by (cbn; lia). f_equal.
Qed.

Lemma znth_map {A B} (f : A -> B) l i : znth (map f l) i = option_map f (znth l i).
Proof. unfold znth. destruct (i <? 0); [reflexivity|]. apply nth_error_map. Qed.

Lemma znth_In {A} (l : list A) i x : znth l i = Some x -> In x l.
Proof. unfold znth. destruct (i <? 0); [discriminate|]. apply nth_error_In. Qed.

Lemma In_znth {A} (l : list A) x : In x l -> exists i, 0 <= i < zlen l /\ znth l i = Some x.
Proof.
  intros H. apply In_nth_error in H. destruct H as [i Hi]. exists (Z.of_nat i).
  rewrite znth_nth. split; [|exact Hi].
  assert (nth_error l i <> None) as Hn by congruence. apply nth_error_Some in Hn.
  unfold zlen. lia.
Qed.

Lemma znth_ext {A} (l1 l2 : list A) :
  zlen l1 = zlen l2 -> (forall i, 0 <= i < zlen l1 -> znth l1 i = znth l2 i) -> l1 = l2.
Proof.
  unfold zlen. revert l2; induction l1 as [|x l1 IH]; intros [|y l2] Hl H;
    cbn [List.length] in *; try lia; [reflexivity|].
  f_equal.
  - specialize (H 0). cbn in H. assert (Some x = Some y) by (apply H; lia). congruence.
  - apply IH; [lia|]. intros i Hi.
    specialize (H (i + 1)).
    rewrite !znth_cons_S in H by lia. replace (i + 1 - 1) with i in H by lia. apply H. lia.
Qed.

Lemma set_nth_length {A} (l : list A) i x l' :
  set_nth l i x = Some l' -> List.length l' = List.length l.
Proof.
  revert i l'; induction l as [|h t IH]; intros [|i] l'; cbn; try discriminate.
  - intros [= <-]. reflexivity.
  - destruct (set_nth t i x) as [t'|] eqn:E; [|discriminate]. intros [= <-]. cbn.
    f_equal. eauto.
Qed.

Lemma zset_zlen {A} (l : list A) i x l' : zset l i x = Some l' -> zlen l' = zlen l.
Proof.
  unfold zset, zlen. destruct (i <? 0); [discriminate|]. intros H.
  apply set_nth_length in H. lia.
Qed.

Lemma set_nth_nth {A} (l : list A) i x l' :
  set_nth l i x = Some l' ->
  forall j, nth_error l' j = if Nat.eqb j i then Some x else nth_error l j.
Proof.
  revert i l'; induction l as [|h t IH]; intros [|i] l'; cbn; try discriminate.
  - intros [= <-] [|j]; reflexivity.
  - destruct (set_nth t i x) as [t'|] eqn:E; [|discriminate]. intros [= <-] [|j]; cbn; eauto.
Qed.

Lemma zset_znth {A} (l : list A) i x l' :
  zset l i x = Some l' -> forall j, znth l' j = if j =? i then Some x else znth l j.
Proof.
  unfold zset, znth. destruct (Z.ltb_spec i 0); [discriminate|]. intros H' j.
  destruct (Z.ltb_spec j 0).
  - destruct (Z.eqb_spec j i); [lia|reflexivity].
  - rewrite (set_nth_nth _ _ _ _ H').
    destruct (Nat.eqb_spec (Z.to_nat j) (Z.to_nat i)), (Z.eqb_spec j i); try reflexivity; lia.
Qed.

Lemma set_nth_Some {A} (l : list A) i x :
  (i < List.length l)%nat -> exists l', set_nth l i x = Some l'.
Proof.
  revert i; induction l as [|h t IH]; intros [|i]; cbn; try lia; [eauto|].
  intros H. destruct (IH i) as [t' ->]; [lia|eauto].
Qed.

Lemma zset_lt_Some {A} (l : list A) i x : 0 <= i < zlen l -> exists l', zset l i x = Some l'.
Proof.
  unfold zset, zlen. intros H. destruct (Z.ltb_spec i 0); [lia|]. apply set_nth_Some. lia.
Qed.

Lemma set_nth_spec {A} (l1 : list A) y l2 x :
  set_nth (l1 ++ y :: l2) (List.length l1) x = Some (l1 ++ x :: l2).
Proof. induction l1 as [|h t IH]; cbn; [reflexivity|now rewrite IH]. Qed.

Lemma zrange_length lo n : List.length (zrange lo n) = n.
Proof. revert lo; induction n; intros; cbn; auto. Qed.

Lemma In_zrange lo n x : In x (zrange lo n) <-> lo <= x < lo + Z.of_nat n.
Proof.
  revert lo; induction n as [|n IH]; intros lo; cbn [zrange In]; [lia|].
  rewrite IH. lia.
Qed.

Lemma NoDup_zrange lo n : NoDup (zrange lo n).
Proof.
  revert lo; induction n as [|n IH]; intros lo; cbn; constructor; auto.
  rewrite In_zrange. lia.
Qed.

Lemma zrange_app lo n1 n2 :
  zrange lo (n1 + n2) = zrange lo n1 ++ zrange (lo + Z.of_nat n1) n2.
Proof.
  revert lo; induction n1 as [|n1 IH]; intros lo; cbn [zrange Nat.add app].
  - f_equal; lia.
  - rewrite IH. do 3 f_equal. lia.
Qed.

Lemma ofold_app {A B} (f : B -> A -> outcome B) l1 l2 b :
  ofold f (l1 ++ l2) b = obind (ofold f l1 b) (ofold f l2).
Proof.
  revert b; induction l1 as [|x l1 IH]; intros b; cbn; [reflexivity|].
  destruct (f b x); cbn; auto.
Qed.

Lemma obind_Ok {A B} (x : outcome A) (f : A -> outcome B) b :
  obind x f = Ok b -> exists a, x = Ok a /\ f a = Ok b.
Proof. destruct x; cbn; try discriminate. eauto. Qed.

Lemma rd_Ok {A} msg (l : list A) i x : rd msg l i = Ok x <-> znth l i = Some x.
Proof. unfold rd. destruct (znth l i); split; congruence. Qed.
