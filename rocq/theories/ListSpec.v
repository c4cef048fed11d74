(** Specification of lists as sequences of items (independent of list.c). *)
From Verif Require Import Base ListModel.

(** [chain succ a xs]: starting at [a] and following [succ] one meets exactly the
    items [xs], in order, and then NULL. *)
Inductive chain (succ : addr -> addr) : addr -> list addr -> Prop :=
| chain_nil : chain succ NULL []
| chain_cons x xs : x <> NULL -> chain succ (succ x) xs -> chain succ x (x :: xs).

Fixpoint insert_before (x r : addr) (xs : list addr) : list addr :=
  match xs with
  | [] => []
  | y :: t => if y =? r then x :: y :: t else y :: insert_before x r t
  end.

Fixpoint insert_after (r x : addr) (xs : list addr) : list addr :=
  match xs with
  | [] => []
  | y :: t => if y =? r then y :: x :: t else y :: insert_after r x t
  end.

(** Effect of each call on the sequence the list denotes. *)
Definition seq_step (xs : list addr) (o : lop) : list addr :=
  match o with
  | Linit => []
  | Linsert_first x => x :: xs
  | Linsert_last x => xs ++ [x]
  | Linsert_before x r => insert_before x r xs
  | Linsert_after r x => insert_after r x xs
  | Lremove x => remove Z.eq_dec x xs
  | Lin_array => xs
  | Lempty _ => []
  end.

(** What the interface asks of the caller: new items are real and not yet in the
    list; reference items and removed items are in the list; the routine given to
    list_empty may do anything to the item it is handed (free it, reuse it) and to any
    other memory, except the items that are still in the list. *)
Definition legal (xs : list addr) (o : lop) : Prop :=
  match o with
  | Linit | Lin_array => True
  | Linsert_first x | Linsert_last x => x <> NULL /\ ~ In x xs
  | Linsert_before x r => x <> NULL /\ ~ In x xs /\ In r xs
  | Linsert_after r x => x <> NULL /\ ~ In x xs /\ In r xs
  | Lremove x => In x xs
  | Lempty pr => forall done x todo h, xs = done ++ x :: todo ->
                   forall y, In y todo -> pr x h y = h y
  end.

Fixpoint legal_history (xs : list addr) (ops : list lop) : Prop :=
  match ops with
  | [] => True
  | o :: t => legal xs o /\ legal_history (seq_step xs o) t
  end.

(** The list header and memory present the sequence [xs]: forwards, backwards,
    by count; and the array, if there is one, is exactly the sequence. *)
Record presents (l : header) (h : heap) (xs : list addr) : Prop := {
  pr_forward  : chain (fun a => next (h a)) (first l) xs;
  pr_backward : chain (fun a => prev (h a)) (last l) (rev xs);
  pr_count    : count l = zlen xs;
  pr_nodup    : NoDup xs;
  pr_array    : match array l with None => True | Some a => a = xs /\ xs <> [] end }.
