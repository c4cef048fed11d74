(** Specification of sorting. *)
From Verif Require Import Base.

(** On the elements satisfying [P], the comparison routine is consistent: its sign
    describes a total preorder. *)
Record preorder_on {A} (P : A -> Prop) (cmp : A -> A -> Z) : Prop := {
  cmp_flip  : forall x y, P x -> P y -> (cmp x y < 0 <-> 0 < cmp y x);
  cmp_trans : forall x y z, P x -> P y -> P z ->
                cmp x y <= 0 -> cmp y z <= 0 -> cmp x z <= 0 }.

Definition preorder {A} (cmp : A -> A -> Z) : Prop := preorder_on (fun _ => True) cmp.

(** Every earlier element compares <= every later one. *)
Definition sorted {A} (cmp : A -> A -> Z) (l : list A) : Prop :=
  forall p q x y, (p < q)%nat -> nth_error l p = Some x -> nth_error l q = Some y ->
    cmp x y <= 0.
