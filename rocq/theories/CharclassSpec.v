(** Specification of character classes. *)
From Verif Require Import Base.

(** Specification: the class name of a code point according to a list of ranges, the last
    listed range containing it counting. *)
Definition contains (r : Z * Z * list Z) (v : Z) : Prop :=
  let '(s, e, _) := r in s <= v <= e.
Definition assigned (rs : list (Z * Z * list Z)) (v : Z) (name : list Z) : Prop :=
  exists before s e after, rs = before ++ (s, e, name) :: after /\ s <= v <= e /\
    Forall (fun r => ~ contains r v) after.
Definition unassigned (rs : list (Z * Z * list Z)) (v : Z) : Prop :=
  Forall (fun r => ~ contains r v) rs.

