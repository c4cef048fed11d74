(** Specification: the '~' of a correct text as a wildcard. *)
From Verif Require Import Base.
Local Open Scope Z_scope.
Local Open Scope list_scope.

(** [forgiving a b c]: editing [c] characters makes [b] of [a], where each '~' of [a] stands
    for any one character or for none.  A '~' of [b] is a reject, equal to no character. *)
Inductive forgiving : list Z -> list Z -> Z -> Prop :=
| forgiving_nil : forgiving [] [] 0
| forgiving_keep x a b c : x <> 126 -> forgiving a b c -> forgiving (x :: a) (x :: b) c
| forgiving_any y a b c : forgiving a b c -> forgiving (126 :: a) (y :: b) c
| forgiving_none a b c : forgiving a b c -> forgiving (126 :: a) b c
| forgiving_subst x y a b c : x <> 126 -> forgiving a b c -> forgiving (x :: a) (y :: b) (c + 1)
| forgiving_delete x a b c : x <> 126 -> forgiving a b c -> forgiving (x :: a) b (c + 1)
| forgiving_insert y a b c : forgiving a b c -> forgiving a (y :: b) (c + 1).

(** The smallest number of edits. *)
Definition forgiving_distance (a b : list Z) (d : Z) : Prop :=
  forgiving a b d /\ forall c, forgiving a b c -> d <= c.

(** [filled t f]: [f] is [t] with each '~' replaced by some character or left out. *)
Inductive filled : list Z -> list Z -> Prop :=
| filled_nil : filled [] []
| filled_keep x t f : x <> 126 -> filled t f -> filled (x :: t) (x :: f)
| filled_any y t f : filled t f -> filled (126 :: t) (y :: f)
| filled_none t f : filled t f -> filled (126 :: t) f.
