(** Specification of printed percentages. *)
From Coq Require Import String.
From Verif Require Import Base CLib.
Local Open Scope Z_scope.
Local Open Scope list_scope.

(** [k] hundredths, written with two decimals *)
Definition two_decimals (k : Z) : list Z := dec (k / 100) ++ [46; 48 + k / 10 mod 10; 48 + k mod 10].

(** [k] is an integer nearest to the fraction n / d. *)
Definition nearest (k n d : Z) : Prop := 2 * Z.abs (k * d - n) <= d.

(** What is shown for n out of d in a column of [w] bytes: the percentage to the nearest hundredth,
    with a minus sign if n is negative. *)
Definition shows_percentage (w : nat) (n d : Z) (s : list Z) : Prop :=
  exists k, 0 <= k /\ nearest k (10000 * Z.abs n) d /\ s = pad 32 w ((if n <? 0 then [45] else []) ++ two_decimals k).
