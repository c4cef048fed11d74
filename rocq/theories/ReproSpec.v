(** Two runs with the same result. *)
From Coq Require Import String.
From Verif Require Import Base CLib MainModel MainSpec.
Local Open Scope Z_scope.
Local Open Scope list_scope.

(** Two runs of a program, on the files of two systems, end in the same way: with the same error, or
    with the same text printed, and the same report on the standard output or under the name [dest],
    the other files being as they were. *)
Definition same_end (sys sys' : system) (dest : option (list Z)) (res res' : outcome ended) : Prop :=
  exists content, ends_with sys dest content res /\ ends_with sys' dest content res'.
