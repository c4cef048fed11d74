(** Specification of the choice of moves by editop. *)
From Verif Require Import Base AccSpec.
Local Open Scope Z_scope.
Local Open Scope list_scope.

(** The maximal runs of consecutive numbers in a sequence. *)
Fixpoint split_runs (s : list Z) : list (list Z) :=
  match s with
  | [] => []
  | x :: r =>
    match split_runs r with
    | (y :: w) :: rs => if y =? x + 1 then (x :: y :: w) :: rs else [x] :: (y :: w) :: rs
    | rs => [x] :: rs
    end
  end.
Definition runs (s : list Z) : Z := zlen (split_runs s).
Definition first_of (w : list Z) : Z := hd 0 w.
Definition last_of (w : list Z) : Z := List.last w 0.

(** Taking the run [w] out of [before ++ w :: after] and putting it before the one that continues
    it, if it begins with 1, or else after the one that it continues, gives [s']. *)
Definition put_home (before : list (list Z)) (w : list Z) (after : list (list Z)) (s' : list Z) : Prop :=
  exists before' after', before ++ after = before' ++ after' /\
    s' = concat before' ++ w ++ concat after' /\
    (first_of w = 1 -> exists v rest, after' = v :: rest /\ first_of v = last_of w + 1) /\
    (first_of w <> 1 -> exists rest v, before' = rest ++ [v] /\ last_of v = first_of w - 1).

(** The first move is preferred, or the same: it leaves fewer runs or, if as many, moves less
    or, if as much, moves the one that is first in the correct order. *)
Definition preferred (wt : Z -> Z) (w s' w2 s2 : list Z) : Prop :=
  runs s' < runs s2 \/
  (runs s' = runs s2 /\
   (zsum (map wt w) < zsum (map wt w2) \/
    (zsum (map wt w) = zsum (map wt w2) /\ first_of w <= first_of w2))).

(** Moving home, again and again, the run that it is best to move. *)
Inductive greedy (wt : Z -> Z) : list Z -> list Z -> Prop :=
| greedy_done s : runs s <= 1 -> greedy wt s []
| greedy_move s before w after s' ls :
    1 < runs s -> split_runs s = before ++ w :: after -> put_home before w after s' ->
    (forall before2 w2 after2 s2, split_runs s = before2 ++ w2 :: after2 ->
       put_home before2 w2 after2 s2 -> preferred wt w s' w2 s2) ->
    greedy wt s' ls ->
    greedy wt s (zsum (map wt w) :: ls).
