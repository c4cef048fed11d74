(** Specification of what editop -D prints: the states through which the order of the matched
    items goes, from the order of the generated text to that of the correct text. *)
From Coq Require Import String.
From Verif Require Import Base CLib AccSpec GreedySpec.
Local Open Scope Z_scope.
Local Open Scope list_scope.

(** A line: its label, and for each part of the text its number and its length. *)
Definition state_line : Type := list Z * list (Z * Z).
Definition line_text (e : state_line) : list Z :=
  fst e ++ repeat 32 (9 - List.length (fst e)) ++ bytes ":" ++
  flat_map (fun p => bytes " {" ++ dec (fst p) ++ bytes ":" ++ dec (snd p) ++ bytes "}") (snd e) ++ [10; 10].

(** The number of a run: its place among the runs in the order of the correct text. *)
Definition place (ws : list (list Z)) (w : list Z) : Z :=
  1 + zlen (filter (fun v => first_of v <? first_of w) ws).
(** Runs, in the order in which they stand, each with its number and its length. *)
Definition numbered (wt : Z -> Z) (ws : list (list Z)) : list (Z * Z) :=
  map (fun w => (place ws w, zsum (map wt w))) ws.

(** The lines for the order [s] and those that follow; [ls] are the lengths that are moved. *)
Inductive trace (wt : Z -> Z) : list Z -> list Z -> list state_line -> Prop :=
| trace_done s :
    runs s <= 1 -> trace wt s [] [(bytes "combined", numbered wt (split_runs s))]
| trace_move s before w after before' after' ls rest :
    1 < runs s -> split_runs s = before ++ w :: after ->
    before ++ after = before' ++ after' ->
    (first_of w = 1 -> exists v r, after' = v :: r /\ first_of v = last_of w + 1) ->
    (first_of w <> 1 -> exists r v, before' = r ++ [v] /\ last_of v = first_of w - 1) ->
    (forall before2 w2 after2 s2, split_runs s = before2 ++ w2 :: after2 ->
       put_home before2 w2 after2 s2 ->
       preferred wt w (concat before' ++ w ++ concat after') w2 s2) ->
    trace wt (concat before' ++ w ++ concat after') ls rest ->
    trace wt s (zsum (map wt w) :: ls)
      ((bytes "combined", numbered wt (split_runs s)) ::
       (bytes "moved " ++ dec (place (split_runs s) w), numbered wt (before' ++ w :: after')) :: rest).
