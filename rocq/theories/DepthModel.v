(** The three functions that call themselves, with the depth of their calls: each function below is
    the one of SortModel, SyncModel or WordModel and returns beside the result how many calls are
    active at once at most, the outermost included.  Every active call holds a frame on the stack. *)
From Coq Require Import String.
From Verif Require Import Base SortModel SyncModel WordTable WordModel.
Local Open Scope Z_scope.
Local Open Scope list_scope.

(** sort.c:30-54 quicksort *)
Fixpoint quicksort_depth {A} (cmp : A -> A -> Z) (fuel : nat) (a : list A) (left right : Z) : outcome (list A * Z) :=
  match fuel with
  | O => OutOfFuel
  | Datatypes.S f =>
      let i := left in
      let j := right in
      let! ref := rd "sort index" a i in
      let! (a, i, j) := partition_loop cmp (Z.to_nat (j - i)) a ref i j in
      let! a := wr "sort index" a j ref in
      let j := j - 1 in
      let! (a, d1) := if left <? j then quicksort_depth cmp f a left j else Ok (a, 0) in
      let i := i + 1 in
      let! (a, d2) := if i <? right then quicksort_depth cmp f a i right else Ok (a, 0) in
      Ok (a, 1 + Z.max d1 d2)
  end.

(** sort.c:57-67 sort: the calls of quicksort that are active at once *)
Definition sort_depth {A} (cmp : A -> A -> Z) (num_elements : Z) (a : list A) : outcome (list A * Z) :=
  if num_elements <? 2 then Ok (a, 0)
  else quicksort_depth cmp (Z.to_nat num_elements) a 0 (num_elements - 1).

(** sync.c:191-222 recursive_sync *)
Fixpoint recursive_depth (fuel : nat) (texts : list (list Z)) (sl : synclist) (id : Z) : outcome (synclist * Z) :=
  match fuel with
  | O => OutOfFuel
  | Datatypes.S f =>
      match get_item (items sl) id with
      | None => UB "no such sync item"
      | Some s =>
          if existsb (fun u => slen u =? 0) (subs s) then Ok (sl, 1)
          else
            match texts, subs s with
            | t0 :: trest, s0 :: srest =>
                let! r := match_rest t0 (combine trest srest) [SyncModel.start s0] (slen s0) in
                match r with
                | None => Ok (sl, 1)
                | Some (starts, len) =>
                    let m := fresh sl in
                    let! sl := save_match (mkslist (items sl) (fresh sl + 1)) id starts len m in
                    let! (sl, d1) := match prev_id None (items sl) id with
                                     | Some p => recursive_depth f texts sl p
                                     | None => Ok (sl, 0)
                                     end in
                    let! (sl, d2) := match next_id (items sl) id with
                                     | Some q => recursive_depth f texts sl q
                                     | None => Ok (sl, 0)
                                     end in
                    Ok (sl, 1 + Z.max d1 d2)
                end
            | _, _ => UB "no text"
            end
      end
  end.

(** sync.c:225-236 synchronize: the calls of recursive_sync that are active at once *)
Definition synchronize_depth (texts : list (list Z)) : outcome (list item * Z) :=
  if (zlen texts <? MIN_STREAMS) || (MAX_STREAMS <? zlen texts)
  then Fail "invalid number of text streams"
  else
    let sl := initialize_synclist texts 1 in
    let! (sl, d) := match items sl with
                    | s :: _ => recursive_depth (Datatypes.S (List.length (hd [] texts))) texts sl (sid s)
                    | [] => Ok (sl, 0)
                    end in
    Ok (view (number_matches (items sl) 0 no_numbers) (items sl), d).

(** word.c:46-67 search_for_property *)
Fixpoint search_depth (fuel : nat) (table : list wb_range) (code_point left right : Z) : outcome (wb_property * Z) :=
  if right <? left then Ok (Other, 1)
  else match fuel with
  | O => OutOfFuel
  | Datatypes.S fuel =>
    let midpoint := left + Z.quot (right - left) 2 in
    let! middle := rd "WORD_BREAK_PROPERTY" table midpoint in
    if code_point <? WordTable.start middle
    then let! (p, d) := search_depth fuel table code_point left (midpoint - 1) in Ok (p, 1 + d)
    else if WordTable.stop middle <? code_point
    then let! (p, d) := search_depth fuel table code_point (midpoint + 1) right in Ok (p, 1 + d)
    else Ok (wb_value middle, 1)
  end.

(** word.c:72-77 property: the calls of search_for_property that are active at once *)
Definition property_depth (code_point : Z) : outcome (wb_property * Z) :=
  search_depth (List.length WORD_BREAK_PROPERTY) WORD_BREAK_PROPERTY code_point
    0 (zlen WORD_BREAK_PROPERTY - 1).
