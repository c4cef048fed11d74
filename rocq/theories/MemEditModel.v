(** Model of editop.c on the memory of MemSyncModel: the items that are discarded and moved, and the array of candidates. *)
From Coq Require Import String.
From Verif Require Import Base CLib ListModel TextModel SyncModel MemSyncModel EdoModel.
From Verif Require EditopModel.
Local Open Scope Z_scope.
Local Open Scope list_scope.

Definition get_long (m : store) (a : addr) : outcome Z :=
  let! b := at_ m a in match b with BLong v => Ok v | _ => UB "not a long" end.
Definition get_cands (m : store) (a : addr) : outcome (list (bool * bool * addr)) :=
  let! b := at_ m a in match b with BCands cs => Ok cs | _ => UB "not an array of Candidate" end.

(** *sync->match *)
(* Models editop.c:115 and 128 *)
Definition number_of (m : store) (s : addr) : outcome Z := let! (_, p) := get_sync m s in get_long m p.
(** sync->substr->length *)
(* Models editop.c:101, 130 and 174 *)
Definition len_of (m : store) (s : addr) : outcome Z := let! u := sub0_of m s in Ok (slen u).
(** sync->next *)
(* Models editop.c:98 and 127 *)
Definition next_of (m : store) (s : addr) : outcome addr := let! _ := at_ m s in Ok (next (slinks m s)).

(** editop.c:65-74 discard_sync *)
Definition discard_sync (l : header) (m : store) (s : addr) : outcome (header * store) :=
  let! (l, m) := take_out l m s in
  let! (u, _) := get_sync m s in
  let! m := release m u in
  let! (_, p) := get_sync m s in
  let! m := if p =? NULL then Ok m else release m p in
  let! m := release m s in
  Ok (l, m).

(** editop.c:83-87: the loop of count_insertions, from the item [s] on. *)
Fixpoint insertions_from (fuel : nat) (m : store) (s : addr) (text : list Z) (total : Z) : outcome Z :=
  if s =? NULL then Ok total
  else match fuel with
       | O => OutOfFuel
       | S f =>
         let! (_, p) := get_sync m s in
         let! total := if p =? NULL then
                         let! u := sub0_of m s in EditopModel.count_plain (List.length text) text (start u) (stop u) total
                       else Ok total in
         let! s := next_of m s in
         insertions_from f m s text total
       end.

(** editop.c:95-105: the loop of count_deletions. *)
Fixpoint deletions_from (fuel : nat) (l : header) (m : store) (s : addr) (total : Z) : outcome (Z * header * store) :=
  if s =? NULL then Ok (total, l, m)
  else match fuel with
       | O => OutOfFuel
       | S f =>
         let! after := next_of m s in
         let! (_, p) := get_sync m s in
         if p =? NULL then
           let! n := len_of m s in
           let! (l, m) := discard_sync l m s in
           deletions_from f l m after (total + n)
         else deletions_from f l m after total
       end.

(** editop.c:109-117 decrement_match, from the item [s] on. *)
Fixpoint decrement_from (fuel : nat) (m : store) (s : addr) (limit : Z) : outcome store :=
  if s =? NULL then Ok m
  else match fuel with
       | O => OutOfFuel
       | S f =>
         let! (_, p) := get_sync m s in
         let! v := get_long m p in
         let! m := if limit <? v then put m p (BLong (v - 1)) else Ok m in
         let! s := next_of m s in
         decrement_from f m s limit
       end.

(** sync->substr->length += n *)
(* Models editop.c:130 *)
Definition add_length (m : store) (s : addr) (n : Z) : outcome store :=
  let! (u, _) := get_sync m s in
  let! ss := get_subs m u in
  match ss with
  | x :: r => put m u (BSubs (mksub (start x) (stop x) (slen x + n) :: r))
  | [] => UB "substr"
  end.

(** editop.c:124-136: the loop of combine_adjacent. *)
Fixpoint combine_items (fuel : nat) (l : header) (m : store) (s : addr) : outcome (header * store) :=
  if s =? NULL then Ok (l, m)
  else match fuel with
       | O => OutOfFuel
       | S f =>
         let! after := next_of m s in
         let! adjacent := if after =? NULL then Ok false
                          else let! v2 := number_of m after in let! v1 := number_of m s in Ok (v2 =? v1 + 1) in
         if (adjacent : bool) then
           let! n := len_of m after in
           let! m := add_length m s n in
           let! (l, m) := discard_sync l m after in
           let! v := number_of m s in
           let! m := decrement_from (Z.to_nat (count l)) m (first l) v in
           combine_items f l m s
         else combine_items f l m after
       end.
Definition combine_list (l : header) (m : store) : outcome (header * store) := combine_items (Z.to_nat (count l)) l m (first l).

(** Assignments to one field of candidate[i]. *)
(* Models editop.c:151-155 *)
Definition set_cand (m : store) (c : addr) (i : Z) (f : bool * bool * addr -> bool * bool * addr) : outcome store :=
  let! cs := get_cands m c in
  let! x := rd "candidate[i]" cs i in
  let! cs := wr "candidate[i]" cs i (f x) in
  put m c (BCands cs).
(* Models editop.c:151 *)
Definition mark_insertion (x : bool * bool * addr) := let '(_, d, s) := x in (true, d, s).
(* Models editop.c:154 *)
Definition mark_deletion (x : bool * bool * addr) := let '(i, _, s) := x in (i, true, s).
(* Models editop.c:155 *)
Definition mark_sync (s : addr) (x : bool * bool * addr) := let '(i, d, _) := x in (i, d, s).

(** editop.c:148-156: the loop of find_candidates. *)
Fixpoint candidates_from (fuel : nat) (m : store) (s c : addr) : outcome store :=
  if s =? NULL then Ok m
  else match fuel with
       | O => OutOfFuel
       | S f =>
         let! after := next_of m s in
         let! m := if after =? NULL then Ok m
                   else let! v2 := number_of m after in
                        let! v1 := number_of m s in
                        if v2 =? v1 + 2 then set_cand m c (v1 + 1) mark_insertion else Ok m in
         let! m := if after =? NULL then Ok m
                   else let! after2 := next_of m after in
                        if after2 =? NULL then Ok m
                        else let! v3 := number_of m after2 in
                             let! v1 := number_of m s in
                             if v3 =? v1 + 1 then let! v2 := number_of m after in set_cand m c v2 mark_deletion else Ok m in
         let! v1 := number_of m s in
         let! m := set_cand m c v1 (mark_sync s) in
         let! s := next_of m s in
         candidates_from f m s c
       end.

(** editop.c:167-180: one round; [found] holds move_i and move_length once assigned. *)
Definition consider_cand (m : store) (c : addr) (st : option (Z * Z) * Z) (i : Z) : outcome (option (Z * Z) * Z) :=
  let (found, move_reduction) := st in
  let! cs := get_cands m c in
  let! (ins, del, s) := rd "candidate[i]" cs i in
  let reduction := 1 + (if (ins : bool) then 1 else 0) + (if (del : bool) then 1 else 0) in
  let! better :=
    if move_reduction <? reduction then Ok true
    else if reduction =? move_reduction then
      let! len := len_of m s in
      match found with
      | Some (_, move_length) => Ok (len <? move_length)
      | None => UB "move_length uninitialized"
      end
    else Ok false in
  if (better : bool) then let! len := len_of m s in Ok (Some (i, len), reduction)
  else Ok (found, move_reduction).

(** editop.c:161-182 find_move *)
Definition find_cand (l : header) (m : store) (c : addr) : outcome addr :=
  let! (found, _) := ofold (consider_cand m c) (zrange 1 (Z.to_nat (count l))) (None, 0) in
  match found with
  | None => UB "move_i uninitialized"
  | Some (move_i, _) =>
    let! cs := get_cands m c in
    let! (_, _, s) := rd "candidate[move_i]" cs move_i in
    Ok s
  end.

(** editop.c:185-205 perform_move (the debugging output is left out) *)
Definition move_item (l : header) (m : store) (c s : addr) (d : edodata) : outcome (header * store * edodata) :=
  let! (l, m) := take_out l m s in
  let! v := number_of m s in
  let! cs := get_cands m c in
  let! (l, m) :=
    if v =? 1 then
      let! (_, _, x) := rd "candidate[i]" cs 2 in put_before l m s x
    else
      let! (_, _, x) := rd "candidate[i]" cs (v - 1) in put_after l m x s in
  let! n := len_of m s in
  let length := Z.min n MAX_MOVE_LENGTH in
  let! ms := add_at (moves d) length 1 in
  Ok (l, m, mkedo (insertions d) (deletions d) (total_moves d + 1) ms).

Section Edit.
(** calloc: given the blocks in use and the number of calls so far. *)
Variable alloc : (addr -> bool) -> Z -> addr.

(** editop.c:142-158 find_candidates *)
Definition candidates_list (l : header) (m : store) : outcome (addr * store) :=
  let! (c, m) := new alloc m (BCands (repeat (false, false, NULL) (Z.to_nat (count l + 1)))) in
  let! m := candidates_from (Z.to_nat (count l)) m (first l) c in
  Ok (c, m).

(** editop.c:216-223: the loop of count_moves, after the first combine_adjacent. *)
Fixpoint moves_of (fuel : nat) (l : header) (m : store) (d : edodata) : outcome (header * store * edodata) :=
  if 1 <? count l then
    match fuel with
    | O => OutOfFuel
    | S f =>
      let! (c, m) := candidates_list l m in
      let! s := find_cand l m c in
      let! (l, m, d) := move_item l m c s d in
      let! m := release m c in
      let! (l, m) := combine_list l m in
      moves_of f l m d
    end
  else Ok (l, m, d).

(** editop.c:208-224 count_moves *)
Definition moves_list (l : header) (m : store) (d : edodata) : outcome (header * store * edodata) :=
  let! (l, m) := combine_list l m in
  moves_of (Z.to_nat (count l)) l m d.

(** editop.c:239-242 in main: the two lists as they are at the end, and the numbers of operations. *)
Definition edit_lists (m : store) (t1 t2 : list Z) : outcome (header * header * store * edodata) :=
  let! (l1, l2, m) := transpose_lists alloc m t1 t2 in
  let! ins := insertions_from (Z.to_nat (count l1)) m (first l1) t1 0 in
  let! (del, l2, m) := deletions_from (Z.to_nat (count l2)) l2 m (first l2) 0 in
  let! (l2, m, d) := moves_list l2 m (mkedo ins del 0 (repeat 0 101)) in
  Ok (l1, l2, m, d).
End Edit.
