(** Model of editop.c: the edit operations between two texts. *)
From Coq Require Import String.
From Verif Require Import Base CLib Utf8Model TextModel SyncModel EdoModel.
Local Open Scope Z_scope.
Local Open Scope list_scope.

(** A Sync of the second list once the unmatched ones have been discarded: *match and
    substr->length, which are all that is used.  The numbers are different, so a pointer to a
    Sync is represented by its number. *)
(* Models sync.h:49-54 *)
Record block := mkblock { bmatch : Z; blen : Z }.

(** editop.c:44-49 Candidate *)
Record candidate := mkcand { for_insertion : bool; for_deletion : bool; csync : option block }.

(** editop.c:85-87: the characters of one unmatched item *)
Fixpoint count_plain (fuel : nat) (text : list Z) (i stop total : Z) : outcome Z :=
  if i <=? stop then
    match fuel with
    | O => OutOfFuel
    | Datatypes.S fuel =>
      let! value := rd "text->array" text i in
      count_plain fuel text (i + 1) stop (if value =? REJECT then total else total + 1)
    end
  else Ok total.

(** editop.c:77-88 count_insertions *)
Definition count_insertions (synclist : list item) (text : list Z) (total : Z) : outcome Z :=
  ofold (fun total sync =>
    match inum sync with
    | Some _ => Ok total
    | None =>
      let! s := rd "substr" (isubs sync) 0 in
      count_plain (List.length text) text (SyncModel.start s) (SyncModel.stop s) total
    end) synclist total.

(** editop.c:91-106 count_deletions: the total, and the matched items. *)
Fixpoint count_deletions (synclist : list item) (total : Z) : outcome (Z * list block) :=
  match synclist with
  | [] => Ok (total, [])
  | sync :: next =>
    let! s := rd "substr" (isubs sync) 0 in
    match inum sync with
    | None => count_deletions next (total + slen s)
    | Some n =>
      let! (total, rest) := count_deletions next total in
      Ok (total, mkblock n (slen s) :: rest)
    end
  end.

(** editop.c:109-117 decrement_match *)
Definition decrement_match (limit : Z) (synclist : list block) : list block :=
  map (fun b => if limit <? bmatch b then mkblock (bmatch b - 1) (blen b) else b) synclist.

(** editop.c:125-136: the loop of combine_adjacent.  [before] are the items before [sync],
    [rest] those after it. *)
Fixpoint combine_from (fuel : nat) (before : list block) (sync : block) (rest : list block)
  : outcome (list block) :=
  match fuel with
  | O => OutOfFuel
  | Datatypes.S fuel =>
    match rest with
    | [] => Ok (before ++ [sync])
    | next :: rest =>
      if bmatch next =? bmatch sync + 1 then
        let sync := mkblock (bmatch sync) (blen sync + blen next) in
        let limit := bmatch sync in
        match decrement_match limit [sync] with
        | [sync] => combine_from fuel (decrement_match limit before) sync (decrement_match limit rest)
        | _ => OutOfFuel
        end
      else combine_from fuel (before ++ [sync]) next rest
    end
  end.

(** editop.c:120-139 combine_adjacent (the debugging output is left out) *)
Definition combine_adjacent (synclist : list block) : outcome (list block) :=
  match synclist with
  | [] => Ok []
  | sync :: rest => combine_from (List.length synclist) [] sync rest
  end.

(** Assignments to one field of candidate[i]. *)
(* Models editop.c:151-155 *)
Definition set_candidate (c : list candidate) (i : Z) (f : candidate -> candidate)
  : outcome (list candidate) :=
  let! x := rd "candidate[i]" c i in wr "candidate[i]" c i (f x).
(* Models editop.c:151 *)
Definition set_insertion (x : candidate) := mkcand true (for_deletion x) (csync x).
(* Models editop.c:154 *)
Definition set_deletion (x : candidate) := mkcand (for_insertion x) true (csync x).
(* Models editop.c:155 *)
Definition set_sync (b : block) (x : candidate) := mkcand (for_insertion x) (for_deletion x) (Some b).

(** editop.c:148-156: the loop of find_candidates *)
Fixpoint fill_candidates (synclist : list block) (c : list candidate) : outcome (list candidate) :=
  match synclist with
  | [] => Ok c
  | sync :: next =>
    let! c := match next with
              | n :: _ => if bmatch n =? bmatch sync + 2
                          then set_candidate c (bmatch sync + 1) set_insertion else Ok c
              | [] => Ok c
              end in
    let! c := match next with
              | n :: nn :: _ => if bmatch nn =? bmatch sync + 1
                                then set_candidate c (bmatch n) set_deletion else Ok c
              | _ => Ok c
              end in
    let! c := set_candidate c (bmatch sync) (set_sync sync) in
    fill_candidates next c
  end.

(** editop.c:142-158 find_candidates; the array is allocated full of zeroes. *)
Definition find_candidates (synclist : list block) : outcome (list candidate) :=
  fill_candidates synclist
    (repeat (mkcand false false None) (Datatypes.S (List.length synclist))).

(** candidate[i].sync->substr->length *)
(* Models editop.c:174 and 177 *)
Definition candidate_length (c : candidate) : outcome Z :=
  match csync c with Some b => Ok (blen b) | None => UB "candidate[i].sync->substr" end.

(** editop.c:167-180: one round; [found] holds move_i and move_length once assigned. *)
Definition consider (c : list candidate) (st : option (Z * Z) * Z) (i : Z)
  : outcome (option (Z * Z) * Z) :=
  let (found, move_reduction) := st in
  let! x := rd "candidate[i]" c i in
  let reduction := 1 + (if for_insertion x then 1 else 0) + (if for_deletion x then 1 else 0) in
  let! better :=
    if move_reduction <? reduction then Ok true
    else if reduction =? move_reduction then
      let! len := candidate_length x in
      match found with
      | Some (_, move_length) => Ok (len <? move_length)
      | None => UB "move_length uninitialized"
      end
    else Ok false in
  if (better : bool) then
    let! len := candidate_length x in Ok (Some (i, len), reduction)
  else Ok (found, move_reduction).

(** editop.c:161-182 find_move *)
Definition find_move (synclist : list block) (c : list candidate) : outcome block :=
  let! (found, _) := ofold (consider c) (zrange 1 (List.length synclist)) (None, 0) in
  match found with
  | None => UB "move_i uninitialized"
  | Some (move_i, _) =>
    let! x := rd "candidate[move_i]" c move_i in
    match csync x with Some b => Ok b | None => UB "NULL" end
  end.

(** list.c list_remove, list_insert_before and list_insert_after on sequences (C01-C03);
    an item that is not in the list is undefined behaviour. *)
Fixpoint list_remove (l : list block) (x : block) : outcome (list block) :=
  match l with
  | [] => UB "list_remove"
  | b :: r => if bmatch b =? bmatch x then Ok r
              else let! r := list_remove r x in Ok (b :: r)
  end.
Fixpoint list_insert_before (l : list block) (x before : block) : outcome (list block) :=
  match l with
  | [] => UB "list_insert_before"
  | b :: r => if bmatch b =? bmatch before then Ok (x :: b :: r)
              else let! r := list_insert_before r x before in Ok (b :: r)
  end.
Fixpoint list_insert_after (l : list block) (after x : block) : outcome (list block) :=
  match l with
  | [] => UB "list_insert_after"
  | b :: r => if bmatch b =? bmatch after then Ok (b :: x :: r)
              else let! r := list_insert_after r after x in Ok (b :: r)
  end.

(** candidate[i].sync, not NULL *)
(* Models editop.c:181, 193 and 195 *)
Definition candidate_sync (c : list candidate) (i : Z) : outcome block :=
  let! x := rd "candidate[i]" c i in
  match csync x with Some b => Ok b | None => UB "candidate[i].sync" end.

(** editop.c:185-205 perform_move *)
Definition perform_move (synclist : list block) (c : list candidate) (sync : block) (d : edodata)
  : outcome (list block * edodata) :=
  let! l := list_remove synclist sync in
  let! l :=
    if bmatch sync =? 1 then
      let! b := candidate_sync c 2 in list_insert_before l sync b
    else
      let! b := candidate_sync c (bmatch sync - 1) in list_insert_after l b sync in
  let length := Z.min (blen sync) MAX_MOVE_LENGTH in
  let! ms := add_at (moves d) length 1 in
  Ok (l, mkedo (insertions d) (deletions d) (total_moves d + 1) ms).

(** editop.c:216-223: the loop of count_moves, after the first combine_adjacent *)
Fixpoint moves_loop (fuel : nat) (synclist : list block) (d : edodata) : outcome (list block * edodata) :=
  if 1 <? zlen synclist then
    match fuel with
    | O => OutOfFuel
    | Datatypes.S fuel =>
      let! c := find_candidates synclist in
      let! sync := find_move synclist c in
      let! (l, d) := perform_move synclist c sync d in
      let! l := combine_adjacent l in
      moves_loop fuel l d
    end
  else Ok (synclist, d).

(** editop.c:208-224 count_moves *)
Definition count_moves (synclist : list block) (d : edodata) : outcome (list block * edodata) :=
  let! l := combine_adjacent synclist in
  moves_loop (List.length l) l d.

(** editop.c:239-242 in main *)
Definition edit_operations (t1 t2 : list Z) : outcome edodata :=
  let! (synclist1, synclist2) := transpose_sync t1 t2 in
  let! ins := count_insertions synclist1 t1 0 in
  let! (del, blocks) := count_deletions synclist2 0 in
  let! (_, d) := count_moves blocks (mkedo ins del 0 (repeat 0 101)) in
  Ok d.

(** editop.c:38 textopt (the fourth initialiser is find_hex_values, the sixth is missing). *)
Definition editop_opt : textopt := mkopt true true 0 true false.

(** editop.c:227-245 main, on the contents of the two files: the contents of the report. *)
Definition editop (uc : unicode_data) (junk junk4 : list Z) (f1 f2 : list Z) : outcome (list Z) :=
  let! (text1, header) := read_text uc junk junk4 editop_opt [] f1 in
  if header then Fail "no correct file specified"
  else
    let! (text2, _) := read_text uc junk junk4 editop_opt [] f2 in
    let! d := edit_operations (map value text1) (map value text2) in
    write_edorpt d.
