(** Model of option -D of editop: what is printed while the moves are counted. *)
From Coq Require Import String.
From Verif Require Import Base CLib SyncModel EdoModel EditopModel.
Local Open Scope Z_scope.
Local Open Scope list_scope.

(** printf "%-9s" *)
(* Models editop.c:58 *)
Definition pad_right (w : nat) (s : list Z) : list Z := s ++ repeat 32 (w - List.length s).

(** editop.c:53-62 display *)
Definition display (synclist : list block) (label : list Z) : list Z :=
  pad_right 9 label ++ bytes ":" ++
  flat_map (fun sync => bytes " {" ++ dec (bmatch sync) ++ bytes ":" ++ dec (blen sync) ++ bytes "}") synclist ++
  [10; 10].

Section Debug.
(** editop.c:30 debug *)
Variable debug : bool.

(** editop.c:120-139 combine_adjacent, and what it prints *)
Definition combine_adjacent_shown (synclist : list block) : outcome (list block * list Z) :=
  let! l := combine_adjacent synclist in
  Ok (l, if debug then display l (bytes "combined") else []).

(** editop.c:185-205 perform_move, and what it prints; the label has room for 20 bytes. *)
Definition perform_move_shown (synclist : list block) (c : list candidate) (sync : block) (d : edodata)
  : outcome (list block * edodata * list Z) :=
  let! (l, d) := perform_move synclist c sync d in
  if debug then
    let label := bytes "moved " ++ dec (bmatch sync) in
    if zlen label + 1 <=? 20 then Ok (l, d, display l label) else UB "label overflow"
  else Ok (l, d, []).

(** editop.c:216-223: the loop of count_moves, and what it prints *)
Fixpoint moves_loop_shown (fuel : nat) (synclist : list block) (d : edodata)
  : outcome (list block * edodata * list Z) :=
  if 1 <? zlen synclist then
    match fuel with
    | O => OutOfFuel
    | Datatypes.S fuel =>
      let! c := find_candidates synclist in
      let! sync := find_move synclist c in
      let! (l, d, out1) := perform_move_shown synclist c sync d in
      let! (l, out2) := combine_adjacent_shown l in
      let! (l, d, out3) := moves_loop_shown fuel l d in
      Ok (l, d, out1 ++ out2 ++ out3)
    end
  else Ok (synclist, d, []).

(** editop.c:208-224 count_moves, and what it prints *)
Definition count_moves_shown (synclist : list block) (d : edodata) : outcome (list block * edodata * list Z) :=
  let out0 := if debug then display synclist (bytes "original") else [] in
  let! (l, out1) := combine_adjacent_shown synclist in
  let! (l, d, out2) := moves_loop_shown (List.length l) l d in
  Ok (l, d, out0 ++ out1 ++ out2).

(** editop.c:239-242 in main: the counts, and what is printed *)
Definition edit_operations_shown (t1 t2 : list Z) : outcome (edodata * list Z) :=
  let! (synclist1, synclist2) := transpose_sync t1 t2 in
  let! ins := count_insertions synclist1 t1 0 in
  let! (del, blocks) := count_deletions synclist2 0 in
  let! (_, d, out) := count_moves_shown blocks (mkedo ins del 0 (repeat 0 101)) in
  Ok (d, out).
End Debug.
