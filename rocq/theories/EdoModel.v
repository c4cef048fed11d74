(** Model of edorpt.c, editopsum.c and editopcost.c: edit operation reports. *)
From Coq Require Import String.
From Verif Require Import Base CLib ReportModel AccrptModel.
Local Open Scope Z_scope.
Local Open Scope list_scope.

(** edorpt.h:32-35 *)
Definition MAX_MOVE_LENGTH : Z := 100.

(** edorpt.h:37-47 Edodata.  Longs are unbounded integers (sums do not wrap). *)
Record edodata := mkedo { insertions : Z; deletions : Z; total_moves : Z; moves : list Z }.
(** A static Edodata. *)
(* Models editop.c:42, editopcost.c:30 *)
Definition edo_empty : edodata := mkedo 0 0 0 (repeat 0 101).

(** edorpt.c:29-30 *)
Definition EDO_TITLE : list Z := bytes "ocreval Edit Operation Report Version 7.0" ++ [10].
Definition EDO_DIVIDER : list Z := bytes "-----------------------------------------" ++ [10].

(** array[i] += n *)
(* Models edorpt.c:81 *)
Definition add_at (a : list Z) (i n : Z) : outcome (list Z) :=
  let! x := rd "moves[value2]" a i in wr "moves[value2]" a i (x + n).

(** edorpt.c:80-81: the rows of the table of moves. *)
Fixpoint move_rows (fuel : nat) (ms : list Z) (st : rstate) : outcome (list Z * rstate) :=
  let! (r, st) := read_scan scan_two st in
  match r with
  | Some (value1, value2) =>
      let! ms := add_at ms value2 value1 in
      match fuel with
      | O => OutOfFuel
      | S fu => move_rows fu ms st
      end
  | None => Ok (ms, st)
  end.

(** read_line(f) && read_line(f) && read_line(f) *)
(* Models edorpt.c:79 *)
Definition three_lines (st : rstate) : outcome (bool * rstate) :=
  let! (ok, st) := read_line st in
  if (ok : bool) then
    let! (ok, st) := read_line st in
    if (ok : bool) then read_line st else Ok (false, st)
  else Ok (false, st).

(** edorpt.c:79-81 *)
Definition read_moves (fuel : nat) (total : Z) (ms : list Z) (st : rstate)
  : outcome (list Z * rstate) :=
  if 0 <? total then
    let! (ok, st) := three_lines st in
    if (ok : bool) then move_rows fuel ms st else Ok (ms, st)
  else Ok (ms, st).

(** edorpt.c:66-86 read_edorpt: [line] is the static buffer, [f] the contents of the file.
    Returns the updated data and the buffer.  The additions of read_value (43-55) are made
    once the heading is complete: when it is not, the program ends. *)
Definition read_edorpt (line : list Z) (d : edodata) (f : list Z) : outcome (edodata * list Z) :=
  let fuel := List.length f in
  let st := (line, f) in
  let! st := need_title EDO_TITLE st in
  let! st := need_divider EDO_DIVIDER st in
  let! (ins, st) := need_scan scan_one st in
  let! (del, st) := need_scan scan_one st in
  let! (mov, st) := need_scan scan_one st in
  let! (ms, st) := read_moves fuel mov (moves d) st in
  Ok (mkedo (insertions d + ins) (deletions d + del) (total_moves d + mov) ms, fst st).

(** edorpt.c:98-103 write_move *)
Definition write_move (count length : Z) : list Z :=
  dec8 count ++ bytes " " ++ dec8 length ++ [10].

(** edorpt.c:120-122 *)
Definition write_row (ms : list Z) (i : Z) : outcome (list Z) :=
  let! n := rd "moves[i]" ms i in if 0 <? n then Ok (write_move n i) else Ok [].

(** edorpt.c:106-125 write_edorpt: the contents of the file.  write_value (92-98) is that of
    accrpt.c. *)
Definition write_edorpt (d : edodata) : outcome (list Z) :=
  let head :=
    EDO_TITLE ++ EDO_DIVIDER ++
    write_value (insertions d) (bytes "Insertions") ++
    write_value (deletions d) (bytes "Deletions") ++
    write_value (total_moves d) (bytes "Moves") in
  if 0 <? total_moves d then
    let! rows := oconcat (write_row (moves d)) (zrange 1 (Z.to_nat MAX_MOVE_LENGTH)) in
    Ok (head ++ [10] ++ bytes "Moves" ++ [10] ++ bytes "   Count   Length" ++ [10] ++ rows)
  else Ok head.

(** editopsum.c:34-46 main, on the contents of the files. *)
Definition editopsum (line : list Z) (files : list (list Z)) : outcome (list Z) :=
  if zlen files <? 2 then Fail "not enough input files"
  else
    let! (d, _) := ofold (fun (st : edodata * list Z) f => read_edorpt (snd st) (fst st) f)
                         files (edo_empty, line) in
    write_edorpt d.

(** editopcost.c:34-42 decrement_edodata *)
Definition decrement_edodata (d d2 : edodata) : outcome edodata :=
  let! ms := ofold (fun ms i => let! x := rd "moves[i]" ms i in
                                let! y := rd "moves[i]" (moves d2) i in
                                wr "moves[i]" ms i (x - y))
                   (zrange 1 (Z.to_nat MAX_MOVE_LENGTH)) (moves d) in
  Ok (mkedo (insertions d - insertions d2) (deletions d - deletions d2)
            (total_moves d - total_moves d2) ms).

(** printf("%3ld %10ld\n", ...) *)
(* Models editopcost.c:52 *)
Definition cost_line (i cost : Z) : list Z := pad 32 3 (dec i) ++ bytes " " ++ pad 32 10 (dec cost) ++ [10].

(** editopcost.c:45-56 write_results; the state is (output, insertions, moves). *)
Definition write_results (d : edodata) : outcome (list Z) :=
  let! (out, _, _) :=
    ofold (fun (st : list Z * Z * Z) i =>
             let '(out, ins, mov) := st in
             let! m := rd "moves[i]" (moves d) i in
             Ok (out ++ cost_line i (ins + i * mov), ins + i * m, mov - m))
          (zrange 0 (S (Z.to_nat MAX_MOVE_LENGTH))) ([], insertions d, total_moves d) in
  Ok out.

(** editopcost.c:59-74 main, on the contents of the files. *)
Definition editopcost (line : list Z) (files : list (list Z)) : outcome (list Z) :=
  match files with
  | [f] => let! (d, _) := read_edorpt line edo_empty f in write_results d
  | [f; f2] =>
      let! (d, line) := read_edorpt line edo_empty f in
      let! (d2, _) := read_edorpt line edo_empty f2 in
      let! d := decrement_edodata d d2 in
      write_results d
  | _ => Fail "invalid number of files"
  end.
