(** Line-oriented reading shared by accrpt.c, wacrpt.c and edorpt.c, each of which has its
    own static buffer "line" of 100 bytes. *)
From Coq Require Import String.
From Verif Require Import Base CLib.
Local Open Scope Z_scope.
Local Open Scope list_scope.

(** State of a reader: the static buffer and the rest of the file. *)
(* Models accrpt.c:44 *)
Definition rstate : Type := list Z * list Z.

(** accrpt.c:91-95, wacrpt.c:65-69, edorpt.c:36-40 read_line: fgets(line, sizeof(line) - 1, f).
    At the end of the file the buffer keeps its contents. *)
Definition read_line (st : rstate) : outcome (bool * rstate) :=
  match fgets 99 (snd st) with
  | None => Ok (false, st)
  | Some (s, f) => let! b := store_string (fst st) s in Ok (true, (b, f))
  end.

(** read_line(f) && sscanf(line, ...) == n, as in read_value, read_ops, read_one and
    read_two; [None] when the condition is false. *)
(* Models accrpt.c:102, 117 and 135 *)
Definition read_scan {A} (scan : list Z -> option A) (st : rstate)
  : outcome (option A * rstate) :=
  let! (ok, st) := read_line st in
  if ok then let! s := cstr (fst st) 0 in Ok (scan s, st) else Ok (None, st).

(** sscanf(line, "%ld", ...) == 1 *)
(* Models accrpt.c:102 *)
Definition scan_one (s : list Z) : option Z := option_map fst (scan_long s).

(** The operands of the conjunction that decides whether the file is a report; when one of
    them is false, error_string("invalid format in", filename) is called. *)
(* Models accrpt.c:252 *)
Definition invalid {A} : outcome A := Fail "invalid format in".
(* Models accrpt.c:226 *)
Definition need_line (st : rstate) : outcome rstate :=
  let! (ok, st) := read_line st in if ok then Ok st else invalid.
(* Models accrpt.c:224-233 *)
Definition need_scan {A} (scan : list Z -> option A) (st : rstate) : outcome (A * rstate) :=
  let! (r, st) := read_scan scan st in
  match r with Some x => Ok (x, st) | None => invalid end.
(** read_line(f) && strncmp(line, TITLE, sizeof(TITLE) - 3) == 0 *)
(* Models accrpt.c:222 *)
Definition need_title (title : list Z) (st : rstate) : outcome rstate :=
  let! (ok, st) := read_line st in
  if ok then
    let! s := cstr (fst st) 0 in
    if strneq s title (List.length title - 2) then Ok st else invalid
  else invalid.
(** read_line(f) && strcmp(line, DIVIDER) == 0 *)
(* Models accrpt.c:223 *)
Definition need_divider (divider : list Z) (st : rstate) : outcome rstate :=
  let! (ok, st) := read_line st in
  if ok then
    let! s := cstr (fst st) 0 in
    if streq s divider then Ok st else invalid
  else invalid.

(** Concatenation of what a loop prints. *)
(* Models accrpt.c:351-353, 360-361 and 366-368 *)
Definition oconcat {A} (f : A -> outcome (list Z)) (l : list A) : outcome (list Z) :=
  ofold (fun acc x => let! s := f x in Ok (acc ++ s)) l [].
