(** Model of ci.c, accci.c and wordaccci.c: confidence intervals for accuracy. *)
From Coq Require Import String.
From Verif Require Import Base CLib Utf8Model AccModel ReportModel AccrptModel WacModel WacrptModel DoubleModel.
Local Open Scope Z_scope.
Local Open Scope list_scope.

(** ci.h:33-38 Obs: count and missed. *)
Notation obs := (Z * Z)%type.
(** ci.c:32-43 append_obs: total.count and total.missed of the list. *)
Definition obs_count (l : list obs) : Z := fold_left (fun s o => s + fst o) l 0.
Definition obs_missed (l : list obs) : Z := fold_left (fun s o => s + snd o) l 0.

(** ci.c:46-55 valid_obslist *)
Definition valid_obslist (l : list obs) : bool :=
  1 <? fold_left (fun n o => if 0 <? fst o then n + 1 else n) l 0.

(** ci.c:58-62 accuracy.  A division by zero, which gives an infinity or a NaN, is a distinct
    outcome of the model. *)
Definition accuracy (count missed : Z) : outcome double :=
  if count =? 0 then UB "division by zero" else Ok (percentage (count - missed) count).

(** The constant 1.96: the double nearest to 196/100. *)
(* Models ci.c:89 *)
Definition c196 : double := fdiv (of_int 196) (of_int 100).

(** util.h:50-51 *)
Definition fmax (a b : double) : double := if flt b a then a else b.
Definition fmin (a b : double) : double := if flt a b then a else b.

(** ci.c:77-83: theta and j of the observations, and the sum of the thetas. *)
Fixpoint pseudovalues (tc tm n : Z) (ntheta : double) (l : list obs) (sum : double) : outcome (list double * double) :=
  match l with
  | [] => Ok ([], sum)
  | (count, missed) :: l =>
    let! theta := accuracy (tc - count) (tm - missed) in
    let j := fsub ntheta (fmul (of_int (n - 1)) theta) in
    let! (js, sum) := pseudovalues tc tm n ntheta l (fadd sum theta) in
    Ok (j :: js, sum)
  end.

(** ci.c:65-92 compute_ci: lower and upper. *)
Definition compute_ci (l : list obs) : outcome (double * double) :=
  if negb (valid_obslist l) then Fail "not enough observations"
  else
    let n := zlen l in
    let tc := obs_count l in
    let tm := obs_missed l in
    let! theta := accuracy tc tm in
    let ntheta := fmul (of_int n) theta in
    let! (js, sum) := pseudovalues tc tm n ntheta l (of_int 0) in
    let total_j := fsub ntheta (fdiv (fmul (of_int (n - 1)) sum) (of_int n)) in
    let squares := fold_left (fun s j => fadd s (fmul (fsub j total_j) (fsub j total_j))) js (of_int 0) in
    let w := fmul c196 (fsqrt (fdiv (fdiv squares (of_int (n - 1))) (of_int n))) in
    Ok (fmax (of_int 0) (fmin (of_int 100) (fsub total_j w)),
        fmax (of_int 0) (fmin (of_int 100) (fadd total_j w))).

Section Writing.
(** printf("%14.2f", 100.0 * n / d) and printf("%6.2f", x) *)
Variable fmt14 : Z -> Z -> list Z.
Variable fmtd : double -> list Z.

(* Models accci.c:53-55 *)
Definition dec14 (n : Z) : list Z := pad 32 14 (dec n).

(** accci.c:46-57, wordaccci.c:47-58 write_results, with the names of the figures. *)
Definition write_results (items missing : list Z) (l : list obs) (count missed : Z) : outcome (list Z) :=
  let! (lower, upper) := compute_ci l in
  Ok (dec14 (zlen l) ++ bytes "   Observations" ++ [10] ++
      dec14 count ++ bytes "   " ++ items ++ [10] ++
      dec14 missed ++ bytes "   " ++ missing ++ [10] ++
      fmt14 (count - missed) count ++ bytes "%  Accuracy" ++ [10] ++
      fmtd lower ++ bytes "%," ++ fmtd upper ++ bytes "%  Approximate 95% Confidence Interval for Accuracy" ++ [10]).

(** accci.c:35-43 process_file *)
Definition acc_obs (st : (accdata * list Z) * list obs) (f : list Z) : outcome ((accdata * list Z) * list obs) :=
  let '((d, line), l) := st in
  let chars := characters d in
  let errs := errors d in
  let! (d, line) := read_accrpt line d f in
  Ok ((d, line), l ++ [(characters d - chars, errors d - errs)]).

(** accci.c:60-72 main, on the contents of the files. *)
Definition accci (line : list Z) (files : list (list Z)) : outcome (list Z) :=
  if zlen files <? 2 then Fail "not enough input files"
  else
    let! (st, l) := ofold acc_obs files ((acc_empty, line), []) in
    write_results (bytes "Characters") (bytes "Errors") l (characters (fst st)) (errors (fst st)).

(** wordaccci.c:35-44 process_file *)
Definition wac_obs (st : (wacdata * list Z) * list obs) (f : list Z) : outcome ((wacdata * list Z) * list obs) :=
  let '((d, line), l) := st in
  let count := wcount (wtotal d) in
  let missed := wmissed (wtotal d) in
  let! (d, line) := read_wacrpt line d f in
  Ok ((d, line), l ++ [(wcount (wtotal d) - count, wmissed (wtotal d) - missed)]).

(** wordaccci.c:61-73 main, on the contents of the files. *)
Definition wordaccci (line : list Z) (files : list (list Z)) : outcome (list Z) :=
  if zlen files <? 2 then Fail "not enough input files"
  else
    let! (st, l) := ofold wac_obs files ((wac_empty, line), []) in
    write_results (bytes "Words") (bytes "Misrecognized") l (wcount (wtotal (fst st))) (wmissed (wtotal (fst st))).
End Writing.
