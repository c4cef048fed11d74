(** Model of dist.c, accdist.c and wordaccdist.c: the distribution of accuracies. *)
From Coq Require Import String.
From Verif Require Import Base CLib Utf8Model AccModel ReportModel AccrptModel WacModel WacrptModel DoubleModel.
Local Open Scope Z_scope.
Local Open Scope list_scope.

(** dist.h:31-37 Dist *)
Record dist := mkdist { counts : list Z; total_count : Z }.
Definition dist_empty : dist := mkdist (repeat 0 101) 0.

(** dist.c:39-40: for (i = 0; accuracy >= i; i++) dist->count[i] += count. *)
Fixpoint add_counts (fuel : nat) (i : Z) (accuracy : double) (count : Z) (a : list Z) : outcome (list Z) :=
  match fuel with
  | O => OutOfFuel
  | Datatypes.S fuel =>
    if fle (of_int i) accuracy then
      let! x := rd "dist->count[i]" a i in
      let! a' := wr "dist->count[i]" a i (x + count) in
      add_counts fuel (i + 1) accuracy count a'
    else Ok a
  end.

(** dist.c:30-42 update_dist *)
Definition update_dist (d : dist) (count missed : Z) : outcome dist :=
  if count =? 0 then Ok d
  else
    let accuracy := percentage (count - missed) count in
    let! a := add_counts (Datatypes.S (List.length (counts d))) 0 accuracy count (counts d) in
    Ok (mkdist a (total_count d + count)).

Section Writing.
(** printf("%6.2f", 100.0 * n / d) *)
Variable fmt6 : Z -> Z -> list Z.

(** dist.c:45-58 write_dist: the standard output. *)
Definition write_dist (d : dist) : outcome (list Z) :=
  if total_count d =? 0 then Ok []
  else oconcat (fun i => let! c := rd "dist->count[i]" (counts d) i in
                         Ok (pad 32 3 (dec i) ++ bytes " " ++ fmt6 c (total_count d) ++ [10]))
               (zrange 0 101).

(** accdist.c:35-43 process_file; accdata, the buffer of read_line, and dist are static. *)
Definition acc_page (st : (accdata * list Z) * dist) (f : list Z) : outcome ((accdata * list Z) * dist) :=
  let '((d, line), t) := st in
  let chars := characters d in
  let errs := errors d in
  let! (d, line) := read_accrpt line d f in
  let! t := update_dist t (characters d - chars) (errors d - errs) in
  Ok ((d, line), t).

(** accdist.c:46-56 main, on the contents of the files. *)
Definition accdist (line : list Z) (files : list (list Z)) : outcome (list Z) :=
  let! (_, t) := ofold acc_page files ((acc_empty, line), dist_empty) in
  write_dist t.

(** wordaccdist.c:35-44 process_file *)
Definition wac_page (st : (wacdata * list Z) * dist) (f : list Z) : outcome ((wacdata * list Z) * dist) :=
  let '((d, line), t) := st in
  let count := wcount (wtotal d) in
  let missed := wmissed (wtotal d) in
  let! (d, line) := read_wacrpt line d f in
  let! t := update_dist t (wcount (wtotal d) - count) (wmissed (wtotal d) - missed) in
  Ok ((d, line), t).

(** wordaccdist.c:47-57 main, on the contents of the files. *)
Definition wordaccdist (line : list Z) (files : list (list Z)) : outcome (list Z) :=
  let! (_, t) := ofold wac_page files ((wac_empty, line), dist_empty) in
  write_dist t.
End Writing.
