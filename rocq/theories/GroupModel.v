(** Model of groupacc.c: the accuracy of the characters of a group. *)
From Coq Require Import String.
From Verif Require Import Base CLib Utf8Model TextModel CharclassModel AccModel ReportModel AccrptModel.
Local Open Scope Z_scope.
Local Open Scope list_scope.

Section Writing.
(** utf8proc, and the initial contents of local buffers in read_text. *)
Variable uc : unicode_data.
Variables junk junk4 : list Z.
(** printf("%8.2f", 100.0 * n / d) *)
Variable fmt8 : Z -> Z -> list Z.

(** groupacc.c:37-46 write_line *)
Definition write_line (count missed : Z) : list Z :=
  pad 32 8 (dec count) ++ bytes " " ++ pad 32 8 (dec missed) ++ bytes " " ++
  if count =? 0 then bytes "  ------   " else fmt8 (count - missed) count ++ bytes "   ".

(** groupacc.c:58-71: the loop over the text; the result is what is written and the totals. *)
Fixpoint write_chars (d : accdata) (vs : list Z) (total_count total_missed : Z) : outcome (list Z * (Z * Z)) :=
  match vs with
  | [] => Ok ([], (total_count, total_missed))
  | v :: vs =>
    if negb ((0 <=? v) && (v <? NUM_CHARVALUES)) then UB "small_class[c->value]"
    else if (0 <? ccount (small d v)) && negb (v =? BLANK) && negb (v =? NEWLINE) then
      let count := ccount (small d v) in
      let missed := cmissed (small d v) in
      let! s := char_string uc v in
      let! (out, totals) := write_chars d vs (total_count + count) (total_missed + missed) in
      Ok (write_line count missed ++ bytes "{" ++ s ++ bytes "}" ++ [10] ++ out, totals)
    else write_chars d vs total_count total_missed
  end.

(** groupacc.c:49-73 write_report: the contents of the file. *)
Definition write_report (d : accdata) (vs : list Z) : outcome (list Z) :=
  let! (out, totals) := write_chars d vs 0 0 in
  Ok (bytes "   Count   Missed   %Right" ++ [10] ++ out ++
      write_line (fst totals) (snd totals) ++ bytes "Total" ++ [10]).

(** groupacc.c:29 textopt *)
Definition group_opt : textopt := mkopt false true 0 true false.

(** groupacc.c:76-87 main, on the contents of the files; a third argument only names the file
    to be written; [line] is the buffer of read_accrpt. *)
Definition groupacc (line : list Z) (files : list (list Z)) : outcome (list Z) :=
  if (zlen files <? 2) || (3 <? zlen files) then Fail "invalid number of files"
  else
    let! (text, _) := read_text uc junk junk4 group_opt [] (nth 0 files []) in
    let! (d, _) := read_accrpt line acc_empty (nth 1 files []) in
    write_report d (map value text).
End Writing.
