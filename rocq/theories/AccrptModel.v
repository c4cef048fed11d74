(** Model of accrpt.c (reading and writing accuracy reports) and accsum.c. *)
From Coq Require Import String.
From Verif Require Import Base CLib Utf8Model TextModel CharclassModel CompareModel SortModel
  AccModel ReportModel.
Local Open Scope Z_scope.
Local Open Scope list_scope.

(** accrpt.c:37-42, with OCREVAL_VERSION "7.0" (ocreval_version.h). *)
Definition ACC_TITLE : list Z := bytes "ocreval Accuracy Report Version 7.0" ++ [10].
Definition ACC_DIVIDER : list Z := bytes "-----------------------------------" ++ [10].
Definition CLASS_OFFSET : Z := 29.
Definition CONF_OFFSET : Z := 20.

(** text.h: INVALID_CHARVALUE is (uint32_t) -1. *)
Definition INVALID_CHARVALUE : Z := 4294967295.

(** accrpt.c:205-210: the end of read_char. *)
Definition char_end (buf : list Z) (p v : Z) : outcome Z :=
  let! c := rd "line" buf p in
  if c =? 125 then Ok v else Ok INVALID_CHARVALUE.

(** accrpt.c:140-211 read_char on the buffer from offset [off]. *)
Definition read_char (buf : list Z) (off : Z) : outcome Z :=
  let! c0 := rd "line" buf off in
  if negb (c0 =? 123) then Ok INVALID_CHARVALUE
  else
    let p := off + 1 in
    let! c := rd "line" buf p in
    if c =? 60 then
      let! c1 := rd "line" buf (p + 1) in
      if c1 =? 125 then char_end buf (p + 1) 60
      else
        let! newline := if c1 =? 92
                        then let! c2 := rd "line" buf (p + 2) in Ok (c2 =? 110)
                        else Ok false in
        let! r := if newline then Ok (Some (10, p + 3))
                  else
                    let p := p + 1 in
                    let! s := cstr buf p in
                    match scan_hex s with
                    | Some (v, rest) => Ok (Some (v, p + (zlen s - zlen rest)))
                    | None => Ok None
                    end in
        match r with
        | None => Ok INVALID_CHARVALUE
        | Some (v, p) =>
            let! c := rd "line" buf p in
            if c =? 62 then char_end buf (p + 1) v else Ok INVALID_CHARVALUE
        end
    else
      let! (n, v) := iterate (skipn (Z.to_nat p) buf) 4 in
      if n <? 1 then Ok INVALID_CHARVALUE
      else
        let p := p + n in
        let! follow := if v =? DOTTED_CIRCLE
                       then let! c := rd "line" buf p in Ok (negb (c =? 125))
                       else Ok false in
        if (follow : bool) then
          let! (n, v) := iterate (skipn (Z.to_nat p) buf) 4 in
          if n <? 2 then Ok INVALID_CHARVALUE else char_end buf (p + n) v
        else char_end buf p v.

(** accrpt.c:98-128: the sums formed by read_value and read_ops. *)
Definition four_ops (x : Z * Z * Z * Z) : accops := let '(a, b, c, d) := x in mkops a b c d.

(** accrpt.c:235: while (read_line(f) && line[0] != NEWLINE); *)
Fixpoint skip_to_blank (fuel : nat) (st : rstate) : outcome rstate :=
  let! (ok, st) := read_line st in
  if ok then
    let! c := rd "line" (fst st) 0 in
    if c =? NEWLINE then Ok st
    else match fuel with O => OutOfFuel | S fu => skip_to_blank fu st end
  else Ok st.

(** accrpt.c:237-241: the confusion rows. *)
Fixpoint conf_rows (fuel : nat) (d : accdata) (st : rstate) : outcome (accdata * rstate) :=
  let! (r, st) := read_scan scan_two st in
  match r with
  | Some (v1, v2) =>
      let! key := cstr (fst st) CONF_OFFSET in
      match fuel with
      | O => OutOfFuel
      | S fu => conf_rows fu (add_conf d key v1 v2) st
      end
  | None => Ok (d, st)
  end.

(** accrpt.c:243-249: the per-character rows. *)
Fixpoint class_rows (fuel : nat) (d : accdata) (st : rstate) : outcome (accdata * rstate) :=
  let! (r, st) := read_scan scan_two st in
  match r with
  | Some (v1, v2) =>
      let! v3 := read_char (fst st) CLASS_OFFSET in
      if v3 =? INVALID_CHARVALUE then Fail "invalid character in"
      else
        let! d := add_class d v3 v1 v2 in
        match fuel with
        | O => OutOfFuel
        | S fu => class_rows fu d st
        end
  | None => Ok (d, st)
  end.

(** accrpt.c:214-254 read_accrpt: [line] is the static buffer, [f] the contents of the file.
    Returns the updated data and the buffer. *)
Definition read_accrpt (line : list Z) (d : accdata) (f : list Z)
  : outcome (accdata * list Z) :=
  let fuel := List.length f in
  let st := (line, f) in
  let! st := need_title ACC_TITLE st in
  let! st := need_divider ACC_DIVIDER st in
  let! (ch, st) := need_scan scan_one st in
  let! (er, st) := need_scan scan_one st in
  let! st := need_line st in
  let! st := need_line st in
  let! (re, st) := need_scan scan_one st in
  let! (su, st) := need_scan scan_one st in
  let! (fm, st) := need_scan scan_one st in
  let! st := need_line st in
  let! st := need_line st in
  let! st := need_line st in
  let! st := need_line st in
  let! (mo, st) := need_scan scan_four st in
  let! (uo, st) := need_scan scan_four st in
  let! (to, st) := need_scan scan_four st in
  let! st := need_line st in
  let d := with_ops (add_counts d ch er re su fm) (four_ops mo) (four_ops uo) (four_ops to) in
  let! st := skip_to_blank fuel st in
  let! (d, st) := if 0 <? er then
                    let! (ok, st) := read_line st in
                    if (ok : bool) then conf_rows fuel d st else Ok (d, st)
                  else Ok (d, st) in
  let! (d, st) := if 0 <? ch then
                    let! (ok, st) := read_line st in
                    if (ok : bool) then class_rows fuel d st else Ok (d, st)
                  else Ok (d, st) in
  Ok (d, fst st).

Section Writing.
Variable uc : unicode_data.
(** printf("%8.2f", 100.0 * n / d) for d <> 0. *)
Variable fmt : Z -> Z -> list Z.
(** The order in which table_in_array lists the entries of the table (C05: a permutation). *)
Variable order : list conf -> list conf.

(** accrpt.c:257-263 write_value *)
Definition write_value (v : Z) (s : list Z) : list Z := dec8 v ++ bytes "   " ++ s ++ [10].

(** accrpt.c:266-274 write_pct *)
Definition write_pct (n d : Z) : list Z := if d =? 0 then bytes "  ------" else fmt n d.

(** accrpt.c:277-284 write_ops *)
Definition write_ops (o : accops) (s : list Z) : list Z :=
  dec8 (ins o) ++ bytes " " ++ dec8 (subst o) ++ bytes " " ++ dec8 (del o) ++ bytes " " ++
  dec8 (errs o) ++ bytes "   " ++ s ++ [10].

(** accrpt.c:287-303 write_class; [s] is the class name or the bracketed character. *)
Definition write_class (c : accclass) (s : list Z) : list Z :=
  dec8 (ccount c) ++ bytes " " ++ dec8 (cmissed c) ++ bytes " " ++
  write_pct (ccount c - cmissed c) (ccount c) ++ bytes "   " ++ s ++ [10].

(** accrpt.c:306-311 write_conf *)
Definition write_conf (c : conf) : list Z :=
  dec8 (cerrors c) ++ bytes " " ++ dec8 (cmarked c) ++ bytes "   " ++ ckey c.

(** accrpt.c:351-353: the row of a class. *)
Definition write_large (d : accdata) (i : Z) : outcome (list Z) :=
  if 0 <? ccount (large d i)
  then let! n := charclass_name i in Ok (write_class (large d i) n) else Ok [].
(** accrpt.c:366-368: the row of a character. *)
Definition write_small (d : accdata) (i : Z) : outcome (list Z) :=
  if 0 <? ccount (small d i)
  then let! s := char_string uc i in
       Ok (write_class (small d i) (bytes "{" ++ s ++ bytes "}"))
  else Ok [].

(** accrpt.c:325-371 write_accrpt: the contents of the file. *)
Definition write_accrpt (d : accdata) : outcome (list Z) :=
  let head :=
    ACC_TITLE ++ ACC_DIVIDER ++
    write_value (characters d) (bytes "Characters") ++
    write_value (errors d) (bytes "Errors") ++
    write_pct (characters d - errors d) (characters d) ++ bytes "%  Accuracy" ++ [10] ++ [10] ++
    write_value (rejects d) (bytes "Reject Characters") ++
    write_value (suspects d) (bytes "Suspect Markers") ++
    write_value (false_marks d) (bytes "False Marks") ++
    write_pct (rejects d + suspects d) (characters d) ++ bytes "%  Characters Marked" ++ [10] ++
    write_pct (characters d - errs (unmarked_ops d)) (characters d) ++
      bytes "%  Accuracy After Correction" ++ [10] ++
    [10] ++ bytes "     Ins    Subst      Del   Errors" ++ [10] ++
    write_ops (marked_ops d) (bytes "Marked") ++
    write_ops (unmarked_ops d) (bytes "Unmarked") ++
    write_ops (total_ops d) (bytes "Total") ++
    [10] ++ bytes "   Count   Missed   %Right" ++ [10] in
  let! classes := oconcat (write_large d) (zrange 0 (Z.to_nat MAX_CHARCLASSES)) in
  let total := write_class (total_class d) (bytes "Total") in
  let! confs := if 0 <? errors d then
                  let a := order (conftable d) in
                  let! a := sort compare_conf (zlen a) a in
                  Ok ([10] ++ bytes "  Errors   Marked   Correct-Generated" ++ [10] ++
                      flat_map write_conf a)
                else Ok [] in
  let! chars := if 0 <? characters d then
                  let! rows := oconcat (write_small d) (zrange 0 (Z.to_nat NUM_CHARVALUES)) in
                  Ok ([10] ++ bytes "   Count   Missed   %Right" ++ [10] ++ rows)
                else Ok [] in
  Ok (head ++ classes ++ total ++ confs ++ chars).

(** accsum.c:33-45 main, on the contents of the files. *)
Definition accsum (line : list Z) (files : list (list Z)) : outcome (list Z) :=
  if zlen files <? 2 then Fail "not enough input files"
  else
    let! (d, _) := ofold (fun (st : accdata * list Z) f => read_accrpt (snd st) (fst st) f)
                         files (acc_empty, line) in
    write_accrpt d.
End Writing.
