(** The functions that read word accuracy reports, and the programs that read reports, with
    counters that are checked to be longs (as in WideModel). *)
From Coq Require Import String.
From Verif Require Import Base CLib Utf8Model TextModel CharclassModel AccModel ReportModel AccrptModel WacModel
  WacrptModel DoubleModel DistModel CiModel GroupModel WordModel StopModel NonstopModel WideModel.
Local Open Scope Z_scope.
Local Open Scope list_scope.

(** wacrpt.c:95-105 *)
Fixpoint number_rows64 (fuel : nat) (ws : list wac) (total_count : Z) (st : rstate)
  : outcome (list wac * Z * rstate) :=
  let! (r, st) := read_scan scan_two st in
  match r with
  | Some (count, missed) =>
      let! s := cstr (fst st) WAC_OFFSET in
      let total_count := if is_total s then count else total_count in
      let! ws := increment_at64 ws (row_index s) count missed in
      match fuel with
      | O => OutOfFuel
      | Datatypes.S fu => number_rows64 fu ws total_count st
      end
  | None => Ok (ws, total_count, st)
  end.

(** wacrpt.c:89-107 read_numbers *)
Definition read_numbers64 (fuel : nat) (ws : list wac) (st : rstate)
  : outcome (list wac * Z * rstate) :=
  let! (ok, st) := two_lines st in
  if (ok : bool) then number_rows64 fuel ws 0 st else Ok (ws, 0, st).

(** wacrpt.c:116-120 *)
Fixpoint term_rows64 (fuel : nat) (terms : list term) (st : rstate)
  : outcome (list term * rstate) :=
  let! (r, st) := read_scan scan_two st in
  match r with
  | Some (count, missed) =>
      let! s := cstr (fst st) 0 in
      let! line := wr "line" (fst st) (zlen s - 1) 0 in
      let! key := cstr line WAC_OFFSET in
      let! terms := add_term64 terms key count missed in
      match fuel with
      | O => OutOfFuel
      | Datatypes.S fu => term_rows64 fu terms (line, snd st)
      end
  | None => Ok (terms, st)
  end.

(** wacrpt.c:110-121 read_terms *)
Definition read_terms64 (fuel : nat) (terms : list term) (st : rstate)
  : outcome (list term * rstate) :=
  let! (ok, st) := two_lines st in
  if (ok : bool) then term_rows64 fuel terms st else Ok (terms, st).

(** wacrpt.c:140-147 *)
Definition read_words64 (fuel : nat) (words stopwords non_stopwords : Z) (d : wacdata) (st : rstate)
  : outcome (wacdata * rstate) :=
  if 0 <? words then
    let! (ps, _, st) := read_numbers64 fuel (phrase d) st in
    let! (st1, st) := if 0 <? stopwords then read_terms64 fuel (stop_terms d) st
                      else Ok (stop_terms d, st) in
    let! (nt1, st) := if 0 <? non_stopwords then read_terms64 fuel (non_terms d) st
                      else Ok (non_terms d, st) in
    Ok (mkwacdata (wtotal d) (stopword d) (non_stopword d) (distinct d) ps st1 nt1, st)
  else Ok (d, st).

(** wacrpt.c:136-147 *)
Definition read_tables64 (fuel : nat) (words missed : Z) (d : wacdata) (st : rstate)
  : outcome (wacdata * rstate) :=
  let! total := increment_wac64 (wtotal d) words missed in
  let! (sw, stopwords, st) := read_numbers64 fuel (stopword d) st in
  let! (nsw, non_stopwords, st) := read_numbers64 fuel (non_stopword d) st in
  let! (dn, _, st) := read_numbers64 fuel (distinct d) st in
  read_words64 fuel words stopwords non_stopwords
    (mkwacdata total sw nsw dn (phrase d) (stop_terms d) (non_terms d)) st.

(** wacrpt.c:124-152 read_wacrpt *)
Definition read_wacrpt64 (line : list Z) (d : wacdata) (f : list Z)
  : outcome (wacdata * list Z) :=
  let fuel := List.length f in
  let st := (line, f) in
  let! st := need_title WAC_TITLE st in
  let! st := need_divider WAC_DIVIDER st in
  let! (words, st) := need_scan scan_one st in
  let! (missed, st) := need_scan scan_one st in
  let! st := need_line st in
  let! st := need_line st in
  let! (d, st) := read_tables64 fuel words missed d st in
  Ok (d, fst st).

(** wordaccsum.c:33-45 main, on the contents of the files. *)
Definition wordaccsum64 (fmt : Z -> Z -> list Z) (order : list term -> list term)
  (line : list Z) (files : list (list Z)) : outcome (list Z) :=
  if zlen files <? 2 then Fail "not enough input files"
  else
    let! (d, _) := ofold (fun (st : wacdata * list Z) f => read_wacrpt64 (snd st) (fst st) f)
                         files (wac_empty, line) in
    write_wacrpt fmt order d.

(** dist.c:39-40 *)
Fixpoint add_counts64 (fuel : nat) (i : Z) (accuracy : double) (count : Z) (a : list Z) : outcome (list Z) :=
  match fuel with
  | O => OutOfFuel
  | Datatypes.S fuel =>
    if fle (of_int i) accuracy then
      let! x := rd "dist->count[i]" a i in
      let! x := long (is_long (x + count)) (x + count) in
      let! a' := wr "dist->count[i]" a i x in
      add_counts64 fuel (i + 1) accuracy count a'
    else Ok a
  end.

(** dist.c:30-42 update_dist *)
Definition update_dist64 (d : dist) (count missed : Z) : outcome dist :=
  if count =? 0 then Ok d
  else
    let! rt := long (is_long (count - missed)) (count - missed) in
    let accuracy := percentage rt count in
    let! a := add_counts64 (Datatypes.S (List.length (counts d))) 0 accuracy count (counts d) in
    let! total := long (is_long (total_count d + count)) (total_count d + count) in
    Ok (mkdist a total).

(** The differences of two counters; the arguments of update_dist in accdist.c:41-42 and
    wordaccdist.c:42-43, of append_obs in accci.c:41-42 and wordaccci.c:42-43. *)
Definition diff64 (x y : Z) : outcome Z := long (is_long (x - y)) (x - y).

(** accdist.c:35-43 process_file *)
Definition acc_page64 (st : (accdata * list Z) * dist) (f : list Z) : outcome ((accdata * list Z) * dist) :=
  let '((d, line), t) := st in
  let chars := characters d in
  let errs := errors d in
  let! (d, line) := read_accrpt64 line d f in
  let! count := diff64 (characters d) chars in
  let! missed := diff64 (errors d) errs in
  let! t := update_dist64 t count missed in
  Ok ((d, line), t).
(** accdist.c:46-56 main, on the contents of the files. *)
Definition accdist64 (fmt6 : Z -> Z -> list Z) (line : list Z) (files : list (list Z)) : outcome (list Z) :=
  let! (_, t) := ofold acc_page64 files ((acc_empty, line), dist_empty) in
  write_dist fmt6 t.

(** wordaccdist.c:35-44 process_file *)
Definition wac_page64 (st : (wacdata * list Z) * dist) (f : list Z) : outcome ((wacdata * list Z) * dist) :=
  let '((d, line), t) := st in
  let count := wcount (wtotal d) in
  let missed := wmissed (wtotal d) in
  let! (d, line) := read_wacrpt64 line d f in
  let! count := diff64 (wcount (wtotal d)) count in
  let! missed := diff64 (wmissed (wtotal d)) missed in
  let! t := update_dist64 t count missed in
  Ok ((d, line), t).
(** wordaccdist.c:47-57 main, on the contents of the files. *)
Definition wordaccdist64 (fmt6 : Z -> Z -> list Z) (line : list Z) (files : list (list Z)) : outcome (list Z) :=
  let! (_, t) := ofold wac_page64 files ((wac_empty, line), dist_empty) in
  write_dist fmt6 t.

(** ci.c:32-43 append_obs: the list, total.count and total.missed. *)
Definition append_obs64 (l : list obs * Z * Z) (count missed : Z) : outcome (list obs * Z * Z) :=
  let '(l, tc, tm) := l in
  let! tc := long (is_long (tc + count)) (tc + count) in
  let! tm := long (is_long (tm + missed)) (tm + missed) in
  Ok (l ++ [(count, missed)], tc, tm).

(** ci.c:58-62 accuracy *)
Definition accuracy64 (count missed : Z) : outcome double :=
  let! rt := long (is_long (count - missed)) (count - missed) in
  if count =? 0 then UB "division by zero" else Ok (percentage rt count).

(** ci.c:77-83 *)
Fixpoint pseudovalues64 (tc tm n : Z) (ntheta : double) (l : list obs) (sum : double) : outcome (list double * double) :=
  match l with
  | [] => Ok ([], sum)
  | (count, missed) :: l =>
    let! c := diff64 tc count in
    let! m := diff64 tm missed in
    let! theta := accuracy64 c m in
    let j := fsub ntheta (fmul (of_int (n - 1)) theta) in
    let! (js, sum) := pseudovalues64 tc tm n ntheta l (fadd sum theta) in
    Ok (j :: js, sum)
  end.

(** ci.c:65-92 compute_ci, with the totals that append_obs has kept. *)
Definition compute_ci64 (st : list obs * Z * Z) : outcome (double * double) :=
  let '(l, tc, tm) := st in
  if negb (valid_obslist l) then Fail "not enough observations"
  else
    let n := zlen l in
    let! theta := accuracy64 tc tm in
    let ntheta := fmul (of_int n) theta in
    let! (js, sum) := pseudovalues64 tc tm n ntheta l (of_int 0) in
    let total_j := fsub ntheta (fdiv (fmul (of_int (n - 1)) sum) (of_int n)) in
    let squares := fold_left (fun s j => fadd s (fmul (fsub j total_j) (fsub j total_j))) js (of_int 0) in
    let w := fmul c196 (fsqrt (fdiv (fdiv squares (of_int (n - 1))) (of_int n))) in
    Ok (fmax (of_int 0) (fmin (of_int 100) (fsub total_j w)),
        fmax (of_int 0) (fmin (of_int 100) (fadd total_j w))).

(** accci.c:46-57, wordaccci.c:47-58 write_results *)
Definition ci_results64 (fmt14 : Z -> Z -> list Z) (fmtd : double -> list Z) (items missing : list Z)
  (st : list obs * Z * Z) (count missed : Z) : outcome (list Z) :=
  let! (lower, upper) := compute_ci64 st in
  let! rt := diff64 count missed in
  Ok (dec14 (zlen (fst (fst st))) ++ bytes "   Observations" ++ [10] ++
      dec14 count ++ bytes "   " ++ items ++ [10] ++
      dec14 missed ++ bytes "   " ++ missing ++ [10] ++
      fmt14 rt count ++ bytes "%  Accuracy" ++ [10] ++
      fmtd lower ++ bytes "%," ++ fmtd upper ++ bytes "%  Approximate 95% Confidence Interval for Accuracy" ++ [10]).

(** accci.c:35-43 process_file *)
Definition acc_obs64 (st : (accdata * list Z) * (list obs * Z * Z)) (f : list Z)
  : outcome ((accdata * list Z) * (list obs * Z * Z)) :=
  let '((d, line), l) := st in
  let chars := characters d in
  let errs := errors d in
  let! (d, line) := read_accrpt64 line d f in
  let! count := diff64 (characters d) chars in
  let! missed := diff64 (errors d) errs in
  let! l := append_obs64 l count missed in
  Ok ((d, line), l).
(** accci.c:60-72 main, on the contents of the files. *)
Definition accci64 (fmt14 : Z -> Z -> list Z) (fmtd : double -> list Z) (line : list Z) (files : list (list Z))
  : outcome (list Z) :=
  if zlen files <? 2 then Fail "not enough input files"
  else
    let! (st, l) := ofold acc_obs64 files ((acc_empty, line), ([], 0, 0)) in
    ci_results64 fmt14 fmtd (bytes "Characters") (bytes "Errors") l (characters (fst st)) (errors (fst st)).

(** wordaccci.c:35-44 process_file *)
Definition wac_obs64 (st : (wacdata * list Z) * (list obs * Z * Z)) (f : list Z)
  : outcome ((wacdata * list Z) * (list obs * Z * Z)) :=
  let '((d, line), l) := st in
  let count := wcount (wtotal d) in
  let missed := wmissed (wtotal d) in
  let! (d, line) := read_wacrpt64 line d f in
  let! count := diff64 (wcount (wtotal d)) count in
  let! missed := diff64 (wmissed (wtotal d)) missed in
  let! l := append_obs64 l count missed in
  Ok ((d, line), l).
(** wordaccci.c:61-73 main, on the contents of the files. *)
Definition wordaccci64 (fmt14 : Z -> Z -> list Z) (fmtd : double -> list Z) (line : list Z) (files : list (list Z))
  : outcome (list Z) :=
  if zlen files <? 2 then Fail "not enough input files"
  else
    let! (st, l) := ofold wac_obs64 files ((wac_empty, line), ([], 0, 0)) in
    ci_results64 fmt14 fmtd (bytes "Words") (bytes "Misrecognized") l
      (wcount (wtotal (fst st))) (wmissed (wtotal (fst st))).

(** groupacc.c:37-46 write_line *)
Definition write_line64 (fmt8 : Z -> Z -> list Z) (count missed : Z) : outcome (list Z) :=
  let! _ := diff64 count missed in Ok (GroupModel.write_line fmt8 count missed).

(** groupacc.c:58-71 *)
Fixpoint write_chars64 (uc : unicode_data) (fmt8 : Z -> Z -> list Z) (d : accdata) (vs : list Z)
  (total_count total_missed : Z) : outcome (list Z * (Z * Z)) :=
  match vs with
  | [] => Ok ([], (total_count, total_missed))
  | v :: vs =>
    if negb ((0 <=? v) && (v <? NUM_CHARVALUES)) then UB "small_class[c->value]"
    else if (0 <? ccount (small d v)) && negb (v =? BLANK) && negb (v =? NEWLINE) then
      let count := ccount (small d v) in
      let missed := cmissed (small d v) in
      let! row := write_line64 fmt8 count missed in
      let! s := char_string uc v in
      let! total_count := long (is_long (total_count + count)) (total_count + count) in
      let! total_missed := long (is_long (total_missed + missed)) (total_missed + missed) in
      let! (out, totals) := write_chars64 uc fmt8 d vs total_count total_missed in
      Ok (row ++ bytes "{" ++ s ++ bytes "}" ++ [10] ++ out, totals)
    else write_chars64 uc fmt8 d vs total_count total_missed
  end.

(** groupacc.c:49-73 write_report *)
Definition write_report64 (uc : unicode_data) (fmt8 : Z -> Z -> list Z) (d : accdata) (vs : list Z) : outcome (list Z) :=
  let! (out, totals) := write_chars64 uc fmt8 d vs 0 0 in
  let! row := write_line64 fmt8 (fst totals) (snd totals) in
  Ok (bytes "   Count   Missed   %Right" ++ [10] ++ out ++ row ++ bytes "Total" ++ [10]).

(** groupacc.c:76-87 main, on the contents of the files. *)
Definition groupacc64 (uc : unicode_data) (junk junk4 : list Z) (fmt8 : Z -> Z -> list Z)
  (line : list Z) (files : list (list Z)) : outcome (list Z) :=
  if (zlen files <? 2) || (3 <? zlen files) then Fail "invalid number of files"
  else
    let! (text, _) := read_text uc junk junk4 group_opt [] (nth 0 files []) in
    let! (d, _) := read_accrpt64 line acc_empty (nth 1 files []) in
    write_report64 uc fmt8 d (map value text).

(** nonstopacc.c:39-50 find_stopword *)
Definition find_stopword64 (table : list term) (string : list Z) (cm : Z * Z) : outcome (Z * Z) :=
  match find (fun t => streq (tkey t) string) table with
  | Some t =>
      let! count := diff64 (fst cm) (wcount (twac t)) in
      let! missed := diff64 (snd cm) (wmissed (twac t)) in
      Ok (count, missed)
  | None => Ok cm
  end.

(** nonstopacc.c:53-57 write_line *)
Definition stop_line64 (fmt6 : Z -> Z -> list Z) (linenum : Z) (cm : Z * Z) : outcome (list Z) :=
  let! _ := diff64 (fst cm) (snd cm) in Ok (NonstopModel.write_line fmt6 linenum cm).

(** nonstopacc.c:68-75 *)
Fixpoint stop_words64 (fmt6 : Z -> Z -> list Z) (d : wacdata) (words : list (list Z)) (linenum : Z) (cm : Z * Z)
  : outcome (list Z) :=
  match words with
  | [] => Ok []
  | word :: words =>
    let! cm := find_stopword64 (stop_terms d) word cm in
    let! cm := find_stopword64 (non_terms d) word cm in
    if fst cm =? 0 then Ok []
    else
      let! row := stop_line64 fmt6 linenum cm in
      let! next := long (is_long (linenum + 1)) (linenum + 1) in
      let! rows := stop_words64 fmt6 d words next cm in
      Ok (row ++ rows)
  end.

(** nonstopacc.c:60-76 write_results *)
Definition stop_results64 (fmt6 : Z -> Z -> list Z) (d : wacdata) (words : list (list Z)) : outcome (list Z) :=
  let cm := (wcount (wtotal d), wmissed (wtotal d)) in
  if fst cm =? 0 then Ok []
  else
    let! row := stop_line64 fmt6 0 cm in
    let! rows := stop_words64 fmt6 d words 1 cm in
    Ok (row ++ rows).

(** nonstopacc.c:79-91 main, on the contents of the files. *)
Definition nonstopacc64 (fmt6 : Z -> Z -> list Z) (uc : unicode_data) (NFC : list Z -> list Z) (junk junk4 : list Z)
  (line : list Z) (files : list (list Z)) : outcome (list Z) :=
  match files with
  | [stopfile; report] =>
    let! (text, _) := read_text uc junk junk4 nonstop_opt [] stopfile in
    let! words := find_words uc NFC [] (map value text) in
    let! (d, _) := read_wacrpt64 line wac_empty report in
    stop_results64 fmt6 d words
  | _ => Fail "invalid number of files"
  end.
