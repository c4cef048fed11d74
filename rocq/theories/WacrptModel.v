(** Model of wacrpt.c (reading and writing word accuracy reports) and wordaccsum.c. *)
From Coq Require Import String.
From Verif Require Import Base CLib CompareModel SortModel ReportModel AccrptModel WacModel.
Local Open Scope Z_scope.
Local Open Scope list_scope.

(** wacrpt.c:29-33, with OCREVAL_VERSION "7.0" (ocreval_version.h). *)
Definition WAC_TITLE : list Z := bytes "ocreval Word Accuracy Report Version 7.0" ++ [10].
Definition WAC_DIVIDER : list Z := bytes "----------------------------------------" ++ [10].
Definition WAC_TOTAL : list Z := bytes " Total" ++ [10].
Definition WAC_OFFSET : Z := 29.

(** wacrpt.c:97-103: the index that the text [s] at the end of a row stands for. *)
Definition row_index (s : list Z) : Z :=
  let index := atoi s in
  if index =? 0 then if streq s WAC_TOTAL then index else MAX_OCCURRENCES + 1
  else index.
(** wacrpt.c:98-100: whether this is the row of the totals. *)
Definition is_total (s : list Z) : bool := (atoi s =? 0) && streq s WAC_TOTAL.

(** wacrpt.c:95-105: the rows of a table of figures. *)
Fixpoint number_rows (fuel : nat) (ws : list wac) (total_count : Z) (st : rstate)
  : outcome (list wac * Z * rstate) :=
  let! (r, st) := read_scan scan_two st in
  match r with
  | Some (count, missed) =>
      let! s := cstr (fst st) WAC_OFFSET in
      let total_count := if is_total s then count else total_count in
      let! ws := increment_at ws (row_index s) count missed in
      match fuel with
      | O => OutOfFuel
      | S fu => number_rows fu ws total_count st
      end
  | None => Ok (ws, total_count, st)
  end.

(** read_line(f) && read_line(f) *)
(* Models wacrpt.c:94 and 115 *)
Definition two_lines (st : rstate) : outcome (bool * rstate) :=
  let! (ok, st) := read_line st in if (ok : bool) then read_line st else Ok (false, st).

(** wacrpt.c:89-107 read_numbers: the array, the number in the row of the totals, the state. *)
Definition read_numbers (fuel : nat) (ws : list wac) (st : rstate)
  : outcome (list wac * Z * rstate) :=
  let! (ok, st) := two_lines st in
  if (ok : bool) then number_rows fuel ws 0 st else Ok (ws, 0, st).

(** wacrpt.c:116-120: the rows of a table of words. *)
Fixpoint term_rows (fuel : nat) (terms : list term) (st : rstate)
  : outcome (list term * rstate) :=
  let! (r, st) := read_scan scan_two st in
  match r with
  | Some (count, missed) =>
      let! s := cstr (fst st) 0 in
      let! line := wr "line" (fst st) (zlen s - 1) 0 in
      let! key := cstr line WAC_OFFSET in
      let terms := add_term terms key count missed in
      match fuel with
      | O => OutOfFuel
      | S fu => term_rows fu terms (line, snd st)
      end
  | None => Ok (terms, st)
  end.

(** wacrpt.c:110-121 read_terms *)
Definition read_terms (fuel : nat) (terms : list term) (st : rstate)
  : outcome (list term * rstate) :=
  let! (ok, st) := two_lines st in
  if (ok : bool) then term_rows fuel terms st else Ok (terms, st).

(** wacrpt.c:140-147: the tables that only a report with words has. *)
Definition read_words (fuel : nat) (words stopwords non_stopwords : Z) (d : wacdata) (st : rstate)
  : outcome (wacdata * rstate) :=
  if 0 <? words then
    let! (ps, _, st) := read_numbers fuel (phrase d) st in
    let! (st1, st) := if 0 <? stopwords then read_terms fuel (stop_terms d) st
                      else Ok (stop_terms d, st) in
    let! (nt1, st) := if 0 <? non_stopwords then read_terms fuel (non_terms d) st
                      else Ok (non_terms d, st) in
    Ok (mkwacdata (wtotal d) (stopword d) (non_stopword d) (distinct d) ps st1 nt1, st)
  else Ok (d, st).

(** wacrpt.c:136-147: what follows the heading. *)
Definition read_tables (fuel : nat) (words missed : Z) (d : wacdata) (st : rstate)
  : outcome (wacdata * rstate) :=
  let total := increment_wac (wtotal d) words missed in
  let! (sw, stopwords, st) := read_numbers fuel (stopword d) st in
  let! (nsw, non_stopwords, st) := read_numbers fuel (non_stopword d) st in
  let! (dn, _, st) := read_numbers fuel (distinct d) st in
  read_words fuel words stopwords non_stopwords
    (mkwacdata total sw nsw dn (phrase d) (stop_terms d) (non_terms d)) st.

(** wacrpt.c:124-152 read_wacrpt: [line] is the static buffer, [f] the contents of the file.
    Returns the updated data and the buffer. *)
Definition read_wacrpt (line : list Z) (d : wacdata) (f : list Z)
  : outcome (wacdata * list Z) :=
  let fuel := List.length f in
  let st := (line, f) in
  let! st := need_title WAC_TITLE st in
  let! st := need_divider WAC_DIVIDER st in
  let! (words, st) := need_scan scan_one st in
  let! (missed, st) := need_scan scan_one st in
  let! st := need_line st in
  let! st := need_line st in
  let! (d, st) := read_tables fuel words missed d st in
  Ok (d, fst st).

(** "%2d" *)
(* Models wacrpt.c:196 and 201 *)
Definition dec2 (n : Z) : list Z := pad 32 2 (dec n).

(** wacrpt.c:211-215 compare_term *)
Definition compare_words (t1 t2 : term) : Z := ustrcmp (tkey t1) (tkey t2).

Section Writing.
(** printf("%8.2f", 100.0 * n / d) for d <> 0. *)
Variable fmt : Z -> Z -> list Z.
(** The order in which table_in_array lists the entries of a table (C05: a permutation). *)
Variable order : list term -> list term.

(** wacrpt.c:155-163 write_pct *)
Definition wac_pct (w : wac) : list Z := write_pct fmt (wcount w - wmissed w) (wcount w).

(** wacrpt.c:166-178 write_wac: a row without its last column, and the heading. *)
Definition write_wac (w : wac) : list Z :=
  dec8 (wcount w) ++ bytes " " ++ dec8 (wmissed w) ++ bytes " " ++ wac_pct w ++ bytes "   ".
Definition wac_heading : list Z := bytes "   Count   Missed   %Right   ".

(** wacrpt.c:193-197 *)
Definition write_number (ws : list wac) (i : Z) : outcome (list Z) :=
  let! w := rd "wac[i]" ws i in
  if 0 <? wcount w then Ok (write_wac w ++ bytes "    " ++ dec2 i ++ [10]) else Ok [].

(** wacrpt.c:181-208 write_numbers *)
Definition write_numbers (ws : list wac) (limit : Z) (title : list Z) (excess total : bool)
  : outcome (list Z) :=
  let! rows := oconcat (write_number ws) (zrange 1 (Z.to_nat limit)) in
  let! more :=
    if excess then
      let! w := rd "wac[limit + 1]" ws (limit + 1) in
      if 0 <? wcount w then Ok (write_wac w ++ bytes "   >" ++ dec2 limit ++ [10]) else Ok []
    else Ok [] in
  let! last := if total then let! w := rd "wac[0]" ws 0 in Ok (write_wac w ++ WAC_TOTAL)
               else Ok [] in
  Ok ([10] ++ title ++ [10] ++ wac_heading ++
      (if excess then bytes "Occurs" else bytes "Length") ++ [10] ++ rows ++ more ++ last).

(** wacrpt.c:218-234 write_terms *)
Definition write_term (t : term) : list Z := write_wac (twac t) ++ tkey t ++ [10].
Definition write_terms (terms : list term) (title : list Z) : outcome (list Z) :=
  let a := order terms in
  let! a := sort compare_words (zlen a) a in
  Ok ([10] ++ title ++ [10] ++ wac_heading ++ [10] ++ flat_map write_term a).

(** wacrpt.c:254-262 *)
Definition write_words (d : wacdata) : outcome (list Z) :=
  if 0 <? wcount (wtotal d) then
    let! ps := write_numbers (phrase d) MAX_PHRASELENGTH (bytes "Phrases") false false in
    let! sw := rd "stopword[0]" (stopword d) 0 in
    let! ss := if 0 <? wcount sw then write_terms (stop_terms d) (bytes "Stopwords") else Ok [] in
    let! nsw := rd "non_stopword[0]" (non_stopword d) 0 in
    let! ns := if 0 <? wcount nsw then write_terms (non_terms d) (bytes "Non-stopwords")
               else Ok [] in
    Ok (ps ++ ss ++ ns)
  else Ok [].

(** wacrpt.c:237-264 write_wacrpt: the contents of the file. *)
Definition write_wacrpt (d : wacdata) : outcome (list Z) :=
  let head :=
    WAC_TITLE ++ WAC_DIVIDER ++
    write_value (wcount (wtotal d)) (bytes "Words") ++
    write_value (wmissed (wtotal d)) (bytes "Misrecognized") ++
    wac_pct (wtotal d) ++ bytes "%  Accuracy" ++ [10] in
  let! sw := write_numbers (stopword d) MAX_WORDLENGTH (bytes "Stopwords") false true in
  let! nsw := write_numbers (non_stopword d) MAX_WORDLENGTH (bytes "Non-stopwords") false true in
  let! dn := write_numbers (distinct d) MAX_OCCURRENCES (bytes "Distinct Non-stopwords") true true in
  let! words := write_words d in
  Ok (head ++ sw ++ nsw ++ dn ++ words).

(** wordaccsum.c:33-45 main, on the contents of the files. *)
Definition wordaccsum (line : list Z) (files : list (list Z)) : outcome (list Z) :=
  if zlen files <? 2 then Fail "not enough input files"
  else
    let! (d, _) := ofold (fun (st : wacdata * list Z) f => read_wacrpt (snd st) (fst st) f)
                         files (wac_empty, line) in
    write_wacrpt d.
End Writing.
