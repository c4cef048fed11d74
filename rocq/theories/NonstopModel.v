(** Model of nonstopacc.c: the accuracy of the words left when stopwords are removed. *)
From Coq Require Import String.
From Verif Require Import Base CLib Utf8Model TextModel WordModel StopModel ReportModel WacModel WacrptModel.
Local Open Scope Z_scope.
Local Open Scope list_scope.

(** nonstopacc.c:39-50 find_stopword; the table is the list of its entries (C04), and [count]
    and [missed] are static. *)
Definition find_stopword (table : list term) (string : list Z) (cm : Z * Z) : Z * Z :=
  match find (fun t => streq (tkey t) string) table with
  | Some t => (fst cm - wcount (twac t), snd cm - wmissed (twac t))
  | None => cm
  end.

Section Writing.
(** printf("%6.2f", 100.0 * n / d) *)
Variable fmt6 : Z -> Z -> list Z.

(** nonstopacc.c:53-57 write_line *)
Definition write_line (linenum : Z) (cm : Z * Z) : list Z :=
  pad 32 3 (dec linenum) ++ bytes " " ++ fmt6 (fst cm - snd cm) (fst cm) ++ [10].

(** nonstopacc.c:68-75: the loop over the words. *)
Fixpoint write_words (d : wacdata) (words : list (list Z)) (linenum : Z) (cm : Z * Z) : list Z :=
  match words with
  | [] => []
  | word :: words =>
    let cm := find_stopword (non_terms d) word (find_stopword (stop_terms d) word cm) in
    if fst cm =? 0 then []
    else write_line linenum cm ++ write_words d words (linenum + 1) cm
  end.

(** nonstopacc.c:60-76 write_results: the standard output. *)
Definition write_results (d : wacdata) (words : list (list Z)) : list Z :=
  let cm := (wcount (wtotal d), wmissed (wtotal d)) in
  if fst cm =? 0 then [] else write_line 0 cm ++ write_words d words 1 cm.

(** utf8proc, and the initial contents of local buffers in read_text. *)
Variable uc : unicode_data.
Variable NFC : list Z -> list Z.
Variables junk junk4 : list Z.

(** nonstopacc.c:29 textopt *)
Definition nonstop_opt : textopt := mkopt false false 0 true true.

(** nonstopacc.c:79-91 main, on the contents of the files; [line] is the buffer of
    read_wacrpt. *)
Definition nonstopacc (line : list Z) (files : list (list Z)) : outcome (list Z) :=
  match files with
  | [stopfile; report] =>
    let! (text, _) := read_text uc junk junk4 nonstop_opt [] stopfile in
    let! words := find_words uc NFC [] (map value text) in
    let! (d, _) := read_wacrpt line wac_empty report in
    Ok (write_results d words)
  | _ => Fail "invalid number of files"
  end.
End Writing.
