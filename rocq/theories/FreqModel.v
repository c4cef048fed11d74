(** Model of wordfreq.c: the frequencies of the words in texts. *)
From Coq Require Import String.
From Verif Require Import Base CLib Utf8Model TextModel SortModel CompareModel WordModel StopModel WacModel.
Local Open Scope Z_scope.
Local Open Scope list_scope.

(** wordfreq.c:52-56 order_by_key *)
Definition order_by_key (t1 t2 : term) : Z := ustrcmp (tkey t1) (tkey t2).

(** wordfreq.c:59-65 order_by_count: the difference is a long, returned as an int. *)
Definition order_by_count (t1 t2 : term) : Z :=
  if negb (wcount (twac t1) =? wcount (twac t2))
  then to_int (wcount (twac t2) - wcount (twac t1))
  else order_by_key t1 t2.

(** wordfreq.c:39-49 process_file, after read_text and find_words *)
Definition count_words (termtable : list term) (words : list (list Z)) : list term :=
  fold_left (fun tab w => add_term tab w 1 0) words termtable.

(** wordfreq.c:68-79 write_array *)
Definition write_array (array : list term) : list Z :=
  let total := fold_left (fun total t => total + wcount (twac t)) array 0 in
  bytes "   Count" ++ [10] ++
  flat_map (fun t => dec8 (wcount (twac t)) ++ bytes "   " ++ tkey t ++ [10]) array ++
  dec8 total ++ bytes "   Total" ++ [10].

Section Report.
(** The order in which table_in_array lists the entries of the table. *)
Variable order : list term -> list term.

(** wordfreq.c:82-90 write_report *)
Definition write_report (termtable : list term) : outcome (list Z) :=
  let array := order termtable in
  let! array := sort order_by_key (zlen array) array in
  let first := write_array array in
  let! array := sort order_by_count (zlen array) array in
  Ok (first ++ [10; 10] ++ write_array array).

Variable uc : unicode_data.
Variable NFC : list Z -> list Z.
Variables junk junk4 : list Z.

(** wordfreq.c:30 textopt *)
Definition wordfreq_opt : textopt := mkopt true true 0 true true.

(** wordfreq.c:93-105 main, on the contents of the files: the standard output. *)
Definition wordfreq (files : list (list Z)) : outcome (list Z) :=
  if zlen files =? 0 then Fail "no text files specified"
  else
    let! termtable :=
      ofold (fun tab f => let! words := words_in uc NFC junk junk4 wordfreq_opt f in
                          Ok (count_words tab words)) files [] in
    write_report termtable.
End Report.
