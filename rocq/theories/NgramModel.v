(** Model of ngram.c: the frequencies of the sequences of n characters in texts. *)
From Coq Require Import String.
From Verif Require Import Base CLib Utf8Model TextModel SortModel CompareModel AccModel.
Local Open Scope Z_scope.
Local Open Scope list_scope.

(** ngram.c:31 *)
Definition MAX_N : Z := 3.

(** ngram.c:57-64 get_n on the value of -n, if given (a string without its final NUL). *)
Definition get_n (nstring : option (list Z)) : outcome Z :=
  match nstring with
  | None => Ok 1
  | Some s =>
    let! c := rd "nstring[0]" (s ++ [0]) 0 in
    if (49 <=? c) && (c <=? 48 + MAX_N) then
      let! d := rd "nstring[1]" (s ++ [0]) 1 in
      if d =? 0 then Ok (c - 48) else Fail "invalid value"
    else Fail "invalid value"
  end.

(** ngram.c:45-53: an entry of the table and its key; total_count and total_suspect. *)
Definition entry : Type := list Z * sequence.
Record seqtable := mktable { entries : list entry; total_count : Z; total_suspect : Z }.

(** strcmp(key, entry->key) == 0 *)
(* Models ngram.c:74 *)
Definition has_key (key : list Z) (e : entry) : bool := if list_eq_dec Z.eq_dec key (fst e) then true else false.

(* Models ngram.c:83-89 *)
Definition bump (susp : bool) (s : sequence) : sequence :=
  mkseq (svalue s) (scount s + 1) (ssuspect s + (if susp then 1 else 0)).

(** ngram.c:67-90 add_sequence.  The table as a map (C05): the entry with the key is changed, or
    a new one inserted. *)
Definition add_sequence (t : seqtable) (key value : list Z) (susp : bool) : seqtable :=
  mktable
    (if existsb (has_key key) (entries t)
     then map (fun e => if has_key key e then (fst e, bump susp (snd e)) else e) (entries t)
     else entries t ++ [(key, bump susp (mkseq value 0 0))])
    (total_count t + 1) (total_suspect t + if susp then 1 else 0).

Section Ngram.
Variable uc : unicode_data.

(** ngram.c:105-116: the loop over the n characters from [l]; None when they run out.  The key is
    built by strcat in key[MAX_N * STRING_SIZE]. *)
Fixpoint sequence_at (n : nat) (l : list char) (key value : list Z) (susp : bool)
  : outcome (option (list Z * list Z * bool)) :=
  match n with
  | O => Ok (Some (key, value, susp))
  | Datatypes.S n =>
    match l with
    | [] => Ok None
    | c :: l =>
      let! s := char_string uc (TextModel.value c) in
      if zlen key + zlen s + 1 <=? MAX_N * STRING_SIZE then
        sequence_at n l (key ++ s) (value ++ [TextModel.value c]) (susp || suspect c)
      else UB "key overflow"
    end
  end.

(** ngram.c:93-119 process_file on the text read *)
Fixpoint process_text (n : nat) (t : seqtable) (start : list char) : outcome seqtable :=
  match start with
  | [] => Ok t
  | _ :: next =>
    let! r := sequence_at n start [] [] false in
    match r with
    | None => Ok t
    | Some (key, value, susp) => process_text n (add_sequence t key value susp) next
    end
  end.

(** ngram.c:144-153 write_array *)
Definition write_array (t : seqtable) (array : list entry) : list Z :=
  bytes "   Count  Suspect" ++ [10] ++
  flat_map (fun e : entry => dec8 (scount (snd e)) ++ bytes " " ++ dec8 (ssuspect (snd e)) ++ bytes "   {" ++
                     fst e ++ bytes "}" ++ [10]) array ++
  dec8 (total_count t) ++ bytes " " ++ dec8 (total_suspect t) ++ bytes "   Total" ++ [10].

(** The order in which table_in_array lists the entries of the table. *)
Variable order : list entry -> list entry.

(** ngram.c:156-164 write_report *)
Definition write_report (t : seqtable) : outcome (list Z) :=
  let array := order (entries t) in
  let! array := sort (fun e1 e2 => order_by_value (snd e1) (snd e2)) (zlen array) array in
  let first := write_array t array in
  let! array := sort (fun e1 e2 => seq_by_count (snd e1) (snd e2)) (zlen array) array in
  Ok (first ++ [10; 10] ++ write_array t array).

Variables junk junk4 : list Z.

(** ngram.c:41 textopt (the fourth initialiser is find_hex_values, the sixth is missing). *)
Definition ngram_opt : textopt := mkopt true true 0 true false.

(** ngram.c:167-180 main, on the value of -n and the contents of the files: the standard
    output.  (The text is emptied before each file, ngram.c:101.) *)
Definition ngram (nstring : option (list Z)) (files : list (list Z)) : outcome (list Z) :=
  if zlen files =? 0 then Fail "no text files specified"
  else
    let! n := get_n nstring in
    let! t := ofold (fun t f =>
                let! (text, _) := read_text uc junk junk4 ngram_opt [] f in
                process_text (Z.to_nat n) t text) files (mktable [] 0 0) in
    write_report t.
End Ngram.
