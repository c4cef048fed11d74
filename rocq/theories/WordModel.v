(** Model of word.c: splitting a text into words.  A [Char*] is the part of the text from
    that character on ([] is NULL), so [p->next] is the tail and two pointers into the same
    text are equal when the parts have the same length. *)
From Coq Require Import String.
From Verif Require Import Base Utf8Model WordTable.
Local Open Scope Z_scope.
Local Open Scope list_scope.

(** word.c:46-67 search_for_property (size_t midpoint - 1 is passed for an int, so -1 when
    the midpoint is 0).  The range searched shrinks at every call. *)
Fixpoint search_for_property (fuel : nat) (table : list wb_range) (code_point left right : Z)
  : outcome wb_property :=
  if right <? left then Ok Other
  else match fuel with
  | O => OutOfFuel
  | Datatypes.S fuel =>
    let midpoint := left + Z.quot (right - left) 2 in
    let! middle := rd "WORD_BREAK_PROPERTY" table midpoint in
    if code_point <? start middle
    then search_for_property fuel table code_point left (midpoint - 1)
    else if stop middle <? code_point
    then search_for_property fuel table code_point (midpoint + 1) right
    else Ok (wb_value middle)
  end.

(** word.c:72-77 property *)
Definition property (code_point : Z) : outcome wb_property :=
  search_for_property (List.length WORD_BREAK_PROPERTY) WORD_BREAK_PROPERTY code_point
    0 (zlen WORD_BREAK_PROPERTY - 1).

(** The result of [property], which never fails (C33_lookup). *)
(* Models word.c:72-77 *)
Definition prop (code_point : Z) : wb_property :=
  match property code_point with Ok p => p | _ => Other end.

(** The comparisons == of wb_property. *)
(* Models word.c:164-232, word_break_property.h:4-24 *)
Definition wb_code (p : wb_property) : Z :=
  match p with
  | Other => 0 | CR => 1 | LF => 2 | Newline => 3 | Extend => 4 | Regional_Indicator => 5
  | Format => 6 | Katakana => 7 | Hebrew_Letter => 8 | ALetter => 9 | Single_Quote => 10
  | Double_Quote => 11 | MidNumLet => 12 | MidLetter => 13 | MidNum => 14 | Numeric => 15
  | ExtendNumLet => 16 | sot => 17 | eot => 18
  end.
(* Models word.c:164-232, word_break_property.h:4-24 *)
Definition is (p q : wb_property) : bool := wb_code p =? wb_code q.

(** word.c:36-41 *)
Definition AHLetter (p : wb_property) : bool := is p ALetter || is p Hebrew_Letter.
Definition MidNumLetQ (p : wb_property) : bool := is p MidNumLet || is p Single_Quote.
Definition ExtendOrFormat (p : wb_property) : bool := is p Extend || is p Format.

(** word.c:81-88 char_property *)
Definition char_property (node : list Z) : wb_property :=
  match node with [] => eot | c :: _ => prop c end.

(** word.c:100-102: the loop of skip_to_next, after [from = from->next] *)
Fixpoint skip_extend (from : list Z) : list Z :=
  match from with
  | [] => []
  | _ :: next => if ExtendOrFormat (char_property from) then skip_extend next else from
  end.

(** word.c:93-104 skip_to_next *)
Definition skip_to_next (from : list Z) : list Z :=
  match from with [] => [] | _ :: next => skip_extend next end.

(** word.c:107-111 skip_twice *)
Definition skip_twice (from : list Z) : list Z := skip_to_next (skip_to_next from).

(** word.c:115-128 skip_to_end_of_extend *)
Fixpoint skip_to_end_of_extend (from : list Z) : list Z :=
  match from with
  | [] => []
  | _ :: next =>
    match next with
    | [] => from
    | _ => if ExtendOrFormat (char_property next) then skip_to_end_of_extend next else from
    end
  end.

(** word.c:164-232: the rules; true for [continue], false for [break]. *)
Definition rules (lookbehind left right lookahead : wb_property) : bool :=
  (* WB3 *)
  if is left CR && is right LF then true
  (* WB3a, WB3b *)
  else if is left Newline || is left CR || is left LF then false
  else if is right Newline || is right CR || is right LF then false
  (* WB5 *)
  else if AHLetter left && AHLetter right then true
  (* WB6, WB7 *)
  else if AHLetter left && (is right MidLetter || MidNumLetQ right) && AHLetter lookahead
  then true
  else if AHLetter lookbehind && (is left MidLetter || MidNumLetQ left) && AHLetter right
  then true
  (* WB7a, WB7b, WB7c *)
  else if is left Hebrew_Letter && is right Single_Quote then true
  else if is left Hebrew_Letter && is right Double_Quote && is lookahead Hebrew_Letter
  then true
  else if is lookbehind Hebrew_Letter && is left Double_Quote && is right Hebrew_Letter
  then true
  (* WB8, WB9, WB10 *)
  else if is left Numeric && is right Numeric then true
  else if AHLetter left && is right Numeric then true
  else if is left Numeric && AHLetter right then true
  (* WB11, WB12 *)
  else if is lookbehind Numeric && (is left MidNum || MidNumLetQ left) && is right Numeric
  then true
  else if is left Numeric && (is right MidNum || MidNumLetQ right) && is lookahead Numeric
  then true
  (* WB13 *)
  else if is left Katakana && is right Katakana then true
  (* WB13a, WB13b *)
  else if (AHLetter left || is left Numeric || is left Katakana || is left ExtendNumLet) &&
          is right ExtendNumLet then true
  else if is left ExtendNumLet &&
          (AHLetter right || is right Numeric || is right Katakana || is right ExtendNumLet)
  then true
  (* WB13c *)
  else if is left Regional_Indicator && is right Regional_Indicator then true
  (* WB14 *)
  else false.

(** word.c:155-236: the loop of find_next_boundary *)
Fixpoint boundary_loop (fuel : nat) (current : list Z) (left : wb_property)
  : outcome (list Z) :=
  match current with
  | [] => UB "current->next"
  | _ :: [] => Ok current
  | _ =>
    match fuel with
    | O => OutOfFuel
    | Datatypes.S fuel =>
      let current := skip_to_next current in
      let lookbehind := left in
      let left := char_property current in
      let right := char_property (skip_to_next current) in
      let lookahead := char_property (skip_twice current) in
      if rules lookbehind left right lookahead then boundary_loop fuel current left
      else Ok current
    end
  end.

(** word.c:137-239 find_next_boundary; the first character of the list given to the loop is
    the dummy, whose value is never used. *)
Definition find_next_boundary (begin : list Z) : outcome (list Z) :=
  match begin with
  | [] => Ok []
  | _ =>
    let! current := boundary_loop (Datatypes.S (List.length begin)) (0 :: begin) sot in
    Ok (skip_to_end_of_extend current)
  end.

(** word.c:242-276 find_utf8_length and copy_into_buffer: the bytes of the characters from
    [current] up to [after].  Reaching the end of the text first, and a character without an
    encoding, are failing assertions. *)
Fixpoint encode_between (current after : list Z) : outcome (list Z) :=
  if zlen current =? zlen after then Ok []
  else match current with
  | [] => UB "assert"
  | c :: next =>
    let bytes := encode_char c in
    if 0 <? zlen bytes
    then let! rest := encode_between next after in Ok (bytes ++ rest)
    else UB "assert"
  end.

(** The bytes of a C string: utf8proc_NFC takes its argument up to the first NUL. *)
(* Models word.c:292 *)
Fixpoint c_string (buffer : list Z) : list Z :=
  match buffer with
  | [] => []
  | b :: buffer => if b =? 0 then [] else b :: c_string buffer
  end.

Section Words.
(** utf8proc: general categories, and utf8proc_NFC (as a function from strings to strings;
    running out of memory is not modelled). *)
Variable uc : unicode_data.
Variable NFC : list Z -> list Z.

(** word.c:280-295 append_word: the string appended. *)
Definition append_word (first last : list Z) : outcome (list Z) :=
  match last with
  | [] => UB "end->next"
  | _ :: after =>
    let! buffer := encode_between first after in
    Ok (NFC (c_string buffer))
  end.

(** word.c:298-322 is_word_start *)
Definition is_word_start (value : Z) : bool :=
  match cat uc value with
  | LU | LL | LT | LM | LO | MN | MC | ME | ND | NL | NO | PC | CO => true
  | _ => false
  end.

(** word.c:325-341 find_words, appending to [wordlist]. *)
Fixpoint find_words_from (fuel : nat) (first : list Z) (wordlist : list (list Z))
  : outcome (list (list Z)) :=
  let! last := find_next_boundary first in
  match last with
  | [] => Ok wordlist
  | _ :: next =>
    match fuel with
    | O => OutOfFuel
    | Datatypes.S fuel =>
      let! value := rd "first->value" first 0 in
      let! wordlist :=
        if is_word_start value
        then (let! w := append_word first last in Ok (wordlist ++ [w]))
        else Ok wordlist in
      find_words_from fuel next wordlist
    end
  end.

(** [text] is the list of the values of the characters of the Text. *)
(* Models word.c:325-341 *)
Definition find_words (wordlist : list (list Z)) (text : list Z) : outcome (list (list Z)) :=
  find_words_from (List.length text) text wordlist.
End Words.
