(** Model of the word lists of word.c, with allocation and release of words and strings, in the
    memory of MemTextModel. *)
From Coq Require Import String.
From Verif Require Import Base CLib ListModel Utf8Model TextModel WordModel MemTextModel.
Local Open Scope Z_scope.
Local Open Scope list_scope.

Section Words.
Variable alloc : (addr -> bool) -> Z -> addr.
(** What a block obtained with malloc contains: the byte at an index, for each allocation. *)
Variable garbage : Z -> Z -> Z.
Variable uc : unicode_data.
Variable NFC : list Z -> list Z.

(* Models word.c:271 and 275 *)
Definition set_bytes (m : memory) (a : addr) (bs : list Z) : memory :=
  mkmem (links m) (chars m) (words m) (upd (bytes m) a bs) (live m) (calls m).

(** malloc: NULL, or a block of [size] bytes. *)
(* Models word.c:287 *)
Definition malloc (m : memory) (size : Z) : addr * memory :=
  let e := alloc (live m) (calls m) in
  if e =? NULL then (NULL, mkmem (links m) (chars m) (words m) (bytes m) (live m) (calls m + 1))
  else (e, mkmem (links m) (chars m) (words m) (upd (bytes m) e (map (garbage (calls m)) (zrange 0 (Z.to_nat size)))) (upd (live m) e true) (calls m + 1)).

(** Bytes written from the start of a block. *)
(* Models word.c:271 and 275 *)
Definition write_bytes (m : memory) (a : addr) (bs : list Z) : outcome memory :=
  let! _ := access m a in
  if zlen bs <=? zlen (bytes m a) then Ok (set_bytes m a (bs ++ skipn (List.length bs) (bytes m a)))
  else UB "write past the end of a block".

(** malloc(len + 1), and the bytes copied into the block without a look at the result of malloc:
    word.c:287-288 (copy_into_buffer), wacrpt.c:58-59 (strdup; table_insert reads the key). *)
Definition new_string (m : memory) (w : list Z) : outcome (addr * memory) :=
  let (a, m) := malloc m (zlen w + 1) in
  let! m := write_bytes m a (w ++ [0]) in
  Ok (a, m).

(** The C string in a block: up to the first NUL, which has to be inside the block. *)
(* Models word.c:292 *)
Definition read_string (m : memory) (a : addr) : outcome (list Z) :=
  let! _ := access m a in
  if existsb (Z.eqb 0) (bytes m a) then Ok (c_string (bytes m a)) else UB "read past the end of a block".

(** utf8proc_NFC: NULL when there is no memory, else a new block with the string. *)
(* Models word.c:292 *)
Definition nfc_string (m : memory) (s : list Z) : addr * memory :=
  let (e, m) := malloc m (zlen (NFC s) + 1) in
  if e =? NULL then (NULL, m) else (e, set_bytes m e (NFC s ++ [0])).

(** word.c:280-295 append_word, on the bytes of the characters (WordModel.encode_between: word.c:242-276
    find_utf8_length and copy_into_buffer walk over the same characters). *)
Definition append_word_item (st : header * memory) (first last : list Z) : outcome (header * memory) :=
  let (l, m) := st in
  match last with
  | [] => UB "end->next"
  | _ :: after =>
    let! content := encode_between first after in
    let! (buffer, m) := new_string m content in
    let! (word, m) := new_block alloc m in
    let! s := read_string m buffer in
    let (string, m) := nfc_string m s in
    let! _ := access m word in
    let m := mkmem (links m) (chars m) (upd (words m) word string) (bytes m) (live m) (calls m) in
    let! (l, m) := insert_last l m word in
    let! m := free_block m buffer in
    Ok (l, m)
  end.

(** The values of the characters from [c] on. *)
(* Models word.c:249-257 *)
Fixpoint text_values (fuel : nat) (m : memory) (c : addr) : outcome (list Z) :=
  if c =? NULL then Ok []
  else match fuel with
       | O => OutOfFuel
       | S fu =>
         let! _ := access m c in
         let! vs := text_values fu m (next (links m c)) in
         Ok (value (chars m c) :: vs)
       end.

(** word.c:325-341 find_words.  A position in the text is given by the values from there on, as in
    WordModel; the characters are not changed. *)
Fixpoint find_words_in (fuel : nat) (first : list Z) (st : header * memory) : outcome (header * memory) :=
  let! last := find_next_boundary first in
  match last with
  | [] => Ok st
  | _ :: next =>
    match fuel with
    | O => OutOfFuel
    | S fu =>
      let! value := rd "first->value" first 0 in
      let! st := if is_word_start uc value then append_word_item st first last else Ok st in
      find_words_in fu next st
    end
  end.
Definition find_words_items (wl tl : header) (m : memory) : outcome (header * memory) :=
  let! vs := text_values (Z.to_nat (count tl)) m (first tl) in
  find_words_in (List.length vs) vs (wl, m).

(** word.c:344-349 free_word: free(NULL) does nothing. *)
Definition free_word (m : memory) (w : addr) : outcome memory :=
  let! _ := access m w in
  let! m := if words m w =? NULL then Ok m else free_block m (words m w) in
  free_block m w.

(** list_empty(&wordlist, free_word) (list.c:138-149, wordfreq.c:48) *)
Fixpoint free_words (fuel : nat) (l : header) (m : memory) : outcome (header * memory) :=
  if first l =? NULL then Ok (l, m)
  else match fuel with
       | O => OutOfFuel
       | S fu =>
         let w := first l in
         let! (l, m) := remove_item l m w in
         let! m := free_word m w in
         free_words fu l m
       end.

(** wacrpt.c:48-62 add_term(termtable, key, 1, 0).  A term is given by the pointer to its key and its
    count; the table is a list (C71: the hash table counts as a list does); the block of the Term
    itself is not modelled.  The key is compared with those of the table, and copied (strdup, unchecked:
    table_insert reads the key) when it is new: [new_string]. *)
Fixpoint count_key (m : memory) (terms : list (addr * Z)) (w : list Z) : outcome (option (list (addr * Z))) :=
  match terms with
  | [] => Ok None
  | (k, n) :: rest =>
    let! s := read_string m k in
    if streq s w then Ok (Some ((k, n + 1) :: rest))
    else let! r := count_key m rest w in
         Ok (match r with Some rest => Some ((k, n) :: rest) | None => None end)
  end.
Definition add_key (st : list (addr * Z) * memory) (key : addr) : outcome (list (addr * Z) * memory) :=
  let (terms, m) := st in
  let! w := read_string m key in
  let! r := count_key m terms w in
  match r with
  | Some terms => Ok (terms, m)
  | None =>
    let! (k, m) := new_string m w in
    Ok (terms ++ [(k, 1)], m)
  end.

(** wordfreq.c:45-46: for (word = wordlist.first; word; word = word->next) add_term(... word->string ...) *)
Fixpoint add_words (fuel : nat) (st : list (addr * Z) * memory) (w : addr) : outcome (list (addr * Z) * memory) :=
  if w =? NULL then Ok st
  else match fuel with
       | O => OutOfFuel
       | S fu =>
         let! _ := access (snd st) w in
         let! st := add_key st (words (snd st) w) in
         add_words fu st (next (links (snd st) w))
       end.

(** wordfreq.c:39-49 process_file; [tl] and [wl] are the text and the word list. *)
Definition wordfreq_file (junk junk4 : list Z) (opt : textopt) (st : header * header * list (addr * Z) * memory) (f : list Z)
  : outcome (header * header * list (addr * Z) * memory) :=
  let '(tl, wl, terms, m) := st in
  let! (tl, m, _) := read_text_items alloc uc junk junk4 opt tl m f in
  let! (wl, m) := find_words_items wl tl m in
  let! (terms, m) := add_words (Z.to_nat (count wl)) (terms, m) (first wl) in
  let! (tl, m) := free_text (Z.to_nat (count tl)) tl m in
  let! (wl, m) := free_words (Z.to_nat (count wl)) wl m in
  Ok (tl, wl, terms, m).
End Words.
