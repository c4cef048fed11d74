(** Model of text.c on the linked lists of ListModel, with allocation and release of the
    characters. *)
From Coq Require Import String.
From Verif Require Import Base CLib ListModel Utf8Model TextModel.
Local Open Scope Z_scope.
Local Open Scope list_scope.

(** The memory: the links of the items of lists, the contents of those that are characters, the
    pointers to strings in those that are words, and the bytes of the blocks that are strings; which
    blocks are allocated, and the number of allocations so far. *)
(* Models text.h:65-68 *)
Record memory := mkmem { links : heap; chars : addr -> char; words : addr -> addr; bytes : addr -> list Z; live : addr -> bool; calls : Z }.

(** An access to an item: it has to be allocated (not NULL, not freed). *)
(* Models text.h:65-68, text.c:180-201 *)
Definition access (m : memory) (a : addr) : outcome unit :=
  if a =? NULL then UB "access through NULL" else if live m a then Ok tt else UB "access to a block that is not allocated".
(** An access unless the pointer is NULL. *)
(* Models text.h:65-68, text.c:180-201 *)
Definition touch (m : memory) (a : addr) : outcome unit := if a =? NULL then Ok tt else access m a.
(* Models text.c:182, 193 and 211 *)
Definition set_char (m : memory) (a : addr) (c : char) : memory := mkmem (links m) (upd (chars m) a c) (words m) (bytes m) (live m) (calls m).

(** util.c allocate (51-59), calloc: [alloc] chooses the block, given those in use and the number of
    calls so far; it is cleared. *)
Definition new_block (alloc : (addr -> bool) -> Z -> addr) (m : memory) : outcome (addr * memory) :=
  let e := alloc (live m) (calls m) in
  if e =? NULL then Fail "unable to allocate memory"
  else Ok (e, mkmem (upd (links m) e (mknode NULL NULL)) (upd (chars m) e (mkchar false 0)) (upd (words m) e NULL) (bytes m) (upd (live m) e true) (calls m + 1)).

(** free *)
(* Models text.c:195 *)
Definition free_block (m : memory) (a : addr) : outcome memory :=
  let! _ := access m a in Ok (mkmem (links m) (chars m) (words m) (bytes m) (upd (live m) a false) (calls m)).

(** list_insert_last and list_remove (ListModel), with the items they access. *)
(* Models text.c:56, list.c:83-88 *)
Definition insert_last (l : header) (m : memory) (a : addr) : outcome (header * memory) :=
  let! _ := access m a in
  let! _ := touch m (last l) in
  let! (l, h) := list_insert_last l (links m) a in
  Ok (l, mkmem h (chars m) (words m) (bytes m) (live m) (calls m)).
(* Models text.c:194, list.c:107-122 *)
Definition remove_item (l : header) (m : memory) (a : addr) : outcome (header * memory) :=
  let! _ := access m a in
  let! _ := touch m (prev (links m a)) in
  let! _ := touch m (next (links m a)) in
  let! (l, h) := list_remove l (links m) a in
  Ok (l, mkmem h (chars m) (words m) (bytes m) (live m) (calls m)).

Section Text.
Variable alloc : (addr -> bool) -> Z -> addr.
Variable uc : unicode_data.

(** text.c:47-57 append_char *)
Definition append_char (st : header * memory) (c : char) : outcome (header * memory) :=
  let (l, m) := st in
  let! (e, m) := new_block alloc m in
  insert_last l (set_char m e c) e.

(** text.c:180-182: all blank characters from [c] on become BLANK. *)
Fixpoint blank_chars (fuel : nat) (m : memory) (c : addr) : outcome memory :=
  if c =? NULL then Ok m
  else match fuel with
       | O => OutOfFuel
       | S fu =>
         let! _ := access m c in
         let m := if is_blank uc (value (chars m c)) then set_char m c (mkchar (suspect (chars m c)) BLANK) else m in
         blank_chars fu m (next (links m c))
       end.

(** text.c:184-201: the loop of compress_spacing. *)
Fixpoint compress_items (fuel : nat) (found_non_blank : bool) (l : header) (m : memory) (c : addr) : outcome (header * memory) :=
  if c =? NULL then Ok (l, m)
  else match fuel with
       | O => OutOfFuel
       | S fu =>
         let! _ := access m c in
         let n := next (links m c) in
         let v := value (chars m c) in
         let! removed :=
           if (v =? BLANK) && negb found_non_blank then Ok true
           else if (v =? BLANK) && (n =? NULL) then Ok true
           else
             let! w := if v =? BLANK then let! _ := access m n in Ok (value (chars m n)) else Ok 0 in
             Ok (((v =? BLANK) && ((w =? BLANK) || (w =? NEWLINE))) || ((v =? NEWLINE) && negb found_non_blank)) in
         if removed then
           let! m := if found_non_blank && negb (n =? NULL) then
                       let! _ := access m n in
                       if value (chars m n) =? BLANK
                       then Ok (set_char m n (mkchar (suspect (chars m n) || suspect (chars m c)) (value (chars m n)))) else Ok m
                     else Ok m in
           let! (l, m) := remove_item l m c in
           let! m := free_block m c in
           compress_items fu found_non_blank l m n
         else compress_items fu (negb (v =? NEWLINE)) l m n
       end.

(** text.c:205-212 lowercase *)
Fixpoint lower_chars (fuel : nat) (m : memory) (c : addr) : outcome memory :=
  if c =? NULL then Ok m
  else match fuel with
       | O => OutOfFuel
       | S fu =>
         let! _ := access m c in
         let m := set_char m c (mkchar (suspect (chars m c)) (tolower uc (value (chars m c)))) in
         lower_chars fu m (next (links m c))
       end.

(** last ? last->next : text->first *)
(* Models text.c:233 and 235 *)
Definition after (last : addr) (l : header) (m : memory) : outcome addr :=
  if last =? NULL then Ok (first l) else let! _ := access m last in Ok (next (links m last)).

(** text.c:216-236 read_text on the contents [f] of the file, as TextModel.read_text.  All
    characters are read before the first is appended: which error message comes first, that of a
    wrong file or that of missing memory, is not modelled. *)
Definition read_text_items (junk junk4 : list Z) (opt : textopt) (l : header) (m : memory) (f : list Z)
  : outcome (header * memory * bool) :=
  let last0 := last l in
  let! (found, f) := if find_header opt then read_header junk f else Ok (false, f) in
  let! new := read_contents (List.length f) f (find_markers opt)
                (if suspect_marker opt =? 0 then SUSPECT_MARKER else suspect_marker opt)
                junk4 false in
  let! (l, m) := ofold append_char new (l, m) in
  let! (l, m) :=
    if normalize opt then
      let! c := after last0 l m in
      let! m := blank_chars (Z.to_nat (count l)) m c in
      let! (l, m) := compress_items (Z.to_nat (count l)) false l m c in Ok (l, m)
    else Ok (l, m) in
  let! m := if case_insensitive opt then let! c := after last0 l m in lower_chars (Z.to_nat (count l)) m c else Ok m in
  Ok (l, m, found).

(** list_empty(&text, free) (list.c:138-149, ngram.c:101, stopword.c:96, wordfreq.c:47) *)
Fixpoint free_text (fuel : nat) (l : header) (m : memory) : outcome (header * memory) :=
  if first l =? NULL then Ok (l, m)
  else match fuel with
       | O => OutOfFuel
       | S fu =>
         let item := first l in
         let! (l, m) := remove_item l m item in
         let! m := free_block m item in
         free_text fu l m
       end.

(** ngram.c:101-102: process_file frees the text of the file before and reads the next. *)
Definition next_text (junk junk4 : list Z) (opt : textopt) (st : header * memory) (f : list Z) : outcome (header * memory) :=
  let (l, m) := st in
  let! (l, m) := free_text (Z.to_nat (count l)) l m in
  let! (l, m, _) := read_text_items junk junk4 opt l m f in
  Ok (l, m).
End Text.
