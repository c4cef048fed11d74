(** Model of text.c: reading, normalising and writing texts. *)
From Verif Require Import Base CLib Utf8Model.
From Coq Require Import String.
Local Open Scope Z_scope.
Local Open Scope list_scope.

(** text.h:40-49 *)
Definition BLANK : Z := 32.
Definition NEWLINE : Z := 10.
Definition SUSPECT_MARKER : Z := 94.
Definition DOTTED_CIRCLE : Z := 9676.
(** text.h:56 *)
Definition NUM_CHARVALUES : Z := 1114111.
(** text.h:63 STRING_SIZE = max(sizeof("^◌𐇽"), sizeof("<10FFFF>")) = max(9, 9) *)
Definition STRING_SIZE : Z := 9.

(** text.h:65-68 Char.  A Text is used as the sequence of its characters (C01). *)
Record char := mkchar { suspect : bool; value : Z }.

(** text.c:33-34 *)
Definition TITLE : list Z :=
  bytes "ocreval Vendor-Independent Interface Version 7.0" ++ [10].
Definition DIVIDER : list Z :=
  bytes "------------------------------------------------" ++ [10].

(** text.c:68-70: the loop of read_header; [line] is the local buffer.  Each round reads at
    least one byte, so the length of the input is enough fuel. *)
Fixpoint skip_header (fuel : nat) (line : list Z) (divider_count : Z) (f : list Z)
  : outcome (list Z) :=
  if divider_count <? 2 then
    match fgets 99 f with
    | None => Ok f
    | Some (s, f) =>
        let! line := store_string line s in
        let! str := cstr line 0 in
        match fuel with
        | O => OutOfFuel
        | S fu => skip_header fu line
                    (if streq str DIVIDER then divider_count + 1 else divider_count) f
        end
    end
  else Ok f.

(** text.c:60-75 read_header: (found, remaining input).  [junk] is the initial content of the
    100-byte local buffer.  rewind() restores the whole file (the input is a regular file). *)
Definition read_header (junk : list Z) (f : list Z) : outcome (bool * list Z) :=
  match fgets 99 f with
  | None => Ok (false, f)
  | Some (s, f') =>
      let! line := store_string junk s in
      let! str := cstr line 0 in
      if strneq str TITLE (List.length TITLE + 1 - 5)
      then let! r := skip_header (List.length f') line 0 f' in Ok (true, r)
      else Ok (false, f)
  end.

(** text.c:78-133 read_contents.  [buffer] is the local 4-byte buffer (initially
    indeterminate).  The result is the sequence of characters appended. *)
Fixpoint read_contents (fuel : nat) (f : list Z) (find_markers : bool) (suspect_marker : Z)
    (buffer : list Z) (susp : bool) : outcome (list char) :=
  match f with
  | [] => Ok []
  | byte :: f =>
      match fuel with
      | O => OutOfFuel
      | S fu =>
          let size := utf8class byte in
          if size <? 1 then Fail "invalid UTF-8 character"
          else
            let! buffer := wr "buffer" buffer 0 byte in
            let got := firstn (Z.to_nat (size - 1)) f in
            let f := skipn (Z.to_nat (size - 1)) f in
            if negb (zlen got =? size - 1) then Fail "unexpected end of input"
            else
              let! buffer := ofold (fun b (p : Z * Z) => wr "buffer" b (fst p) (snd p))
                               (combine (zrange 1 (List.length got)) got) buffer in
              let! (status, code_point) := iterate buffer 4 in
              if negb (status =? size) then Fail "Invalid UTF-8 string was supplied"
              else if find_markers && (code_point =? suspect_marker)
              then read_contents fu f find_markers suspect_marker buffer true
              else let! r := read_contents fu f find_markers suspect_marker buffer false in
                   Ok (mkchar susp code_point :: r)
      end
  end.

Section Unicode.
Variable uc : unicode_data.

(** text.c:139-167 is_blank *)
Definition is_blank (c : Z) : bool :=
  if c =? NEWLINE then false
  else if (c =? 9) || (c =? 11) || (c =? 12) || (c =? 13) || (c =? 160) then true
  else match cat uc c with ZS | ZL | ZP => true | _ => false end.

(** text.c:180-182: all blank characters become BLANK. *)
Definition blanks_to_blank (l : list char) : list char :=
  map (fun c => if is_blank (value c) then mkchar (suspect c) BLANK else c) l.

(** text.c:184-201: the loop of compress_spacing over the characters from [start] on. *)
Definition or_suspect (b : bool) (l : list char) : list char :=
  match l with c :: t => mkchar (suspect c || b) (value c) :: t | [] => [] end.

Fixpoint compress_loop (fuel : nat) (found_non_blank : bool) (l : list char)
  : outcome (list char) :=
  match l with
  | [] => Ok []
  | c :: next =>
      match fuel with
      | O => OutOfFuel
      | S fu =>
          let next_is (v : Z) := match next with n :: _ => value n =? v | [] => false end in
          let no_next := match next with [] => true | _ => false end in
          if ((value c =? BLANK) &&
              (negb found_non_blank || no_next || next_is BLANK || next_is NEWLINE)) ||
             ((value c =? NEWLINE) && negb found_non_blank)
          then
            let next := if found_non_blank && negb no_next && next_is BLANK
                        then or_suspect (suspect c) next else next in
            compress_loop fu found_non_blank next
          else
            let! r := compress_loop fu (negb (value c =? NEWLINE)) next in
            Ok (c :: r)
      end
  end.

(** text.c:172-202 compress_spacing on the text from position [start] on. *)
Definition compress_spacing (text : list char) (start : nat) : outcome (list char) :=
  let new := blanks_to_blank (skipn start text) in
  let! r := compress_loop (List.length new) false new in
  Ok (firstn start text ++ r).

(** text.c:205-212 lowercase *)
Definition lowercase (text : list char) (start : nat) : list char :=
  firstn start text ++ map (fun c => mkchar (suspect c) (tolower uc (value c))) (skipn start text).

(** text.h:76-98 Textopt (find_hex_values is ignored by the code). *)
Record textopt := mkopt {
  find_header : bool; find_markers : bool; suspect_marker : Z; normalize : bool;
  case_insensitive : bool }.

(** text.c:216-236 read_text on the contents [f] of the file; [text] is the text already
    there.  Returns the text and found_header.  open_file is not modelled (an unreadable
    file is an error); [junk] and [junk4] are the initial contents of the local buffers. *)
Definition read_text (junk junk4 : list Z) (opt : textopt) (text : list char) (f : list Z)
  : outcome (list char * bool) :=
  let start := List.length text in
  let! (found, f) := if find_header opt then read_header junk f else Ok (false, f) in
  let! new := read_contents (List.length f) f (find_markers opt)
                (if suspect_marker opt =? 0 then SUSPECT_MARKER else suspect_marker opt)
                junk4 false in
  let text := text ++ new in
  let! text := if normalize opt then compress_spacing text start else Ok text in
  let text := if case_insensitive opt then lowercase text start else text in
  Ok (text, found).

(** text.c:239-249 encode_or_die *)
Definition encode_or_die (c : Z) : outcome (list Z) :=
  match encode_char c with [] => Fail "could not encode UTF-8" | l => Ok l end.

(** text.c:255-294 is_graphic_character *)
Definition is_graphic (c : Z) : bool :=
  if c =? 32 then true
  else match cat uc c with
       | LU | LL | LT | LM | LO | MN | MC | ME | ND | NL | NO | PC | PD | PS | PE | PI | PF
       | PO | SM | SC | SK | SO | CO => true
       | _ => false
       end.

(** text.c:301-312 is_combining_character *)
Definition is_combining (c : Z) : bool :=
  match cat uc c with MN | MC | ME => true | _ => false end.

(** text.c:315-344 char_to_string: the bytes stored before the terminating NUL (a NUL byte
    of the string itself ends it earlier for the reader).  The size of the caller's buffer
    is not checked here, as in the C code. *)
Definition char_to_string (susp : bool) (v : Z) (fake_newline : bool) : outcome (list Z) :=
  let! mark := if susp then encode_or_die SUSPECT_MARKER else Ok [] in
  if v =? NEWLINE then
    Ok (mark ++ (if fake_newline then [60; 92; 110; 62] else [10]))
  else if is_graphic v then
    let! base := if is_combining v then encode_or_die DOTTED_CIRCLE else Ok [] in
    let! e := encode_or_die v in
    Ok (mark ++ base ++ e)
  else if v <? 256 then Ok (mark ++ 60 :: hexpad 2 v ++ [62])
  else Ok (mark ++ 60 :: hexpad 4 v ++ [62]).

(** fputs of the local array string[STRING_SIZE] filled by char_to_string. *)
(* Models text.c:365-366 *)
Definition char_out (c : char) : outcome (list Z) :=
  let! s := char_to_string (suspect c) (value c) false in
  if zlen s + 1 <=? STRING_SIZE then cstr (s ++ [0]) 0 else UB "string[STRING_SIZE] overflow".

(** text.c:347-369 write_text: the bytes of the file; [header] is what the caller's
    write_header routine prints, if given. *)
Definition write_text (text : list char) (header : option (list Z)) : outcome (list Z) :=
  let! body := ofold (fun acc c => let! s := char_out c in Ok (acc ++ s)) text [] in
  Ok (match header with
      | Some h => TITLE ++ DIVIDER ++ h ++ DIVIDER
      | None => []
      end ++ body).

(** text.c:373-393 cstring_to_text on a string (no NUL inside, [0] is the NUL behind it): the characters
    appended and the result.  utf8proc_iterate is called with length -1, which is any length of at least 4. *)
Fixpoint cstring_to_text (fuel : nat) (s : list Z) : outcome (list char * bool) :=
  match s with
  | [] => Ok ([], true)
  | _ =>
      match fuel with
      | O => OutOfFuel
      | S fu =>
          let! (status, c) := iterate (s ++ [0]) 4 in
          if status <? 1 then Ok ([], false)
          else
            let! (r, ok) := cstring_to_text fu (skipn (Z.to_nat status) s) in
            Ok (mkchar false c :: r, ok)
      end
  end.
End Unicode.
