(** Model of synctext.c: texts shown side by side. *)
From Coq Require Import String.
From Verif Require Import Base CLib Utf8Model TextModel SyncModel AccModel ReportModel.
Local Open Scope Z_scope.
Local Open Scope list_scope.

(** synctext.c:44-50 write_separator: 79 characters '='. *)
Definition write_separator : list Z := repeat 61 79 ++ [10].

(** printf("%-<w>s", s) *)
(* Models synctext.c:120, 128 and 137 *)
Definition padright (w : Z) (s : list Z) : list Z := s ++ repeat 32 (Z.to_nat (w - zlen s)).

Section Writing.
Variable uc : unicode_data.
Variable show_suspect : bool.

(** char_to_string(show_suspect & c->suspect, c->value, string, False); printf("%s", string) *)
(* Models synctext.c:68-70 and 132-134 *)
Definition write_char (c : char) : outcome (list Z) :=
  char_out uc (mkchar (show_suspect && suspect c) (value c)).

(** synctext.c:53-76 write_transposed.  The loops visit the characters start, ..., stop of the
    only substring of an item. *)
Definition write_transposed (l : list item) (text : list char) : outcome (list Z) :=
  let! out := oconcat (fun it =>
      let! s := match isubs it with s :: _ => Ok s | [] => UB "substr" end in
      let! cs := sub_chars text s in
      let! body := oconcat write_char cs in
      Ok (match inum it with
          | Some n => bytes "{" ++ dec n ++ bytes ":" ++ body ++ bytes "}"
          | None => body
          end)) l in
  Ok (write_separator ++ [10] ++ out ++ [10]).

(** synctext.c:96-98: the loop over the texts, which ends with the first suspect character. *)
Fixpoint any_suspect (texts : list (list char)) (ss : list substr) (i : Z) : outcome bool :=
  match texts with
  | [] => Ok false
  | t :: texts =>
    match ss with
    | [] => UB "substr[j]"
    | s :: ss =>
      let! c := rd "text[j].array" t (start s + i) in
      if suspect c then Ok true else any_suspect texts ss i
    end
  end.

(** synctext.c:90-104: the loop of write_matches; [footnote] is the last number used. *)
Fixpoint match_loop (texts : list (list char)) (l : list item) (footnote : Z) : outcome (list Z) :=
  match l with
  | [] => Ok []
  | it :: l =>
    match inum it with
    | Some _ =>
      let! text0 := match texts with t :: _ => Ok t | [] => UB "text[0]" end in
      let! s0 := match isubs it with s :: _ => Ok s | [] => UB "substr[0]" end in
      let! out := oconcat (fun i =>
          let! susp := if show_suspect then any_suspect texts (isubs it) i else Ok false in
          let! c := rd "text[0].array" text0 (start s0 + i) in
          char_out uc (mkchar susp (value c))) (zrange 0 (Z.to_nat (slen s0))) in
      let! rest := match_loop texts l footnote in
      Ok (out ++ rest)
    | None =>
      let! rest := match_loop texts l (footnote + 1) in
      Ok (bytes "{" ++ dec (footnote + 1) ++ bytes "}" ++ rest)
    end
  end.

(** synctext.c:79-106 write_matches *)
Definition write_matches (l : list item) (texts : list (list char)) : outcome (list Z) :=
  let! out := match_loop texts l 0 in
  Ok (write_separator ++ [10] ++ out ++ [10]).

(** synctext.c:128-141: one text of a difference. *)
Definition write_difference (maxlen : Z) (nt : list Z * list char) (s : substr) : outcome (list Z) :=
  let! cs := sub_chars (snd nt) s in
  let! body := oconcat (fun c =>
      let! out := write_char c in
      Ok (out ++ if value c =? NEWLINE then padright maxlen [] ++ bytes "  " else [])) cs in
  Ok (padright maxlen (fst nt) ++ bytes " {" ++ body ++ bytes "}" ++ [10]).

(** synctext.c:126: the loop over the texts. *)
Fixpoint difference_texts (maxlen : Z) (nts : list (list Z * list char)) (ss : list substr) : outcome (list Z) :=
  match nts with
  | [] => Ok []
  | nt :: nts =>
    match ss with
    | [] => UB "substr[i]"
    | s :: ss =>
      let! out := write_difference maxlen nt s in
      let! rest := difference_texts maxlen nts ss in
      Ok (out ++ rest)
    end
  end.

(** synctext.c:121-143: the loop of write_differences. *)
Fixpoint difference_loop (maxlen : Z) (nts : list (list Z * list char)) (l : list item) (footnote : Z) : outcome (list Z) :=
  match l with
  | [] => Ok []
  | it :: l =>
    match inum it with
    | Some _ => difference_loop maxlen nts l footnote
    | None =>
      let! out := difference_texts maxlen nts (isubs it) in
      let! rest := difference_loop maxlen nts l (footnote + 1) in
      Ok (write_separator ++ bytes "{" ++ dec (footnote + 1) ++ bytes "}" ++ [10] ++ out ++ rest)
    end
  end.

(** synctext.c:109-144 write_differences; format is an array of 20. *)
Definition write_differences (l : list item) (nts : list (list Z * list char)) : outcome (list Z) :=
  let maxlen := fold_left (fun m nt => Z.max m (zlen (fst nt))) nts 0 in
  if 20 <? zlen (bytes "%-" ++ dec maxlen ++ bytes "s") + 1 then UB "format[20]"
  else difference_loop maxlen nts l 0.
End Writing.

Section Main.
Variable uc : unicode_data.
Variables junk junk4 : list Z.

(** synctext.c:29 textopt, and option -i. *)
Definition synctext_opt (ignore_case : bool) : textopt := mkopt true true 0 true ignore_case.

(** synctext.c:160-175 in main, once the texts have been read. *)
Definition synctext_texts (heuristic show_suspect transpose : bool) (names : list (list Z)) (texts : list (list char))
    : outcome (list Z) :=
  let values := map (map value) texts in
  let! out :=
    if transpose then
      let! (l1, l2) := transpose_sync (nth 0 values []) (nth 1 values []) in
      let! out1 := write_transposed uc show_suspect l1 (nth 0 texts []) in
      let! out2 := write_transposed uc show_suspect l2 (nth 1 texts []) in
      Ok (out1 ++ out2)
    else
      let! l := if heuristic || (2 <? zlen names) then synchronize values
                else fastukk_sync (nth 0 values []) (nth 1 values []) in
      let! out1 := write_matches uc show_suspect l texts in
      let! out2 := write_differences uc show_suspect l (combine names texts) in
      Ok (out1 ++ out2) in
  Ok (out ++ write_separator).

(** synctext.c:147-177 main, on the names and contents of the files. *)
Definition synctext (heuristic ignore_case show_suspect transpose : bool) (files : list (list Z * list Z))
    : outcome (list Z) :=
  if (zlen files <? 2) || (transpose && (2 <? zlen files)) then Fail "invalid number of text files"
  else
    let! texts := ofold (fun acc nf =>
        let! (text, _) := read_text uc junk junk4 (synctext_opt ignore_case) [] (snd nf) in
        Ok (acc ++ [text])) files [] in
    synctext_texts heuristic show_suspect transpose (map fst files) texts.
End Main.
