(** Specification of the layout of reports: which lines there are, and in which columns a line shows what. *)
From Coq Require Import String Sorted Permutation.
From Verif Require Import Base Utf8Model TextModel TextSpec CharclassModel CompareModel AccModel AccSpec AccrptSpec WacModel WacrptSpec EdoModel.
Local Open Scope Z_scope.
Local Open Scope list_scope.

(** ** Lines *)

(** [s] is the numeral of [n]: decimal digits, no superfluous zero. *)
Definition numeral (n : Z) (s : list Z) : Prop :=
  s <> [] /\ Forall (fun c => 48 <= c <= 57) s /\ fold_left (fun v c => 10 * v + (c - 48)) s 0 = n /\ (hd 0 s = 48 -> s = [48]).

(** What stands in a line: something whose last character is in column [c] (the first column is 1), or something that
    begins after [c] columns. *)
Inductive part :=
| NumberTo (c n : Z)
| WordTo (c : Z) (w : list Z)
| TextAfter (c : Z) (t : list Z)
| PercentTo (c n d : Z)
| PercentText (n d : Z) (t : list Z).

Section Percent.
(** How printf shows 100.0 * n / d (C67); six dashes if [d] is zero. *)
Variable percent : Z -> Z -> list Z.
Definition percentage (n d : Z) : list Z := if d =? 0 then bytes "  ------" else percent n d.

(** The number of columns before the part, and its text. *)
Definition is_part (p : part) (x : Z * list Z) : Prop :=
  match p with
  | NumberTo c n => exists s, numeral n s /\ x = (c - zlen s, s)
  | WordTo c w => x = (c - zlen w, w)
  | TextAfter c t => x = (c, t)
  | PercentTo c n d => x = (c - zlen (percentage n d), percentage n d)
  | PercentText n d t => x = (0, percentage n d ++ t)
  end.

(** The line [l], which begins in column [c] + 1, consists of the texts [xs] at their places, and of blanks before and
    between them. *)
Inductive laid_out : Z -> list (Z * list Z) -> list Z -> Prop :=
| laid_none c : laid_out c [] []
| laid_more c at_ t xs l : c <= at_ -> laid_out (at_ + zlen t) xs l ->
    laid_out c ((at_, t) :: xs) (repeat 32 (Z.to_nat (at_ - c)) ++ t ++ l).

Definition line_shows (ps : list part) (l : list Z) : Prop :=
  ~ In 10 l /\ exists xs, Forall2 is_part ps xs /\ laid_out 0 xs l.

(** The file consists of lines that show the given parts. *)
Definition file_shows (lines : list (list part)) (f : list Z) : Prop :=
  exists ls, f = flat_map (fun l => l ++ [10]) ls /\ Forall2 line_shows lines ls.
End Percent.

(** ** Orders of rows *)

(** [l] lists what satisfies [P], in increasing order. *)
Definition lists (P : Z -> Prop) (l : list Z) : Prop := StronglySorted Z.lt l /\ forall i, In i l <-> P i.

(** [k] is before [k'] or equal, byte by byte. *)
Inductive before : list Z -> list Z -> Prop :=
| before_end k : before [] k
| before_byte a b k k' : a < b -> before (a :: k) (b :: k')
| before_same a k k' : before k k' -> before (a :: k) (a :: k').

(** Confusions: more errors first; with equally many errors more marked ones first; then by the text. *)
Definition conf_before (x y : conf) : Prop :=
  cerrors y < cerrors x \/ (cerrors x = cerrors y /\ (cmarked y < cmarked x \/ (cmarked x = cmarked y /\ before (ckey x) (ckey y)))).

(** ** The word accuracy report *)
Definition str (s : string) : list Z := bytes s.
Definition after (c : Z) (s : string) : part := TextAfter c (bytes s).
Definition word_to (c : Z) (s : string) : part := WordTo c (bytes s).

Definition headings : list part := [word_to 8 "Count"; word_to 17 "Missed"; word_to 26 "%Right"].
Definition wac_figures (w : wac) : list part := [NumberTo 8 (wcount w); NumberTo 17 (wmissed w); PercentTo 26 (wcount w - wmissed w) (wcount w)].

(** A table by length (or number of occurrences); [rows]: those that occur. *)
Definition number_table (title last : string) (ws : list wac) (rows : list Z) : list (list part) :=
  [[]; [after 0 title]; headings ++ [word_to 35 last]] ++
  map (fun i => wac_figures (row ws i) ++ [NumberTo 35 i]) rows.
Definition total_row (ws : list wac) : list part := wac_figures (row ws 0) ++ [word_to 35 "Total"].
(** The words that occur more often than the table goes. *)
Definition excess_rows (ws : list wac) (limit : Z) : list (list part) :=
  if 0 <? wcount (row ws (limit + 1)) then [wac_figures (row ws (limit + 1)) ++ [word_to 33 ">"; NumberTo 35 limit]] else [].
(** A table of words; the headings are followed by three blanks. *)
Definition word_table (title : string) (ts : list term) : list (list part) :=
  [[]; [after 0 title]; headings ++ [after 29 ""]] ++
  map (fun t => wac_figures (twac t) ++ [TextAfter 29 (tkey t)]) ts.

Definition occurring (ws : list wac) (limit : Z) (i : Z) : Prop := 1 <= i <= limit /\ 0 < wcount (row ws i).
Definition word_list (table ts : list term) : Prop := Permutation ts table /\ StronglySorted (fun x y => before (tkey x) (tkey y)) ts.

Record word_report (d : wacdata) (lines : list (list part)) : Prop := {
  wl_lines : exists stops nons dists phrases sts nts,
    lists (occurring (stopword d) 50) stops /\ lists (occurring (non_stopword d) 50) nons /\
    lists (occurring (distinct d) 10) dists /\ lists (occurring (phrase d) 8) phrases /\
    word_list (stop_terms d) sts /\ word_list (non_terms d) nts /\
    lines =
      [[after 0 "ocreval Word Accuracy Report Version 7.0"];
       [after 0 "----------------------------------------"];
       [NumberTo 8 (wcount (wtotal d)); after 11 "Words"];
       [NumberTo 8 (wmissed (wtotal d)); after 11 "Misrecognized"];
       [PercentText (wcount (wtotal d) - wmissed (wtotal d)) (wcount (wtotal d)) (str "%  Accuracy")]] ++
      number_table "Stopwords" "Length" (stopword d) stops ++ [total_row (stopword d)] ++
      number_table "Non-stopwords" "Length" (non_stopword d) nons ++ [total_row (non_stopword d)] ++
      number_table "Distinct Non-stopwords" "Occurs" (distinct d) dists ++ excess_rows (distinct d) 10 ++ [total_row (distinct d)] ++
      (if 0 <? wcount (wtotal d) then
         number_table "Phrases" "Length" (phrase d) phrases ++
         (if 0 <? wcount (row (stopword d) 0) then word_table "Stopwords" sts else []) ++
         (if 0 <? wcount (row (non_stopword d) 0) then word_table "Non-stopwords" nts else [])
       else []) }.

(** ** The accuracy report *)
Definition ops_row_of (o : accops) (name : string) : list part :=
  [NumberTo 8 (ins o); NumberTo 17 (subst o); NumberTo 26 (del o); NumberTo 35 (errs o); after 38 name].
Definition class_row (c : accclass) (t : list Z) : list part :=
  [NumberTo 8 (ccount c); NumberTo 17 (cmissed c); PercentTo 26 (ccount c - cmissed c) (ccount c); TextAfter 29 t].
(** The text of a confusion ends with a newline. *)
Definition conf_row (c : conf) : list part := [NumberTo 8 (cerrors c); NumberTo 17 (cmarked c); TextAfter 20 (removelast (ckey c))].

Record accuracy_report (uc : unicode_data) (d : accdata) (lines : list (list part)) : Prop := {
  al_lines : exists classes values cs name,
    lists (fun j => 0 <= j < 256 /\ 0 < ccount (large d j)) classes /\ (forall j, In j classes -> charclass_name j = Ok (name j)) /\
    lists (fun v => 0 < ccount (small d v)) values /\
    Permutation cs (conftable d) /\ StronglySorted conf_before cs /\
    lines =
      [[after 0 "ocreval Accuracy Report Version 7.0"];
       [after 0 "-----------------------------------"];
       [NumberTo 8 (characters d); after 11 "Characters"];
       [NumberTo 8 (errors d); after 11 "Errors"];
       [PercentText (characters d - errors d) (characters d) (str "%  Accuracy")];
       [];
       [NumberTo 8 (rejects d); after 11 "Reject Characters"];
       [NumberTo 8 (suspects d); after 11 "Suspect Markers"];
       [NumberTo 8 (false_marks d); after 11 "False Marks"];
       [PercentText (rejects d + suspects d) (characters d) (str "%  Characters Marked")];
       [PercentText (characters d - errs (unmarked_ops d)) (characters d) (str "%  Accuracy After Correction")];
       [];
       [word_to 8 "Ins"; word_to 17 "Subst"; word_to 26 "Del"; word_to 35 "Errors"];
       ops_row_of (marked_ops d) "Marked";
       ops_row_of (unmarked_ops d) "Unmarked";
       ops_row_of (total_ops d) "Total";
       [];
       headings] ++
      map (fun j => class_row (large d j) (name j)) classes ++ [class_row (total_class d) (str "Total")] ++
      (if 0 <? errors d then
         [[]; [word_to 8 "Errors"; word_to 17 "Marked"; after 20 "Correct-Generated"]] ++ map conf_row cs else []) ++
      (if 0 <? characters d then
         [[]; headings] ++ map (fun v => class_row (small d v) (str "{" ++ display uc v ++ str "}")) values else []) }.

(** ** The report of editop *)
Record edit_report (d : edodata) (lines : list (list part)) : Prop := {
  el_lines : exists lengths,
    lists (fun i => 1 <= i <= 100 /\ exists n, znth (moves d) i = Some n /\ 0 < n) lengths /\
    lines =
      [[after 0 "ocreval Edit Operation Report Version 7.0"];
       [after 0 "-----------------------------------------"];
       [NumberTo 8 (insertions d); after 11 "Insertions"];
       [NumberTo 8 (deletions d); after 11 "Deletions"];
       [NumberTo 8 (total_moves d); after 11 "Moves"]] ++
      (if 0 <? total_moves d then
         [[]; [after 0 "Moves"]; [word_to 8 "Count"; word_to 17 "Length"]] ++
         map (fun i => [NumberTo 8 (match znth (moves d) i with Some n => n | None => 0 end); NumberTo 17 i]) lengths
       else []) }.
