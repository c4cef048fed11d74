(** Specification of what the programs on texts print, from the files to the output. *)
From Coq Require Import String.
From Verif Require Import Base CLib Utf8Model TextModel TextSpec AccSpec SynctextSpec MainModel MainSpec.
Local Open Scope Z_scope.
Local Open Scope list_scope.

(** The named file stands for the text, or has the words. *)
Definition holds_text (sys : system) (uc : unicode_data) (lower : bool) (name : list Z) (t : list char) : Prop :=
  exists f h, has_file sys name f /\ Forall is_byte f /\ file_text uc lower f h t.
Definition holds_words (sys : system) (uc : unicode_data) (NFC : list Z -> list Z) (name : list Z) (ws : list (list Z)) : Prop :=
  exists f h, has_file sys name f /\ Forall is_byte f /\ file_words uc NFC f h ws.

(** ** Options *)

(** What is given with -n of ngram: 1, 2 or 3, or nothing for 1. *)
Definition n_given (v : option (list Z)) (n : Z) : Prop :=
  match v with None => n = 1 | Some s => s = dec n /\ 1 <= n <= 3 end.
(** A fraction m/n with digits from 1 to 9, m at most n. *)
Definition is_fraction (s : list Z) (m n : Z) : Prop := 1 <= m <= n /\ n <= 9 /\ s = dec m ++ bytes "/" ++ dec n.
(** What is given with -w of vote: the weights of a marked and an unmarked character. *)
Definition weights_given (v : option (list Z)) (marked unmarked : Z) : Prop :=
  match v with None => marked = 1 /\ unmarked = 1 | Some s => is_fraction s marked unmarked end.
(** What is given with -s of vote: the greatest integer below this part of all the votes. *)
Definition threshold_given (v : option (list Z)) (voters unmarked threshold : Z) : Prop :=
  match v with
  | None => threshold = 0
  | Some s => exists m n, is_fraction s m n /\ n * threshold <= voters * unmarked * m < n * (threshold + 1)
  end.

(** ** Voting *)

(** The texts are cut into rows of pieces, one piece of each text in a row. *)
Definition cut (texts : list (list char)) (rows : list (list (list char))) : Prop :=
  (forall row, In row rows -> zlen row = zlen texts) /\
  forall i t, znth texts i = Some t -> flat_map (piece i) rows = t.
(** The pieces have no character in common but '~'. *)
Definition apart (row : list (list char)) : Prop :=
  forall v, (forall p, In p row -> In v (map value p)) -> v = 126.

(** ** Edit operations *)

(** A text cut into pieces with or without a number, as for synctext -T: the pieces without one,
    joined, and the length of the one with the number [n]. *)
Definition loose (ps : list (option Z * list char)) : list char :=
  flat_map (fun np => match fst np with None => snd np | Some _ => [] end) ps.
Definition length_at (ps : list (option Z * list char)) (n : Z) : Z :=
  zsum (map (fun np => match fst np with Some m => if m =? n then zlen (snd np) else 0 | None => 0 end) ps).

(** The report: the figures and, if there are moves, how many there are of each length (100: of
    100 characters or more). *)
Definition edit_report (ins del : Z) (lengths : list Z) : list Z :=
  bytes "ocreval Edit Operation Report Version 7.0" ++ [10] ++
  bytes "-----------------------------------------" ++ [10] ++
  dec8 ins ++ bytes "   Insertions" ++ [10] ++
  dec8 del ++ bytes "   Deletions" ++ [10] ++
  dec8 (zlen lengths) ++ bytes "   Moves" ++ [10] ++
  match lengths with
  | [] => []
  | _ => [10] ++ bytes "Moves" ++ [10] ++ bytes "   Count   Length" ++ [10] ++
      flat_map (fun i => let n := zlen (filter (fun len => Z.min len 100 =? i) lengths) in
                         if 0 <? n then dec8 n ++ bytes " " ++ dec8 i ++ [10] else []) (zrange 1 100)
  end.
