(** Specification of the output of synctext. *)
From Coq Require Import String Permutation.
From Verif Require Import Base CLib Utf8Model TextModel TextSpec SyncSpec AccSpec.
Local Open Scope Z_scope.
Local Open Scope list_scope.

(** How a character is printed: '^' if it is marked, then the character; a newline as such. *)
Definition image (uc : unicode_data) (c : char) : list Z :=
  (if suspect c then [94] else []) ++ (if value c =? 10 then [10] else display uc (value c)).
Definition images (uc : unicode_data) (cs : list char) : list Z := flat_map (image uc) cs.

(** What an alignment of several texts consists of: the pieces with which the texts begin, one
    for each text, and then steps: the pieces of the texts that differ, and the pieces that
    follow them. *)
Record alignment := mkal {
  beginning : list (list char);
  steps : list (list (list char) * list (list char)) }.

Definition piece (i : Z) (ps : list (list char)) : list char :=
  match znth ps i with Some p => p | None => [] end.
(** All pieces of the text number [i]. *)
Definition text_of (i : Z) (al : alignment) : list char :=
  piece i (beginning al) ++ flat_map (fun s => piece i (fst s) ++ piece i (snd s)) (steps al).

(** The same characters, no '~' among them. *)
Definition alike (ps : list (list char)) : Prop :=
  exists vs, ~ In 126 vs /\ forall p, In p ps -> map value p = vs.

(** Taken together the pieces make up each of the texts; the texts have the same characters in
    the beginning and after each difference. *)
Definition aligned (texts : list (list char)) (al : alignment) : Prop :=
  (forall i t, znth texts i = Some t -> text_of i al = t) /\
  (zlen (beginning al) = zlen texts /\ alike (beginning al)) /\
  (forall s, In s (steps al) -> zlen (fst s) = zlen texts /\ zlen (snd s) = zlen texts /\ alike (snd s)).

(** The number of characters that must be edited: for each difference the longer piece. *)
Definition edited (al : alignment) : Z :=
  zsum (map (fun s => fold_right Z.max 0 (map zlen (fst s))) (steps al)).

(** What is shown: of a text its characters, marked as they are if [show]; of pieces that are
    alike the characters, marked if [show] and if the character is marked in one of them. *)
Definition shown_piece (show : bool) (p : list char) : list char :=
  map (fun c => mkchar (show && suspect c) (value c)) p.
Definition marked_at (j : Z) (p : list char) : bool :=
  match znth p j with Some c => suspect c | None => false end.
Definition shown_common (show : bool) (ps : list (list char)) : list char :=
  map (fun jc => mkchar (show && existsb (marked_at (fst jc)) ps) (value (snd jc)))
      (let p := piece 0 ps in combine (zrange 0 (List.length p)) p).

(** The elements of a list with their numbers, from [k]. *)
Fixpoint numbered {A} (k : Z) (l : list A) : list (Z * A) :=
  match l with [] => [] | x :: l => (k, x) :: numbered (k + 1) l end.

Definition separator : list Z := repeat 61 79 ++ [10].
Definition blanks (n : Z) : list Z := repeat 32 (Z.to_nat n).

Section Printing.
Variable uc : unicode_data.
Variable show : bool.

(** The common characters, with the number {k} in place of the k-th difference. *)
Definition common_part (al : alignment) : list Z :=
  images uc (shown_common show (beginning al)) ++
  flat_map (fun ks => bytes "{" ++ dec (fst ks) ++ bytes "}" ++ images uc (shown_common show (snd (snd ks))))
           (numbered 1 (steps al)).

(** What one text has in a difference: the name of its file and the characters in braces; each
    further line is indented by [w] + 2 blanks. *)
Definition entry (w : Z) (np : list Z * list char) : list Z :=
  fst np ++ blanks (w - zlen (fst np)) ++ bytes " {" ++
  flat_map (fun c => image uc c ++ if value c =? 10 then blanks (w + 2) else []) (shown_piece show (snd np)) ++
  bytes "}" ++ [10].

(** The k-th difference: its number and the entries of the files. *)
Definition difference_part (w : Z) (names : list (list Z)) (k : Z) (ps : list (list char)) : list Z :=
  separator ++ bytes "{" ++ dec k ++ bytes "}" ++ [10] ++ flat_map (entry w) (combine names ps).

(** The length of the longest name. *)
Definition longest (names : list (list Z)) : Z := fold_right Z.max 0 (map zlen names).

(** The whole output. *)
Definition printed (names : list (list Z)) (al : alignment) : list Z :=
  separator ++ [10] ++ common_part al ++ [10] ++
  flat_map (fun ks => difference_part (longest names) names (fst ks) (fst (snd ks))) (numbered 1 (steps al)) ++
  separator.

(** With option -T: each text is cut into pieces, some of which have a number. *)
Definition numbered_piece (np : option Z * list char) : list Z :=
  match fst np with
  | Some n => bytes "{" ++ dec n ++ bytes ":" ++ images uc (shown_piece show (snd np)) ++ bytes "}"
  | None => images uc (shown_piece show (snd np))
  end.
Definition transposed_part (ps : list (option Z * list char)) : list Z :=
  separator ++ [10] ++ flat_map numbered_piece ps ++ [10].
End Printing.

(** The numbered pieces of the two texts: numbers 1, 2, 3, ... in the first text, the same
    numbers in some order in the second; pieces with the same number have the same characters,
    at least one and no '~'; the other pieces have no character in common, except '~'. *)
Definition numbers (ps : list (option Z * list char)) : list Z :=
  flat_map (fun np => match fst np with Some n => [n] | None => [] end) ps.
Definition paired (ps1 ps2 : list (option Z * list char)) : Prop :=
  numbers ps1 = zrange 1 (List.length (numbers ps1)) /\
  Permutation (numbers ps1) (numbers ps2) /\
  (forall n p1 p2, In (Some n, p1) ps1 -> In (Some n, p2) ps2 ->
     map value p1 = map value p2 /\ p1 <> [] /\ ~ In 126 (map value p1)) /\
  (forall p1 p2 v, In (None, p1) ps1 -> In (None, p2) ps2 -> In v (map value p1) -> In v (map value p2) -> v = 126).
