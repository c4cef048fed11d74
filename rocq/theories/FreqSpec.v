(** Specification of word frequency reports. *)
From Coq Require Import String Sorted.
From Verif Require Import Base CLib WacSpec.
Local Open Scope Z_scope.
Local Open Scope list_scope.

(** The lexicographic order of byte strings. *)
Inductive lex : list Z -> list Z -> Prop :=
| lex_prefix b l : lex [] (b :: l)
| lex_first x y a b : x < y -> lex (x :: a) (y :: b)
| lex_next x a b : lex a b -> lex (x :: a) (x :: b).

(** The number of times a word occurs. *)
Definition occurrences (w : list Z) (words : list (list Z)) : Z := count_if (word_eqb w) words.

(** [rows] lists each of the words once, with its number of occurrences. *)
Record lists_words (words : list (list Z)) (rows : list (list Z * Z)) : Prop := {
  lw_once : NoDup (map fst rows);
  lw_words : forall w, In w (map fst rows) <-> In w words;
  lw_counts : forall w c, In (w, c) rows -> c = occurrences w words }.

(** The two orders of the report. *)
Definition by_word (r1 r2 : list Z * Z) : Prop := lex (fst r1) (fst r2).
Definition by_frequency (r1 r2 : list Z * Z) : Prop :=
  snd r2 < snd r1 \/ (snd r1 = snd r2 /\ lex (fst r1) (fst r2)).

(** One listing, with the total. *)
Definition listing (rows : list (list Z * Z)) (total : Z) : list Z :=
  bytes "   Count" ++ [10] ++
  flat_map (fun r => dec8 (snd r) ++ bytes "   " ++ fst r ++ [10]) rows ++
  dec8 total ++ bytes "   Total" ++ [10].

(** [out] is the report on [words]: the words in alphabetical order, then by decreasing
    frequency, each time with the number of words. *)
Definition frequency_report (words : list (list Z)) (out : list Z) : Prop :=
  exists rows1 rows2,
    lists_words words rows1 /\ StronglySorted by_word rows1 /\
    lists_words words rows2 /\ StronglySorted by_frequency rows2 /\
    out = listing rows1 (zlen words) ++ [10; 10] ++ listing rows2 (zlen words).
