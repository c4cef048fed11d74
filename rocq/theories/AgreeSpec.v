(** Specification: what the reports of different programs say about the same file. *)
From Coq Require Import String.
From Verif Require Import Base CLib Utf8Model TextModel AccSpec WacSpec FreqSpec NgramSpec.
Local Open Scope Z_scope.
Local Open Scope list_scope.

(** The first listing of a report of ngram, with its rows and its totals. *)
Definition ngram_listing (uc : unicode_data) (rows : list seqrow) (total marked : Z) : list Z :=
  bytes "   Count  Suspect" ++ [10] ++
  flat_map (fun r : seqrow => dec8 (fst (snd r)) ++ bytes " " ++ dec8 (snd (snd r)) ++ bytes "   {" ++
                     flat_map (display uc) (fst r) ++ bytes "}" ++ [10]) rows ++
  dec8 total ++ bytes " " ++ dec8 marked ++ bytes "   Total" ++ [10].

(** The count and the number of marked occurrences in the row of a character, zero if there is
    no row. *)
Definition listed (rows : list seqrow) (v : Z) : Z * Z :=
  match find (fun r : seqrow => word_eqb [v] (fst r)) rows with Some r => snd r | None => (0, 0) end.
