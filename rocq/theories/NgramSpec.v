(** Specification of n-gram reports. *)
From Coq Require Import String Sorted.
From Verif Require Import Base CLib Utf8Model TextModel AccSpec WacSpec FreqSpec.
Local Open Scope Z_scope.
Local Open Scope list_scope.

(** The sequences of [n] consecutive characters of a text: one from each position that has as
    many characters left. *)
Definition sequences (n : nat) (t : list char) : list (list char) :=
  map (fun i => firstn n (skipn i t)) (seq 0 (List.length t + 1 - n)).

(** How often the values [vs] occur among the sequences, and how often with a marked
    character. *)
Definition occurs_as (vs : list Z) (w : list char) : bool := word_eqb vs (map value w).
Definition count_of (vs : list Z) (ws : list (list char)) : Z := count_if (occurs_as vs) ws.
Definition suspects_of (vs : list Z) (ws : list (list char)) : Z :=
  count_if (fun w => occurs_as vs w && existsb suspect w) ws.

(** A row: the values, the count, the number of marked occurrences. *)
Definition seqrow : Type := list Z * (Z * Z).

(** [rows] lists each sequence of values that occurs once, with its figures. *)
Record lists_sequences (ws : list (list char)) (rows : list seqrow) : Prop := {
  ls_once : NoDup (map fst rows);
  ls_values : forall vs, In vs (map fst rows) <-> exists w, In w ws /\ map value w = vs;
  ls_figures : forall vs c s, In (vs, (c, s)) rows -> c = count_of vs ws /\ s = suspects_of vs ws }.

(** The orders: by the values of the characters; by decreasing count, then decreasing marked
    count, then values. *)
Definition by_values (r1 r2 : seqrow) : Prop := lex (fst r1) (fst r2).
Definition by_counts (r1 r2 : seqrow) : Prop :=
  fst (snd r2) < fst (snd r1) \/
  (fst (snd r1) = fst (snd r2) /\
   (snd (snd r2) < snd (snd r1) \/ (snd (snd r1) = snd (snd r2) /\ lex (fst r1) (fst r2)))).

Definition seq_listing (uc : unicode_data) (ws : list (list char)) (rows : list seqrow) : list Z :=
  bytes "   Count  Suspect" ++ [10] ++
  flat_map (fun r : seqrow => dec8 (fst (snd r)) ++ bytes " " ++ dec8 (snd (snd r)) ++ bytes "   {" ++
                     flat_map (display uc) (fst r) ++ bytes "}" ++ [10]) rows ++
  dec8 (zlen ws) ++ bytes " " ++ dec8 (count_if (existsb suspect) ws) ++ bytes "   Total" ++ [10].

Definition ngram_report (uc : unicode_data) (ws : list (list char)) (out : list Z) : Prop :=
  exists rows1 rows2,
    lists_sequences ws rows1 /\ StronglySorted by_values rows1 /\
    lists_sequences ws rows2 /\ StronglySorted by_counts rows2 /\
    out = seq_listing uc ws rows1 ++ [10; 10] ++ seq_listing uc ws rows2.
