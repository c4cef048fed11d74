(** Specification: how the tables of sequences of n and of n + 1 characters fit together. *)
From Coq Require Import String.
From Verif Require Import Base CLib Utf8Model TextModel AccSpec WacSpec FreqSpec NgramSpec.
Local Open Scope Z_scope.
Local Open Scope list_scope.

(** The count and the marked count that a table gives for the values [vs]: zero without a row. *)
Definition row_of (rows : list seqrow) (vs : list Z) : Z * Z :=
  match find (fun r : seqrow => word_eqb vs (fst r)) rows with Some r => snd r | None => (0, 0) end.

(** The rows for the values [vs] followed by one more, and for one more followed by [vs]. *)
Definition longer_after (rows : list seqrow) (vs : list Z) : list seqrow :=
  filter (fun r => word_eqb vs (removelast (fst r))) rows.
Definition longer_before (rows : list seqrow) (vs : list Z) : list seqrow :=
  filter (fun r => word_eqb vs (tl (fst r))) rows.

(** The sums of the two columns over some rows. *)
Definition sum_counts (rows : list seqrow) : Z := fold_right (fun r s => fst (snd r) + s) 0 rows.
Definition sum_marked (rows : list seqrow) : Z := fold_right (fun r s => snd (snd r) + s) 0 rows.

(** How many of the texts end with, begin with the values [vs]; how many have [n] characters. *)
Definition ending (vs : list Z) (texts : list (list char)) : Z :=
  count_if (fun t => word_eqb vs (skipn (List.length t - List.length vs) (map value t))) texts.
Definition beginning (vs : list Z) (texts : list (list char)) : Z :=
  count_if (fun t => word_eqb vs (firstn (List.length vs) (map value t))) texts.
Definition long_enough (n : Z) (texts : list (list char)) : Z := count_if (fun t => n <=? zlen t) texts.

(** The count that a table of words gives for the word [w]: zero without a row. *)
Definition word_count (rows : list (list Z * Z)) (w : list Z) : Z :=
  match find (fun r : list Z * Z => word_eqb w (fst r)) rows with Some r => snd r | None => 0 end.
