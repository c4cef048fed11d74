(** Specification: the figures of accuracy, read off the differences that synctext shows. *)
From Coq Require Import String.
From Verif Require Import Base Utf8Model TextModel TextSpec AccModel AccSpec SynctextSpec.
Local Open Scope Z_scope.
Local Open Scope list_scope.

(** The differences of two texts: what the first and what the second text has in each. *)
Definition differences (al : alignment) : list (list char * list char) :=
  map (fun s => (piece 0 (fst s), piece 1 (fst s))) (steps al).
(** What the texts have in common, as it is in the second text. *)
Definition common (al : alignment) : list char :=
  piece 1 (beginning al) ++ flat_map (fun s => piece 1 (snd s)) (steps al).

(** The characters of the first text in a difference, except '~'; those of the second, except
    one for each '~' of the first; the number of errors; is the second text marked there? *)
Definition lost (p : list char * list char) : Z := num plain (fst p).
Definition found (p : list char * list char) : Z := Z.max 0 (zlen (snd p) - num is_tilde (fst p)).
Definition wrong (p : list char * list char) : Z := Z.max (lost p) (found p).
Definition flagged (p : list char * list char) : bool := existsb (fun c => is_tilde c || suspect c) (snd p).

Definition sum_over {A} (f : A -> Z) (l : list A) : Z := zsum (map f l).
(** Insertions, substitutions and deletions that correct some differences. *)
Definition operations_of (ps : list (list char * list char)) (o : accops) : Prop :=
  ins o = sum_over (fun p => Z.max 0 (lost p - found p)) ps /\
  subst o = sum_over (fun p => Z.min (lost p) (found p)) ps /\
  del o = sum_over (fun p => Z.max 0 (found p - lost p)) ps /\
  errs o = sum_over wrong ps.

(** All figures of a report that depend on where the texts differ. *)
Record figures_of (uc : unicode_data) (al : alignment) (d : accdata) : Prop := {
  fo_errors : errors d = sum_over wrong (differences al);
  fo_total : operations_of (differences al) (total_ops d);
  fo_marked : operations_of (filter flagged (differences al)) (marked_ops d);
  fo_unmarked : operations_of (filter (fun p => negb (flagged p)) (differences al)) (unmarked_ops d);
  fo_false : false_marks d = num plain_suspect (common al);
  fo_missed : forall v, cmissed (small d v) = sum_over (fun p => num (plain_value v) (fst p)) (differences al);
  fo_confusions : forall key (f : list char * list char -> bool),
    (forall p, In p (differences al) -> f p = true <-> is_key uc (map value (fst p)) (map value (snd p)) key) ->
    conf_errors (conftable d) key = sum_over wrong (filter f (differences al)) /\
    conf_marked (conftable d) key = sum_over wrong (filter flagged (filter f (differences al))) }.
