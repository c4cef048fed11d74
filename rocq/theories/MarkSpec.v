(** Specification for C86: texts and figures that differ in the suspect marks only. *)
From Verif Require Import Base TextModel CompareModel AccModel.
Local Open Scope Z_scope.
Local Open Scope list_scope.

(** The same characters, marked in any way. *)
Definition same_characters (t t' : list char) : Prop := map value t = map value t'.

(** The same characters, and every character marked in the first is marked in the second. *)
Definition more_marks : list char -> list char -> Prop :=
  Forall2 (fun c c' => value c = value c' /\ (suspect c = true -> suspect c' = true)).

(** Files with the same bytes, up to circumflexes. *)
Definition same_up_to_carets (f f' : list Z) : Prop :=
  filter (fun b => negb (b =? 94)) f = filter (fun b => negb (b =? 94)) f'.

(** The figures of accuracy that do not count marks. *)
Definition same_but_marks (d d' : accdata) : Prop :=
  characters d = characters d' /\ errors d = errors d' /\ rejects d = rejects d' /\
  total_ops d = total_ops d' /\
  (forall k, large d k = large d' k) /\ total_class d = total_class d' /\
  (forall v, small d v = small d' v) /\
  map (fun c => (ckey c, cerrors c)) (conftable d) = map (fun c => (ckey c, cerrors c)) (conftable d').

(** The figures that count marks, the second with more of them. *)
Definition conf_grow (c c' : conf) : Prop :=
  ckey c = ckey c' /\ cerrors c = cerrors c' /\ cmarked c <= cmarked c'.
Definition marks_grow (d d' : accdata) : Prop :=
  suspects d <= suspects d' /\ false_marks d <= false_marks d' /\
  errs (marked_ops d) <= errs (marked_ops d') /\ errs (unmarked_ops d') <= errs (unmarked_ops d) /\
  Forall2 conf_grow (conftable d) (conftable d').
