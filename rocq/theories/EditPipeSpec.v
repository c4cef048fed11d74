(** The edits of pages: what it takes to turn the generated text into the correct one. *)
From Coq Require Import String.
From Verif Require Import Base TextModel AccSpec EdoSpec TraceSpec SynctextSpec MainTextSpec.
Local Open Scope Z_scope.
Local Open Scope list_scope.

Record edit := mkedit { inserted : Z; deleted : Z; moved : list Z (* the lengths of the moves *) }.

(** [edit_of t0 t1 e]: both texts are cut into pieces, some of which are the same in both.  The
    characters of the other pieces of the generated text [t1] are deleted, those of the correct text
    [t0] other than '~' inserted, and the pieces in common are moved into the order of the correct
    text as in C60. *)
Definition edit_of (t0 t1 : list char) (e : edit) : Prop :=
  exists ps0 ps1 shown,
    concat (map snd ps0) = t0 /\ concat (map snd ps1) = t1 /\ paired ps0 ps1 /\
    inserted e = zlen (filter (fun c => negb (value c =? 126)) (loose ps0)) /\
    deleted e = zlen (loose ps1) /\
    trace (length_at ps1) (numbers ps1) (moved e) shown.

(** What an edit costs if an insertion costs 1, a deletion nothing and a move its length but at
    most [t]. *)
Definition cost (t : Z) (e : edit) : Z := inserted e + zsum (map (Z.min t) (moved e)).

(** The edits of several pages together. *)
Definition all_edits (es : list edit) : edit :=
  mkedit (zsum (map inserted es)) (zsum (map deleted es)) (concat (map moved es)).

(** The costs for the thresholds from 0 to 100. *)
Definition cost_listing (c : Z -> Z) : list Z := flat_map (fun t => cost_shown t (c t)) (zrange 0 101).
