(** Specification of the statistics of pages: listings in terms of the texts and words of the
    pages. *)
From Coq Require Import String.
From Verif Require Import Base CLib Utf8Model TextModel AccSpec SyncSpec WacSpec.
Local Open Scope Z_scope.
Local Open Scope list_scope.

(** ** An alignment of two texts *)

(** A part of the correct and the part of the generated text that goes with it; recognized or not. *)
Record section := mksection { recognized : bool; in_correct : list char; in_generated : list char }.
(** The sections make up the texts, the recognized ones are the same in both, and the others are as
    cheap as possible. *)
Definition aligned (t0 t1 : list char) (gs : list section) : Prop :=
  concat (map in_correct gs) = t0 /\ concat (map in_generated gs) = t1 /\
  Forall (fun g => recognized g = true -> map value (in_correct g) = map value (in_generated g)) gs /\
  distance (map value t0) (map value t1)
    (zsum (map (fun g => if recognized g then 0 else Z.max (zlen (in_correct g)) (zlen (in_generated g))) gs)).
(** What of the correct text is not recognized *)
Definition lost (gs : list section) : list char := concat (map in_correct (filter (fun g => negb (recognized g)) gs)).

(** ** The listing of a group of characters *)

Definition columns (fmt8 : Z -> Z -> list Z) (count missed : Z) : list Z :=
  pad 32 8 (dec count) ++ bytes " " ++ pad 32 8 (dec missed) ++ bytes " " ++
  (if count =? 0 then bytes "  ------" else fmt8 (count - missed) count) ++ bytes "   ".
(** A line for each character of the group, other than blank and newline, that is there at all, and
    the totals of these lines. *)
Definition group_table (uc : unicode_data) (fmt8 : Z -> Z -> list Z) (count missed : Z -> Z) (vs : list Z) : list Z :=
  let chars := filter (fun v => negb (v =? 32) && negb (v =? 10) && (0 <? count v)) vs in
  bytes "   Count   Missed   %Right" ++ [10] ++
  concat (map (fun v => columns fmt8 (count v) (missed v) ++ bytes "{" ++ display uc v ++ bytes "}" ++ [10]) chars) ++
  columns fmt8 (zsum (map count chars)) (zsum (map missed chars)) ++ bytes "Total" ++ [10].

(** ** The accuracy of the words that are left *)

(** The words other than the first [i] stopwords. *)
Definition other_than (ws : list (list Z)) (i : nat) (w : list Z) : bool :=
  if in_dec (list_eq_dec Z.eq_dec) w (firstn i ws) then false else true.
Definition remaining (ws words : list (list Z)) (i : nat) : Z := zlen (filter (other_than ws i) words).
Definition remaining_right (ws words : list (list Z)) (marks : list bool) (i : nat) : Z :=
  zlen (filter (fun wm => other_than ws i (fst wm) && snd wm) (combine words marks)).
(** A line for each number of stopwords taken away, from none to all, up to the first for which no
    word remains. *)
Definition word_curve (fmt6 : Z -> Z -> list Z) (ws words : list (list Z)) (marks : list bool) (out : list Z) : Prop :=
  exists k : nat,
    out = concat (map (fun i => pad 32 3 (dec (Z.of_nat i)) ++ bytes " " ++
                        fmt6 (remaining_right ws words marks i) (remaining ws words i) ++ [10]) (seq 0 k)) /\
    (forall i, (i < k)%nat -> remaining ws words i <> 0) /\
    (k <= List.length ws + 1)%nat /\ (k = (List.length ws + 1)%nat \/ remaining ws words k = 0).
