(** Specification of edit operation reports and costs. *)
From Coq Require Import String.
From Verif Require Import Base CLib AccSpec ReportSpec EdoModel.
Local Open Scope Z_scope.
Local Open Scope list_scope.

(** Everything that is counted. *)
Inductive efigure := EInsertions | EDeletions | EMoves | EMove (length : Z).
(** The number of moves of a length; zero outside of the table. *)
Definition entry (ms : list Z) (i : Z) : Z := match znth ms i with Some n => n | None => 0 end.
Definition efig (x : efigure) (d : edodata) : Z :=
  match x with
  | EInsertions => insertions d
  | EDeletions => deletions d
  | EMoves => total_moves d
  | EMove i => entry (moves d) i
  end.

Definition esame (a b : edodata) : Prop := forall x, efig x a = efig x b.
Definition etotal_of (ds : list edodata) (c : edodata) : Prop :=
  forall x, efig x c = zsum (map (efig x) ds).
Definition ebelow (n : Z) (d : edodata) : Prop := forall x, efig x d < n.

(** The data of a report: every move has a length from 1 to 100. *)
Record ereportable (d : edodata) : Prop := {
  er_size : zlen (moves d) = 101;
  er_zero : entry (moves d) 0 = 0;
  er_nonneg : forall x, 0 <= efig x d;
  er_sum : total_moves d = zsum (moves d) }.

(** [d] records the moves of the given lengths. *)
Definition records (lengths : list Z) (d : edodata) : Prop :=
  Forall (fun n => 1 <= n) lengths /\ total_moves d = zlen lengths /\ zlen (moves d) = 101 /\
  forall i, 0 <= i <= 100 ->
    entry (moves d) i = zlen (filter (fun n => Z.min n 100 =? i) lengths).

(** The cost of an edit with [ins] insertions and these moves, when a move costs its length
    but at most [t]. *)
Definition edit_cost (t ins : Z) (lengths : list Z) : Z := ins + zsum (map (Z.min t) lengths).
(** The same from the numbers of moves. *)
Definition table_cost (t : Z) (d : edodata) : Z :=
  insertions d + zsum (map (fun len => Z.min t len * entry (moves d) len) (zrange 1 100)).

(** The lines with which an edit operation report starts. *)
Definition edit_header : list want :=
  [Starts (bytes "ocreval Edit Operation Report Version 7.");
   Is (bytes "-----------------------------------------" ++ [10]);
   Numbers 1; Numbers 1; Numbers 1].

(** A line of the costs: the threshold in 3 columns, a blank and the cost in 10 columns. *)
Definition cost_shown (t cost : Z) : list Z := pad 32 3 (dec t) ++ bytes " " ++ pad 32 10 (dec cost) ++ [10].
