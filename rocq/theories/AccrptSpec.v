(** Specification of accuracy reports: the figures of a report, and what a report is. *)
From Coq Require Import String.
From Verif Require Import Base Utf8Model TextModel TextSpec CharclassModel CompareModel
  AccModel AccSpec ReportSpec.
Local Open Scope Z_scope.
Local Open Scope list_scope.

(** Everything that is counted.  A flag [missed] selects the second figure of a row of the
    class tables, a flag [marked] that of a row of the confusion table. *)
Inductive ops_row := RMarked | RUnmarked | RTotal.
Inductive ops_column := CIns | CSubst | CDel | CErrors.
Inductive figure :=
| FCharacters | FErrors | FRejects | FSuspects | FFalseMarks
| FOps (r : ops_row) (c : ops_column)
| FClass (missed : bool) (class : Z)
| FAllClasses (missed : bool)
| FCharacter (missed : bool) (v : Z)
| FConfusion (marked : bool) (key : list Z).

Definition ops_of (d : accdata) (r : ops_row) : accops :=
  match r with RMarked => marked_ops d | RUnmarked => unmarked_ops d | RTotal => total_ops d end.
Definition column (o : accops) (c : ops_column) : Z :=
  match c with CIns => ins o | CSubst => subst o | CDel => del o | CErrors => errs o end.
Definition cell (missed : bool) (c : accclass) : Z := if missed then cmissed c else ccount c.

Definition fig (x : figure) (d : accdata) : Z :=
  match x with
  | FCharacters => characters d
  | FErrors => errors d
  | FRejects => rejects d
  | FSuspects => suspects d
  | FFalseMarks => false_marks d
  | FOps r c => column (ops_of d r) c
  | FClass m j => if (0 <=? j) && (j <? 256) then cell m (large d j) else 0
  | FAllClasses m => cell m (total_class d)
  | FCharacter m v => cell m (small d v)
  | FConfusion m k => if m then conf_marked (conftable d) k else conf_errors (conftable d) k
  end.

Definition same_figures (a b : accdata) : Prop := forall x, fig x a = fig x b.
(** [c] is the total of the data [ds]. *)
Definition total_of (ds : list accdata) (c : accdata) : Prop :=
  forall x, fig x c = zsum (map (fig x) ds).
Definition below (n : Z) (d : accdata) : Prop := forall x, fig x d < n.

(** A confusion as the report shows it: one line of at most 78 bytes. *)
Definition report_key (k : list Z) : Prop :=
  exists body, k = body ++ [10] /\ ~ In 10 body /\ Forall (fun c => 0 < c < 256) body /\
    zlen k <= 78.

(** The data of a report. *)
Record reportable (d : accdata) : Prop := {
  rp_tables : tables_consistent d;
  rp_chars : characters d = ccount (total_class d);
  rp_errors : errors d = zsum (map cerrors (conftable d));
  rp_confs : confs_consistent (conftable d);
  rp_keys : Forall (fun c => report_key (ckey c)) (conftable d);
  rp_values : forall v, ccount (small d v) <> 0 -> scalar v;
  rp_nonneg : forall x, 0 <= fig x d }.

(** What is assumed of printf("%8.2f", 100.0 * n / d): no newline or NUL, not very long, and
    8 columns for a percentage between 0 and 100. *)
Definition pct_ok (fmt : Z -> Z -> list Z) : Prop :=
  forall n d, 0 < d < 100000000 -> - 100000000 < n < 200000000 ->
    ~ In 10 (fmt n d) /\ ~ In 0 (fmt n d) /\ zlen (fmt n d) <= 40 /\
    (0 <= n <= d -> zlen (fmt n d) = 8).

(** About the Unicode data base: a mark that needs a base character is not an ASCII
    character. *)
Definition marks_wide (uc : unicode_data) : Prop :=
  forall v, 0 <= v < 128 -> is_combining uc v = false.

(** The lines with which an accuracy report starts. *)
Definition accuracy_header : list want :=
  [Starts (bytes "ocreval Accuracy Report Version 7."); Is (bytes "-----------------------------------" ++ [10]);
   Numbers 1; Numbers 1; Any; Any; Numbers 1; Numbers 1; Numbers 1; Any; Any; Any; Any;
   Numbers 4; Numbers 4; Numbers 4; Any].
