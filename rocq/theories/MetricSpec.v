(** Specification of the numbers of errors as distances. *)
From Coq Require Import String.
From Verif Require Import Base CLib Utf8Model TextModel SyncModel CompareModel AccModel AccSpec WacModel UtilModel ArgsProps MainModel MainSpec.
Local Open Scope Z_scope.
Local Open Scope list_scope.

(** accuracy, given the correct text [t0] and the generated text [t1], counts [e] errors. *)
Definition errors_between (uc : unicode_data) (t0 t1 : list char) (e : Z) : Prop :=
  exists d, accuracy_data uc t0 t1 = Ok d /\ errors d = e.

(** wordacc, given the words of the correct and of the generated text, counts [e] as misrecognized. *)
Definition misses_between (is_stopword : list Z -> bool) (order : list term -> list term) (w0 w1 : list (list Z)) (e : Z) : Prop :=
  exists d, wordacc is_stopword order w0 w1 = Ok d /\ wmissed (wtotal d) = e.

(** One element is inserted, deleted or replaced. *)
Inductive one_edit {A} : list A -> list A -> Prop :=
| one_insert u x v : one_edit (u ++ v) (u ++ x :: v)
| one_delete u x v : one_edit (u ++ x :: v) (u ++ v)
| one_replace u x y v : one_edit (u ++ x :: v) (u ++ y :: v).

(** A text without the reject character '~'. *)
Definition no_reject (t : list char) : Prop := ~ In 126 (map value t).

(** The program accuracy, run on the files named [n0] and [n1], prints a report with [e] errors. *)
Definition accuracy_prints (sys : system) (uc : unicode_data) (line buf : list Z) (order : list conf -> list conf) (fmt : Z -> Z -> list Z)
  (n0 n1 : list Z) (e : Z) : Prop :=
  forall items argv, command_line [] items argv -> plain_args items = [n0; n1] ->
  exists r report, accuracy_main sys uc line buf order fmt argv = Ok (Done r) /\ delivered sys None [] report r /\
    shows report 3 (bytes "Errors") e.
