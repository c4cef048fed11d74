(** Specification of messages and exit status. *)
From Coq Require Import String.
From Verif Require Import Base CLib UtilModel UtilProps MainModel MainIoModel CrashSpec ExitModel.
Local Open Scope Z_scope.
Local Open Scope list_scope.

(** A line of a program with this name: name, colon, message, and a string in quotation marks if one is shown. *)
Definition said (name : list Z) (msg : string) (arg : option (list Z)) : list Z :=
  match arg with
  | None => name ++ bytes ": " ++ bytes msg ++ [10]
  | Some s => name ++ bytes ": " ++ bytes msg ++ bytes " " ++ [34] ++ s ++ [34] ++ [10]
  end.

(** What a program is given: the files it reads in the order in which it reads them; where its
    report goes; the string that is shown with a message about an option. *)
Record plan := mkplan { reading : list (list Z); destination : option (list Z); option_value : string -> option (list Z) }.

(** The program has read the files [l] and gives up with this message: the string shown with it, if
    any, is the next file, which does not exist; or the file for the report, which cannot be
    written; or the last file read; or the value of an option. *)
Definition blames (sys : system) (p : plan) (l : list (list Z)) (msg : string) (arg : option (list Z)) : Prop :=
  match arg with
  | None => True
  | Some s =>
    (msg = "unable to open file"%string /\ contents sys s = None /\ exists later, reading p = l ++ s :: later) \/
    (msg = "unable to create file"%string /\ writable sys s = false /\ destination p = Some s) \/
    ((msg = "invalid format in"%string \/ msg = "invalid character in"%string) /\ exists before, l = before ++ [s]) \/
    option_value p msg = Some s
  end.

(** The end of a process whose executable is called [name], with these options and this usage, if
    the program as it was described before (MainModel) ends as [main]; [given] and [warns] are the
    plan and the words it warns about, for arguments and values of options. *)
Definition ends_well (sys : system) (usage : string) (table : list UtilModel.entry)
    (given : list (list Z) -> list var -> plan) (warns : list var -> list (list Z) -> Prop)
    (argv : list (list Z)) (name : list Z) (e : final) (main : outcome ended) : Prop :=
  match main with
  | Ok (Done r) => exits e = Status 0 /\ leaves sys (actions e) r /\
      exists args vars ws, parse_args true table argv (repeat (None, false) (List.length table)) = Ok (Args args vars) /\
        standard_error e = flat_map (fun w => said name "duplicate stopword" (Some w)) ws /\ warns vars ws
  | Ok (Stopped Usage) => e = mkfinal [] (bytes "Usage:  " ++ name ++ bytes " " ++ bytes usage ++ [10]) (Status 0)
  | Ok (Stopped (InvalidOption arg)) => e = mkfinal [] (said name "invalid option" (Some arg)) (Status 1)
  | Ok (Stopped (DuplicateOption arg)) => e = mkfinal [] (said name "duplicate option" (Some arg)) (Status 1)
  | Ok (Stopped (Args _ _)) => False
  | Fail msg => exits e = Status 1 /\
      exists args vars ws arg l shown,
        parse_args true table argv (repeat (None, false) (List.length table)) = Ok (Args args vars) /\
        standard_error e = flat_map (fun w => said name "duplicate stopword" (Some w)) ws ++ said name msg arg /\ (ws = [] \/ warns vars ws) /\
        actions e = map Reads l ++ map (Puts None) shown /\ (List.length shown <= 1)%nat /\
        Forall (fun n => exists f, contents sys n = Some f) l /\
        (exists later, reading (given args vars) = l ++ later) /\
        blames sys (given args vars) l msg arg
  | UB msg => exits e = Undefined_behaviour msg
  | OutOfFuel => exits e = Never
  end.

(** The elements of a list that stand in it before already, in the order in which they come again. *)
Fixpoint repeated (seen ws : list (list Z)) : list (list Z) :=
  match ws with
  | [] => []
  | w :: ws => if in_dec (list_eq_dec Z.eq_dec) w seen then w :: repeated seen ws else repeated (w :: seen) ws
  end.

(** The plans of the programs. *)
Definition no_value : string -> option (list Z) := fun _ => None.
(** accuracy, groupacc, editop: two files, and the report into a third one. *)
Definition two_files (args : list (list Z)) (_ : list var) : plan := mkplan (firstn 2 args) (nth_error args 2) no_value.
(** The programs that read all their arguments and print. *)
Definition all_files (args : list (list Z)) (_ : list var) : plan := mkplan args None no_value.
(** wordacc: the value of -S first *)
Definition value_of (vars : list var) (i : nat) : option (list Z) := fst (nth i vars (None, false)).
Definition wordacc_files (args : list (list Z)) (vars : list var) : plan :=
  mkplan (match value_of vars 0 with Some s => [s] | None => [] end ++ firstn 2 args) (nth_error args 2) no_value.
(** ngram: the value of -n; vote: of -o, -s and -w *)
Definition ngram_files (args : list (list Z)) (vars : list var) : plan :=
  mkplan args None (fun msg => if string_dec msg "invalid value" then value_of vars 0 else None).
Definition vote_files (args : list (list Z)) (vars : list var) : plan :=
  mkplan args (value_of vars 2) (fun msg => if string_dec msg "invalid threshold" then value_of vars 3 else if string_dec msg "invalid weight" then value_of vars 4 else None).

(** The system [sys] is [sys'] without the file [n]; or with [n] a file that cannot be written. *)
Definition without (sys sys' : system) (n : list Z) : Prop :=
  contents sys n = None /\ (forall m, m <> n -> contents sys m = contents sys' m) /\ forall m, writable sys m = writable sys' m.
Definition locked (sys sys' : system) (n : list Z) : Prop :=
  writable sys n = false /\ (forall m, m <> n -> writable sys m = writable sys' m) /\ forall m, contents sys m = contents sys' m.

(** The process [e'] performs the action [a] at some time; [e] is as [e'] up to then, and then ends
    with this message about [n] and the status 1.  If [e'] does not perform the action they are the same. *)
Definition stops_at (a : action) (msg : string) (n name : list Z) (e e' : final) : Prop :=
  (~ In a (actions e') /\ e = e') \/
  exists before after w rest, actions e' = before ++ a :: after /\ ~ In a before /\ standard_error e' = w ++ rest /\
    e = mkfinal before (w ++ said name msg (Some n)) (Status 1).
