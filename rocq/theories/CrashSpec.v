(** Specification of interrupted and failing runs. *)
From Coq Require Import String.
From Verif Require Import Base CLib Utf8Model TextModel TextSpec TextProof UtilModel MainModel MainIoModel.
Local Open Scope Z_scope.
Local Open Scope list_scope.

Definition prefix (p l : list Z) : Prop := exists q, l = p ++ q.

(** What has been written to a destination (None: the standard output). *)
Definition same_dest (a b : option (list Z)) : bool :=
  match a, b with
  | Some a, Some b => if list_eq_dec Z.eq_dec a b then true else false
  | None, None => true
  | _, _ => false
  end.
Definition put (dest : option (list Z)) (acts : list action) : list Z :=
  flat_map (fun a => match a with Puts d b => if same_dest d dest then b else [] | _ => [] end) acts.

(** What a run leaves that has performed these actions and come to its end (exit flushes). *)
Definition leaves (sys : system) (acts : list action) (r : result) : Prop :=
  standard_output r = put None acts /\
  forall n, (In (Opens (Some n)) acts -> files_after r n = Some (put (Some n) acts)) /\
            (~ In (Opens (Some n)) acts -> files_after r n = contents sys n).

(** What may be left by a run that is killed at any moment, or by the machine going down: some of
    its actions have been performed, and of what has been written to a file or printed, only a
    first part has arrived.  (A program opens a file for writing at most once.) *)
Definition interrupted (sys : system) (acts : list action) (r : result) : Prop :=
  exists performed others, acts = performed ++ others /\
    prefix (standard_output r) (put None performed) /\
    forall n, (~ In (Opens (Some n)) performed /\ files_after r n = contents sys n) \/
              (In (Opens (Some n)) performed /\ exists p, files_after r n = Some p /\ prefix p (put (Some n) performed)).

(** The run and the program as it was described before (MainModel) end in the same way. *)
Definition same_end (sys : system) (run : io finish) (main : outcome ended) : Prop :=
  match main with
  | Ok (Done r) => snd run = Ok Completed /\ leaves sys (fst run) r
  | Ok (Stopped p) => run = ([], Ok (Halted p))
  | Fail msg => snd run = Fail msg
  | UB msg => snd run = UB msg
  | OutOfFuel => snd run = OutOfFuel
  end.

(** Whenever the run is interrupted, every file is as before, except those allowed: such a file is
    as before, or holds a first part of what the run would have left in it.  The standard output is
    a first part of what it would have been. *)
Definition interruptible (sys : system) (allowed : list Z -> Prop) (run : io finish) : Prop :=
  forall r, interrupted sys (fst run) r ->
    (forall r', snd run = Ok Completed -> leaves sys (fst run) r' -> prefix (standard_output r) (standard_output r')) /\
    forall n, files_after r n = contents sys n \/
      allowed n /\ exists p, files_after r n = Some p /\
        forall r', snd run = Ok Completed -> leaves sys (fst run) r' -> exists c, files_after r' n = Some c /\ prefix p c.

(** A run that ends with an error message has not begun to write its report: no file has changed. *)
Definition harmless_failure (sys : system) (run : io finish) : Prop :=
  forall msg, snd run = Fail msg ->
    (forall dest, ~ In (Opens dest) (fst run)) /\
    forall r, (leaves sys (fst run) r \/ interrupted sys (fst run) r) -> forall n, files_after r n = contents sys n.

(** The run opens for reading only files with these names, and none any more once a report is
    begun. *)
Definition reads_only (names : list Z -> Prop) (run : io finish) : Prop :=
  (forall n, In (Reads n) (fst run) -> names n) /\
  forall before dest after, fst run = before ++ Opens dest :: after -> forall n, ~ In (Reads n) after.

(** Files are made of bytes. *)
Definition byte_files (sys : system) : Prop := forall n f, contents sys n = Some f -> Forall is_byte f.
