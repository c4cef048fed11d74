(** C94: what it means that two files differ in their layout only. *)
From Verif Require Import Base CLib Utf8Model TextModel TextSpec MainModel.
Local Open Scope Z_scope.
Local Open Scope list_scope.

(** The characters that are white space within a line: tab, vertical tab, form feed, carriage return, no-break
    space, and what Unicode calls a separator. *)
Definition white (uc : unicode_data) (c : Z) : Prop :=
  c <> 10 /\ (In c [9; 11; 12; 13; 160] \/ cat uc c = ZS \/ cat uc c = ZL \/ cat uc c = ZP).

(** The text does not end with a suspect marker, that is, nothing written after it is marked. *)
Definition unmarked (marker : Z) (u : list Z) : Prop := forall u', u <> u' ++ [marker].

(** The same text in another layout. *)
Inductive respaced (uc : unicode_data) (m : Z) : list Z -> list Z -> Prop :=
  | rs_same l : respaced uc m l l
  | rs_back l l' : respaced uc m l l' -> respaced uc m l' l
  | rs_then l l' l'' : respaced uc m l l' -> respaced uc m l' l'' -> respaced uc m l l''
  (* another white character *)
  | rs_other u b b' v : white uc b -> white uc b' -> respaced uc m (u ++ b :: v) (u ++ b' :: v)
  (* more of them *)
  | rs_more u b b' v : white uc b -> white uc b' -> respaced uc m (u ++ b :: v) (u ++ b' :: b :: v)
  (* white space at the end (unless the newline is marked as suspect) and at the beginning of a line *)
  | rs_line_end u b v : unmarked m u -> white uc b -> respaced uc m (u ++ 10 :: v) (u ++ b :: 10 :: v)
  | rs_line_start u b v : white uc b -> respaced uc m (u ++ 10 :: v) (u ++ 10 :: b :: v)
  (* an empty line *)
  | rs_empty_line u v : respaced uc m (u ++ 10 :: v) (u ++ 10 :: 10 :: v)
  (* white space and empty lines at the beginning of the file *)
  | rs_start b v : white uc b \/ b = 10 -> respaced uc m v (b :: v)
  (* white space at the end of the file *)
  | rs_end u b : white uc b -> respaced uc m u (u ++ [b]).

(** Two files with the same text in different layouts; no header. *)
Definition respaced_files (uc : unicode_data) (m : Z) (f f' : list Z) : Prop :=
  Forall is_byte f /\ Forall is_byte f' /\ ~ starts_with title_start f /\ ~ starts_with title_start f' /\
  exists cs cs', Forall scalar cs /\ Forall scalar cs' /\ f = utf8s cs /\ f' = utf8s cs' /\ respaced uc m cs cs'.

(** The suspect marker is neither white nor a newline. *)
Definition marker_visible (uc : unicode_data) (m : Z) : Prop := ~ white uc m /\ m <> 10.

(** The same files, some of them in another layout. *)
Definition respaced_system (uc : unicode_data) (sys sys' : system) : Prop :=
  (forall n, writable sys n = writable sys' n) /\
  (forall n, contents sys n = contents sys' n \/
     exists f f', contents sys n = Some f /\ contents sys' n = Some f' /\ respaced_files uc 94 f f').

(** Two programs end in the same way: with the same output, the same error or the same undefined operation, and each
    file they leave has the same contents or is one they have not touched. *)
Definition end_alike (sys sys' : system) (x y : outcome ended) : Prop :=
  match x, y with
  | Ok (Done r), Ok (Done r') => standard_output r = standard_output r' /\
      (forall n, files_after r n = files_after r' n \/
                 (files_after r n = contents sys n /\ files_after r' n = contents sys' n))
  | Ok (Stopped p), Ok (Stopped p') => p = p'
  | Fail a, Fail b => a = b
  | UB a, UB b => a = b
  | OutOfFuel, OutOfFuel => True
  | _, _ => False
  end.
