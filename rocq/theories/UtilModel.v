(** Model of util.c: names of files, temporary files and command lines. *)
From Coq Require Import String.
From Verif Require Import Base CLib.
Local Open Scope Z_scope.
Local Open Scope list_scope.

(** Conversion to short: 16 bits, two's complement. *)
(* Models util.c:46, 150 and 220 *)
Definition wrap16 (z : Z) : Z := (z + 32768) mod 65536 - 32768.

(** util.c:150: the loop; the result is the final i. *)
Fixpoint back_to_slash (fuel : nat) (path : list Z) (i : Z) : outcome Z :=
  match fuel with
  | O => OutOfFuel
  | S fuel =>
    if i <? 0 then Ok i
    else
      let! c := rd "pathname[i]" path i in
      if c =? 47 then Ok i else back_to_slash fuel path (wrap16 (i - 1))
  end.

(** util.c:141-152 basefilename (unix); the path is the string without its NUL, and the result
    is the string that starts at &pathname[i + 1]. *)
Definition basefilename (path : list Z) : outcome (list Z) :=
  let! i := back_to_slash (S (List.length path)) path (wrap16 (zlen path - 1)) in
  if i + 1 <? 0 then UB "&pathname[i + 1]" else Ok (skipn (Z.to_nat (i + 1)) path).

(** util.h:101-113 Option.  Each entry has variables of its own: the values of *string (None
    for NULL) and *boolean. *)
Record entry := mkentry { ename : Z; estring : bool; eboolean : bool }.
Definition var : Type := option (list Z) * bool.

(** How parsing may end: by returning, or by leaving the program. *)
(* Models util.c:184-235 *)
Inductive parsed :=
| Args (args : list (list Z)) (vars : list var)
| Usage
| InvalidOption (arg : list Z)
| DuplicateOption (arg : list Z).

(** arg[k] of a string *)
(* Models util.c:191-201 *)
Definition at_ (arg : list Z) (k : nat) : Z := nth k arg 0.

(** util.c:191: the index of the entry. *)
Fixpoint find_entry (table : list entry) (c : Z) : option nat :=
  match table with
  | [] => None
  | e :: table => if c =? ename e then Some O else option_map S (find_entry table c)
  end.

(** util.c:184-212 split_option: the new values and whether the next argument is used, or the
    way the program ends.  A table that is NULL is the empty table. *)
Definition split_option (table : list entry) (arg : list Z) (next : option (list Z)) (vars : list var)
    : outcome (sum parsed (list var * bool)) :=
  match find_entry table (at_ arg 1) with
  | None => Ok (inl (InvalidOption arg))
  | Some i =>
    let! e := rd "option[i]" table (Z.of_nat i) in
    let! v := rd "option[i]" vars (Z.of_nat i) in
    let attached := negb (at_ arg 2 =? 0) in
    let has_next := match next with Some _ => true | None => false end in
    if estring e && (attached || has_next) then
      match fst v with
      | Some _ => Ok (inl (DuplicateOption arg))
      | None =>
        let! vars := wr "option[i]" vars (Z.of_nat i) (if attached then Some (skipn 2 arg) else next, snd v) in
        Ok (inr (vars, negb attached))
      end
    else if eboolean e && negb attached then
      if snd v then Ok (inl (DuplicateOption arg))
      else
        let! vars := wr "option[i]" vars (Z.of_nat i) (fst v, true) in
        Ok (inr (vars, false))
    else Ok (inl (InvalidOption arg))
  end.

(** util.c:223-233: the loop of parse_args; i and j are short. *)
Fixpoint parse_loop (fuel : nat) (table : list entry) (argc : Z) (argv : list (list Z)) (vars : list var) (i j : Z)
    : outcome parsed :=
  match fuel with
  | O => OutOfFuel
  | S fuel =>
    if i <? argc then
      let! arg := rd "argv[i]" argv i in
      if (at_ arg 0 =? 45) && negb (at_ arg 1 =? 0) then
        if strneq (bytes "-help") arg (List.length arg) then Ok Usage
        else
          let! next := if i + 1 <? argc then let! a := rd "argv[i + 1]" argv (i + 1) in Ok (Some a) else Ok None in
          let! r := split_option table arg next vars in
          match r with
          | inl p => Ok p
          | inr (vars, used) =>
            let i := if used then wrap16 (i + 1) else i in
            parse_loop fuel table argc argv vars (wrap16 (i + 1)) j
          end
      else
        let! argv := wr "argv[j]" argv j arg in
        parse_loop fuel table argc argv vars (wrap16 (i + 1)) (wrap16 (j + 1))
    else Ok (Args (firstn (Z.to_nat j) argv) vars)
  end.

(** util.c:215-235 parse_args, and what it leaves in argv[0], ..., argv[*argc - 1].  The
    arguments are strings without their NUL. *)
Definition parse_args (usage_when_no_args : bool) (table : list entry) (argv : list (list Z)) (vars : list var)
    : outcome parsed :=
  if (zlen argv =? 1) && usage_when_no_args then Ok Usage
  else parse_loop (S (List.length argv)) table (zlen argv) argv vars 1 0.

Section Temporary.
(** exec_name and getpid(). *)
Variable exec_name : list Z.
Variable pid : Z.

(** util.c:106-116 create_tempfilename (unix); name is an array of 100. *)
Definition create_tempfilename (id : Z) : outcome (list Z) :=
  let name := bytes "/tmp/." ++ exec_name ++ dec pid ++ bytes "-" ++ dec id in
  if zlen name + 1 <=? 100 then Ok name else UB "name[100]".

(** The file system: which names exist. *)
(* Models util.c:80 and 98-103 *)
Definition files : Type := list Z -> bool.
(* Models util.c:123 and 135 *)
Definition unlink (fs : files) (name : list Z) : files :=
  fun n => if streq n name then false else fs n.

(** The state: tempfile_id and the files. *)
(* Models util.c:46 *)
Record world := mkworld { tempfile_id : Z; existing : files }.

(** util.c:119-125 tempfilename *)
Definition tempfilename (w : world) : outcome (list Z * world) :=
  let id := wrap16 (tempfile_id w + 1) in
  let! name := create_tempfilename id in
  Ok (name, mkworld id (unlink (existing w) name)).

(** util.c:128-138 delete_tempfiles: the loop, i being short. *)
Fixpoint delete_loop (fuel : nat) (i : Z) (w : world) : outcome world :=
  match fuel with
  | O => OutOfFuel
  | S fuel =>
    if i <=? tempfile_id w then
      let! name := create_tempfilename i in
      delete_loop fuel (wrap16 (i + 1)) (mkworld (tempfile_id w) (unlink (existing w) name))
    else Ok w
  end.
Definition delete_tempfiles (fuel : nat) (w : world) : outcome world := delete_loop fuel 1 w.

(** What a program does: it asks for names, and creates or removes any files. *)
(* Models util.c:119-138 *)
Inductive event := Temp | Create (name : list Z) | Remove (name : list Z).
(* Models util.c:119-138 *)
Definition step (st : list (list Z) * world) (e : event) : outcome (list (list Z) * world) :=
  let (names, w) := st in
  match e with
  | Temp => let! (name, w) := tempfilename w in Ok (names ++ [name], w)
  | Create name => Ok (names, mkworld (tempfile_id w) (fun n => if streq n name then true else existing w n))
  | Remove name => Ok (names, mkworld (tempfile_id w) (unlink (existing w) name))
  end.
(* Models util.c:119-138 *)
Definition start (fs : files) : list (list Z) * world := ([], mkworld 0 fs).

(** util.c:249-256 quit, with cleanup_routine NULL (no program sets it): the files when the
    process has gone.  terminate, error and error_string end in quit. *)
Definition quit (fuel : nat) (w : world) : outcome files :=
  let! w := delete_tempfiles fuel w in Ok (existing w).

(** util.c:155-163 handle_interrupt: a first signal calls error, hence quit, wherever the
    program is; further signals are ignored.  Here it comes in tempfilename after the
    increment and before unlink, *)
Definition interrupt_in_tempfilename (fuel : nat) (w : world) : outcome files :=
  quit fuel (mkworld (wrap16 (tempfile_id w + 1)) (existing w)).
(** or in delete_tempfiles, when [n] files have been removed. *)
(* Models util.c:128-138 *)
Fixpoint delete_some (n : nat) (i : Z) (w : world) : outcome world :=
  match n with
  | O => Ok w
  | S n =>
    if i <=? tempfile_id w then
      let! name := create_tempfilename i in
      delete_some n (wrap16 (i + 1)) (mkworld (tempfile_id w) (unlink (existing w) name))
    else Ok w
  end.
(* Models util.c:155-163 and 249-256 *)
Definition interrupt_in_quit (n fuel : nat) (w : world) : outcome files :=
  let! w := delete_some n 1 w in quit fuel w.
End Temporary.
