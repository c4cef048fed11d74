(** Model of accuracy.c and of the accumulation routines of accrpt.c. *)
From Coq Require Import String.
From Verif Require Import Base CLib Utf8Model TextModel CharclassModel CompareModel SyncModel.
Local Open Scope Z_scope.
Local Open Scope list_scope.

(** accrpt.h:35-42 Accops *)
Record accops := mkops { ins : Z; subst : Z; del : Z; errs : Z }.
(** accrpt.h:44-49 Accclass *)
Record accclass := mkcls { ccount : Z; cmissed : Z }.

(** accrpt.h:59-79 Accdata.  The arrays large_class[MAX_CHARCLASSES] and
    small_class[NUM_CHARVALUES] are functions of the index (bounds are checked at each
    access).  The hash table is the list of its entries, which have distinct keys (C04, C05:
    a table behaves as a map from keys to entries).  Longs are unbounded integers. *)
Record accdata := mkacc {
  characters : Z; errors : Z; rejects : Z; suspects : Z; false_marks : Z;
  marked_ops : accops; unmarked_ops : accops; total_ops : accops;
  large : Z -> accclass; total_class : accclass; conftable : list conf;
  small : Z -> accclass }.

(** A global Accdata is all zero when the program starts. *)
(* Models accuracy.c:36 *)
Definition no_ops : accops := mkops 0 0 0 0.
(* Models accuracy.c:36 *)
Definition no_class : accclass := mkcls 0 0.
(* Models accuracy.c:36 *)
Definition acc_empty : accdata :=
  mkacc 0 0 0 0 0 no_ops no_ops no_ops (fun _ => no_class) no_class [] (fun _ => no_class).

(* Models accrpt.c:62-64 *)
Definition upd {A} (f : Z -> A) (i : Z) (x : A) : Z -> A := fun j => if j =? i then x else f j.

(** accrpt.c:48-54 update_class *)
Definition update_class (c : accclass) (count missed : Z) : accclass :=
  mkcls (ccount c + count) (cmissed c + missed).

(** accrpt.c:57-65 add_class *)
Definition add_class (d : accdata) (v count missed : Z) : outcome accdata :=
  let! k := charclass v in
  let large' := upd (large d) k (update_class (large d k) count missed) in
  let total' := update_class (total_class d) count missed in
  if (0 <=? v) && (v <? NUM_CHARVALUES) then
    Ok (mkacc (characters d) (errors d) (rejects d) (suspects d) (false_marks d)
              (marked_ops d) (unmarked_ops d) (total_ops d)
              large' total' (conftable d)
              (upd (small d) v (update_class (small d v) count missed)))
  else UB "small_class[value]".

(** accrpt.c:74-86: the entry with this key is updated in place, or a new one inserted. *)
Fixpoint conf_add (l : list conf) (key : list Z) (e m : Z) : list conf :=
  match l with
  | [] => [mkconf key e m]
  | c :: t => if streq (ckey c) key then mkconf key (cerrors c + e) (cmarked c + m) :: t
              else c :: conf_add t key e m
  end.

(** accrpt.c:68-88 add_conf *)
Definition add_conf (d : accdata) (key : list Z) (e m : Z) : accdata :=
  mkacc (characters d) (errors d) (rejects d) (suspects d) (false_marks d)
        (marked_ops d) (unmarked_ops d) (total_ops d)
        (large d) (total_class d) (conf_add (conftable d) key e m) (small d).

(** accuracy.c:64-71 add_ops *)
Definition add_ops (s o : accops) : accops :=
  mkops (ins s + ins o) (subst s + subst o) (del s + del o) (errs s + errs o).

(** Assignments to single fields of the global accdata. *)
(* Models accuracy.c:93, 100-103 and 110 *)
Definition add_counts (d : accdata) (ch er re su fm : Z) : accdata :=
  mkacc (characters d + ch) (errors d + er) (rejects d + re) (suspects d + su)
        (false_marks d + fm) (marked_ops d) (unmarked_ops d) (total_ops d)
        (large d) (total_class d) (conftable d) (small d).
(* Models accuracy.c:117, 122 and 125 *)
Definition with_ops (d : accdata) (m u t : accops) : accdata :=
  mkacc (characters d) (errors d) (rejects d) (suspects d) (false_marks d)
        (add_ops (marked_ops d) m) (add_ops (unmarked_ops d) u) (add_ops (total_ops d) t)
        (large d) (total_class d) (conftable d) (small d).

Section Unicode.
Variable uc : unicode_data.

(** accuracy.c:30 *)
Definition MAX_DISPLAY : Z := 24.

(** char_to_string(False, value, string, True) into a local string[STRING_SIZE], then used
    as a C string. *)
(* Models accuracy.c:51 *)
Definition char_string (v : Z) : outcome (list Z) :=
  let! s := char_to_string uc false v true in
  if zlen s + 1 <=? STRING_SIZE then cstr (s ++ [0]) 0 else UB "string[STRING_SIZE] overflow".

(** strcat into buffer[i], of MAX_DISPLAY + 4 bytes. *)
(* Models accuracy.c:54 and 57 *)
Definition append (buffer s : list Z) : outcome (list Z) :=
  if zlen buffer + zlen s + 1 <=? MAX_DISPLAY + 4 then Ok (buffer ++ s)
  else UB "buffer overflow".

(** accuracy.c:49-58: the loop over one side; [vs] are the values of the characters. *)
Fixpoint key_side (buffer : list Z) (vs : list Z) : outcome (list Z) :=
  match vs with
  | [] => Ok buffer
  | v :: vs =>
      let! s := char_string v in
      if MAX_DISPLAY <? zlen buffer + zlen s then append buffer (bytes "...")
      else let! b := append buffer s in key_side b vs
  end.

(** accuracy.c:40-61 make_key into key[100]: the values of the two sides. *)
Definition make_key (vs0 vs1 : list Z) : outcome (list Z) :=
  let! b0 := key_side [] vs0 in
  let! b1 := key_side [] vs1 in
  let key := bytes "{" ++ b0 ++ bytes "}-{" ++ b1 ++ bytes "}" ++ [10] in
  if zlen key + 1 <=? 100 then Ok key else UB "key overflow".

(** The characters text.array[start..stop]; the loops of process_synclist and make_key
    visit them in order. *)
(* Models accuracy.c:49, 84 and 95 *)
Definition sub_chars (text : list char) (s : substr) : outcome (list char) :=
  ofold (fun acc i => let! c := rd "text.array" text i in Ok (acc ++ [c]))
        (zrange (start s) (Z.to_nat (stop s - start s + 1))) [].

(** accuracy.c:84-92: the loop over the correct side. *)
Definition count_correct_step (matched : bool) (st : accdata * Z * Z) (c : char)
  : outcome (accdata * Z * Z) :=
  let '(d, ch, wild) := st in
  if value c =? REJECT then Ok (d, ch, wild + 1)
  else
    let! d := add_class d (value c) 1 (if matched then 0 else 1) in
    Ok (d, ch + 1, wild).
Definition count_correct (matched : bool) (cs : list char) (d : accdata)
  : outcome (accdata * Z * Z) :=
  ofold (count_correct_step matched) cs (d, 0, 0).

(** accuracy.c:95-99: the loop over the generated side. *)
Definition count_generated (cs : list char) : Z * Z :=
  fold_left (fun (st : Z * Z) c =>
           let '(re, su) := st in
           if value c =? REJECT then (re + 1, su)
           else if suspect c then (re, su + 1) else (re, su)) cs (0, 0).

(** accuracy.c:83-127: one item of the list. *)
Definition process_item (text0 text1 : list char) (d : accdata) (it : item)
  : outcome accdata :=
  match isubs it with
  | s0 :: s1 :: _ =>
      let matched := match inum it with Some _ => true | None => false end in
      let! cs0 := sub_chars text0 s0 in
      let! (d, ch, wild) := count_correct matched cs0 d in
      let! cs1 := sub_chars text1 s1 in
      let (re, su) := count_generated cs1 in
      let d := add_counts d ch 0 re su 0 in
      if matched then Ok (add_counts d 0 0 0 0 su)
      else
        let genchars := Z.max 0 (slen s1 - wild) in
        let er := Z.max ch genchars in
        if 0 <? er then
          let d := add_counts d 0 er 0 0 0 in
          let ops := mkops (Z.max 0 (ch - genchars)) (Z.min ch genchars)
                           (Z.max 0 (genchars - ch)) er in
          let! key := make_key (map value cs0) (map value cs1) in
          if 0 <? re + su
          then Ok (with_ops (add_conf d key er er) ops no_ops ops)
          else Ok (with_ops (add_conf d key er 0) no_ops ops ops)
        else Ok d
  | _ => UB "substr"
  end.

(** accuracy.c:74-129 process_synclist *)
Definition process_synclist (text0 text1 : list char) (l : list item) (d : accdata)
  : outcome accdata :=
  ofold (process_item text0 text1) l d.

(** accuracy.c:144-145: synchronise and count. *)
Definition accuracy_data (text0 text1 : list char) : outcome accdata :=
  let! l := fastukk_sync (map value text0) (map value text1) in
  process_synclist text0 text1 l acc_empty.
End Unicode.
