(** Model of table.c / table.h: hash tables of 503 linked lists. *)
From Verif Require Import Base ListModel.
From Coq Require Import String.

(** table.h:58 TABLE_SIZE *)
Definition TABLE_SIZE : Z := 503.

(** table.h:67-78 BEGIN_TABLE_OF: the table header.  [lists i] is the header of bucket
    [i]; only 0 <= i < TABLE_SIZE exist, other accesses are flagged below. *)
Record table := mktable {
  lists : Z -> header; tarray : option (list addr); tcount : Z }.

(** The [key] field of the entries (table.h:60-62).  Keys are the bytes before the
    terminating NUL. *)
Definition keymap := addr -> list Z.

(** table.c:36-44 table_initialize *)
Definition table_initialize : table := mktable (fun _ => list_initialize) None 0.

(** table.c:47-56 table_index: sum of the bytes taken as unsigned char. *)
Definition table_index (key : list Z) : Z := fold_left Z.add key 0 mod TABLE_SIZE.

(** Access to a bucket; an index outside the array is undefined behaviour. *)
(* Models table.c:64 *)
Definition bucket (t : table) (i : Z) : outcome header :=
  if (0 <=? i) && (i <? TABLE_SIZE) then Ok (lists t i) else UB "bucket index".
(* Models table.c:85 and 95 *)
Definition set_bucket (t : table) (i : Z) (l : header) : table :=
  mktable (fun j => if j =? i then l else lists t j) (tarray t) (tcount t).

(** strcmp(a, b) on NUL-terminated strings (C library): sign of the comparison as
    sequences of unsigned bytes. *)
(* Models table.c:65 *)
Fixpoint strcmp (a b : list Z) : Z :=
  match a, b with
  | [], [] => 0
  | [], _ :: _ => -1
  | _ :: _, [] => 1
  | x :: a', y :: b' => if x =? y then strcmp a' b' else if x <? y then -1 else 1
  end.

(** table.c:64-65: the loop of table_lookup. *)
Fixpoint lookup_from (fuel : nat) (h : heap) (keys : keymap) (key : list Z) (e : addr)
  : outcome addr :=
  if e =? NULL then Ok NULL
  else if strcmp key (keys e) =? 0 then Ok e
  else match fuel with
       | O => OutOfFuel
       | S f => lookup_from f h keys key (next (h e))
       end.

(** table.c:59-67 table_lookup *)
Definition table_lookup (t : table) (h : heap) (keys : keymap) (key : list Z)
  : outcome addr :=
  let! l := bucket t (table_index key) in
  lookup_from (Z.to_nat (count l)) h keys key (first l).

(** table.c:81-88 table_insert (free_array is table.c:70-78) *)
Definition table_insert (t : table) (h : heap) (keys : keymap) (e : addr)
  : outcome (table * heap) :=
  let i := table_index (keys e) in
  let! l := bucket t i in
  let! (l, h) := list_insert_first l h e in
  let t := set_bucket t i l in
  Ok (mktable (lists t) None (tcount t + 1), h).

(** table.c:91-98 table_remove *)
Definition table_remove (t : table) (h : heap) (keys : keymap) (e : addr)
  : outcome (table * heap) :=
  let i := table_index (keys e) in
  let! l := bucket t i in
  let! (l, h) := list_remove l h e in
  let t := set_bucket t i l in
  Ok (mktable (lists t) None (tcount t - 1), h).

(** One bucket of the loop of table_in_array (table.c:110-111): append the chain starting
    at [e] to the part [acc] of the array already filled, whose capacity is [cap]. *)
Fixpoint collect (fuel : nat) (h : heap) (cap : Z) (e : addr) (acc : list addr)
  : outcome (list addr) :=
  if e =? NULL then Ok acc
  else if zlen acc <? cap then
    match fuel with
    | O => OutOfFuel
    | S f => collect f h cap (next (h e)) (acc ++ [e])
    end
  else UB "array overflow".

(** table.c:101-112 table_in_array.  Cells never written keep the zero of calloc. *)
Definition table_in_array (t : table) (h : heap) : outcome table :=
  match tarray t with
  | Some _ => Ok t
  | None =>
      if tcount t =? 0 then Ok t
      else
        let! a := ofold (fun acc i =>
                     collect (Z.to_nat (tcount t)) h (tcount t) (first (lists t i)) acc)
                    (zrange 0 (Z.to_nat TABLE_SIZE)) [] in
        let a := a ++ repeat NULL (Z.to_nat (tcount t - zlen a)) in
        Ok (mktable (lists t) (Some a) (tcount t))
  end.

(** table.c:115-124 table_empty; the log records the entries handed to the routine. *)
Definition table_empty (process : addr -> heap -> heap) (t : table) (h : heap)
  : outcome (table * heap * list addr) :=
  let! (t, h, log) :=
    ofold (fun (s : table * heap * list addr) i =>
             match s with
             | (t, h, log) =>
                 let! (l, h, log1) := list_empty (Z.to_nat (count (lists t i))) process
                                        (lists t i) h in
                 Ok (set_bucket t i l, h, log ++ log1)
             end)
          (zrange 0 (Z.to_nat TABLE_SIZE)) (t, h, []) in
  Ok (mktable (lists t) None 0, h, log).

(** A history of API calls on one table.  [Tinsert e key] stands for the caller setting
    [e->key] and then calling table_insert. *)
(* Models calls of table.c:36-124 *)
Inductive top :=
| Tinit
| Tinsert (e : addr) (key : list Z)
| Tremove (e : addr)
| Tin_array
| Tempty (process : addr -> heap -> heap).

(* Models calls of table.c:36-124 *)
Definition tstate := (table * heap * keymap)%type.

(* Models calls of table.c:36-124 *)
Definition tstep (s : tstate) (o : top) : outcome tstate :=
  match s with
  | (t, h, ks) =>
      match o with
      | Tinit => Ok (table_initialize, h, ks)
      | Tinsert e key =>
          let ks := upd ks e key in
          let! (t, h) := table_insert t h ks e in Ok (t, h, ks)
      | Tremove e => let! (t, h) := table_remove t h ks e in Ok (t, h, ks)
      | Tin_array => let! t := table_in_array t h in Ok (t, h, ks)
      | Tempty pr => let! (t, h, _) := table_empty pr t h in Ok (t, h, ks)
      end
  end.

(* Models calls of table.c:36-124 *)
Definition trun (ops : list top) (s : tstate) : outcome tstate := ofold tstep ops s.
