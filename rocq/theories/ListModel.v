(** Model of list.c / list.h: doubly-linked lists of items living in a heap. *)
From Verif Require Import Base.
From Coq Require Import String.

(** Addresses of items; 0 is the NULL pointer. *)
(* Models list.h:55-59 *)
Definition addr := Z.
(* Models list.h:55-59 *)
Definition NULL : addr := 0.

(** list.h:55-62 BEGIN_ITEM: the two link fields of an item.  Other fields of
    the item are not touched by list.c and are not represented. *)
Record node := mknode { prev : addr; next : addr }.

(** The memory holding the items. *)
(* Models list.h:55-59 *)
Definition heap := addr -> node.

(** list.h:64-72 BEGIN_LIST_OF: the list header.  [array] is [None] when the C
    pointer is NULL and otherwise the contents of the block it points to. *)
Record header := mkheader {
  first : addr; last : addr; array : option (list addr); count : Z }.

Definition upd {A} (h : addr -> A) (a : addr) (v : A) : addr -> A :=
  fun x => if x =? a then v else h x.

(** [p->prev = v], [p->next = v]; a NULL [p] is undefined behaviour. *)
(* Models list.c:60-69 and 111-119 *)
Definition set_prev (h : heap) (p v : addr) : outcome heap :=
  if p =? NULL then UB "store through NULL" else Ok (upd h p (mknode v (next (h p)))).
(* Models list.c:60-69 and 111-119 *)
Definition set_next (h : heap) (p v : addr) : outcome heap :=
  if p =? NULL then UB "store through NULL" else Ok (upd h p (mknode (prev (h p)) v)).
(* Models list.c:60-69 and 111-119 *)
Definition get_prev (h : heap) (p : addr) : outcome addr :=
  if p =? NULL then UB "load through NULL" else Ok (prev (h p)).
(* Models list.c:60-69 and 111-119 *)
Definition get_next (h : heap) (p : addr) : outcome addr :=
  if p =? NULL then UB "load through NULL" else Ok (next (h p)).

(** list.c:36-42 list_initialize *)
Definition list_initialize : header := mkheader NULL NULL None 0.

(** list.c:45-53 free_array *)
Definition free_array (l : header) : header :=
  mkheader (first l) (last l) None (count l).

(** list.c:56-72 list_insert *)
Definition list_insert (l : header) (h : heap) (ref1 item ref2 : addr)
  : outcome (header * heap) :=
  let! h := set_prev h item ref1 in
  let! h := set_next h item ref2 in
  let! (l, h) :=
    if ref1 =? NULL
    then Ok (mkheader item (last l) (array l) (count l), h)
    else let! h := set_next h ref1 item in Ok (l, h) in
  let! (l, h) :=
    if ref2 =? NULL
    then Ok (mkheader (first l) item (array l) (count l), h)
    else let! h := set_prev h ref2 item in Ok (l, h) in
  let l := free_array l in
  Ok (mkheader (first l) (last l) (array l) (count l + 1), h).

(** list.c:75-80 list_insert_first *)
Definition list_insert_first (l : header) (h : heap) (item : addr) :=
  list_insert l h NULL item (first l).

(** list.c:83-88 list_insert_last *)
Definition list_insert_last (l : header) (h : heap) (item : addr) :=
  list_insert l h (last l) item NULL.

(** list.c:91-96 list_insert_before *)
Definition list_insert_before (l : header) (h : heap) (item ref : addr) :=
  let! p := get_prev h ref in list_insert l h p item ref.

(** list.c:99-104 list_insert_after *)
Definition list_insert_after (l : header) (h : heap) (ref item : addr) :=
  let! n := get_next h ref in list_insert l h ref item n.

(** list.c:107-122 list_remove *)
Definition list_remove (l : header) (h : heap) (item : addr)
  : outcome (header * heap) :=
  let! p := get_prev h item in
  let! n := get_next h item in
  let! (l, h) :=
    if p =? NULL
    then Ok (mkheader n (last l) (array l) (count l), h)
    else let! h := set_next h p n in Ok (l, h) in
  let! n := get_next h item in
  let! p := get_prev h item in
  let! (l, h) :=
    if n =? NULL
    then Ok (mkheader (first l) p (array l) (count l), h)
    else let! h := set_prev h n p in Ok (l, h) in
  let! h := set_next h item NULL in
  let! h := set_prev h item NULL in
  let l := free_array l in
  Ok (mkheader (first l) (last l) (array l) (count l - 1), h).

(** The loop of list_in_array (list.c:133-134): store each item of the chain
    starting at [item] at index [i] of a block of [room] further cells.  Writing
    beyond the block is undefined behaviour.  Cells of the block not written keep
    the zero left by calloc (util.c allocate). *)
Fixpoint fill_array (h : heap) (room : nat) (item : addr) : outcome (list addr) :=
  if item =? NULL then Ok (repeat NULL room)
  else match room with
       | O => UB "array overflow"
       | S room' => let! rest := fill_array h room' (next (h item)) in Ok (item :: rest)
       end.

(** list.c:125-135 list_in_array *)
Definition list_in_array (l : header) (h : heap) : outcome header :=
  match array l with
  | Some _ => Ok l
  | None =>
      if count l =? 0 then Ok l
      else let! a := fill_array h (Z.to_nat (count l)) (first l) in
           Ok (mkheader (first l) (last l) (Some a) (count l))
  end.

(** list.c:138-149 list_empty.  [process] is the effect of the caller's routine on
    the memory when it is handed an item: any function of the current heap.  The log
    records the items handed over, in order. *)
Fixpoint list_empty (fuel : nat) (process : addr -> heap -> heap)
    (l : header) (h : heap) : outcome (header * heap * list addr) :=
  if first l =? NULL then Ok (l, h, [])
  else match fuel with
       | O => OutOfFuel
       | S fuel' =>
           let item := first l in
           let! (l, h) := list_remove l h item in
           let h := process item h in
           let! (l, h, log) := list_empty fuel' process l h in
           Ok (l, h, item :: log)
       end.

(** A history of API calls on one list. *)
(* Models calls of list.c:36-149 *)
Inductive lop :=
| Linit
| Linsert_first (item : addr)
| Linsert_last (item : addr)
| Linsert_before (item ref : addr)
| Linsert_after (ref item : addr)
| Lremove (item : addr)
| Lin_array
| Lempty (process : addr -> heap -> heap).

(* Models calls of list.c:36-149 *)
Definition lstep (s : header * heap) (o : lop) : outcome (header * heap) :=
  let (l, h) := s in
  match o with
  | Linit => Ok (list_initialize, h)
  | Linsert_first x => list_insert_first l h x
  | Linsert_last x => list_insert_last l h x
  | Linsert_before x r => list_insert_before l h x r
  | Linsert_after r x => list_insert_after l h r x
  | Lremove x => list_remove l h x
  | Lin_array => let! l := list_in_array l h in Ok (l, h)
  | Lempty pr =>
      let! (l, h, _) := list_empty (Z.to_nat (count l)) pr l h in Ok (l, h)
  end.

(* Models calls of list.c:36-149 *)
Definition lrun (ops : list lop) (s : header * heap) : outcome (header * heap) :=
  ofold lstep ops s.
