(** Specification of the tables used as counters. *)
From Coq Require Import String Permutation.
From Verif Require Import Base ListModel TableModel ClientModel.
Local Open Scope Z_scope.
Local Open Scope list_scope.

(** calloc never returns the same block twice (no entry is freed). *)
Definition distinct_blocks (malloc : Z -> addr) : Prop :=
  forall i j, malloc i = malloc j -> malloc i <> NULL -> i = j.

(** The program goes on with a result as described, or ends as there is no memory left. *)
Definition unless_no_memory {A} (o : outcome A) (P : A -> Prop) : Prop :=
  o = Fail "unable to allocate memory" \/ exists a, o = Ok a /\ P a.

(** The table contains the keys and fields [l], each key once: table_lookup finds for a key in [l]
    the entry with its fields, and NULL for the others; the array of table_in_array has the entries
    of [l] in some order. *)
Definition contains {V} (c : client V) (l : list (list Z * V)) : Prop :=
  NoDup (map fst l) /\
  (forall key v, In (key, v) l -> exists e, lookup_entry c key = Ok e /\ e <> NULL /\ cfields c e = v) /\
  (forall key, ~ In key (map fst l) -> lookup_entry c key = Ok NULL) /\
  exists a, entries_in_array c = Ok a /\ Permutation a l.

(** The sum of the figures given for a key. *)
Definition total_for (key : list Z) (calls : list (list Z * Z)) : Z :=
  fold_right Z.add 0 (map snd (filter (fun p => if list_eq_dec Z.eq_dec (fst p) key then true else false) calls)).
