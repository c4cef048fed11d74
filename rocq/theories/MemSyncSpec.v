(** Specification of the memory of synchronizations. *)
From Coq Require Import String.
From Verif Require Import Base ListModel ListSpec SyncModel MemSyncModel.
Local Open Scope Z_scope.
Local Open Scope list_scope.

(** calloc returns NULL or a block that is not in use (it may be one that was freed before). *)
Definition sound_calloc (alloc : (addr -> bool) -> Z -> addr) : Prop :=
  forall used n, alloc used n = NULL \/ used (alloc used n) = false.

(** The block [a] is allocated. *)
Definition allocated (m : store) (a : addr) : Prop := held m a <> None.

(** No block is at NULL. *)
Definition proper (m : store) : Prop := ~ allocated m NULL.

(** Where an item of a list of synchronizations is: the item itself, its array of substrings, and its number (NULL if none). *)
Record spot := mkspot { item_at : addr; array_at : addr; number_at : addr }.

(** The block at [x] is the item [it]. *)
Definition is_item (m : store) (it : item) (x : spot) : Prop :=
  held m (item_at x) = Some (BSync (array_at x) (number_at x)) /\
  held m (array_at x) = Some (BSubs (isubs it)) /\
  match inum it with
  | None => number_at x = NULL
  | Some n => held m (number_at x) = Some (BLong n)
  end.

(** The list consists of the items [its], at [xs]. *)
Definition list_shows (l : header) (m : store) (its : list item) (xs : list spot) : Prop :=
  presents l (slinks m) (map item_at xs) /\ Forall2 (is_item m) its xs.

(** The numbers in the items at [xs]. *)
Definition numbers_at (xs : list spot) : list addr := flat_map (fun x => if number_at x =? NULL then [] else [number_at x]) xs.

(** From [m] to [m'] exactly the blocks [xs] have been added: they were not allocated before, they are all different, and
    everything that was allocated is still there and unchanged. *)
Definition adds_exactly (xs : list addr) (m m' : store) : Prop :=
  NoDup xs /\ Forall (fun a => ~ allocated m a) xs /\
  (forall a, allocated m' a <-> allocated m a \/ In a xs) /\
  (forall a, allocated m a -> held m' a = held m a /\ slinks m' a = slinks m a).

(** A list without items, in whatever memory. *)
Definition empty_list (l : header) : Prop := forall h, presents l h [].
