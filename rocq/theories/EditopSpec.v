(** Specification of the edit operations between two texts. *)
From Verif Require Import Base AccSpec SyncModel SyncSpec.
Local Open Scope Z_scope.
Local Open Scope list_scope.

(** [moved wt s n s']: a non-empty part [w] of [s], whose elements weigh [n] together, has
    been taken out and put back somewhere. *)
Definition moved {A} (wt : A -> Z) (s : list A) (n : Z) (s' : list A) : Prop :=
  exists p w q p' q', s = p ++ w ++ q /\ s' = p' ++ w ++ q' /\ p ++ q = p' ++ q' /\
    w <> [] /\ n = zsum (map wt w).

(** [moves_to wt s ls s']: moves of the weights [ls], one after the other, turn [s] into [s']. *)
Inductive moves_to {A} (wt : A -> Z) : list A -> list Z -> list A -> Prop :=
| moves_none s : moves_to wt s [] s
| moves_one s n s' ls s'' : moved wt s n s' -> moves_to wt s' ls s'' -> moves_to wt s (n :: ls) s''.

(** The length of a move of characters. *)
Definition each (c : Z) : Z := 1.

(** [deletes a b n]: deleting [n] characters of [a] gives [b]. *)
Inductive deletes : list Z -> list Z -> Z -> Prop :=
| deletes_nil : deletes [] [] 0
| deletes_keep x a b n : deletes a b n -> deletes (x :: a) (x :: b) n
| deletes_one x a b n : deletes a b n -> deletes (x :: a) b (n + 1).

(** [inserts a b n]: inserting [n] characters, and any number of '~', into [a] gives [b]. *)
Inductive inserts : list Z -> list Z -> Z -> Prop :=
| inserts_nil : inserts [] [] 0
| inserts_keep x a b n : inserts a b n -> inserts (x :: a) (x :: b) n
| inserts_one x a b n : x <> tilde -> inserts a b n -> inserts a (x :: b) (n + 1)
| inserts_tilde a b n : inserts a b n -> inserts a (tilde :: b) n.

(** The string of an item of a list for the text [t]; those of the matched items, joined, and
    those of the others. *)
Definition piece (t : list Z) (it : item) : list Z :=
  match isubs it with [u] => slice t (SyncModel.start u) (slen u) | _ => [] end.
Definition matched_part (t : list Z) (l : list item) : list Z :=
  flat_map (piece t) (filter is_match l).
Definition unmatched_part (t : list Z) (l : list item) : list Z :=
  flat_map (piece t) (filter (fun it => negb (is_match it)) l).

(** The numbers of the matched items, in the order of the list, and the length of the one with
    the number [n]. *)
Definition numbers (l : list item) : list Z :=
  flat_map (fun it => match inum it with Some n => [n] | None => [] end) l.
Definition length_of (l : list item) (n : Z) : Z :=
  zsum (map (fun it => match inum it with
                       | Some m => if m =? n then zsum (map slen (isubs it)) else 0
                       | None => 0 end) l).
