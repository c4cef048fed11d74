(** Specification of distributions of accuracies. *)
From Coq Require Import String.
From Verif Require Import Base CLib AccSpec.
Local Open Scope Z_scope.
Local Open Scope list_scope.

(** A page: how many characters (or words), and how many of them were missed. *)
Definition page : Type := Z * Z.

(** Exactly: the accuracy of the page is at least [i] percent. *)
Definition at_least (i : Z) (p : page) : bool := i * fst p <=? 100 * (fst p - snd p).

(** The number of characters on such pages, and on all the pages. *)
Definition dist_at (pages : list page) (i : Z) : Z := zsum (map fst (filter (at_least i) pages)).
Definition all_count (pages : list page) : Z := zsum (map fst pages).

(** The line for each percentage from 0 to 100; nothing if there are no characters. *)
Definition dist_listing (fmt6 : Z -> Z -> list Z) (pages : list page) : list Z :=
  if all_count pages =? 0 then []
  else flat_map (fun i => pad 32 3 (dec i) ++ bytes " " ++ fmt6 (dist_at pages i) (all_count pages) ++ [10])
                (zrange 0 101).
