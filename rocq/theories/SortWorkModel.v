(** Model of the work of sort.c: quicksort with a count of the calls of the comparison routine
    (sort.c:40 and 44).  Erasing the count gives SortModel (SortWorkProof). *)
From Coq Require Import String.
From Verif Require Import Base.
Local Open Scope Z_scope.
Local Open Scope list_scope.

Section Sort.
Context {A : Type}.
Variable cmp : A -> A -> Z.

(** sort.c:40-41; [w] comparisons so far *)
Fixpoint scan_down_counted (fuel : nat) (a : list A) (ref : A) (i j w : Z) : outcome (Z * Z) :=
  if i <? j then
    let! x := rd "sort index" a j in
    if cmp ref x <? 0 then
      match fuel with O => OutOfFuel | S f => scan_down_counted f a ref i (j - 1) (w + 1) end
    else Ok (j, w + 1)
  else Ok (j, w).

(** sort.c:44-45 *)
Fixpoint scan_up_counted (fuel : nat) (a : list A) (ref : A) (i j w : Z) : outcome (Z * Z) :=
  if i <? j then
    let! x := rd "sort index" a i in
    if 0 <? cmp ref x then
      match fuel with O => OutOfFuel | S f => scan_up_counted f a ref (i + 1) j (w + 1) end
    else Ok (i, w + 1)
  else Ok (i, w).

(** sort.c:38-48 *)
Fixpoint partition_counted (fuel : nat) (a : list A) (ref : A) (i j w : Z)
  : outcome (list A * Z * Z * Z) :=
  if i <? j then
    match fuel with
    | O => OutOfFuel
    | S f =>
        let! (j, w) := scan_down_counted (Z.to_nat (j - i)) a ref i j w in
        let! (a, i) :=
          if i =? j then Ok (a, i)
          else let! x := rd "sort index" a j in
               let! a := wr "sort index" a i x in Ok (a, i + 1) in
        let! (i, w) := scan_up_counted (Z.to_nat (j - i)) a ref i j w in
        let! (a, j) :=
          if i =? j then Ok (a, j)
          else let! x := rd "sort index" a i in
               let! a := wr "sort index" a j x in Ok (a, j - 1) in
        partition_counted f a ref i j w
    end
  else Ok (a, i, j, w).

(** sort.c:30-54 quicksort *)
Fixpoint quicksort_counted (fuel : nat) (a : list A) (left right w : Z) : outcome (list A * Z) :=
  match fuel with
  | O => OutOfFuel
  | S f =>
      let! ref := rd "sort index" a left in
      let! (a, i, j, w) := partition_counted (Z.to_nat (right - left)) a ref left right w in
      let! a := wr "sort index" a j ref in
      let j := j - 1 in
      let! (a, w) := if left <? j then quicksort_counted f a left j w else Ok (a, w) in
      let i := i + 1 in
      if i <? right then quicksort_counted f a i right w else Ok (a, w)
  end.

(** sort.c:57-67 sort *)
Definition sort_counted (num_elements : Z) (a : list A) : outcome (list A * Z) :=
  if num_elements <? 2 then Ok (a, 0)
  else quicksort_counted (Z.to_nat num_elements) a 0 (num_elements - 1) 0.
End Sort.
