(** Model of sort.c. *)
From Verif Require Import Base.
From Coq Require Import String.

Section Sort.
Context {A : Type}.
(** The comparison routine (sort.c:26 cmp): any function to int. *)
Variable cmp : A -> A -> Z.

(** sort.c:40-41: [while (i < j && cmp(ref, a[j]) < 0) j--;] *)
Fixpoint scan_down (fuel : nat) (a : list A) (ref : A) (i j : Z) : outcome Z :=
  if i <? j then
    let! x := rd "sort index" a j in
    if cmp ref x <? 0 then
      match fuel with O => OutOfFuel | S f => scan_down f a ref i (j - 1) end
    else Ok j
  else Ok j.

(** sort.c:44-45: [while (i < j && cmp(ref, a[i]) > 0) i++;] *)
Fixpoint scan_up (fuel : nat) (a : list A) (ref : A) (i j : Z) : outcome Z :=
  if i <? j then
    let! x := rd "sort index" a i in
    if 0 <? cmp ref x then
      match fuel with O => OutOfFuel | S f => scan_up f a ref (i + 1) j end
    else Ok i
  else Ok i.

(** sort.c:38-48: the partition loop; returns the array and the final i and j. *)
Fixpoint partition_loop (fuel : nat) (a : list A) (ref : A) (i j : Z)
  : outcome (list A * Z * Z) :=
  if i <? j then
    match fuel with
    | O => OutOfFuel
    | S f =>
        let! j := scan_down (Z.to_nat (j - i)) a ref i j in
        let! (a, i) :=
          if i =? j then Ok (a, i)
          else let! x := rd "sort index" a j in
               let! a := wr "sort index" a i x in Ok (a, i + 1) in
        let! i := scan_up (Z.to_nat (j - i)) a ref i j in
        let! (a, j) :=
          if i =? j then Ok (a, j)
          else let! x := rd "sort index" a i in
               let! a := wr "sort index" a j x in Ok (a, j - 1) in
        partition_loop f a ref i j
    end
  else Ok (a, i, j).

(** sort.c:30-54 quicksort *)
Fixpoint quicksort (fuel : nat) (a : list A) (left right : Z) : outcome (list A) :=
  match fuel with
  | O => OutOfFuel
  | S f =>
      let i := left in
      let j := right in
      let! ref := rd "sort index" a i in
      let! (a, i, j) := partition_loop (Z.to_nat (j - i)) a ref i j in
      let! a := wr "sort index" a j ref in
      let j := j - 1 in
      let! a := if left <? j then quicksort f a left j else Ok a in
      let i := i + 1 in
      if i <? right then quicksort f a i right else Ok a
  end.

(** sort.c:57-67 sort; the fuel of the model is the number of elements. *)
Definition sort (num_elements : Z) (a : list A) : outcome (list A) :=
  if num_elements <? 2 then Ok a
  else quicksort (Z.to_nat num_elements) a 0 (num_elements - 1).
End Sort.
