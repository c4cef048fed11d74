(** Model of the work of wordacc: compute_pathlist of wordacc.c with a count of the comparisons of two
    words (wordacc.c:159, pointers to entries of the table of words).  Erasing the count gives LcsModel
    (WordWorkProof). *)
From Coq Require Import String.
From Verif Require Import Base LcsModel.
Local Open Scope Z_scope.
Local Open Scope list_scope.

Section Paths.
Variables a b : list Z.
Notation m := (zlen a).
Notation n := (zlen b).

(** wordacc.c:159-163; [w] comparisons so far *)
Fixpoint snake_counted (fuel : nat) (i j w : Z) : outcome (Z * Z) :=
  if (i <? m) && (j <? n) then
    let! x := rd "a" a i in
    let! y := rd "b" b j in
    if x =? y then
      match fuel with O => OutOfFuel | S fu => snake_counted fu (i + 1) (j + 1) (w + 1) end
    else Ok (i, w + 1)
  else Ok (i, w).

(** wordacc.c:152-169 compute_f *)
Definition compute_f_counted (k p : Z) (prev : option path) (st : Z * Z * list Z) (w : Z)
  : outcome (Z * Z * list Z * Z) :=
  let '(min_k, max_k, f) := st in
  let! (i, _) := initial_f k prev in
  let! (i, w) := snake_counted (List.length a) i (i + k) w in
  let j := i + k in
  let min_k := if i =? m then k + 1 else min_k in
  let max_k := if j =? n then k - 1 else max_k in
  let! f := wr "f" f (Z.shiftr (k + p) 1) (i mod 65536) in
  Ok (min_k, max_k, f, w).

(** wordacc.c:184-190 *)
Definition visit_counted (p : Z) (prev : option path) (stw : Z * Z * list Z * Z) (k : Z)
  : outcome (Z * Z * list Z * Z) :=
  let '(min_k, max_k, f, w) := stw in
  if (min_k <=? k) && (k <=? max_k) then compute_f_counted k p prev (min_k, max_k, f) w
  else Ok (min_k, max_k, f, w).

(** wordacc.c:178-191 *)
Fixpoint paths_counted (fuel : nat) (p min_k max_k : Z) (l : list path) (w : Z) : outcome (list path * Z) :=
  if min_k <=? n - m then
    match fuel with
    | O => OutOfFuel
    | S fu =>
        let p := p + 1 in
        let! (min_k, max_k, f, w) :=
          ofold (visit_counted p (hd_error l)) (diagonals p) (min_k, max_k, repeat 0 (Z.to_nat (p + 1)), w) in
        paths_counted fu p min_k max_k ((p, f) :: l) w
    end
  else Ok (l, w).

(** wordacc.c:172-192 compute_pathlist *)
Definition compute_pathlist_counted : outcome (list path * Z) :=
  paths_counted (S (List.length a + List.length b)) (-1) (- m) n [] 0.
End Paths.

(** wordacc.c:92-123 and 172-208, as LcsModel.recognize; also the rows of numbers kept until the matches
    have been read off, and the number of comparisons of words. *)
Definition recognize_counted (words0 words1 : list (list Z)) : outcome (list bool * list path * Z) :=
  let! (t, ids0) := ofold (setup_word false) words0 ([], []) in
  let! (t, ids1) := ofold (setup_word true) words1 (t, []) in
  let! a := setup_array false t ids0 in
  if 65535 <? zlen a then Fail "text stream is too long"
  else
    let! b := setup_array true t ids1 in
    let! ida := ofold (id_at ids0) a [] in
    let! idb := ofold (id_at ids1) b [] in
    let! (l, w) := compute_pathlist_counted ida idb in
    let! marks := obtain a (zlen idb - zlen ida) l (repeat false (List.length words0)) in
    Ok (marks, l, w).
