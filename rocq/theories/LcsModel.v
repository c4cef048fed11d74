(** Model of the matching of words in wordacc.c (setup .. obtain_matches). *)
From Coq Require Import String.
From Verif Require Import Base CLib.
Local Open Scope Z_scope.
Local Open Scope list_scope.

(** ** Identifiers of words *)

(** wordacc.c:43-49: the table of distinct words, with the flags found[0] and found[1].
    An Id is its position; a later insertion does not change it. *)
Definition idtable := list (list Z * (bool * bool)).

(** table_lookup (C05) *)
(* Models wordacc.c:108 *)
Fixpoint id_of (t : idtable) (w : list Z) (i : Z) : option Z :=
  match t with
  | [] => None
  | (key, _) :: r => if streq key w then Some i else id_of r w (i + 1)
  end.

(** found[side] = True *)
(* Models wordacc.c:115 *)
Definition mark_found (side : bool) (fl : bool * bool) : bool * bool :=
  if side then (fst fl, true) else (true, snd fl).

(** wordacc.c:106-117: one word of text number [side]; the symbols so far are [ids]. *)
Definition setup_word (side : bool) (st : idtable * list Z) (w : list Z)
  : outcome (idtable * list Z) :=
  let (t, ids) := st in
  let (t, i) := match id_of t w 0 with
                | Some i => (t, i)
                | None => (t ++ [(w, (false, false))], zlen t)
                end in
  let! e := rd "id" t i in
  let! t := wr "id" t i (fst e, mark_found side (snd e)) in
  Ok (t, ids ++ [i]).

(** wordacc.c:84-86: the position of word [i] is kept if the word is in the other text. *)
Definition array_word (side : bool) (t : idtable) (ids acc : list Z) (i : Z) : outcome (list Z) :=
  let! id := rd "symbol" ids i in
  let! e := rd "id" t id in
  Ok (if (if side then fst (snd e) else snd (snd e)) then acc ++ [i] else acc).

(** wordacc.c:78-89 setup_array for the text number [side], as the list of the positions
    pointed to. *)
Definition setup_array (side : bool) (t : idtable) (ids : list Z) : outcome (list Z) :=
  ofold (array_word side t ids) (zrange 0 (List.length ids)) [].

(** ** Furthest reaching paths *)

Section Paths.
(** The identifiers of the words pointed to by a and b. *)
Variables a b : list Z.
Notation m := (zlen a).
Notation n := (zlen b).

(** A Path: p and the array f. *)
(* Models wordacc.c:65-68 *)
Definition path : Type := Z * list Z.

(** wordacc.c:126-149 initial_f: the result, and the value stored in *prev_k if any. *)
Definition initial_f (k : Z) (prev : option path) : outcome (Z * option Z) :=
  match prev with
  | None => Ok (0, None)
  | Some (p, f) =>
      let! (result, pk) := if - p <? k
                           then let! v := rd "f" f (Z.shiftr (k - 1 + p) 1) in
                                Ok (v, Some (k - 1))
                           else Ok (0, None) in
      if k <? p then
        let! v := rd "f" f (Z.shiftr (k + 1 + p) 1) in
        if result <=? v + 1 then Ok (v + 1, Some (k + 1)) else Ok (result, pk)
      else Ok (result, pk)
  end.

(** wordacc.c:159-163: the loop of compute_f. *)
Fixpoint snake (fuel : nat) (i j : Z) : outcome Z :=
  if (i <? m) && (j <? n) then
    let! x := rd "a" a i in
    let! y := rd "b" b j in
    if x =? y then
      match fuel with O => OutOfFuel | S fu => snake fu (i + 1) (j + 1) end
    else Ok i
  else Ok i.

(** wordacc.c:152-169 compute_f; the variables min_k, max_k and the array path->f.  The
    elements of f are unsigned short. *)
Definition compute_f (k p : Z) (prev : option path) (st : Z * Z * list Z)
  : outcome (Z * Z * list Z) :=
  let '(min_k, max_k, f) := st in
  let! (i, _) := initial_f k prev in
  let! i := snake (List.length a) i (i + k) in
  let j := i + k in
  let min_k := if i =? m then k + 1 else min_k in
  let max_k := if j =? n then k - 1 else max_k in
  let! f := wr "f" f (Z.shiftr (k + p) 1) (i mod 65536) in
  Ok (min_k, max_k, f).

(** wordacc.c:184-190: one round of the inner loop. *)
Definition visit (p : Z) (prev : option path) (st : Z * Z * list Z) (k : Z)
  : outcome (Z * Z * list Z) :=
  let '(min_k, max_k, _) := st in
  if (min_k <=? k) && (k <=? max_k) then compute_f k p prev st else Ok st.

(** The values -p, -p + 2, ..., p of k. *)
(* Models wordacc.c:184-190 *)
Definition diagonals (p : Z) : list Z :=
  map (fun i => - p + 2 * i) (zrange 0 (Z.to_nat (p + 1))).

(** wordacc.c:178-191: the outer loop; the paths so far, last first. *)
Fixpoint paths (fuel : nat) (p min_k max_k : Z) (l : list path) : outcome (list path) :=
  if min_k <=? n - m then
    match fuel with
    | O => OutOfFuel
    | S fu =>
        let p := p + 1 in
        let! (min_k, max_k, f) :=
          ofold (visit p (hd_error l)) (diagonals p) (min_k, max_k, repeat 0 (Z.to_nat (p + 1))) in
        paths fu p min_k max_k ((p, f) :: l)
    end
  else Ok l.

(** wordacc.c:172-192 compute_pathlist *)
Definition compute_pathlist : outcome (list path) :=
  paths (S (List.length a + List.length b)) (-1) (- m) n [].

(** wordacc.c:204-205: a[--f]->recognized = True for f down to [start]; [pos] are the
    positions of the elements of a, [marks] the recognized fields. *)
Definition mark_range (pos : list Z) (start f : Z) (marks : list bool) : outcome (list bool) :=
  ofold (fun marks i => let! q := rd "a" pos i in wr "symbol" marks q true)
        (rev (zrange start (Z.to_nat (f - start)))) marks.

(** wordacc.c:195-208 obtain_matches from diagonal [k]; for the first path prev_k keeps its
    previous (or an indeterminate) value, which is not used any more. *)
Fixpoint obtain (pos : list Z) (k : Z) (l : list path) (marks : list bool) : outcome (list bool) :=
  match l with
  | [] => Ok marks
  | (p, f) :: rest =>
      let! v := rd "f" f (Z.shiftr (k + p) 1) in
      let! (start, pk) := initial_f k (hd_error rest) in
      let! marks := mark_range pos start v marks in
      match pk, rest with
      | Some k', _ => obtain pos k' rest marks
      | None, [] => Ok marks
      | None, _ => UB "prev_k"
      end
  end.
End Paths.

(** The identifier of the word at position [i], a[i]->id. *)
(* Models wordacc.c:159 *)
Definition id_at (ids acc : list Z) (i : Z) : outcome (list Z) :=
  let! x := rd "symbol" ids i in Ok (acc ++ [x]).

(** wordacc.c:92-123 setup after the words have been found, then compute_pathlist and
    obtain_matches: which words of the correct text are recognized. *)
Definition recognize (words0 words1 : list (list Z)) : outcome (list bool) :=
  let! (t, ids0) := ofold (setup_word false) words0 ([], []) in
  let! (t, ids1) := ofold (setup_word true) words1 (t, []) in
  let! a := setup_array false t ids0 in
  if 65535 <? zlen a then Fail "text stream is too long"
  else
    let! b := setup_array true t ids1 in
    let! ida := ofold (id_at ids0) a [] in
    let! idb := ofold (id_at ids1) b [] in
    let! l := compute_pathlist ida idb in
    obtain a (zlen idb - zlen ida) l (repeat false (List.length words0)).
