(** Model of the figures kept by wordacc.c and wacrpt.c. *)
From Coq Require Import String.
From Verif Require Import Base CLib LcsModel.
Local Open Scope Z_scope.
Local Open Scope list_scope.

(** wacrpt.h:35-36, word.h:32 *)
Definition MAX_OCCURRENCES : Z := 10.
Definition MAX_PHRASELENGTH : Z := 8.
Definition MAX_WORDLENGTH : Z := 50.

(** wacrpt.h:38-43 Wac *)
Record wac := mkwac { wcount : Z; wmissed : Z }.
(** wacrpt.h:45-47 Term: a distinct word and its figures. *)
Record term := mkterm { tkey : list Z; twac : wac }.

(** wacrpt.h:52-75 Wacdata.  The arrays are lists of the declared length.  The hash tables
    are the lists of their entries, which have distinct keys (C04, C05: a table behaves as a
    map from keys to entries).  Longs are unbounded integers. *)
Record wacdata := mkwacdata {
  wtotal : wac; stopword : list wac; non_stopword : list wac; distinct : list wac;
  phrase : list wac; stop_terms : list term; non_terms : list term }.

(** A global Wacdata is all zero when the program starts. *)
(* Models wordacc.c:74 *)
Definition no_wac : wac := mkwac 0 0.
(* Models wordacc.c:74 *)
Definition wac_empty : wacdata :=
  mkwacdata no_wac (repeat no_wac (Z.to_nat (MAX_WORDLENGTH + 1)))
    (repeat no_wac (Z.to_nat (MAX_WORDLENGTH + 1)))
    (repeat no_wac (Z.to_nat (MAX_OCCURRENCES + 2)))
    (repeat no_wac (Z.to_nat (MAX_PHRASELENGTH + 1))) [] [].

(** wacrpt.c:39-45 increment_wac *)
Definition increment_wac (w : wac) (count missed : Z) : wac :=
  mkwac (wcount w + count) (wmissed w + missed).

(** increment_wac(&wac[i], count, missed) for an array *)
(* Models wordacc.c:222-227 *)
Definition increment_at (ws : list wac) (i count missed : Z) : outcome (list wac) :=
  let! w := rd "wac[index]" ws i in wr "wac[index]" ws i (increment_wac w count missed).

(** wacrpt.c:48-62 add_term: the entry with this key is updated in place, or a new one
    (of all zero figures) inserted. *)
Fixpoint add_term (l : list term) (key : list Z) (count missed : Z) : list term :=
  match l with
  | [] => [mkterm key (increment_wac no_wac count missed)]
  | t :: r => if streq (tkey t) key then mkterm (tkey t) (increment_wac (twac t) count missed) :: r
              else t :: add_term r key count missed
  end.

(** wordacc.c:218-230: one term; the total, the array length[] and the array occurs[] (if any).
    A word is a NUL-terminated string, modelled as the list of its bytes: strlen is the
    number of bytes. *)
Definition process_term (st : wac * list wac * option (list wac)) (t : term)
  : outcome (wac * list wac * option (list wac)) :=
  let '(total, length, occurs) := st in
  let count := wcount (twac t) in
  let missed := wmissed (twac t) in
  let total := increment_wac total count missed in
  let! length := increment_at length 0 count missed in
  let! length := increment_at length (zlen (tkey t)) count missed in
  let miss := if count =? missed then 1 else 0 in
  match occurs with
  | None => Ok (total, length, None)
  | Some occurs =>
      let! occurs := increment_at occurs 0 1 miss in
      let! occurs := increment_at occurs (Z.min count (MAX_OCCURRENCES + 1)) 1 miss in
      Ok (total, length, Some occurs)
  end.

(** wordacc.c:239-245: the phrases beginning at word [i]; [k] of them remain to be looked at,
    of length [j] + 1 onward. *)
Fixpoint phrases_from (recognized : bool) (marks : list bool) (i j : Z) (k : nat)
  (ps : list wac) : outcome (list wac) :=
  match k with
  | O => Ok ps
  | S k =>
      if i + j <? zlen marks then
        let! r := rd "symbol" marks (i + j) in
        let recognized := recognized && r in
        let! ps := increment_at ps (j + 1) 1 (if recognized then 0 else 1) in
        phrases_from recognized marks i (j + 1) k ps
      else Ok ps
  end.

(** wordacc.c:234-247 process_phrases *)
Definition process_phrases (marks : list bool) (ps : list wac) : outcome (list wac) :=
  ofold (fun ps i => phrases_from true marks i 0 (Z.to_nat MAX_PHRASELENGTH) ps)
        (zrange 0 (List.length marks)) ps.

Section Terms.
(** is_stopword, and the order in which table_in_array lists a table (C04). *)
Variable is_stopword : list Z -> bool.
Variable order : list term -> list term.

(** wordacc.c:253-256: one word and whether it was recognized. *)
Definition tabulate (tables : list term * list term) (wm : list Z * bool)
  : list term * list term :=
  let (w, recognized) := wm in
  let missed := if recognized then 0 else 1 in
  if is_stopword w then (add_term (fst tables) w 1 missed, snd tables)
  else (fst tables, add_term (snd tables) w 1 missed).

(** wordacc.c:250-261 determine_wacdata for the words of the correct text, into the Wacdata
    of a program that has just started. *)
Definition determine_wacdata (words : list (list Z)) (marks : list bool) : outcome wacdata :=
  let d := wac_empty in
  let (st, ns) := fold_left tabulate (combine words marks) ([], []) in
  let! (total, sw, _) := ofold process_term (order st) (wtotal d, stopword d, None) in
  let! (total, nsw, occ) :=
    ofold process_term (order ns) (total, non_stopword d, Some (distinct d)) in
  let! ps := process_phrases marks (phrase d) in
  Ok (mkwacdata total sw nsw (match occ with Some o => o | None => distinct d end) ps st ns).

(** wordacc.c:264-278 main, from the words of the two texts to the figures. *)
Definition wordacc (words0 words1 : list (list Z)) : outcome wacdata :=
  let! marks := recognize words0 words1 in
  determine_wacdata words0 marks.
End Terms.
