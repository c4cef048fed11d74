(** Model of the comparison routines passed to sort(), and of ustrcmp. *)
From Verif Require Import Base.

(** A NUL-terminated string is the list of its bytes before the NUL; [at_ s i] is s[i],
    the NUL included. *)
(* Models util.c:66-68 *)
Definition hd0 (s : list Z) : Z := match s with [] => 0 | x :: _ => x end.

(** util.c:62-71 ustrcmp.  The loop advances while s1[i] is non-NUL and equal to s2[i]. *)
Fixpoint ustrcmp (s1 s2 : list Z) : Z :=
  match s1, s2 with
  | x :: s1', y :: s2' =>
      if x =? y then ustrcmp s1' s2' else if x <? y then -1 else 1
  | [], [] => 0
  | _, _ => if hd0 s1 <? hd0 s2 then -1 else 1
  end.

(** Conversion of a long to the int returned by the routine: reduction modulo 2^32 (the
    implementation-defined behaviour of gcc and clang). *)
(* Models accrpt.c:318 and 320 *)
Definition to_int (z : Z) : Z := (z + 2147483648) mod 4294967296 - 2147483648.

(** accrpt.h: Conf (the entry's key, errors, marked). *)
Record conf := mkconf { ckey : list Z; cerrors : Z; cmarked : Z }.

(** accrpt.c:314-322 compare_conf *)
Definition compare_conf (c1 c2 : conf) : Z :=
  if negb (cerrors c1 =? cerrors c2) then to_int (cerrors c2 - cerrors c1)
  else if negb (cmarked c1 =? cmarked c2) then to_int (cmarked c2 - cmarked c1)
  else ustrcmp (ckey c1) (ckey c2).

(** wacrpt.h: Term (key, wac.count, wac.missed). *)
Record term := mkterm { tkey : list Z; tcnt : Z; tmissed : Z }.

(** wacrpt.c:211-215 compare_term; wordfreq.c:52-56 order_by_key *)
Definition compare_term (t1 t2 : term) : Z := ustrcmp (tkey t1) (tkey t2).

(** wordfreq.c:59-65 order_by_count *)
Definition term_by_count (t1 t2 : term) : Z :=
  if negb (tcnt t1 =? tcnt t2) then to_int (tcnt t2 - tcnt t1)
  else compare_term t1 t2.

(** ngram.c:45-48 Sequence.  [svalue] holds the n values (value[0..n-1]). *)
Record sequence := mkseq { svalue : list Z; scount : Z; ssuspect : Z }.

(** ngram.c:122-130 order_by_value: the lists have the same length n. *)
Fixpoint values_order (v1 v2 : list Z) : Z :=
  match v1, v2 with
  | x :: v1', y :: v2' => if x =? y then values_order v1' v2' else if x <? y then -1 else 1
  | _, _ => 0
  end.
Definition order_by_value (s1 s2 : sequence) : Z := values_order (svalue s1) (svalue s2).

(** ngram.c:133-141 order_by_count *)
Definition seq_by_count (s1 s2 : sequence) : Z :=
  if negb (scount s1 =? scount s2) then to_int (scount s2 - scount s1)
  else if negb (ssuspect s1 =? ssuspect s2) then to_int (ssuspect s2 - ssuspect s1)
  else order_by_value s1 s2.

(** vote.c:174-178 compare_counts *)
Definition compare_counts (c1 c2 : Z) : Z := to_int (c1 - c2).
