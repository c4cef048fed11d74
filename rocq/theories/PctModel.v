(** printf with %w.pf of a double, as used for the percentages. *)
From Flocq Require Import IEEE754.BinarySingleNaN.
From Coq Require Import String ZArith.
From Verif Require Import Base CLib DoubleModel.
Local Open Scope Z_scope.
Local Open Scope list_scope.

(** k * 2^e rounded to an integer, to the even one of two that are equally near. *)
(* Models accrpt.c:273 *)
Definition round_even (k e : Z) : Z :=
  if 0 <=? e then k * 2 ^ e
  else
    let b := 2 ^ (- e) in
    let q := k / b in
    let r := k mod b in
    if 2 * r <? b then q else if b <? 2 * r then q + 1 else if Z.even q then q else q + 1.

(** n * 10^-p with p decimals, p > 0 *)
(* Models accrpt.c:273 *)
Definition fixed (p : Z) (n : Z) : list Z :=
  dec (n / 10 ^ p) ++ [46] ++ pad 48 (Z.to_nat p) (dec (n mod 10 ^ p)).

(** printf("%w.pf", x), p > 0: the decimal number nearest to the exact value of x, as C11 7.21.6.1
    recommends and glibc does.  Simplified: a NaN is printed without sign. *)
(* Models accrpt.c:273 *)
Definition print_fixed (w : nat) (p : Z) (x : double) : list Z :=
  pad 32 w
    match x with
    | B754_zero s => (if s then [45] else []) ++ fixed p 0
    | B754_infinity s => (if s then [45] else []) ++ bytes "inf"
    | B754_nan => bytes "nan"
    | B754_finite s m e _ => (if s then [45] else []) ++ fixed p (round_even (10 ^ p * Zpos m) e)
    end.

(** accrpt.c:273, groupacc.c:45 and wacrpt.c:162: %8.2f of 100.0 * n / d *)
Definition pct8 (n d : Z) : list Z := print_fixed 8 2 (percentage n d).
(** dist.c:55 and nonstopacc.c:56: %6.2f of 100.0 * n / d *)
Definition pct6 (n d : Z) : list Z := print_fixed 6 2 (percentage n d).
(** accci.c:53 and wordaccci.c:54: %14.2f of 100.0 * n / d *)
Definition pct14 (n d : Z) : list Z := print_fixed 14 2 (percentage n d).
(** accci.c:55 and wordaccci.c:56: %6.2f of a double *)
Definition limit6 (x : double) : list Z := print_fixed 6 2 x.
