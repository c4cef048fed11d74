(** The double arithmetic of the programs: IEEE 754 binary64, rounding to nearest even, as
    formalised by Flocq (all NaNs identified).  Assumes that the compiler evaluates double
    expressions in double precision (FLT_EVAL_METHOD 0). *)
From Flocq Require Import IEEE754.BinarySingleNaN.
From Coq Require Import ZArith Bool.
From Flocq Require Import Core.
Local Open Scope Z_scope.

(* Models the arithmetic of ci.c:58-92 *)
Definition double : Type := binary_float 53 1024.
(* Models the arithmetic of ci.c:58-92 *)
Definition Hp : Prec_gt_0 53 := eq_refl.
(* Models the arithmetic of ci.c:58-92 *)
Definition Hm : Prec_lt_emax 53 1024 := eq_refl.

(** Conversion of an integer *)
(* Models the arithmetic of ci.c:58-92 *)
Definition of_int (z : Z) : double := @binary_normalize 53 1024 Hp Hm mode_NE z 0 false.
(* Models the arithmetic of ci.c:58-92 *)
Definition fadd (x y : double) : double := @Bplus 53 1024 Hp Hm mode_NE x y.
(* Models the arithmetic of ci.c:58-92 *)
Definition fsub (x y : double) : double := @Bminus 53 1024 Hp Hm mode_NE x y.
(* Models the arithmetic of ci.c:58-92 *)
Definition fmul (x y : double) : double := @Bmult 53 1024 Hp Hm mode_NE x y.
(* Models the arithmetic of ci.c:58-92 *)
Definition fdiv (x y : double) : double := @Bdiv 53 1024 Hp Hm mode_NE x y.
(* Models the arithmetic of ci.c:58-92 *)
Definition fsqrt (x : double) : double := @Bsqrt 53 1024 Hp Hm mode_NE x.
(** x <= y and x < y; false if one is a NaN *)
(* Models util.h:50-51 *)
Definition fle (x y : double) : bool := Bleb x y.
(* Models util.h:50-51 *)
Definition flt (x y : double) : bool := Bltb x y.

(** 100.0 * n / d for longs n and d *)
(* Models accrpt.c:273 *)
Definition percentage (n d : Z) : double := fdiv (fmul (of_int 100) (of_int n)) (of_int d).
