(** The jackknife of the accuracy of a sample of pages, in real numbers. *)
From Coq Require Import ZArith List Reals.
From Verif Require Import Base AccSpec.
Import ListNotations.
Local Open Scope R_scope.

Definition rsum (l : list R) : R := fold_right Rplus 0 l.
Definition mean (l : list R) : R := rsum l / IZR (zlen l).

(** A page: how many characters (words) it has and how many are missed. *)
Definition page : Type := (Z * Z)%type.
(** The percentage of characters that are not missed. *)
Definition accuracy_of (count missed : Z) : R := 100 * (IZR count - IZR missed) / IZR count.
(** All pages together, and all pages but one. *)
Definition overall (l : list page) : R := accuracy_of (zsum (map fst l)) (zsum (map snd l)).
Definition without (l : list page) (p : page) : R :=
  accuracy_of (zsum (map fst l) - fst p) (zsum (map snd l) - snd p).
(** The pseudovalue of a page, the estimate (the mean of the pseudovalues) and its
    standard error: the standard deviation of the pseudovalues divided by the root of their number. *)
Definition pseudovalue (l : list page) (p : page) : R :=
  IZR (zlen l) * overall l - (IZR (zlen l) - 1) * without l p.
Definition estimate (l : list page) : R := mean (map (pseudovalue l) l).
Definition variance (l : list page) : R :=
  rsum (map (fun p => (pseudovalue l p - estimate l)²) l) / (IZR (zlen l) - 1).
Definition standard_error (l : list page) : R := sqrt (variance l / IZR (zlen l)).
(** The interval, cut off at 0% and 100%. *)
Definition cut (x : R) : R := Rmax 0 (Rmin 100 x).
Definition exact_lower (l : list page) : R := cut (estimate l - 196 / 100 * standard_error l).
Definition exact_upper (l : list page) : R := cut (estimate l + 196 / 100 * standard_error l).
