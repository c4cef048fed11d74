(** Specification of word recognition: longest common subsequences. *)
From Verif Require Import Base.

Section Subseq.
Context {A : Type}.
(** [c] is obtained from [l] by leaving out elements. *)
Inductive subseq : list A -> list A -> Prop :=
| subseq_nil : subseq [] []
| subseq_keep x c l : subseq c l -> subseq (x :: c) (x :: l)
| subseq_skip x c l : subseq c l -> subseq c (x :: l).

(** The elements of [l] whose mark is true. *)
Fixpoint select (marks : list bool) (l : list A) : list A :=
  match marks, l with
  | true :: marks, x :: l => x :: select marks l
  | false :: marks, _ :: l => select marks l
  | _, _ => []
  end.

(** The marked elements of [l] are a longest common subsequence of [l] and [l']. *)
Definition lcs_marks (marks : list bool) (l l' : list A) : Prop :=
  List.length marks = List.length l /\
  subseq (select marks l) l' /\
  forall c, subseq c l -> subseq c l' -> zlen c <= zlen (select marks l).
End Subseq.

(** The words of [l] that occur in [l']. *)
Definition shared (l l' : list (list Z)) : list (list Z) :=
  filter (fun w => if in_dec (list_eq_dec Z.eq_dec) w l' then true else false) l.
