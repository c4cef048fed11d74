(** C37: when no word is misrecognized, and when all are. *)
From Coq Require Import String Permutation.
From Verif Require Import Base CLib LcsSpec.
From Verif Require Import WacModel WacSpec WacProof WacProps.
Local Open Scope Z_scope.
Local Open Scope list_scope.

Lemma subseq_len {A} (c w : list A) : subseq c w -> zlen c <= zlen w.
Proof. induction 1; rewrite ?zlen_cons; lia. Qed.
Lemma subseq_whole {A} (c w : list A) : subseq c w -> zlen c = zlen w -> c = w.
Proof.
  induction 1 as [|x c w S IH|x c w S IH]; rewrite ?zlen_cons; intros E.
  - reflexivity.
  - rewrite IH; [reflexivity|lia].
  - apply subseq_len in S. lia.
Qed.
Lemma subseq_refl {A} (w : list A) : subseq w w.
Proof. induction w; constructor; auto. Qed.

(** C37: no word is misrecognized exactly if the words of the correct text occur, in their order,
    among those of the generated text; if there are as many words, exactly if they are the same.
    All words are misrecognized exactly if the texts have no word in common. *)
Theorem C37_none_or_all : forall stop order words0 words1,
  (forall l, Permutation (order l) l) -> zlen (shared words0 words1) <= 65535 ->
  (forall w, In w words0 -> 1 <= zlen w <= MAX_WORDLENGTH) ->
  exists d, wordacc stop order words0 words1 = Ok d /\
    (wmissed (wtotal d) = 0 <-> subseq words0 words1) /\
    (zlen words0 = zlen words1 -> (wmissed (wtotal d) = 0 <-> words0 = words1)) /\
    (wmissed (wtotal d) = wcount (wtotal d) <-> forall w, In w words0 -> ~ In w words1).
Proof.
  intros stop order w0 w1 P Sh W. destruct (C37_misrecognized stop order w0 w1 P Sh W) as (d & c & E & S0 & S1 & M & C & Ms). exists d. split; [exact E|].
  assert (H : wmissed (wtotal d) = 0 <-> subseq w0 w1).
  { rewrite Ms. split.
    - intros Z0. assert (c = w0) as <- by (apply subseq_whole; [exact S0|lia]). exact S1.
    - intros S. specialize (M w0 (subseq_refl w0) S). apply subseq_len in S0. lia. }
  split; [exact H|]. split.
  - intros L. rewrite H. split; [intros S; now apply subseq_whole|intros <-; apply subseq_refl].
  - rewrite Ms, C. split.
    + intros Z0 w I0 I1. assert (O : forall l, In w l -> subseq [w] l).
      { assert (Nl : forall l : list (list Z), subseq [] l) by (induction l; constructor; auto).
        induction l as [|x l IH]; intros I; [destruct I|]. destruct I as [->|I]; [apply subseq_keep, Nl|now apply subseq_skip, IH]. }
      specialize (M [w] (O _ I0) (O _ I1)). change (zlen [w]) with 1 in M. lia.
    + intros N. destruct c as [|w c]; [change (zlen (@nil (list Z))) with 0; lia|]. exfalso.
      assert (Q : forall l, subseq (w :: c) l -> In w l).
      { intros l S. remember (w :: c) as k eqn:Ek. induction S as [|x k l S IH|x k l S IH]; [discriminate|injection Ek as -> ->; now left|right; auto]. }
      exact (N w (Q _ S0) (Q _ S1)).
Qed.
Print Assumptions C37_none_or_all.

Example C37_none_or_all_ex :
  let a := [97] in let b := [98] in let c := [99] in
  subseq [a; b] [a; c; b] /\ zlen (shared [a; b] [a; c; b]) <= 65535 /\ (forall w, In w [a; b] -> 1 <= zlen w <= MAX_WORDLENGTH) /\
  (forall w, In w [a; b] -> ~ In w [c]).
Proof.
  intros a b c. split; [apply subseq_keep, subseq_skip, subseq_keep, subseq_nil|]. split; [vm_compute; discriminate|]. split.
  - intros w [<-|[<-|[]]]; vm_compute; split; discriminate.
  - intros w [<-|[<-|[]]] [H|[]]; discriminate H.
Qed.
