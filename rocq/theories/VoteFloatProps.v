(** C61: the arithmetic of vote -O in float and double. *)
From Coq Require Import String Permutation.
From Verif Require Import Base CLib Utf8Model TextModel TextSpec SynctextProof AccrptSpec AccSpec NgramSpec NgramKeys NgramProps VoteModel VoteSelModel VoteSelSpec VoteSelProps
  DoubleModel VoteFloatModel VoteFloatProof.
Local Open Scope Z_scope.
Local Open Scope list_scope.

(** C61: for texts of fewer than 2^22 characters vote, which computes the medians in float and the
    distances in double, selects the same voters and prints the same distances as with exact
    numbers, so that C61_selected describes what it does; with any options. *)
Theorem C61_float : forall uc order j j4 signed debug optimize s w files,
  marks_wide uc -> nul_hidden uc -> (forall l, Permutation l (order l)) ->
  (forall f t h, In f files -> read_text uc j j4 (mkopt true true 0 true false) [] (snd f) = Ok (t, h) ->
     text_ok t /\ zlen t < 2 ^ 22) ->
  vote_all_float uc order j j4 signed debug optimize s w files = vote_all uc order j j4 signed debug optimize s w files.
Proof. intros uc order j j4 signed debug optimize s w files W N0 Ho H. now apply vote_all_rel. Qed.
Print Assumptions C61_float.

(** Non-vacuity: four readings; the counts of "bc" are 0, 0, 1 and 1 and their median is 0.5.  The
    distances are no whole numbers. *)
Example C61_float_ex :
  let uc := mkuc (fun c => if c <? 32 then CC else LL) (fun c => c) in
  let files := [(bytes "f1", bytes "ab"); (bytes "f2", bytes "c"); (bytes "f3", bytes "abc"); (bytes "f4", bytes "abcab")] in
  (forall f t h, In f files -> read_text uc (repeat 0 100) [0; 0; 0; 0] (mkopt true true 0 true false) [] (snd f) = Ok (t, h) ->
     text_ok t /\ zlen t < 2 ^ 22) /\
  vote_all_float uc (fun l => rev l) (repeat 0 100) [0; 0; 0; 0] true true true None None files =
  Ok (bytes "        0.5 f1" ++ [10] ++ bytes "        0.5 f3" ++ [10] ++ bytes "        1.5 f2" ++ [10] ++
      bytes "        2.5 f4" ++ [10], bytes "ab").
Proof.
  cbv zeta. set (uc := mkuc _ _). set (files := [_; _; _; _]).
  assert (forall f t h, In f files -> read_text uc (repeat 0 100) [0; 0; 0; 0] (mkopt true true 0 true false) [] (snd f) = Ok (t, h) ->
    text_ok t /\ zlen t < 2 ^ 22) as H.
  { intros f t h [<-|[<-|[<-|[<-|[]]]]] E; vm_compute in E; injection E as <- _; (split; [|reflexivity]); repeat constructor; cbn; lia. }
  split; [exact H|]. rewrite C61_float.
  - vm_compute. reflexivity.
  - intros v _. unfold is_combining. cbn [cat uc]. now destruct (v <? 32).
  - reflexivity.
  - intros l. apply Permutation_rev.
  - exact H.
Qed.
