(** C17-C20: the optimal synchronisation of two texts (fastukk_sync). *)
From Verif Require Import Base SyncModel SyncSpec EditProof FastukkProof FastukkSync.
From Coq Require Import String.
Local Open Scope Z_scope.
Local Open Scope list_scope.

(** C17: the items are consecutive in both texts, cover them exactly, and are never empty
    on both sides. *)
Theorem C17_fastukk_partition : forall a b : list Z,
  zlen a <= MAX_F ->
  exists l, fastukk_sync a b = Ok l /\ partition [a; b] l.
Proof.
  intros a b H. destruct (fastukk_ok a b H) as (l & E & P & _). eauto.
Qed.
Print Assumptions C17_fastukk_partition.

(** C18: matched items are equal, non-empty, '~'-free strings, numbered 1, 2, ... *)
Theorem C18_fastukk_matches : forall (a b : list Z) (l : list item),
  fastukk_sync a b = Ok l -> matches_genuine [a; b] l /\ numbered_in_order l.
Proof.
  intros a b l E. assert (zlen a <= MAX_F) as H.
  { unfold fastukk_sync in E. destruct (Z.ltb_spec MAX_F (zlen a)); [discriminate|lia]. }
  destruct (fastukk_ok a b H) as (l' & E' & _ & G & N & _). rewrite E in E'.
  injection E' as <-. auto.
Qed.
Print Assumptions C18_fastukk_matches.

(** C19: the unmatched items cost exactly the minimum number of edits. *)
Theorem C19_fastukk_optimal : forall (a b : list Z) (l : list item),
  fastukk_sync a b = Ok l -> distance a b (total_cost l).
Proof.
  intros a b l E. assert (zlen a <= MAX_F) as H.
  { unfold fastukk_sync in E. destruct (Z.ltb_spec MAX_F (zlen a)); [discriminate|lia]. }
  destruct (fastukk_ok a b H) as (l' & E' & _ & _ & _ & C). rewrite E in E'.
  injection E' as <-. rewrite C. apply lev_distance.
Qed.
Print Assumptions C19_fastukk_optimal.

(** C20: no error, no out-of-bounds access, termination, for every pair of texts whose
    first fits the limit; otherwise the error is reported. *)
Theorem C20_fastukk_safe : forall a b : list Z,
  if zlen a <=? MAX_F then is_ok (fastukk_sync a b) = true
  else fastukk_sync a b = Fail "text stream is too long".
Proof.
  intros a b. destruct (Z.leb_spec (zlen a) MAX_F) as [H|H].
  - destruct (fastukk_ok a b H) as (l & E & _). rewrite E. reflexivity.
  - unfold fastukk_sync. destruct (Z.ltb_spec MAX_F (zlen a)); [reflexivity|lia].
Qed.
Print Assumptions C20_fastukk_safe.

(** C20: the number of rounds (rows of the path list) is the edit distance plus one. *)
Theorem C20_fastukk_rounds : forall (a b : list Z) (d : Z),
  distance a b d ->
  exists rows, compute_pathlist a b = Ok rows /\ zlen rows = d + 1.
Proof.
  intros a b d Hd. apply distance_lev in Hd.
  destruct (compute_pathlist_ok a b) as (r & older & E & L & _).
  exists (r :: older). split; [exact E|]. rewrite zlen_cons. lia.
Qed.
Print Assumptions C20_fastukk_rounds.

(** A concrete case: a substitution, an insertion, a deletion and a reject. *)
Example fastukk_nonvacuous :
  let a := bytes "the quick brown fox" in
  let b := bytes "teh qu~ck brwn foxx" in
  match fastukk_sync a b with
  | Ok l => total_cost l = 5 /\ zlen (filter is_match l) = 5 /\ zlen l = 10
  | _ => False
  end.
Proof. vm_compute. repeat split. Qed.

Example distance_example : distance (bytes "a~b") (bytes "a~c") 2.
Proof.
  replace 2 with (lev (bytes "a~b") (bytes "a~c")) by reflexivity. apply lev_distance.
Qed.
