(** C78: the memory of synchronizations. *)
From Coq Require Import String Permutation.
From Verif Require Import Base CLib ListModel ListSpec SyncModel MemSyncModel MemSyncSpec MemSyncProof MemSyncSim MemTransProof MemUkkProof.
Local Open Scope Z_scope.
Local Open Scope list_scope.

Definition no_memory : string := "unable to allocate memory".

(** synchronize: whatever addresses calloc returns, either memory runs out or the list consists of the items of the
    synchronization; apart from what was allocated before, which is unchanged, exactly the items, their arrays and the numbers
    in them are allocated when it returns. *)
Theorem C78_synchronize : forall alloc m texts, sound_calloc alloc -> proper m -> 2 <= zlen texts <= 16 ->
  synchronize_list alloc m texts = Fail no_memory \/
  exists l m' its xs, synchronize_list alloc m texts = Ok (l, m') /\
    synchronize texts = Ok its /\ list_shows l m' its xs /\
    adds_exactly (map item_at xs ++ map array_at xs ++ numbers_at xs) m m' /\ proper m'.
Proof. intros alloc m texts A. now apply synchronize_mem. Qed.
Print Assumptions C78_synchronize.

(** A number of texts below two or above sixteen is refused before anything is allocated, as in the sequential model. *)
Theorem C78_number_of_streams : forall alloc m texts, ~ (2 <= zlen texts <= 16) ->
  synchronize_list alloc m texts = Fail "invalid number of text streams" /\
  synchronize texts = Fail "invalid number of text streams".
Proof.
  intros alloc m texts N. unfold synchronize_list, synchronize, MIN_STREAMS, MAX_STREAMS.
  assert (orb (zlen texts <? 2) (16 <? zlen texts) = true) as -> by lia. split; reflexivity.
Qed.
Print Assumptions C78_number_of_streams.

(** fastukk_sync: the same, and its two lists (of rows and of diagonals), which keep their place between calls, are empty
    again afterwards, so that the next call starts from a state as before the first. *)
Theorem C78_fastukk : forall alloc m dl pl a b, sound_calloc alloc -> proper m -> empty_list dl -> empty_list pl -> zlen a <= MAX_F ->
  fastukk_list alloc dl pl m a b = Fail no_memory \/
  exists l dl' pl' m' its xs, fastukk_list alloc dl pl m a b = Ok (l, dl', pl', m') /\
    fastukk_sync a b = Ok its /\ list_shows l m' its xs /\
    adds_exactly (map item_at xs ++ map array_at xs ++ numbers_at xs) m m' /\
    empty_list dl' /\ empty_list pl' /\ proper m'.
Proof. intros alloc m dl pl a b A. now apply fastukk_mem. Qed.
Print Assumptions C78_fastukk.

(** transpose_sync: the two lists; the numbers are shared between them. *)
Theorem C78_transpose : forall alloc m t1 t2, sound_calloc alloc -> proper m ->
  transpose_lists alloc m t1 t2 = Fail no_memory \/
  exists l1 l2 m' its1 its2 xs1 xs2, transpose_lists alloc m t1 t2 = Ok (l1, l2, m') /\
    transpose_sync t1 t2 = Ok (its1, its2) /\ list_shows l1 m' its1 xs1 /\ list_shows l2 m' its2 xs2 /\
    Permutation (numbers_at xs1) (numbers_at xs2) /\
    adds_exactly (map item_at xs1 ++ map array_at xs1 ++ map item_at xs2 ++ map array_at xs2 ++ numbers_at xs1) m m' /\ proper m'.
Proof. intros alloc m t1 t2 A. now apply transpose_mem. Qed.
Print Assumptions C78_transpose.

(** A program that synchronizes one pair of pages after the other, keeping the results (accuracy with several pages would):
    the results of earlier calls are not disturbed by later ones. *)
Fixpoint one_after_the_other (alloc : (addr -> bool) -> Z -> addr) (dl pl : header) (m : store) (pairs : list (list Z * list Z)) : outcome (list header * store) :=
  match pairs with
  | [] => Ok ([], m)
  | (a, b) :: rest =>
      let! (l, dl, pl, m) := fastukk_list alloc dl pl m a b in
      let! (ls, m) := one_after_the_other alloc dl pl m rest in
      Ok (l :: ls, m)
  end.

Lemma shows_keeps l m m' its xs ys : list_shows l m its xs -> adds_exactly ys m m' -> list_shows l m' its xs.
Proof.
  intros [Pr F] (_ & _ & _ & K). split.
  - apply ListProof.inv_presents. apply ListProof.presents_inv in Pr. eapply MemSyncProof.inv_frame; [|exact Pr].
    intros a I. apply K. apply in_map_iff in I as (x & <- & I). clear Pr. induction F as [|it x' its xs H F IH]; [destruct I|]. destruct I as [->|I]; [|auto].
    destruct H as [H _]. unfold allocated. congruence.
  - clear Pr. induction F as [|it x its xs H F IH]; constructor; [|exact IH]. destruct H as (H1 & H2 & H3). repeat split.
    + rewrite (proj1 (K (item_at x) ltac:(unfold allocated; congruence))). exact H1.
    + rewrite (proj1 (K (array_at x) ltac:(unfold allocated; congruence))). exact H2.
    + destruct (inum it); [|exact H3]. rewrite (proj1 (K (number_at x) ltac:(unfold allocated; congruence))). exact H3.
Qed.

Lemma adds_trans xs ys m1 m2 m3 : adds_exactly xs m1 m2 -> adds_exactly ys m2 m3 -> adds_exactly (xs ++ ys) m1 m3.
Proof.
  intros (N1 & F1 & A1 & K1) (N2 & F2 & A2 & K2). rewrite Forall_forall in F1, F2. repeat split.
  - apply MemWordProof.NoDup_join; auto. intros a I J. apply (F2 a J). apply A1. now right.
  - apply Forall_forall. intros a I. apply in_app_iff in I as [I|I]; [now apply F1|]. intros A. apply (F2 a I). apply A1. now left.
  - intros A. apply A2 in A as [A|A]; [apply A1 in A as [A|A]; [now left|]|]; right; apply in_app_iff; auto.
  - intros [A|I]; apply A2; [left; apply A1; now left|]. apply in_app_iff in I as [I|I]; [left; apply A1; now right|now right].
  - rewrite (proj1 (K2 a (proj2 (A1 a) (or_introl H)))). now apply K1.
  - rewrite (proj2 (K2 a (proj2 (A1 a) (or_introl H)))). now apply K1.
Qed.

Theorem C78_repeated : forall alloc pairs m dl pl, sound_calloc alloc -> proper m -> empty_list dl -> empty_list pl ->
  Forall (fun ab => zlen (fst ab) <= MAX_F) pairs ->
  one_after_the_other alloc dl pl m pairs = Fail no_memory \/
  exists ls m' itss xss, one_after_the_other alloc dl pl m pairs = Ok (ls, m') /\
    Forall2 (fun ab its => fastukk_sync (fst ab) (snd ab) = Ok its) pairs itss /\
    Forall2 (fun l ix => list_shows l m' (fst ix) (snd ix)) ls (combine itss xss) /\ List.length xss = List.length itss /\
    adds_exactly (flat_map (fun xs => map item_at xs ++ map array_at xs ++ numbers_at xs) xss) m m'.
Proof.
  intros alloc pairs m dl pl A. revert m dl pl. induction pairs as [|[a b] rest IH]; intros m dl pl P Ed Ep F.
  - right. exists [], m, [], []. split; [reflexivity|]. repeat split; try constructor; try tauto. intros [H|[]]; exact H.
  - apply Forall_cons_iff in F as [Fa F]. cbn [fst] in Fa. cbn [one_after_the_other].
    destruct (C78_fastukk alloc m dl pl a b A P Ed Ep Fa) as [->|(l & dl' & pl' & m1 & its & xs & -> & Ei & Sh & Ad & Ed' & Ep' & P1)]; [now left|]. cbn [obind].
    destruct (IH m1 dl' pl' P1 Ed' Ep' F) as [->|(ls & m' & itss & xss & -> & G1 & G2 & G3 & G4)]; [now left|]. right.
    exists (l :: ls), m', (its :: itss), (xs :: xss). split; [reflexivity|]. split; [constructor; auto|]. split; [|split; [cbn; congruence|]].
    + cbn [combine]. constructor; [|exact G2]. cbn [fst snd]. eapply shows_keeps; eauto.
    + cbn [flat_map]. eapply adds_trans; eauto.
Qed.
Print Assumptions C78_repeated.

(** A calloc that hands out one address after the other; the hypotheses are met, and memory does not run out. *)
Definition counting (used : addr -> bool) (n : Z) : addr := if used (n + 1) then NULL else n + 1.
Definition nothing : store := mkstore (fun _ => mknode NULL NULL) (fun _ => None) 0.
Example C78_ex_calloc : sound_calloc counting /\ proper nothing /\ empty_list list_initialize.
Proof.
  split; [|split].
  - intros used n. unfold counting. destruct (used (n + 1)) eqn:E; [now left|now right].
  - unfold proper, allocated. cbn. tauto.
  - intros h. apply ListProof.inv_presents. constructor; cbn; auto. constructor.
Qed.
Example C78_ex : match fastukk_list counting list_initialize list_initialize nothing [97; 98; 99] [97; 120; 99] with
  | Ok (l, dl, pl, m) => count l = 3 /\ first dl = NULL /\ first pl = NULL /\ scalls m = 18
  | _ => False end.
Proof. vm_compute. repeat split. Qed.
