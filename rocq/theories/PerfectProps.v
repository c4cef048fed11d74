(** C97: accuracy and editop agree on which texts are perfect. *)
From Coq Require Import String Permutation.
From Verif Require Import Base CLib AccSpec SumProof Utf8Model TextModel CompareModel SyncModel SyncSpec EditProof FastukkSync MetricProof TraceProps TransProps
  AccModel AccProof AccCount AccTop AccProps EdoModel EdoSpec EditopModel EditopSpec EditopProof EditopProps EditBagProps MetricSpec WildProps BoundProps.
Local Open Scope Z_scope.
Local Open Scope list_scope.

Lemma chain_large t l : Forall (fun it => Exists (fun s => 0 < slen s) (isubs it)) l ->
  forall pos it u, chain t pos l -> In it l -> isubs it = [u] -> slen u + zlen l - 1 <= zlen t - pos.
Proof.
  assert (P : forall it v, Exists (fun s => 0 < slen s) (isubs it) -> isubs it = [v] -> 0 < slen v).
  { intros it v H E. rewrite E in H. inversion H as [? ? H'|? ? H']; subst; [exact H'|inversion H']. }
  assert (G : forall l, Forall (fun it => Exists (fun s => 0 < slen s) (isubs it)) l -> forall pos, chain t pos l -> zlen l <= zlen t - pos).
  { clear l. induction 1 as [|i l Hi F IH]; intros pos C; cbn [chain] in C.
    - subst. change (zlen (@nil item)) with 0. lia.
    - destruct C as (v & Ev & _ & _ & _ & _ & C). rewrite zlen_cons. apply IH in C. specialize (P _ _ Hi Ev). lia. }
  induction 1 as [|i l Hi F IH]; intros pos it u C I E; [destruct I|]. cbn [chain] in C. destruct C as (v & Ev & _ & _ & _ & _ & C). rewrite zlen_cons. destruct I as [->|I].
  - rewrite E in Ev. injection Ev as ->. apply (G _ F) in C. lia.
  - specialize (IH _ _ _ C I E). specialize (P _ _ Hi Ev). lia.
Qed.

Lemma numbers_le l : zlen (numbers l) <= zlen l.
Proof.
  induction l as [|i l IH]; [cbn; lia|]. unfold numbers in *. cbn [flat_map]. rewrite zlen_app, zlen_cons. destruct (inum i); cbn [List.length]; unfold zlen in *; cbn [List.length]; lia.
Qed.

(** The same text twice needs no operations. *)
Lemma no_operations t : ~ In 126 t -> exists e, edit_operations t t = Ok e /\ insertions e = 0 /\ deletions e = 0 /\ total_moves e = 0.
Proof.
  intros N. destruct (C91_only_moves t t N (Permutation_refl t)) as (e & E & I & D). exists e. split; [exact E|]. split; [exact I|]. split; [exact D|].
  destruct (C23_transpose t t) as (l1 & l2 & T & P1 & P2 & _ & Pm & _). destruct (C44_moves t t l1 l2 T) as (e' & ls & E' & _ & R & L & _).
  assert (e' = e) by congruence. subst e'. destruct R as (_ & -> & _).
  assert (Ln : zlen (numbers l1) = zlen (numbers l2)).
  { rewrite !numbers_filter in Pm. apply Permutation_length in Pm. rewrite !map_length in Pm. unfold zlen. lia. }
  assert (S : zlen (numbers l2) <= 1).
  { destruct t as [|c t].
    - pose proof (numbers_le l2). destruct l2 as [|i l2]; [cbn; lia|]. pose proof (partition_chain _ _ P2) as C. pose proof C as C'. cbn [chain] in C'. destruct C' as (u & Eu & _).
      pose proof (chain_large _ _ (proj2 (proj2 P2)) _ _ _ C (or_introl eq_refl) Eu) as Q. pose proof (proj2 (proj2 P2)) as F. apply Forall_inv in F. rewrite Eu in F.
      inversion F as [? ? F'|? ? F']; subst; [|inversion F']. change (zlen (@nil Z)) with 0 in Q. lia.
    - assert (Tk : taken l1 0 (zlen (c :: t)) \/ taken l2 0 (zlen (c :: t))).
      { assert (W : slice (c :: t) 0 (zlen (c :: t)) = c :: t) by (unfold slice, zlen; cbn [Z.to_nat skipn]; rewrite Nat2Z.id; apply firstn_all).
        apply (C24_longest_first _ _ _ _ T 0 0); rewrite ?W; try lia; auto. rewrite zlen_cons. unfold zlen. lia. }
      destruct Tk as [(it & u & Hi & _ & Eu & Hl & _)|(it & u & Hi & _ & Eu & Hl & _)].
      + pose proof (chain_large _ _ (proj2 (proj2 P1)) _ _ _ (partition_chain _ _ P1) Hi Eu). pose proof (numbers_le l1). lia.
      + pose proof (chain_large _ _ (proj2 (proj2 P2)) _ _ _ (partition_chain _ _ P2) Hi Eu). pose proof (numbers_le l2). lia. }
  destruct L as [L| ->]; [unfold zlen in *; lia|reflexivity].
Qed.

(** C97: accuracy finds no error in a text (for a correct text without '~') exactly if it has the
    characters of the correct text, and exactly if editop finds nothing to do. *)
Theorem C97_perfect : forall uc t0 t1, inputs_ok uc t0 t1 -> no_reject t0 ->
  exists d e, accuracy_data uc t0 t1 = Ok d /\ edit_operations (map value t0) (map value t1) = Ok e /\
    (errors d = 0 <-> map value t0 = map value t1) /\
    (errors d = 0 <-> insertions e = 0 /\ deletions e = 0 /\ total_moves e = 0).
Proof.
  intros uc t0 t1 I N. destruct (C97_bound uc t0 t1 I) as (d & e & ls & Ed & Ee & R & B). exists d, e. split; [exact Ed|]. split; [exact Ee|].
  pose proof (errors_lev uc t0 t1 d I Ed) as L. rewrite (tildes_none _ N), Z.sub_0_r in L.
  assert (H : errors d = 0 <-> map value t0 = map value t1).
  { rewrite L. split; [apply lev_zero|]. intros <-. pose proof (lev_same _ N). pose proof (lev_nonneg (map value t0) (map value t0)). lia. }
  split; [exact H|]. split.
  - intros Z0. apply H in Z0. rewrite <- Z0 in Ee. destruct (no_operations _ N) as (e' & E' & Q). assert (e' = e) by congruence. now subst e'.
  - intros (I0 & D0 & M0). destruct R as (_ & Tm & _). assert (ls = []) as -> by (destruct ls; [reflexivity|rewrite zlen_cons in Tm; unfold zlen in Tm; lia]).
    pose proof (lev_nonneg (map value t0) (map value t1)). cbn in B. lia.
Qed.
Print Assumptions C97_perfect.

(** C97: whatever '~' the correct text has, accuracy finds no error if editop finds nothing to do;
    the converse fails: editop deletes the character that a '~' stands for. *)
Theorem C97_nothing_to_do : forall uc t0 t1 d e, inputs_ok uc t0 t1 -> accuracy_data uc t0 t1 = Ok d -> edit_operations (map value t0) (map value t1) = Ok e ->
  insertions e = 0 -> deletions e = 0 -> total_moves e = 0 -> errors d = 0.
Proof.
  intros uc t0 t1 d e I Ed Ee I0 D0 M0. destruct (C97_bound uc t0 t1 I) as (d' & e' & ls & Ed' & Ee' & R & B).
  assert (d' = d) by congruence. assert (e' = e) by congruence. subst d' e'.
  destruct R as (_ & Tm & _). assert (ls = []) as -> by (destruct ls; [reflexivity|rewrite zlen_cons in Tm; unfold zlen in Tm; lia]).
  destruct (C98_errors uc t0 t1 I) as (d' & Ed'' & (F & _) & _). assert (d' = d) by congruence. subst d'. apply forgiving_nonneg in F. cbn in B. lia.
Qed.
Print Assumptions C97_nothing_to_do.

Theorem C97_wildcard_refuted : forall uc, nul_hidden uc ->
  let t0 := map (mkchar false) [97; 126] in let t1 := map (mkchar false) [97; 98] in
  inputs_ok uc t0 t1 /\ exists d e, accuracy_data uc t0 t1 = Ok d /\ edit_operations (map value t0) (map value t1) = Ok e /\ errors d = 0 /\ deletions e = 1.
Proof.
  intros uc N t0 t1. assert (I : inputs_ok uc t0 t1).
  { split; [exact N|]. unfold text_ok, tabulable, t0, t1. cbn [map].
    split; [repeat (apply Forall_cons; [cbn [value]; unfold TextSpec.scalar; lia|]); apply Forall_nil|].
    split; [repeat (apply Forall_cons; [cbn [value]; unfold TextSpec.scalar; lia|]); apply Forall_nil|].
    split; [repeat (apply Forall_cons; [cbn [value]; lia|]); apply Forall_nil|]. unfold MAX_F. cbn. lia. }
  split; [exact I|]. destruct (C98_errors uc t0 t1 I) as (d & Ed & _). exists d. eexists. split; [exact Ed|]. split; [cbn [t0 t1 map value]; vm_compute; reflexivity|].
  split; [|reflexivity]. rewrite (errors_lev uc t0 t1 d I Ed). reflexivity.
Qed.
Print Assumptions C97_wildcard_refuted.

(** The case of [C97_bound_sharp] meets the hypotheses of [C97_perfect] (and is not perfect); so
    does any text with itself. *)
Example C97_perfect_ex : forall uc, nul_hidden uc ->
  inputs_ok uc (map (mkchar false) [97; 97; 98]) (map (mkchar false) [98; 97; 97]) /\ no_reject (map (mkchar false) [97; 97; 98]) /\
  exists e, edit_operations [97; 97; 98] [97; 97; 98] = Ok e /\ insertions e = 0 /\ deletions e = 0 /\ total_moves e = 0.
Proof.
  intros uc N. split; [exact (proj1 (C97_bound_sharp uc N))|]. split; [unfold no_reject; cbn; intuition lia|]. apply no_operations. cbn. intuition lia.
Qed.
