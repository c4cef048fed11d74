(** C26: the errors, the missed characters and the operations of a report. *)
From Coq Require Import String.
From Verif Require Import Base CLib Utf8Model TextModel TextSpec CharclassModel CompareModel
  SyncModel SyncSpec EditProof AccModel AccSpec SumProof AccProof AccCount AccTop TextProps AccProps.
Local Open Scope Z_scope.
Local Open Scope list_scope.

Lemma sum_plain t : Forall (fun c => 0 <= value c < 1114111) t -> sum_to 1114111 (fun v => num (plain_value v) t) = num plain t.
Proof.
  induction 1 as [|c t H F IH]; [apply sum_to_zero; [lia|reflexivity]|]. rewrite num_cons, <- IH.
  rewrite (sum_to_ext _ _ (fun v => num (plain_value v) t + (if v =? value c then (if plain c then 1 else 0) else 0))); [rewrite sum_to_add_at by exact H; lia|lia|].
  intros v _. rewrite num_cons. unfold plain_value at 1. rewrite (Z.eqb_sym v). destruct (plain c), (value c =? v); cbn [andb]; lia.
Qed.

(** C26: the characters that the table by class reports as missed are those that must be
    inserted or replaced; the errors are these and the characters that must be deleted.  So the
    accuracy by class is never below the accuracy, and is equal to it without deletions. *)
Theorem C26_missed : forall uc t0 t1 d, inputs_ok uc t0 t1 -> accuracy_data uc t0 t1 = Ok d ->
  cmissed (total_class d) = ins (total_ops d) + subst (total_ops d) /\
  errors d = cmissed (total_class d) + del (total_ops d) /\
  0 <= del (total_ops d).
Proof.
  intros uc t0 t1 d I Ed. destruct I as (N & T0 & T1 & Tab & L).
  destruct (accuracy_counted uc t0 t1 N T0 T1 Tab L) as (l & d' & E & Ed' & C & F & P0 & P1 & G & D).
  assert (d' = d) by congruence. subst d'. destruct C.
  assert (M : cmissed (total_class d) = zsum (map (group_chars t0) (unmatched_items l))).
  { rewrite (tc_total_small_missed d cn_tables). unfold group_chars. rewrite <- (num_flat_map plain (correct t0)).
    rewrite <- sum_plain.
    - apply sum_to_ext; [lia|]. intros v _. rewrite cn_missed. symmetry. apply num_flat_map.
    - unfold text_ok, tabulable in *. rewrite Forall_forall in T0, Tab |- *. intros c Hc.
      assert (Hc0 : In c t0).
      { rewrite <- P0. apply in_flat_map in Hc as (it & Hit & Hc). apply filter_In in Hit as [Hit _]. apply in_flat_map. now exists it. }
      pose proof (T0 c Hc0) as S. pose proof (Tab c Hc0). unfold scalar in S. lia. }
  rewrite M, cn_errors, cn_total. unfold ops_sum. cbn [ins subst del]. split; [|split].
  - rewrite <- zsum_map_add. apply zsum_map_ext. intros it _. unfold group_ops. cbn [ins subst]. unfold group_gen. unfold group_chars. pose proof (num_nonneg plain (correct t0 it)). lia.
  - rewrite <- zsum_map_add. apply zsum_map_ext. intros it _. unfold group_ops, group_errors. cbn [del]. lia.
  - apply zsum_nonneg, Forall_map, Forall_forall. intros it _. unfold group_ops. cbn [del]. lia.
Qed.
Print Assumptions C26_missed.


(** A case: "abc" read as "xbyz" has one substitution that misses 'a', one that misses 'c' and
    one character to delete. *)
Example C26_missed_ex :
  let t0 := map (mkchar false) (bytes "abc") in let t1 := map (mkchar false) (bytes "xbyz") in
  inputs_ok sample_uc t0 t1 /\
  match accuracy_data sample_uc t0 t1 with
  | Ok d => errors d = 3 /\ cmissed (total_class d) = 2 /\ del (total_ops d) = 1
  | _ => False
  end.
Proof.
  cbv zeta. split; [|vm_compute; repeat split].
  repeat apply conj; [reflexivity| | | |vm_compute; discriminate];
    unfold text_ok, tabulable, scalar; rewrite ?Forall_forall; intros c Hc; vm_compute in Hc; intuition (subst; cbn [value] in *; lia).
Qed.
