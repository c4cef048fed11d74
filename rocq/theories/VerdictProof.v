(** The conjunction of conditions with which every report reader starts. *)
From Coq Require Import String.
From Verif Require Import Base CLib TextIO ReportModel ReportSpec ReportProof ReportSafe.
Local Open Scope Z_scope.
Local Open Scope list_scope.

Section Verdict.
Variable R : Type.
(** What may happen after the heading. *)
Variable Body : outcome R -> Prop.

Definition judged (ws : list want) (f : list Z) (r : outcome R) : Prop :=
  (~ shaped ws f /\ r = invalid) \/ (shaped ws f /\ Body r).

Lemma judged_step {A} w ws f (r : outcome A) (k : A -> outcome R) (K : list Z -> list Z -> A -> Prop) :
  step_ok w f r K ->
  (forall l rest x, (List.length rest <= List.length f)%nat -> K l rest x -> judged ws rest (k x)) ->
  judged (w :: ws) f (obind r k).
Proof.
  intros [[-> N]|(l & rest & x & T & M & -> & H)] V.
  - left. split; [apply N|reflexivity].
  - cbn [obind]. pose proof (takes_shorter _ _ _ T) as S.
    destruct (V l rest x ltac:(lia) H) as [[N E]|[Sh E]].
    + left. split; [|exact E]. rewrite (shaped_cons _ _ _ _ _ T). tauto.
    + right. split; [|exact E]. rewrite (shaped_cons _ _ _ _ _ T). tauto.
Qed.

Lemma judged_scan {A} scan k ws b f (g : A * rstate -> outcome R) : line_buffer b ->
  (forall s, scan s <> None <-> numbers k s) ->
  (forall x b' rest, (List.length rest <= List.length f)%nat -> line_buffer b' -> judged ws rest (g (x, (b', rest)))) ->
  judged (Numbers k :: ws) f (obind (need_scan scan (b, f)) g).
Proof.
  intros Bb S H. eapply judged_step; [apply (need_scan_any scan k b f Bb S)|].
  intros l rest x L (y & b' & -> & Hb & _). apply H; [exact L|apply Hb].
Qed.

Lemma judged_line ws b f (g : rstate -> outcome R) : line_buffer b ->
  (forall b' rest, (List.length rest <= List.length f)%nat -> line_buffer b' -> judged ws rest (g (b', rest))) ->
  judged (Any :: ws) f (obind (need_line (b, f)) g).
Proof.
  intros Bb H. eapply judged_step; [apply (need_line_any b f Bb)|].
  intros l rest x L (b' & -> & Hb). apply H; [exact L|apply Hb].
Qed.

Lemma judged_title p q ws b f (g : rstate -> outcome R) : line_buffer b -> List.length q = 2%nat ->
  (forall b' rest, (List.length rest <= List.length f)%nat -> line_buffer b' -> judged ws rest (g (b', rest))) ->
  judged (Starts p :: ws) f (obind (need_title (p ++ q) (b, f)) g).
Proof.
  intros Bb Q H. eapply judged_step; [apply (need_title_any p q b f Bb Q)|].
  intros l rest x L (b' & -> & Hb). apply H; [exact L|apply Hb].
Qed.

Lemma judged_divider d ws b f (g : rstate -> outcome R) : line_buffer b ->
  (forall b' rest, (List.length rest <= List.length f)%nat -> line_buffer b' -> judged ws rest (g (b', rest))) ->
  judged (Is d :: ws) f (obind (need_divider d (b, f)) g).
Proof.
  intros Bb H. eapply judged_step; [apply (need_divider_any d b f Bb)|].
  intros l rest x L (b' & -> & Hb). apply H; [exact L|apply Hb].
Qed.

Lemma judged_body f (r : outcome R) : Body r -> judged [] f r.
Proof. intros H. right. split; [apply shaped_nil|exact H]. Qed.
End Verdict.
