(** C46: the curve of costs, and the costs of several reports together. *)
From Coq Require Import String Permutation.
From Verif Require Import Base CLib AccSpec SumProof AccrptTop ReportModel ReportSpec ReportProof AccrptModel EdoModel EdoSpec EdoProof EdoProps.
Local Open Scope Z_scope.
Local Open Scope list_scope.

(** The moves longer than [t]. *)
Definition longer_than (t : Z) (lengths : list Z) : Z := zlen (filter (fun n => t <? n) lengths).

Lemma longer_cons t n ls : longer_than t (n :: ls) = (if t <? n then 1 else 0) + longer_than t ls.
Proof. unfold longer_than, zlen. cbn [filter]. destruct (t <? n); cbn [List.length]; lia. Qed.

Lemma cost_step t ins ls : edit_cost (t + 1) ins ls - edit_cost t ins ls = longer_than t ls.
Proof.
  unfold edit_cost. induction ls as [|n ls IH]; [cbn; unfold longer_than; cbn; lia|]. cbn [map]. rewrite !zsum_cons, longer_cons.
  generalize dependent (zsum (map (Z.min (t + 1)) ls)). generalize (zsum (map (Z.min t) ls)). intros x y IH. destruct (Z.ltb_spec t n); lia.
Qed.

(** C46: the curve that editopcost writes begins with the insertions, rises from each threshold to
    the next by the number of moves that are longer than the threshold, therefore never falls and
    rises less and less; from the longest move on it is flat. *)
Theorem C46_curve : forall b d f ls,
  line_buffer b -> ereport_of d f -> records ls d ->
  exists cost : Z -> Z,
    editopcost b [f] = Ok (flat_map (fun t => cost_shown t (cost t)) (zrange 0 101)) /\
    cost 0 = insertions d /\
    (forall t, cost (t + 1) - cost t = zlen (filter (fun n => t <? n) ls)) /\
    (forall t u, t <= u -> cost t <= cost u) /\
    (forall t, cost (t + 2) - cost (t + 1) <= cost (t + 1) - cost t) /\
    (forall t, (forall n, In n ls -> n <= t) -> cost (t + 1) = cost t /\ cost t = insertions d + zsum ls).
Proof.
  intros b d f ls B E R. exists (fun t => edit_cost t (insertions d) ls). pose proof R as (Hp & _). split; [now apply C46_cost|]. split.
  { unfold edit_cost. assert (zsum (map (Z.min 0) ls) = 0); [|lia]. apply zsum_map_zero. intros n Hn. rewrite Forall_forall in Hp. specialize (Hp n Hn). lia. }
  split; [intros t; exact (cost_step t _ ls)|]. split.
  { intros t u H. unfold edit_cost. apply Z.add_le_mono_l. apply zsum_map_le. intros n Hn. lia. }
  split.
  { intros t. replace (t + 2) with (t + 1 + 1) by lia. rewrite !cost_step. clear. induction ls as [|n ls IH]; [cbn; lia|]. rewrite !longer_cons.
    destruct (Z.ltb_spec t n), (Z.ltb_spec (t + 1) n); lia. }
  intros t H. unfold edit_cost. clear - H. assert (G : forall u, t <= u -> zsum (map (Z.min u) ls) = zsum ls).
  { intros u Hu. induction ls as [|n ls IH]; [reflexivity|]. cbn [map]. rewrite !zsum_cons, IH by (intros; apply H; now right).
    specialize (H n (or_introl eq_refl)). lia. }
  rewrite !G by lia. split; reflexivity.
Qed.
Print Assumptions C46_curve.

Lemma records_concat : forall ds lss, Forall2 (fun d ls => records ls d) ds lss -> forall d, etotal_of ds d -> zlen (moves d) = 101 ->
  records (concat lss) d.
Proof.
  intros ds lss H d T L. split; [|split; [|split; [exact L|]]].
  - clear T. induction H as [|e ls ds lss He H IH]; [constructor|]. cbn [concat]. apply Forall_app. split; [exact (proj1 He)|exact IH].
  - specialize (T EMoves). cbn [efig] in T. rewrite T. clear T. induction H as [|e ls ds lss He H IH]; [reflexivity|]. cbn [map concat]. rewrite zsum_cons, IH.
    destruct He as (_ & He & _). cbn [efig]. rewrite He. unfold zlen. rewrite app_length. lia.
  - intros i Hi. specialize (T (EMove i)). cbn [efig] in T. rewrite T. clear T. induction H as [|e ls ds lss He H IH]; [reflexivity|].
    cbn [map concat]. rewrite zsum_cons, IH, filter_app. destruct He as (_ & _ & _ & He). cbn [efig]. rewrite (He i Hi). unfold zlen. rewrite app_length. lia.
Qed.

(** C46: at every threshold the cost of the report that editopsum makes of some reports is the sum
    of their costs. *)
Theorem C46_sum : forall b ds fs lss,
  line_buffer b -> Forall2 ereport_of ds fs -> 2 <= zlen fs -> Forall2 (fun d ls => records ls d) ds lss ->
  (forall x, zsum (map (efig x) ds) < 9223372036854775808) ->
  exists costs f,
    Forall2 (fun cost g => editopcost b [g] = Ok (flat_map (fun t => cost_shown t (cost t)) (zrange 0 101))) costs fs /\
    editopsum b fs = Ok f /\
    editopcost b [f] = Ok (flat_map (fun t => cost_shown t (zsum (map (fun cost : Z -> Z => cost t) costs))) (zrange 0 101)).
Proof.
  intros b ds fs lss B H L R Bd. destruct (C45_total b ds fs B H L) as (d & f & Rd & T & E & W & _).
  exists (map (fun dl => fun t => edit_cost t (insertions (fst dl)) (snd dl)) (combine ds lss)), f. split; [|split; [exact E|]].
  - clear - B H R. revert lss R. induction H as [|e g ds fs He H IH]; intros lss R.
    + constructor.
    + inversion R as [|? ls ? lss' R1 R2]; subst. cbn [combine map]. constructor; [|now apply IH]. cbn [fst snd]. now apply C46_cost.
  - rewrite (C46_cost b d f (concat lss) B).
    + f_equal. rewrite !flat_map_concat_map. f_equal. apply map_ext. intros t. f_equal. rewrite map_map. cbn [fst snd]. pose proof (T EInsertions) as Ti. cbn [efig] in Ti.
      unfold edit_cost. rewrite Ti. clear - R. induction R as [|e ls ds lss He R IH]; [reflexivity|]. cbn [map concat combine]. rewrite map_app, zsum_app, !zsum_cons, <- IH. cbn [fst snd efig]. ring.
    + split; [exact Rd|]. split; [|exact W]. intros x. rewrite T. apply Bd.
    + apply (records_concat ds); [exact R|exact T|exact (er_size d Rd)].
Qed.
Print Assumptions C46_sum.

(** For example: two insertions and moves of 3 and 5 characters. *)
Example C46_curve_ex :
  map (fun t => edit_cost t 2 [3; 5]) [0; 1; 3; 4; 5; 6] = [2; 4; 8; 9; 10; 10] /\
  exists d, insertions d = 2 /\ ereportable d /\ records [3; 5] d.
Proof.
  split; [reflexivity|]. destruct (C46_recorded 2 0 [3; 5]) as (d & I & _ & R & Rc); [lia|lia|repeat constructor; lia|]. exists d. auto.
Qed.

(** The hypotheses of [C46_sum] hold of two copies of the sample report. *)
Example C46_sum_ex :
  exists f, line_buffer (repeat 0 100) /\ Forall2 ereport_of [edo_sample; edo_sample] [f; f] /\ 2 <= zlen [f; f] /\
    Forall2 (fun d ls => records ls d) [edo_sample; edo_sample] [[3; 250; 3]; [3; 250; 3]] /\
    (forall x, zsum (map (efig x) [edo_sample; edo_sample]) < 9223372036854775808).
Proof.
  destruct C45_nonvacuous as (B & R & f & E & _). exists f. split; [exact B|]. split; [now repeat apply Forall2_cons|]. split; [cbn; lia|]. split; [now repeat apply Forall2_cons|].
  assert (G : forall x, efig x edo_sample <= 1000).
  { intros [| | |i]; try (cbn; lia). cbn [efig]. destruct R as (_ & _ & L & R). destruct (Z.le_gt_cases 0 i); [destruct (Z.le_gt_cases i 100)|].
    - rewrite R by lia. cbn [filter]. repeat (match goal with |- context [if ?c then _ else _] => destruct c end); unfold zlen; cbn [List.length]; lia.
    - unfold entry. destruct (znth (moves edo_sample) i) eqn:Z; [|lia]. unfold znth in Z. destruct (i <? 0); [discriminate|].
      assert (nth_error (moves edo_sample) (Z.to_nat i) <> None) as N by congruence. apply nth_error_Some in N. unfold zlen in L. lia.
    - unfold entry, znth. destruct (Z.ltb_spec i 0); lia. }
  intros x. cbn [map]. rewrite !zsum_cons. specialize (G x). change (zsum []) with 0. lia.
Qed.
