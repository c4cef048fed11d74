(** The figures of wordacc are determined by the words, the marks and the stopwords. *)
From Coq Require Import String Permutation.
From Verif Require Import Base CLib CLibProof CompareModel WacModel WacSpec WacProof SumProof ReportProof WacrptModel WacrptSpec WacrptProof WacrptTop.
Local Open Scope Z_scope.
Local Open Scope list_scope.

Lemma count_if_ext {A} (P Q : A -> bool) l : (forall x, P x = Q x) -> count_if P l = count_if Q l.
Proof. intros H. unfold count_if. now rewrite (filter_ext _ _ H). Qed.
Lemma tally_ext P Q words marks : (forall w, P w = Q w) -> tally P words marks = tally Q words marks.
Proof. intros H. unfold tally. f_equal; apply count_if_ext; intros wm; now rewrite H. Qed.
Lemma tally_distinct_ext P Q words marks : (forall w, P w = Q w) -> tally_distinct P words marks = tally_distinct Q words marks.
Proof. intros H. unfold tally_distinct. now rewrite (filter_ext _ _ H). Qed.

Lemma word_fig_none m terms k : ~ In k (map tkey terms) -> word_fig m terms k = 0.
Proof.
  unfold word_fig, AccSpec.zsum. induction terms as [|t terms IH]; intros H; [reflexivity|]. cbn [map AccSpec.zsum fold_right].
  destruct (list_eq_dec Z.eq_dec (tkey t) k) as [E|E]; [exfalso; apply H; now left|]. rewrite IH; [reflexivity|]. intros I. apply H. now right.
Qed.
Lemma word_fig_some m terms k x : NoDup (map tkey terms) -> In k (map tkey terms) -> (forall t, In t terms -> tkey t = k -> twac t = x) ->
  word_fig m terms k = wcell m x.
Proof.
  intros N I H. induction terms as [|t terms IH]; [destruct I|]. cbn [map] in N, I. inversion N as [|? ? N1 N2]; subst.
  unfold word_fig, AccSpec.zsum in *. cbn [map AccSpec.zsum fold_right]. destruct (list_eq_dec Z.eq_dec (tkey t) k) as [E|E].
  - rewrite (H t) by (auto; now left). fold (word_fig m terms k). pose proof (word_fig_none m terms k) as W. unfold word_fig, AccSpec.zsum in W. rewrite W by congruence. lia.
  - destruct I as [I|I]; [congruence|]. rewrite IH; auto. intros t' It. apply H. now right.
Qed.

Lemma row_same a b : zlen a = zlen b -> (forall i, 0 <= i < zlen a -> znth a i = znth b i) -> forall i, row a i = row b i.
Proof.
  intros L H i. unfold row. destruct (Z_lt_dec i 0) as [N|N]; [unfold znth; destruct (i <? 0) eqn:Q; [reflexivity|lia]|].
  destruct (Z_lt_dec i (zlen a)) as [B|B]; [now rewrite H by lia|].
  destruct (znth a i) eqn:Ea; [apply znth_Some_lt in Ea; lia|]. destruct (znth b i) eqn:Eb; [apply znth_Some_lt in Eb; lia|reflexivity].
Qed.

Lemma class_same P Q words marks la ta lb tb : (forall w, P w = Q w) ->
  class_figures P words marks la ta -> class_figures Q words marks lb tb ->
  (forall i, row la i = row lb i) /\ forall m k, word_fig m ta k = word_fig m tb k.
Proof.
  intros E A B. split.
  - apply row_same; [now rewrite (cf_size _ _ _ _ _ A), (cf_size _ _ _ _ _ B)|]. intros i Hi. rewrite (cf_size _ _ _ _ _ A) in Hi.
    destruct (Z.eq_dec i 0) as [->|N].
    + rewrite (cf_total _ _ _ _ _ A), (cf_total _ _ _ _ _ B). f_equal. now apply tally_ext.
    + rewrite (cf_length _ _ _ _ _ A), (cf_length _ _ _ _ _ B) by lia. f_equal. apply tally_ext. intros w. now rewrite E.
  - intros m k. destruct (in_dec (list_eq_dec Z.eq_dec) k (map tkey ta)) as [I|I].
    + assert (I' : In k (map tkey tb)).
      { apply (cf_words _ _ _ _ _ B). rewrite <- E. now apply (cf_words _ _ _ _ _ A). }
      rewrite (word_fig_some m ta k (of_word k words marks) (cf_keys _ _ _ _ _ A) I), (word_fig_some m tb k (of_word k words marks) (cf_keys _ _ _ _ _ B) I'); [reflexivity| |].
      * intros t It <-. now apply (cf_terms _ _ _ _ _ B).
      * intros t It <-. now apply (cf_terms _ _ _ _ _ A).
    + rewrite !word_fig_none; auto. intros I'. apply I. apply (cf_words _ _ _ _ _ A). rewrite E. now apply (cf_words _ _ _ _ _ B).
Qed.

Lemma figures_same stop stop' words marks d d' : (forall w, stop w = stop' w) ->
  figures stop words marks d -> figures stop' words marks d' -> phrases marks (phrase d) -> phrases marks (phrase d') -> wsame d d'.
Proof.
  intros E F F' P P'. assert (En : forall w, negb (stop w) = negb (stop' w)) by (intros w; now rewrite E).
  destruct (class_same _ _ _ _ _ _ _ _ E (fg_stop _ _ _ _ F) (fg_stop _ _ _ _ F')) as [S1 S2].
  destruct (class_same (fun w => negb (stop w)) (fun w => negb (stop' w)) _ _ _ _ _ _ En (fg_non _ _ _ _ F) (fg_non _ _ _ _ F')) as [N1 N2].
  assert (D : forall i, row (distinct d) i = row (distinct d') i).
  { apply row_same; [now rewrite (fg_distinct_size _ _ _ _ F), (fg_distinct_size _ _ _ _ F')|]. intros i Hi. rewrite (fg_distinct_size _ _ _ _ F) in Hi.
    destruct (Z.eq_dec i 0) as [->|Ni].
    - rewrite (fg_distinct _ _ _ _ F), (fg_distinct _ _ _ _ F'). f_equal. apply tally_distinct_ext. intros w. now rewrite E.
    - destruct (Z.eq_dec i (MAX_OCCURRENCES + 1)) as [->|Nm].
      + rewrite (fg_more _ _ _ _ F), (fg_more _ _ _ _ F'). f_equal. apply tally_distinct_ext. intros w. now rewrite E.
      + rewrite (fg_occurs _ _ _ _ F), (fg_occurs _ _ _ _ F') by lia. f_equal. apply tally_distinct_ext. intros w. now rewrite E. }
  assert (Ph : forall i, row (phrase d) i = row (phrase d') i).
  { apply row_same; [now rewrite (ph_size _ _ P), (ph_size _ _ P')|]. intros i Hi. rewrite (ph_size _ _ P) in Hi.
    destruct (Z.eq_dec i 0) as [->|Ni]; [now rewrite (ph_unused _ _ P), (ph_unused _ _ P')|].
    now rewrite (ph_len _ _ P), (ph_len _ _ P') by lia. }
  intros [m|m i|m i|m i|m i|m k|m k]; cbn [wfig]; rewrite ?S1, ?N1, ?D, ?Ph; auto.
  unfold wcell. destruct m; [rewrite (fg_missed _ _ _ _ F), (fg_missed _ _ _ _ F')|rewrite (fg_words _ _ _ _ F), (fg_words _ _ _ _ F')]; reflexivity.
Qed.
