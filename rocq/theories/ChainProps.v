(** C99: the tables of sequences of n and of n + 1 characters fit together. *)
From Coq Require Import String Permutation Sorted.
From Verif Require Import Base CLib AccSpec Utf8Model TextModel TextSpec TextProps CompareModel AccModel AccProof WacModel WacSpec WacProof
  FreqModel FreqSpec FreqProps NgramModel NgramSpec NgramProps AccrptSpec AgreeSpec CompareProof WordSpec StopModel WordModel WordProps ChainSpec.
Local Open Scope Z_scope.
Local Open Scope list_scope.

Lemma chain_eqb a b : word_eqb a b = true <-> a = b.
Proof. unfold word_eqb. destruct (list_eq_dec Z.eq_dec a b); split; congruence. Qed.

(** The rows chosen by their values list the sequences chosen in the same way. *)
Lemma lists_filter (q : list Z -> bool) ws rows : lists_sequences ws rows ->
  lists_sequences (filter (fun w => q (map value w)) ws) (filter (fun r : seqrow => q (fst r)) rows).
Proof.
  intros [N V F]. split.
  - clear - N. induction rows as [|r rows IH]; [constructor|]. cbn [map filter] in *. inversion N as [|? ? N1 N2]; subst.
    destruct (q (fst r)); [|auto]. cbn [map]. constructor; [|auto]. intros H. apply N1. apply in_map_iff in H as (r' & E & H).
    apply filter_In in H as [H _]. rewrite <- E. now apply in_map.
  - intros vs. split.
    + intros H. apply in_map_iff in H as (r & E & H). apply filter_In in H as [H Q]. rewrite E in Q.
      assert (I : In vs (map fst rows)) by (rewrite <- E; now apply in_map). apply V in I as (w & Hw & Ew). exists w. split; [|exact Ew].
      apply filter_In. split; [exact Hw|]. now rewrite Ew.
    + intros (w & Hw & Ew). apply filter_In in Hw as [Hw Q]. rewrite Ew in Q. assert (I : In vs (map fst rows)) by (apply V; eauto).
      apply in_map_iff in I as (r & E & H). apply in_map_iff. exists r. split; [exact E|]. apply filter_In. split; [exact H|]. now rewrite E.
  - intros vs c s H. apply filter_In in H as [H Q]. cbn [fst] in Q. destruct (F _ _ _ H) as [-> ->]. unfold count_of, suspects_of.
    rewrite !count_if_filter. split; apply count_if_ext; intros w _; unfold occurs_as;
      (destruct (word_eqb vs (map value w)) eqn:E; [apply chain_eqb in E; rewrite <- E, Q; reflexivity|now rewrite ?andb_false_r]).
Qed.

Lemma rows_sum q ws rows : lists_sequences ws rows ->
  sum_counts (filter (fun r : seqrow => q (fst r)) rows) = count_if (fun w => q (map value w)) ws /\
  sum_marked (filter (fun r : seqrow => q (fst r)) rows) = count_if (fun w => q (map value w) && existsb suspect w) ws.
Proof.
  intros L. destruct (C50_totals _ _ (lists_filter q ws rows L)) as [C S]. unfold sum_counts, sum_marked. rewrite C, S.
  split; [reflexivity|]. now rewrite count_if_filter.
Qed.

Lemma row_figures ws rows vs : lists_sequences ws rows -> row_of rows vs = (count_of vs ws, suspects_of vs ws).
Proof.
  intros L. unfold row_of. destruct (find _ rows) as [[vs' [c s]]|] eqn:E.
  - apply find_some in E as [I E]. cbn [fst] in E. apply chain_eqb in E. subst vs'. cbn [snd]. destruct (ls_figures _ _ L _ _ _ I) as [-> ->]. reflexivity.
  - assert (Z0 : forall w, In w ws -> occurs_as vs w = false).
    { intros w Hw. unfold occurs_as. destruct (word_eqb vs (map value w)) eqn:Q; [exfalso|reflexivity]. apply chain_eqb in Q.
      assert (I : In vs (map fst rows)) by (apply (ls_values _ _ L); eauto). apply in_map_iff in I as (r & Er & I).
      pose proof (find_none _ _ E r I) as H. cbv beta in H. rewrite Er in H. assert (word_eqb vs vs = true) by now apply chain_eqb. congruence. }
    assert (Zf : forall p, (forall w, In w ws -> p w = false) -> count_if p ws = 0).
    { intros p Hp. unfold count_if. clear - Hp. induction ws as [|w ws IH]; [reflexivity|]. cbn [filter]. rewrite (Hp w (or_introl eq_refl)). apply IH. intros; apply Hp; now right. }
    unfold count_of, suspects_of. rewrite !Zf; [reflexivity| |exact Z0]. intros w Hw. now rewrite (Z0 w Hw).
Qed.

(** ** The sequences of one text *)
Lemma sequences_cons n c t : (n <= List.length (c :: t))%nat -> sequences n (c :: t) = firstn n (c :: t) :: sequences n t.
Proof.
  intros H. unfold sequences. cbn [List.length] in *. replace (S (List.length t) + 1 - n)%nat with (S (List.length t + 1 - n)) by lia.
  cbn [seq map skipn]. f_equal. rewrite <- seq_shift, map_map. reflexivity.
Qed.

Lemma sequences_short n t : (List.length t < n)%nat -> sequences n t = [].
Proof. intros H. unfold sequences. replace (List.length t + 1 - n)%nat with 0%nat by lia. reflexivity. Qed.

Lemma sequences_after n t : (1 <= n)%nat -> (n <= List.length t)%nat ->
  sequences n t = map (@removelast char) (sequences (S n) t) ++ [skipn (List.length t - n) t].
Proof.
  intros Hn. induction t as [|c t IH]; intros H; [cbn [List.length] in H; lia|].
  destruct (Nat.eq_dec n (List.length (c :: t))) as [E|E].
  - rewrite (sequences_short (S n)) by lia. rewrite sequences_cons by lia. rewrite sequences_short by (cbn [List.length] in E; lia).
    cbn [map app]. rewrite E, Nat.sub_diag, firstn_all. reflexivity.
  - cbn [List.length] in *. rewrite !sequences_cons by (cbn [List.length]; lia). rewrite IH by lia.
    replace (S (List.length t) - n)%nat with (S (List.length t - n)) by lia. cbn [map app skipn]. f_equal.
    rewrite removelast_firstn by (cbn [List.length]; lia). reflexivity.
Qed.

Lemma sequences_before n t : (1 <= n)%nat -> (n <= List.length t)%nat ->
  sequences n t = firstn n t :: map (@tl char) (sequences (S n) t).
Proof.
  intros Hn H. destruct t as [|c t]; [cbn [List.length] in H; lia|]. rewrite sequences_cons by exact H. f_equal.
  clear H. revert c. induction t as [|d t IH]; intros c.
  { rewrite !sequences_short by (cbn [List.length]; lia). reflexivity. }
  destruct (Nat.le_gt_cases n (List.length (d :: t))) as [L|L].
  - rewrite (sequences_cons (S n) c) by (cbn [List.length] in *; lia). cbn [map firstn tl]. rewrite (sequences_cons n d) by exact L. f_equal. apply IH.
  - rewrite !sequences_short by (cbn [List.length] in *; lia). reflexivity.
Qed.

Lemma map_removelast {A B} (f : A -> B) l : map f (removelast l) = removelast (map f l).
Proof. induction l as [|x [|y l] IH]; [reflexivity|reflexivity|]. cbn [map removelast] in *. now rewrite IH. Qed.

Lemma map_tl {A B} (f : A -> B) l : map f (tl l) = tl (map f l).
Proof. now destruct l. Qed.

(** Counts of one text. *)
Lemma one_after vs t : (1 <= List.length vs)%nat ->
  count_of vs (sequences (List.length vs) t) =
  count_if (fun w => word_eqb vs (removelast (map value w))) (sequences (S (List.length vs)) t) +
  (if word_eqb vs (skipn (List.length t - List.length vs) (map value t)) then 1 else 0).
Proof.
  intros Hn. destruct (Nat.le_gt_cases (List.length vs) (List.length t)) as [L|L].
  - rewrite (sequences_after _ t Hn L). unfold count_of. rewrite count_if_app, count_if_map, count_if_cons. change (count_if (occurs_as vs) []) with 0.
    unfold occurs_as at 2. rewrite skipn_map. rewrite Z.add_0_r. f_equal. apply count_if_ext. intros w _. unfold occurs_as. now rewrite map_removelast.
  - rewrite !sequences_short by lia. destruct (word_eqb _ _) eqn:E; [exfalso|reflexivity]. apply chain_eqb in E. apply (f_equal (@List.length Z)) in E.
    rewrite skipn_length, map_length in E. lia.
Qed.

Lemma one_before vs t : (1 <= List.length vs)%nat ->
  count_of vs (sequences (List.length vs) t) =
  count_if (fun w => word_eqb vs (tl (map value w))) (sequences (S (List.length vs)) t) +
  (if word_eqb vs (firstn (List.length vs) (map value t)) then 1 else 0).
Proof.
  intros Hn. destruct (Nat.le_gt_cases (List.length vs) (List.length t)) as [L|L].
  - rewrite (sequences_before _ t Hn L). unfold count_of. rewrite count_if_cons, count_if_map.
    unfold occurs_as at 1. rewrite firstn_map. rewrite Z.add_comm. f_equal. apply count_if_ext. intros w _. unfold occurs_as. now rewrite map_tl.
  - rewrite !sequences_short by lia. destruct (word_eqb _ _) eqn:E; [exfalso|reflexivity]. apply chain_eqb in E. apply (f_equal (@List.length Z)) in E.
    rewrite firstn_length, map_length in E. lia.
Qed.

(** A marked sequence stays marked when it grows. *)
Lemma removelast_marked (w : list char) : existsb suspect (removelast w) = true -> existsb suspect w = true.
Proof.
  induction w as [|c [|d w] IH]; intros H; [exact H|discriminate H|]. cbn [removelast existsb] in *. destruct (suspect c); [reflexivity|]. cbn [orb] in *. now apply IH.
Qed.

Lemma count_if_le {A} (P Q : A -> bool) l : (forall x, In x l -> P x = true -> Q x = true) -> count_if P l <= count_if Q l.
Proof.
  induction l as [|x l IH]; intros H; [reflexivity|]. rewrite !count_if_cons. specialize (IH (fun y Hy => H y (or_intror Hy))).
  specialize (H x (or_introl eq_refl)). destruct (P x); [rewrite H by reflexivity; lia|destruct (Q x); lia].
Qed.

Lemma one_marked vs t : (1 <= List.length vs)%nat ->
  suspects_of vs (sequences (List.length vs) t) <=
  count_if (fun w => word_eqb vs (removelast (map value w)) && existsb suspect w) (sequences (S (List.length vs)) t) +
  (if word_eqb vs (skipn (List.length t - List.length vs) (map value t)) then 1 else 0).
Proof.
  intros Hn. destruct (Nat.le_gt_cases (List.length vs) (List.length t)) as [L|L].
  - rewrite (sequences_after _ t Hn L). unfold suspects_of. rewrite count_if_app, count_if_map, count_if_cons.
    match goal with |- context [count_if ?f (@nil ?T)] => change (count_if f (@nil T)) with 0 end.
    rewrite Z.add_0_r. apply Z.add_le_mono.
    + apply count_if_le. intros w _ H. apply andb_true_iff in H as [O M]. unfold occurs_as in O. rewrite map_removelast in O. rewrite O. now apply removelast_marked.
    + unfold occurs_as. rewrite skipn_map. destruct (word_eqb _ _), (existsb _ _); cbn [andb]; lia.
  - rewrite !sequences_short by lia. destruct (word_eqb _ _); cbn; lia.
Qed.

Lemma one_total n t : (1 <= n)%nat -> zlen (sequences n t) = zlen (sequences (S n) t) + (if Z.of_nat n <=? zlen t then 1 else 0).
Proof.
  intros Hn. unfold sequences, zlen. rewrite !map_length, !seq_length. destruct (Z.leb_spec (Z.of_nat n) (Z.of_nat (List.length t))); lia.
Qed.

Lemma all_after vs ts : (1 <= List.length vs)%nat ->
  count_of vs (flat_map (sequences (List.length vs)) ts) =
  count_if (fun w => word_eqb vs (removelast (map value w))) (flat_map (sequences (S (List.length vs))) ts) + ending vs ts.
Proof.
  intros Hn. unfold ending. induction ts as [|t ts IH]; [reflexivity|]. cbn [flat_map]. unfold count_of in *. rewrite !count_if_app, count_if_cons, IH.
  pose proof (one_after vs t Hn) as H. unfold count_of in H. rewrite H. lia.
Qed.

Lemma all_before vs ts : (1 <= List.length vs)%nat ->
  count_of vs (flat_map (sequences (List.length vs)) ts) =
  count_if (fun w => word_eqb vs (tl (map value w))) (flat_map (sequences (S (List.length vs))) ts) + beginning vs ts.
Proof.
  intros Hn. unfold beginning. induction ts as [|t ts IH]; [reflexivity|]. cbn [flat_map]. unfold count_of in *. rewrite !count_if_app, count_if_cons, IH.
  pose proof (one_before vs t Hn) as H. unfold count_of in H. rewrite H. lia.
Qed.

Lemma all_marked vs ts : (1 <= List.length vs)%nat ->
  suspects_of vs (flat_map (sequences (List.length vs)) ts) <=
  count_if (fun w => word_eqb vs (removelast (map value w)) && existsb suspect w) (flat_map (sequences (S (List.length vs))) ts) + ending vs ts.
Proof.
  intros Hn. unfold ending. induction ts as [|t ts IH]; [unfold suspects_of; cbn; lia|]. cbn [flat_map]. unfold suspects_of in *. rewrite !count_if_app, count_if_cons.
  pose proof (one_marked vs t Hn) as H. unfold suspects_of in H. lia.
Qed.

Lemma all_total n ts : (1 <= n)%nat -> zlen (flat_map (sequences n) ts) = zlen (flat_map (sequences (S n)) ts) + long_enough (Z.of_nat n) ts.
Proof.
  intros Hn. unfold long_enough. induction ts as [|t ts IH]; [reflexivity|]. cbn [flat_map]. rewrite !zlen_app, count_if_cons, (one_total n t Hn), IH. lia.
Qed.

(** A report begins with a listing. *)
Lemma report_listing uc ws out : ngram_report uc ws out ->
  exists rows rest, lists_sequences ws rows /\ out = ngram_listing uc rows (zlen ws) (count_if (existsb suspect) ws) ++ rest.
Proof.
  intros (rows & rows2 & L & _ & _ & _ & ->). exists rows, ([10; 10] ++ seq_listing uc ws rows2). split; [exact L|]. reflexivity.
Qed.

(** C99: ngram -n [n] and ngram -n [n + 1] on the same files.  Every occurrence of a sequence is
    followed by exactly one character, but for those at the ends of the texts, and preceded by
    exactly one, but for those at the beginnings. *)
Theorem C99_chain : forall uc order j j4 s s' n files texts,
  marks_wide uc -> nul_hidden uc -> (forall l, Permutation l (order l)) ->
  get_n s = Ok n -> get_n s' = Ok (n + 1) -> files <> [] ->
  Forall2 (fun f t => (exists b, read_text uc j j4 (mkopt true true 0 true false) [] f = Ok (t, b)) /\ text_ok t) files texts ->
  zlen (concat texts) < 2147483648 ->
  exists rows total marked rest rows' total' marked' rest',
    ngram uc order j j4 s files = Ok (ngram_listing uc rows total marked ++ rest) /\
    ngram uc order j j4 s' files = Ok (ngram_listing uc rows' total' marked' ++ rest') /\
    (forall vs, zlen vs = n ->
       fst (row_of rows vs) = sum_counts (longer_after rows' vs) + ending vs texts /\
       fst (row_of rows vs) = sum_counts (longer_before rows' vs) + beginning vs texts /\
       snd (row_of rows vs) <= sum_marked (longer_after rows' vs) + ending vs texts) /\
    total = total' + long_enough n texts.
Proof.
  intros uc order j j4 s s' n files texts W N P Es Es' Hne Hf Hlen.
  assert (B : 1 <= n).
  { destruct s as [s|]; [|injection Es as <-; lia]. unfold get_n in Es.
    destruct (rd _ (s ++ [0]) 0) as [c|?|?|]; cbn [obind] in Es; try discriminate Es.
    destruct (Z.leb_spec 49 c); cbn [andb] in Es; [|discriminate Es]. destruct (c <=? 48 + MAX_N); [|discriminate Es].
    destruct (rd _ (s ++ [0]) 1) as [d|?|?|]; cbn [obind] in Es; try discriminate Es.
    destruct (d =? 0); [injection Es as <-; lia|discriminate Es]. }
  assert (Le : forall m, (1 <= m)%nat -> zlen (flat_map (sequences m) texts) <= zlen (concat texts)).
  { intros m Hm. clear - Hm. induction texts as [|t ts IH]; [reflexivity|]. cbn [flat_map concat]. rewrite !zlen_app.
    assert (zlen (sequences m t) <= zlen t) by (unfold sequences, zlen; rewrite map_length, seq_length; lia). lia. }
  destruct (C50_report uc order j j4 s n files texts W N P Es Hne Hf) as (o & E & R); [specialize (Le (Z.to_nat n)); lia|].
  destruct (C50_report uc order j j4 s' (n + 1) files texts W N P Es' Hne Hf) as (o' & E' & R'); [specialize (Le (Z.to_nat (n + 1))); lia|].
  replace (Z.to_nat (n + 1)) with (S (Z.to_nat n)) in R' by lia.
  destruct (report_listing _ _ _ R) as (rows & rest & L & ->). destruct (report_listing _ _ _ R') as (rows' & rest' & L' & ->).
  eexists rows, _, _, rest, rows', _, _, rest'. split; [exact E|]. split; [exact E'|]. split.
  - intros vs Hv. assert (Ev : Z.to_nat n = List.length vs) by (unfold zlen in Hv; lia). rewrite Ev in *.
    assert (1 <= List.length vs)%nat as Hn by lia. rewrite (row_figures _ _ vs L). cbn [fst snd].
    destruct (rows_sum (fun k => word_eqb vs (removelast k)) _ _ L') as [A1 A2]. destruct (rows_sum (fun k => word_eqb vs (tl k)) _ _ L') as [A3 _].
    assert (B1 : sum_counts (longer_after rows' vs) = _) by exact A1. assert (B2 : sum_marked (longer_after rows' vs) = _) by exact A2.
    assert (B3 : sum_counts (longer_before rows' vs) = _) by exact A3. rewrite B1, B2, B3.
    split; [now apply all_after|]. split; [now apply all_before|now apply all_marked].
  - rewrite all_total by lia. f_equal. f_equal. lia.
Qed.
Print Assumptions C99_chain.

(** C99: a table of longer sequences has at least as many rows, but for the texts, each of which
    can end in a sequence that occurs nowhere else. *)
Theorem C99_rows : forall n texts rows rows', (1 <= n)%nat ->
  lists_sequences (flat_map (sequences n) texts) rows -> lists_sequences (flat_map (sequences (S n)) texts) rows' ->
  zlen rows <= zlen rows' + long_enough (Z.of_nat n) texts.
Proof.
  intros n texts rows rows' Hn L L'.
  set (long := filter (fun t : list char => Z.of_nat n <=? zlen t) texts).
  assert (I : incl (map fst rows) (map (fun r : seqrow => removelast (fst r)) rows' ++ map (fun t : list char => map value (skipn (List.length t - n) t)) long)).
  { intros vs H. apply (ls_values _ _ L) in H as (w & Hw & Ew). apply in_flat_map in Hw as (t & Ht & Hw). apply in_or_app.
    destruct (Nat.le_gt_cases n (List.length t)) as [Ln|Ln]; [|rewrite sequences_short in Hw by exact Ln; destruct Hw].
    rewrite (sequences_after n t Hn Ln) in Hw. apply in_app_or in Hw as [Hw|[Hw|[]]].
    - left. apply in_map_iff in Hw as (w' & <- & Hw'). rewrite map_removelast in Ew.
      assert (K : In (map value w') (map fst rows')) by (apply (ls_values _ _ L'); exists w'; split; [apply in_flat_map; eauto|reflexivity]).
      apply in_map_iff in K as (r & Er & Hr). apply in_map_iff. exists r. split; [rewrite Er; exact Ew|exact Hr].
    - right. apply in_map_iff. exists t. split; [rewrite Hw; exact Ew|]. apply filter_In. split; [exact Ht|]. apply Z.leb_le. unfold zlen. lia. }
  apply (NoDup_incl_length (ls_once _ _ L)) in I. rewrite app_length, !map_length in I.
  assert (long_enough (Z.of_nat n) texts = zlen long) as -> by reflexivity. unfold seqrow in *. unfold zlen. lia.
Qed.
Print Assumptions C99_rows.

(** C99: the table for two lots of files together is the sum of their tables. *)
Theorem C99_together : forall uc order j j4 s n files1 files2 texts1 texts2,
  marks_wide uc -> nul_hidden uc -> (forall l, Permutation l (order l)) ->
  get_n s = Ok n -> files1 <> [] -> files2 <> [] ->
  Forall2 (fun f t => (exists b, read_text uc j j4 (mkopt true true 0 true false) [] f = Ok (t, b)) /\ text_ok t) files1 texts1 ->
  Forall2 (fun f t => (exists b, read_text uc j j4 (mkopt true true 0 true false) [] f = Ok (t, b)) /\ text_ok t) files2 texts2 ->
  zlen (flat_map (sequences (Z.to_nat n)) (texts1 ++ texts2)) < 2147483648 ->
  exists r1 c1 m1 x1 r2 c2 m2 x2 r x,
    ngram uc order j j4 s files1 = Ok (ngram_listing uc r1 c1 m1 ++ x1) /\
    ngram uc order j j4 s files2 = Ok (ngram_listing uc r2 c2 m2 ++ x2) /\
    ngram uc order j j4 s (files1 ++ files2) = Ok (ngram_listing uc r (c1 + c2) (m1 + m2) ++ x) /\
    forall vs, fst (row_of r vs) = fst (row_of r1 vs) + fst (row_of r2 vs) /\
               snd (row_of r vs) = snd (row_of r1 vs) + snd (row_of r2 vs).
Proof.
  intros uc order j j4 s n f1 f2 t1 t2 W N P Es H1 H2 F1 F2 Hl.
  rewrite flat_map_app, zlen_app in Hl. pose proof (zlen_nonneg (flat_map (sequences (Z.to_nat n)) t1)). pose proof (zlen_nonneg (flat_map (sequences (Z.to_nat n)) t2)).
  destruct (C50_report uc order j j4 s n f1 t1 W N P Es H1 F1) as (o1 & E1 & R1); [lia|].
  destruct (C50_report uc order j j4 s n f2 t2 W N P Es H2 F2) as (o2 & E2 & R2); [lia|].
  destruct (C50_report uc order j j4 s n (f1 ++ f2) (t1 ++ t2) W N P Es) as (o & E & R).
  { destruct f1; [contradiction|]. intros Q; discriminate Q. } { now apply Forall2_app. } { rewrite flat_map_app, zlen_app. exact Hl. }
  destruct (report_listing _ _ _ R1) as (r1 & x1 & L1 & ->). destruct (report_listing _ _ _ R2) as (r2 & x2 & L2 & ->).
  destruct (report_listing _ _ _ R) as (r & x & L & ->). rewrite flat_map_app in L, E.
  rewrite zlen_app, count_if_app in E.
  eexists r1, _, _, x1, r2, _, _, x2, r, x. split; [exact E1|]. split; [exact E2|]. split; [exact E|].
  intros vs. rewrite (row_figures _ _ vs L), (row_figures _ _ vs L1), (row_figures _ _ vs L2). cbn [fst snd]. unfold count_of, suspects_of.
  now rewrite !count_if_app.
Qed.
Print Assumptions C99_together.

(** For example: in abab, ab there are three a, each followed by b; three b, of which two end a
    text. *)
Example C99_ex :
  let t1 := map (fun v => mkchar false v) [97; 98; 97; 98] in let t2 := map (fun v => mkchar false v) [97; 98] in
  let rows := [([97], (3, 0)); ([98], (3, 0))] in let rows' := [([97; 98], (3, 0)); ([98; 97], (1, 0))] in
  lists_sequences (flat_map (sequences 1) [t1; t2]) rows /\ lists_sequences (flat_map (sequences 2) [t1; t2]) rows' /\
  sum_counts (longer_after rows' [98]) = 1 /\ ending [98] [t1; t2] = 2 /\ sum_counts (longer_before rows' [98]) = 3 /\ beginning [98] [t1; t2] = 0 /\
  sum_counts (longer_after rows' [97]) = 3 /\ ending [97] [t1; t2] = 0 /\ long_enough 1 [t1; t2] = 2.
Proof.
  cbv zeta. split; [|split].
  - split; [repeat constructor; cbn; intuition congruence| |].
    + intros vs. cbn. split.
      * intros [<-|[<-|[]]]; eexists; (split; [|shelve]); [left; reflexivity|right; left; reflexivity].
        Unshelve. all: reflexivity.
      * intros (w & H & E). repeat (destruct H as [<-|H]; [cbn in E; auto|]). destruct H.
    + intros vs c s [H|[H|[]]]; injection H as <- <- <-; split; reflexivity.
  - split; [repeat constructor; cbn; intuition congruence| |].
    + intros vs. cbn. split.
      * intros [<-|[<-|[]]]; eexists; (split; [|shelve]); [left; reflexivity|right; left; reflexivity].
        Unshelve. all: reflexivity.
      * intros (w & H & E). repeat (destruct H as [<-|H]; [cbn in E; auto|]). destruct H.
    + intros vs c s [H|[H|[]]]; injection H as <- <- <-; split; reflexivity.
  - repeat split; reflexivity.
Qed.

(** ** Words *)
Lemma word_figures ws rows w : lists_words ws rows -> word_count rows w = occurrences w ws.
Proof.
  intros L. unfold word_count. destruct (find _ rows) as [[w' c]|] eqn:E.
  - apply find_some in E as [I E]. cbn [fst] in E. apply chain_eqb in E. subst w'. cbn [snd]. now apply (lw_counts _ _ L).
  - assert (Z0 : forall v, In v ws -> word_eqb w v = false).
    { intros v Hv. destruct (word_eqb w v) eqn:Q; [exfalso|reflexivity]. apply chain_eqb in Q. subst v.
      apply (lw_words _ _ L) in Hv. apply in_map_iff in Hv as (r & Er & I).
      pose proof (find_none _ _ E r I) as H. cbv beta in H. rewrite Er in H. assert (word_eqb w w = true) by now apply chain_eqb. congruence. }
    unfold occurrences, count_if. clear - Z0. induction ws as [|v ws IH]; [reflexivity|]. cbn [filter]. rewrite (Z0 v (or_introl eq_refl)).
    apply IH. intros; apply Z0; now right.
Qed.

(** C51: wordfreq on two lots of files together gives each word the sum of its counts, and the sum
    of the totals; a word is listed when it is listed for one of them. *)
Theorem C51_together : forall order uc NFC j j4 files1 files2 lists1 lists2,
  (forall l, Permutation l (order l)) -> files1 <> [] -> files2 <> [] ->
  Forall2 (fun f ws => words_in uc NFC j j4 (mkopt true true 0 true true) f = Ok ws) files1 lists1 ->
  Forall2 (fun f ws => words_in uc NFC j j4 (mkopt true true 0 true true) f = Ok ws) files2 lists2 ->
  Forall (Forall bytes_ok) lists1 -> Forall (Forall bytes_ok) lists2 ->
  zlen (concat lists1) + zlen (concat lists2) < 2147483648 ->
  exists r1 c1 x1 r2 c2 x2 r x,
    wordfreq order uc NFC j j4 files1 = Ok (listing r1 c1 ++ x1) /\
    wordfreq order uc NFC j j4 files2 = Ok (listing r2 c2 ++ x2) /\
    wordfreq order uc NFC j j4 (files1 ++ files2) = Ok (listing r (c1 + c2) ++ x) /\
    StronglySorted by_word r1 /\ StronglySorted by_word r2 /\ StronglySorted by_word r /\
    (forall w, word_count r w = word_count r1 w + word_count r2 w) /\
    (forall w, In w (map fst r) <-> In w (map fst r1) \/ In w (map fst r2)).
Proof.
  intros order uc NFC j j4 f1 f2 l1 l2 P H1 H2 F1 F2 B1 B2 Hl.
  pose proof (zlen_nonneg (concat l1)). pose proof (zlen_nonneg (concat l2)).
  destruct (C51_report order uc NFC j j4 f1 l1 P H1 F1 B1) as (o1 & E1 & (r1 & y1 & L1 & S1 & _ & _ & ->)); [lia|].
  destruct (C51_report order uc NFC j j4 f2 l2 P H2 F2 B2) as (o2 & E2 & (r2 & y2 & L2 & S2 & _ & _ & ->)); [lia|].
  destruct (C51_report order uc NFC j j4 (f1 ++ f2) (l1 ++ l2) P) as (o & E & (r & y & L & S & _ & _ & ->)).
  { destruct f1; [contradiction|]. intros Q; discriminate Q. } { now apply Forall2_app. } { apply Forall_app. now split. }
  { rewrite concat_app, zlen_app. exact Hl. }
  rewrite concat_app in L, E. rewrite zlen_app in E.
  eexists r1, _, _, r2, _, _, r, _. split; [exact E1|]. split; [exact E2|]. split; [exact E|]. split; [exact S1|]. split; [exact S2|]. split; [exact S|]. split.
  - intros w. rewrite (word_figures _ _ w L), (word_figures _ _ w L1), (word_figures _ _ w L2). unfold occurrences. now rewrite count_if_app.
  - intros w. rewrite (lw_words _ _ L), (lw_words _ _ L1), (lw_words _ _ L2). apply in_app_iff.
Qed.
Print Assumptions C51_together.

(** For example: of the words a b a and b c, a and b occur twice, c once. *)
Example C51_together_ex :
  let r1 := [([97], 2); ([98], 1)] in let r2 := [([98], 1); ([99], 1)] in let r := [([97], 2); ([98], 2); ([99], 1)] in
  (forall w, In w [[97]; [98]; [99]] -> word_count r w = word_count r1 w + word_count r2 w) /\ word_count r1 [99] = 0 /\
  StronglySorted by_word r.
Proof.
  cbv zeta. split; [|split; [reflexivity|]].
  - intros w [<-|[<-|[<-|[]]]]; reflexivity.
  - repeat constructor; cbn; lia.
Qed.
