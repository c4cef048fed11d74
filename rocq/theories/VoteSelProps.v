(** C61: the selection of the voters (option -O of vote). *)
From Coq Require Import String Sorted Permutation.
From Verif Require Import Base CLib CLibProof Utf8Model TextModel TextSpec TextIO SortModel SortSpec SortProof SortProps CompareModel CompareProof
  AccModel AccSpec AccProof AccrptSpec SumProof WacSpec WacProof FreqProps NgramSpec NgramKeys NgramProps SynctextProof
  SyncModel SyncSpec VoteModel VoteSpec VoteProof VoteProps VoteSelModel VoteSelSpec VoteSelProof.
Local Open Scope Z_scope.
Local Open Scope list_scope.

(** The line of -D for a voter: half of [d2], with one decimal, in 11 columns, and the name. *)
Definition debug_line (names : list (list Z)) (ds : list Z) (i : Z) (line : list Z) : Prop :=
  exists name d2, znth names i = Some name /\ znth ds i = Some d2 /\
    line = pad 32 11 (dec (d2 / 2) ++ [46; if Z.odd d2 then 53 else 48]) ++ [32] ++ name ++ [10].

Lemma read_voters uc j j4 files texts :
  Forall2 (fun (f : list Z * list Z) t => exists h, read_text uc j j4 (mkopt true true 0 true false) [] (snd f) = Ok (t, h)) files texts ->
  forall acc, exists voters,
    ofold (fun acc (f : list Z * list Z) => let! (text, _) := read_text uc j j4 (mkopt true true 0 true false) [] (snd f) in
                       Ok (acc ++ [mkvoter (zlen acc) (fst f) text 0])) files acc = Ok (acc ++ voters) /\
    map vtext voters = texts /\ map argnum voters = zrange (zlen acc) (List.length texts) /\ map filename voters = map fst files.
Proof.
  induction 1 as [|f t fs ts (h & E) _ IH]; intros acc.
  - exists []. cbn. rewrite app_nil_r. auto.
  - cbn [ofold]. rewrite E. cbn [obind].
    destruct (IH (acc ++ [mkvoter (zlen acc) (fst f) t 0])) as (vs & E1 & Et & Ea & Ef).
    exists (mkvoter (zlen acc) (fst f) t 0 :: vs). rewrite E1, <- app_assoc. split; [reflexivity|].
    rewrite zlen_app in Ea. change (zlen [_]) with 1 in Ea. cbn [map vtext argnum filename List.length zrange].
    rewrite Et, Ea, Ef. auto.
Qed.

(** C61: without -O all the voters vote, in the order of the command line, and nothing is
    printed. *)
Theorem C61_all_vote : forall uc order j j4 signed debug s w files,
  vote_all uc order j j4 signed debug false s w files =
  let! content := vote uc j j4 signed s w (map snd files) in Ok ([], content).
Proof.
  intros uc order j j4 signed debug s w files. unfold vote_all, vote. rewrite zlen_map.
  destruct ((zlen files <? MIN_VOTERS) || (MAX_VOTERS <? zlen files)); [reflexivity|].
  unfold vote_opt.
  assert (G : forall (fs : list (list Z * list Z)) acc acc', map vtext acc = acc' ->
    match ofold (fun acc f => let! (text, _) := read_text uc j j4 (mkopt true true 0 true false) [] f in Ok (acc ++ [text])) (map snd fs) acc' with
    | Ok texts => exists voters, ofold (fun acc f => let! (text, _) := read_text uc j j4 (mkopt true true 0 true false) [] (snd f) in
                                       Ok (acc ++ [mkvoter (zlen acc) (fst f) text 0])) fs acc = Ok voters /\ map vtext voters = texts /\
                                   zlen voters = zlen acc + zlen fs
    | Fail m => ofold (fun acc f => let! (text, _) := read_text uc j j4 (mkopt true true 0 true false) [] (snd f) in
                                       Ok (acc ++ [mkvoter (zlen acc) (fst f) text 0])) fs acc = Fail m
    | UB m => ofold (fun acc f => let! (text, _) := read_text uc j j4 (mkopt true true 0 true false) [] (snd f) in
                                       Ok (acc ++ [mkvoter (zlen acc) (fst f) text 0])) fs acc = UB m
    | OutOfFuel => ofold (fun acc f => let! (text, _) := read_text uc j j4 (mkopt true true 0 true false) [] (snd f) in
                                       Ok (acc ++ [mkvoter (zlen acc) (fst f) text 0])) fs acc = OutOfFuel
    end).
  { induction fs as [|f fs IH]; intros acc acc' E; cbn [map ofold].
    - exists acc. split; [reflexivity|]. split; [exact E|]. change (zlen []) with 0. lia.
    - destruct (read_text uc j j4 (mkopt true true 0 true false) [] (snd f)) as [[t h]|m|m|]; cbn [obind]; try reflexivity.
      specialize (IH (acc ++ [mkvoter (zlen acc) (fst f) t 0]) (acc' ++ [t])). rewrite map_app, E in IH. specialize (IH eq_refl).
      destruct (ofold _ (map snd fs) (acc' ++ [t])) as [texts|m|m|]; try exact IH.
      destruct IH as (vs & E1 & E2 & E3). exists vs. split; [exact E1|]. split; [exact E2|].
      rewrite E3, zlen_app, !zlen_cons. unfold zlen. cbn [List.length]. lia. }
  specialize (G files [] [] eq_refl).
  destruct (ofold _ (map snd files) []) as [texts|m|m|]; cbn [obind].
  2, 3, 4: rewrite G; reflexivity.
  destruct G as (voters & -> & Et & Lz). cbn [obind]. change (zlen []) with 0 in Lz.
  unfold vote_voters. replace (zlen voters) with (zlen files) by lia.
  destruct (set_options signed (zlen files) false s w) as [st|m|m|] eqn:Es; cbn [obind]; try reflexivity.
  assert (actual_voters st = zlen files) as Ha.
  { unfold set_options in Es. cbn [negb orb] in Es.
    destruct (match w with None => Ok (1, 1) | Some _ => _ end) as [[sw uw]| | |]; cbn [obind] in Es; try discriminate Es.
    destruct s as [str|]; [|injection Es as <-; reflexivity].
    destruct (valid_fraction signed str) as [[[m n]|]| | |]; cbn [obind] in Es; try discriminate Es.
    injection Es as <-. reflexivity. }
  unfold select_voters. cbn [obind]. rewrite (ofold_append _ _ texts).
  - cbn [obind app]. destruct (vote_texts st texts) as [out|m|m|]; cbn [obind]; try reflexivity.
  - replace (Z.to_nat (actual_voters st)) with (List.length texts) by (rewrite <- Et, map_length; unfold zlen in *; lia).
    apply Forall2_zrange. intros i t Hi acc. rewrite Z.add_0_l. rewrite <- Et, znth_map in Hi.
    unfold rd. destruct (znth voters i); [|discriminate Hi]. injection Hi as <-. reflexivity.
Qed.
Print Assumptions C61_all_vote.

(** C61: with -O the threshold is computed for the voters selected: three, or the two there
    are. *)
Theorem C61_options : forall signed n s w, set_options signed n true s w = set_options signed (Z.min n 3) false s w.
Proof.
  intros signed n s w. unfold set_options. cbn [negb orb].
  replace (if n <? 3 then n else 3) with (Z.min n 3) by (destruct (Z.ltb_spec n 3); lia). reflexivity.
Qed.
Print Assumptions C61_options.

(** C61: with -O the three nearest voters, or both if there are two, vote, the nearest first. *)
Theorem C61_selected : forall uc order j j4 signed debug s w files texts st,
  marks_wide uc -> nul_hidden uc -> (forall l, Permutation l (order l)) ->
  2 <= zlen files <= 16 ->
  Forall2 (fun f t => exists h, read_text uc j j4 (mkopt true true 0 true false) [] (snd f) = Ok (t, h)) files texts ->
  Forall (fun t => text_ok t /\ zlen t < 2147483648) texts ->
  set_options signed (zlen files) true s w = Ok st ->
  exists ds ranks chosen items outs lines,
    ranking texts ds ranks /\
    texts_of texts (firstn 3 ranks) chosen /\
    synchronize (map (map value) chosen) = Ok items /\
    partition (map (map value) chosen) items /\
    Forall2 (fun it out => rounds (suspect_weight st) (unmarked_weight st) (suspect_threshold st)
                             (parts_of chosen it) out) items outs /\
    Forall2 (debug_line (map fst files) ds) ranks lines /\
    vote_all uc order j j4 signed debug true s w files =
      let! content := write_text uc (concat outs) None in
      Ok (if debug then concat lines else [], content).
Proof.
  intros uc order j j4 signed debug s w files texts st W N0 Ho H2 HF HT Hst.
  assert (zlen texts = zlen files) as Hz by (symmetry; eapply Forall2_zlen; eauto).
  destruct (read_voters uc j j4 files texts HF []) as (voters & Er & Et & Ea & Ef). cbn [app] in Er. change (zlen []) with 0 in Ea.
  destruct (rank_ok uc W N0 order Ho texts voters) as (ds & voters' & Ek & HD & PV & HR & HX).
  { lia. } { eapply Forall_impl; [|exact HT]. intros t [H _]. exact H. } { split; [exact Et|exact Ea]. }
  { intros t Ht. rewrite Forall_forall in HT. apply (HT t Ht). }
  assert (Permutation (zrange 0 (List.length texts)) (map argnum voters')) as PA by (apply HR).
  assert (zlen voters' = zlen files) as Lv.
  { unfold zlen in *. rewrite <- (map_length argnum voters'), <- (Permutation_length PA), zrange_length. lia. }
  assert (actual_voters st = Z.min (zlen files) 3) as Ha.
  { rewrite C61_options in Hst. unfold set_options in Hst. cbn [negb orb] in Hst.
    destruct (match w with None => Ok (1, 1) | Some _ => _ end) as [[sw uw]| | |]; cbn [obind] in Hst; try discriminate Hst.
    destruct s as [str|]; [|injection Hst as <-; reflexivity].
    destruct (valid_fraction signed str) as [[[m n]|]| | |]; cbn [obind] in Hst; try discriminate Hst.
    injection Hst as <-. reflexivity. }
  set (chosen := map vtext (firstn 3 voters')).
  assert (zlen chosen = Z.min (zlen files) 3) as Lc.
  { unfold chosen. rewrite zlen_map. unfold zlen in *. rewrite firstn_length. lia. }
  destruct (C47_vote st chosen) as (items & outs & E & Pt & Ev & R); [lia|lia|].
  exists ds, (map argnum voters'), chosen, items, outs, (map (fun v => dec11_1 (distance v) ++ [32] ++ filename v ++ [10]) voters').
  split; [exact HR|]. split.
  { unfold texts_of, chosen in *. rewrite firstn_map. clear -HX. revert HX. generalize 3%nat.
    induction voters' as [|v l IH]; intros [|n] HX; cbn [firstn map]; try constructor; inversion HX; subst; auto. }
  split; [exact E|]. split; [exact Pt|]. split; [exact R|]. split.
  { assert (forall v, In v voters' -> debug_line (map fst files) ds (argnum v) (dec11_1 (distance v) ++ [32] ++ filename v ++ [10])) as HV.
    { intros v Hv. apply (Permutation_in v (Permutation_sym PV)) in Hv. apply in_map_iff in Hv as ([v0 d] & <- & Hv).
      apply In_znth in Hv as (i & Hi & Ei). rewrite znth_combine in Ei. destruct (znth voters i) as [u|] eqn:Eu; [|discriminate Ei].
      destruct (znth ds i) as [d'|] eqn:Ed; [|discriminate Ei]. assert (u = v0) as -> by congruence. assert (d' = d) as -> by congruence.
      assert (znth (map argnum voters) i = Some (argnum v0)) as En by (rewrite znth_map, Eu; reflexivity).
      pose proof (znth_Some_lt _ _ _ En) as Hn. rewrite Ea in En, Hn. rewrite znth_zrange in En by (unfold zlen in Hn; rewrite zrange_length in Hn; lia).
      rewrite Z.add_0_l in En. assert (argnum v0 = i) as An by congruence.
      exists (filename v0), d. cbn [argnum filename distance set_distance fst snd]. rewrite An. split; [|split; [exact Ed|]].
      - rewrite <- Ef, znth_map, Eu. reflexivity.
      - unfold dec11_1. destruct (Z.odd d); reflexivity. }
    clear -HV. induction voters' as [|v l IH]; cbn [map]; constructor; [apply HV; now left|]. apply IH. intros; apply HV; now right. }
  unfold vote_all, MIN_VOTERS, MAX_VOTERS. destruct (Z.ltb_spec (zlen files) 2); [lia|].
  destruct (Z.ltb_spec 16 (zlen files)); [lia|]. cbn [orb]. unfold vote_opt. rewrite Er. cbn [obind].
  unfold vote_voters. replace (zlen voters) with (zlen files) by (rewrite <- Hz, <- Et; apply zlen_map). rewrite Hst. cbn [obind].
  unfold select_voters. rewrite Ek. cbn [obind]. rewrite (ofold_append _ _ chosen).
  - cbn [obind app]. rewrite Ev. cbn [obind]. unfold debug_lines. rewrite flat_map_concat_map. reflexivity.
  - rewrite Ha, <- Lc. replace (Z.to_nat (zlen chosen)) with (List.length chosen) by (unfold zlen; lia).
    apply Forall2_zrange. intros i t Hi acc. rewrite Z.add_0_l. unfold chosen in Hi. rewrite znth_map in Hi.
    destruct (znth (firstn 3 voters') i) as [v|] eqn:Ei; [|discriminate Hi]. injection Hi as <-.
    assert (znth voters' i = Some v) as Ei'.
    { rewrite <- (firstn_skipn 3 voters'), znth_app1; [exact Ei|]. now apply znth_Some_lt in Ei. }
    unfold rd. rewrite Ei'. reflexivity.
Qed.
Print Assumptions C61_selected.

(** C61: the voters left out are no nearer than those selected. *)
Theorem C61_nearest : forall texts ds ranks i j, ranking texts ds ranks ->
  In i (firstn 3 ranks) -> 0 <= j < zlen texts -> ~ In j (firstn 3 ranks) -> nearer ds i j.
Proof.
  intros texts ds ranks i j (_ & P & S) Hi Hj Nj.
  assert (In j ranks) as Hr by (eapply Permutation_in; [exact P|]; apply In_zrange; unfold zlen in Hj; lia).
  rewrite <- (firstn_skipn 3 ranks) in Hr, S. apply in_app_iff in Hr as [Hr|Hr]; [contradiction|].
  revert S Hi Hr. generalize (firstn 3 ranks) (skipn 3 ranks). clear. intros a b S Hi Hr.
  induction a as [|x a IH]; [destruct Hi|]. cbn [app] in S. inversion S as [|? ? S' F]; subst.
  destruct Hi as [->|Hi]; [|auto]. rewrite Forall_forall in F. apply F, in_app_iff. now right.
Qed.
Print Assumptions C61_nearest.

Lemma sorted_le_unique l1 : forall l2, StronglySorted Z.le l1 -> StronglySorted Z.le l2 -> Permutation l1 l2 -> l1 = l2.
Proof.
  induction l1 as [|x l1 IH]; intros l2 S1 S2 P.
  - now apply Permutation_nil in P.
  - destruct l2 as [|y l2]; [now apply Permutation_sym, Permutation_nil in P|].
    inversion S1 as [|? ? S1' F1]; inversion S2 as [|? ? S2' F2]; subst. rewrite Forall_forall in F1, F2.
    assert (x = y) as ->.
    { assert (In x (y :: l2)) as [H|H] by (apply (Permutation_in x P); now left); [auto|].
      assert (In y (x :: l1)) as [K|K] by (apply (Permutation_in y (Permutation_sym P)); now left); [auto|].
      specialize (F1 y K). specialize (F2 x H). lia. }
    f_equal. apply IH; auto. now apply Permutation_cons_inv in P.
Qed.

Lemma twice_median_unique cs a b : twice_median cs a -> twice_median cs b -> a = b.
Proof.
  intros (l & x & y & P & S & Hx & Hy & ->) (l' & x' & y' & P' & S' & Hx' & Hy' & ->).
  assert (l = l') as <-.
  { apply sorted_le_unique; auto. eapply Permutation_trans; [apply Permutation_sym; exact P|exact P']. }
  congruence.
Qed.

Lemma twice_expected_unique texts vs a b : twice_expected texts vs a -> twice_expected texts vs b -> a = b.
Proof.
  intros [[H ->]|[H Ha]] [[K ->]|[K Hb]]; [reflexivity|contradiction|contradiction|]. eapply twice_median_unique; eauto.
Qed.

Lemma zsum_perm l l' : Permutation l l' -> zsum l = zsum l'.
Proof. induction 1; rewrite ?zsum_cons in *; lia. Qed.

Lemma twice_distance_unique texts t a b : twice_distance texts t a -> twice_distance texts t b -> a = b.
Proof.
  intros (r & N & I & X & ->) (r' & N' & I' & X' & ->). apply zsum_perm, Permutation_map, NoDup_Permutation.
  - now apply NoDup_map_inv in N.
  - now apply NoDup_map_inv in N'.
  - intros [vs m]. split; intros H.
    + assert (In vs (map fst r')) as K by (apply I', I; apply (in_map fst) in H; exact H).
      apply in_map_iff in K as ([vs' m'] & E & K). cbn in E. subst vs'.
      now rewrite (twice_expected_unique texts vs m m' (X _ _ H) (X' _ _ K)).
    + assert (In vs (map fst r)) as K by (apply I, I'; apply (in_map fst) in H; exact H).
      apply in_map_iff in K as ([vs' m'] & E & K). cbn in E. subst vs'.
      now rewrite (twice_expected_unique texts vs m m' (X' _ _ H) (X _ _ K)).
Qed.

(** C61: the distances and the order are determined by the texts. *)
Theorem C61_unique : forall texts ds ranks ds' ranks', ranking texts ds ranks -> ranking texts ds' ranks' ->
  ds = ds' /\ ranks = ranks'.
Proof.
  intros texts ds ranks ds' ranks' (D & P & S) (D' & P' & S').
  assert (ds = ds') as <-.
  { clear -D D'. revert ds' D'. enough (forall l ds, Forall2 (twice_distance texts) l ds -> forall ds', Forall2 (twice_distance texts) l ds' -> ds = ds') as G by eauto.
    clear. induction 1 as [|t d l ds H F IH]; intros ds' K; inversion K; subst; [reflexivity|]. f_equal; [eapply twice_distance_unique; eauto|auto]. }
  split; [reflexivity|].
  assert (Permutation ranks ranks') as Q by (eapply Permutation_trans; [apply Permutation_sym; exact P|exact P']).
  clear P P' D D'. revert ranks' S' Q. induction S as [|x l S IH F]; intros l' S' Q.
  - now apply Permutation_nil in Q.
  - destruct l' as [|y l']; [now apply Permutation_sym, Permutation_nil in Q|]. inversion S' as [|? ? S2 F2]; subst.
    rewrite Forall_forall in F, F2.
    assert (x = y) as ->.
    { assert (In x (y :: l')) as [H|H] by (apply (Permutation_in x Q); now left); [auto|].
      assert (In y (x :: l)) as [K|K] by (apply (Permutation_in y (Permutation_sym Q)); now left); [auto|].
      destruct (F y K) as (d1 & d2 & E1 & E2 & C), (F2 x H) as (e1 & e2 & G1 & G2 & C2).
      assert (e1 = d2) as -> by congruence. assert (e2 = d1) as -> by congruence. lia. }
    f_equal. apply IH; auto. now apply Permutation_cons_inv in Q.
Qed.
Print Assumptions C61_unique.

Lemma sorted_nth l : StronglySorted Z.le l -> forall i j x y, i <= j -> znth l i = Some x -> znth l j = Some y -> x <= y.
Proof.
  induction 1 as [|z l S IH F]; intros i j x y Hij Hi Hj.
  - apply znth_Some_lt in Hi. unfold zlen in Hi. cbn in Hi. lia.
  - pose proof (znth_Some_lt _ _ _ Hi). rewrite Forall_forall in F. destruct (Z.eq_dec i 0) as [->|Ni].
    + rewrite znth_cons_0 in Hi. assert (z = x) as -> by congruence. destruct (Z.eq_dec j 0) as [->|Nj].
      * rewrite znth_cons_0 in Hj. assert (x = y) by congruence. lia.
      * rewrite znth_cons_S in Hj by lia. apply F. now apply znth_In in Hj.
    + rewrite znth_cons_S in Hi by lia. rewrite znth_cons_S in Hj by lia. apply (IH (i - 1) (j - 1)); auto. lia.
Qed.

Lemma count_le_len {A} (P : A -> bool) l : count_if P l <= zlen l.
Proof. unfold count_if, zlen. induction l as [|x l IH]; cbn; [lia|]. destruct (P x); cbn; lia. Qed.

Lemma middle_majority l c k : StronglySorted Z.le l -> zlen l < 2 * count_if (Z.eqb c) l ->
  (k = (zlen l - 1) / 2 \/ k = zlen l / 2) -> znth l k = Some c.
Proof.
  intros S M Hk. pose proof (count_le_len (Z.eqb c) l). pose proof (zlen_nonneg l).
  assert (0 <= k < zlen l) as Bk by (destruct Hk as [-> | ->]; Z.to_euclidean_division_equations; lia).
  destruct (znth_lt_Some l k Bk) as [x Hx]. rewrite Hx. f_equal.
  set (a := firstn (Z.to_nat (k + 1)) l). set (b := skipn (Z.to_nat k) l).
  destruct (Z.lt_trichotomy x c) as [C|[C|C]]; [exfalso|exact C|exfalso].
  - assert (count_if (Z.eqb c) a = 0) as Ca.
    { apply count_if_zero. intros y Hy. apply In_znth in Hy as (i & Hi & Ei).
      assert (i <= k). { unfold a, zlen in Hi. rewrite firstn_length in Hi. lia. }
      assert (znth l i = Some y) as Ei'. { rewrite <- (firstn_skipn (Z.to_nat (k + 1)) l). fold a. rewrite znth_app1 by lia. exact Ei. }
      pose proof (sorted_nth l S i k y x ltac:(lia) Ei' Hx). apply Z.eqb_neq. lia. }
    rewrite <- (firstn_skipn (Z.to_nat (k + 1)) l), count_if_app in M. fold a in M. rewrite Ca in M.
    pose proof (count_le_len (Z.eqb c) (skipn (Z.to_nat (k + 1)) l)) as Q.
    assert (zlen (skipn (Z.to_nat (k + 1)) l) = zlen l - k - 1) as L by (unfold zlen in *; rewrite skipn_length; lia).
    assert (zlen (a ++ skipn (Z.to_nat (k + 1)) l) = zlen l) as L2 by (unfold a; now rewrite firstn_skipn).
    rewrite L2 in M. destruct Hk as [-> | ->]; Z.to_euclidean_division_equations; lia.
  - assert (count_if (Z.eqb c) b = 0) as Cb.
    { apply count_if_zero. intros y Hy. apply In_znth in Hy as (i & Hi & Ei).
      assert (zlen (firstn (Z.to_nat k) l) = k) as Lf by (unfold zlen in *; rewrite firstn_length; lia).
      assert (znth l (k + i) = Some y) as Ei'. { rewrite <- (firstn_skipn (Z.to_nat k) l), znth_app2 by lia. rewrite Lf. fold b. now replace (k + i - k) with i by lia. }
      pose proof (sorted_nth l S k (k + i) x y ltac:(lia) Hx Ei'). apply Z.eqb_neq. lia. }
    rewrite <- (firstn_skipn (Z.to_nat k) l), count_if_app in M. fold b in M. rewrite Cb in M.
    pose proof (count_le_len (Z.eqb c) (firstn (Z.to_nat k) l)) as Q.
    assert (zlen (firstn (Z.to_nat k) l) = k) as L by (unfold zlen in *; rewrite firstn_length; lia).
    assert (zlen (firstn (Z.to_nat k) l ++ b) = zlen l) as L2 by (unfold b; now rewrite firstn_skipn).
    rewrite L2 in M. destruct Hk as [-> | ->]; Z.to_euclidean_division_equations; lia.
Qed.

(** C61: a text without reject characters that more than half of the voters agree on has
    distance 0, so that its voters are in front, together with any other that has the same
    pairs. *)
Theorem C61_agreement : forall texts t d (same : list char -> bool),
  (forall u, same u = true -> u = t) -> zlen texts < 2 * count_if same texts ->
  Forall (fun c => value c <> 126) t -> twice_distance texts t d -> d = 0.
Proof.
  intros texts t d same Hs M Hr (rows & N & I & X & ->). apply zsum_map_zero. intros [vs m2] Hin. cbn [fst snd].
  destruct (X vs m2 Hin) as [[H ->]|[H Hm]].
  - assert (occurrences vs t = 0); [|lia]. unfold occurrences, count_of. apply count_if_zero. intros w Hw.
    destruct (occurs_as vs w) eqn:E; [|reflexivity]. exfalso. apply word_eqb_spec in E. subst vs.
    apply in_map_iff in H as (c & Hc & Hcw). apply (C50_sequences 2 t w ltac:(lia)) in Hw as (_ & a & b & ->).
    rewrite Forall_forall in Hr. apply (Hr c); [|exact Hc]. apply in_app_iff. right. apply in_app_iff. now left.
  - destruct Hm as (l & x & y & P & S & Hx & Hy & ->). set (c := occurrences vs t).
    assert (zlen l = zlen texts) as Ll.
    { unfold zlen. rewrite <- (Permutation_length P), map_length. reflexivity. }
    assert (count_if same texts <= count_if (Z.eqb c) l) as Q.
    { rewrite <- (count_if_perm _ _ _ P), count_if_map. clear -Hs. induction texts as [|u us IH]; [reflexivity|].
      rewrite !count_if_cons. destruct (same u) eqn:E; [|destruct (c =? occurrences vs u); lia].
      apply Hs in E. subst u. fold c. rewrite Z.eqb_refl. lia. }
    rewrite (middle_majority l c ((zlen l - 1) / 2)) in Hx by (auto; lia).
    rewrite (middle_majority l c (zlen l / 2)) in Hy by (auto; lia).
    assert (x = c) as -> by congruence. assert (y = c) as -> by congruence. lia.
Qed.
Print Assumptions C61_agreement.

(** The wrong number of voters, as without -O. *)
Theorem C61_voters : forall uc order j j4 signed debug optimize s w files,
  ~ (2 <= zlen files <= 16) ->
  vote_all uc order j j4 signed debug optimize s w files = Fail "invalid number of voters".
Proof.
  intros uc order j j4 signed debug optimize s w files H. unfold vote_all, MIN_VOTERS, MAX_VOTERS.
  destruct (Z.ltb_spec (zlen files) 2); [reflexivity|]. destruct (Z.ltb_spec 16 (zlen files)); [reflexivity|]. lia.
Qed.
Print Assumptions C61_voters.

(** Non-vacuity: five readings; "ab" and the two copies of "abc" are selected, and "b~c" is the
    farthest. *)
Example C61_ex :
  let uc := mkuc (fun c => if c <? 32 then CC else LL) (fun c => c) in
  marks_wide uc /\ nul_hidden uc /\
  (forall l : list vseq, Permutation l (rev l)) /\
  vote_all uc (fun l => rev l) (repeat 0 100) [0; 0; 0; 0] true true true (Some (bytes "2/3")) None
    [(bytes "f1", bytes "b~c"); (bytes "f2", bytes "ab"); (bytes "f3", bytes "abc"); (bytes "f4", bytes "abxc"); (bytes "f5", bytes "abc")] =
  Ok (bytes "        0.0 f2" ++ [10] ++ bytes "        1.0 f3" ++ [10] ++ bytes "        1.0 f5" ++ [10] ++
      bytes "        2.0 f4" ++ [10] ++ bytes "        3.0 f1" ++ [10], bytes "ab^c").
Proof. cbv zeta. split. { intros v _. unfold is_combining. cbn [cat]. now destruct (v <? 32). }
  split; [reflexivity|]. split; [intros l; apply Permutation_rev|]. vm_compute. reflexivity. Qed.
