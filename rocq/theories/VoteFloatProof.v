(** The float and double arithmetic of vote gives what exact arithmetic gives. *)
From Flocq Require Import IEEE754.BinarySingleNaN.
From Coq Require Import String ZArith Permutation.
From Verif Require Import Base CLib CLibProof Utf8Model TextModel TextSpec SortModel SortSpec SortProof SortProps CompareModel DoubleModel
  AccSpec WacSpec WacProof NgramSpec NgramKeys NgramProps AccProof AccrptSpec SumProof SynctextProof SyncModel VoteModel VoteSelModel VoteSelSpec VoteSelProof VoteFloatModel HalfProof.
Local Open Scope Z_scope.
Local Open Scope list_scope.

(** *** Related outcomes *)
Definition orel {A B} (R : A -> B -> Prop) (x : outcome A) (y : outcome B) : Prop :=
  match x, y with
  | Ok a, Ok b => R a b
  | Fail m, Fail n => m = n
  | UB m, UB n => m = n
  | OutOfFuel, OutOfFuel => True
  | _, _ => False
  end.

Lemma obind_rel {A B C D} (R : A -> B -> Prop) (Q : C -> D -> Prop) x y f g :
  orel R x y -> (forall a b, R a b -> orel Q (f a) (g b)) -> orel Q (obind x f) (obind y g).
Proof. intros H K. destruct x, y; cbn in *; try contradiction; auto. Qed.

Lemma orel_eq {A} (x y : outcome A) : orel eq x y -> x = y.
Proof. destruct x, y; cbn; intros H; try contradiction; congruence. Qed.
Lemma orel_refl {A} (x : outcome A) : orel eq x x.
Proof. destruct x; cbn; auto. Qed.

Lemma related_length {A B} (R : A -> B -> Prop) l m : Forall2 R l m -> List.length l = List.length m.
Proof. induction 1; cbn; congruence. Qed.
Lemma znth_rel {A B} (R : A -> B -> Prop) l m : Forall2 R l m -> forall i,
  match znth l i, znth m i with Some a, Some b => R a b | None, None => True | _, _ => False end.
Proof.
  intros H i. unfold znth. destruct (i <? 0); [exact I|]. generalize (Z.to_nat i). clear i.
  induction H as [|a b l m H _ IH]; intros [|n]; cbn; auto. apply IH.
Qed.
Lemma rd_rel {A B} (R : A -> B -> Prop) msg l m i : Forall2 R l m -> orel R (rd msg l i) (rd msg m i).
Proof. intros H. apply (znth_rel R _ _) with (i := i) in H. unfold rd. destruct (znth l i), (znth m i); cbn; auto. Qed.
Lemma wr_rel {A B} (R : A -> B -> Prop) msg l m i a b : Forall2 R l m -> R a b -> orel (Forall2 R) (wr msg l i a) (wr msg m i b).
Proof.
  intros H K. unfold wr, zset. destruct (i <? 0); [reflexivity|]. generalize (Z.to_nat i). clear i.
  induction H as [|x y l m H F IH]; intros [|n]; cbn; auto.
  specialize (IH n). destruct (set_nth l n a), (set_nth m n b); cbn in *; auto; contradiction.
Qed.

Lemma ofold_rel {A B C} (R : B -> C -> Prop) (f : B -> A -> outcome B) (g : C -> A -> outcome C) l :
  (forall x b c, In x l -> R b c -> orel R (f b x) (g c x)) -> forall b c, R b c -> orel R (ofold f l b) (ofold g l c).
Proof.
  induction l as [|x l IH]; intros H b c K; cbn [ofold]; [exact K|].
  eapply obind_rel; [apply H; [now left|exact K]|]. intros b' c' K'. apply IH; [|exact K']. intros y b'' c'' Hy. apply H. now right.
Qed.

(** *** Sorting *)
Section Sort.
Context {A B : Type}.
Variable R : A -> B -> Prop.
Variable f : A -> A -> Z.
Variable g : B -> B -> Z.
Hypothesis Hcmp : forall a b a' b', R a b -> R a' b' -> f a a' = g b b'.

Lemma scan_down_rel n : forall l m a b i j, Forall2 R l m -> R a b -> orel eq (scan_down f n l a i j) (scan_down g n m b i j).
Proof.
  induction n as [|n IH]; intros l m a b i j H K; cbn [scan_down]; (destruct (i <? j); [|reflexivity]);
    (eapply obind_rel; [apply rd_rel; exact H|]); intros x y Hxy; rewrite (Hcmp _ _ _ _ K Hxy);
    (destruct (_ <? 0); [|reflexivity]); [exact I|now apply IH].
Qed.
Lemma scan_up_rel n : forall l m a b i j, Forall2 R l m -> R a b -> orel eq (scan_up f n l a i j) (scan_up g n m b i j).
Proof.
  induction n as [|n IH]; intros l m a b i j H K; cbn [scan_up]; (destruct (i <? j); [|reflexivity]);
    (eapply obind_rel; [apply rd_rel; exact H|]); intros x y Hxy; rewrite (Hcmp _ _ _ _ K Hxy);
    (destruct (0 <? _); [|reflexivity]); [exact I|now apply IH].
Qed.

Definition prel {X} (p : list A * X) (q : list B * X) : Prop := Forall2 R (fst p) (fst q) /\ snd p = snd q.

Lemma partition_rel n : forall l m a b i j, Forall2 R l m -> R a b ->
  orel (fun p q => Forall2 R (fst (fst p)) (fst (fst q)) /\ snd (fst p) = snd (fst q) /\ snd p = snd q)
    (partition_loop f n l a i j) (partition_loop g n m b i j).
Proof.
  induction n as [|n IH]; intros l m a b i j H K; cbn [partition_loop]; (destruct (i <? j); [|cbn; auto]); [exact I|].
  eapply obind_rel; [now apply scan_down_rel|]. intros j1 ? <-.
  eapply (obind_rel prel).
  { destruct (i =? j1); [split; auto|]. eapply obind_rel; [apply rd_rel; exact H|]. intros x y Hxy.
    eapply obind_rel; [apply wr_rel; [exact H|exact Hxy]|]. intros l1 m1 H1. split; auto. }
  intros [l1 i1] [m1 i1'] [H1 E]. cbn [fst snd] in *. subst i1'.
  eapply obind_rel; [now apply scan_up_rel|]. intros i2 ? <-.
  eapply (obind_rel prel).
  { destruct (i2 =? j1); [split; auto|]. eapply obind_rel; [apply rd_rel; exact H1|]. intros x y Hxy.
    eapply obind_rel; [apply wr_rel; [exact H1|exact Hxy]|]. intros l2 m2 H2. split; auto. }
  intros [l2 j2] [m2 j2'] [H2 E]. cbn [fst snd] in *. subst j2'. now apply IH.
Qed.

Lemma quicksort_rel n : forall l m i j, Forall2 R l m -> orel (Forall2 R) (quicksort f n l i j) (quicksort g n m i j).
Proof.
  induction n as [|n IH]; intros l m i j H; cbn [quicksort]; [exact I|].
  eapply obind_rel; [apply rd_rel; exact H|]. intros a b K.
  eapply obind_rel; [now apply partition_rel|]. intros [[l1 i1] j1] [[m1 i1'] j1'] (H1 & Ei & Ej). cbn [fst snd] in *. subst i1' j1'.
  eapply obind_rel; [apply wr_rel; [exact H1|exact K]|]. intros l2 m2 H2.
  eapply (obind_rel (Forall2 R)); [destruct (i <? j1 - 1); [now apply IH|exact H2]|]. intros l3 m3 H3.
  destruct (i1 + 1 <? j); [now apply IH|exact H3].
Qed.

Lemma sort_rel n l m : Forall2 R l m -> orel (Forall2 R) (sort f n l) (sort g n m).
Proof. intros H. unfold sort. destruct (n <? 2); [exact H|]. now apply quicksort_rel. Qed.
End Sort.

(** *** The medians and the distances *)
Definition below (s : vseq) (b : Z) : Prop := Forall (fun c => 0 <= c < b) (vcount s).

Lemma gather_in (l : list Z) (P : Z -> Prop) is : Forall P l -> forall acc, Forall P acc ->
  forall r, ofold (fun acc i => let! c := rd "count[i]" l i in Ok (acc ++ [c])) is acc = Ok r -> Forall P r.
Proof.
  intros HL. induction is as [|i is IH]; intros acc HA r; cbn [ofold]; [intros E; injection E as <-; exact HA|].
  unfold rd at 1. destruct (znth l i) as [c|] eqn:E; cbn [obind]; [|intros Q; discriminate Q].
  apply IH. apply Forall_app. split; [exact HA|]. constructor; [|constructor].
  rewrite Forall_forall in HL. apply HL. eapply znth_In; eauto.
Qed.

Definition mrel (m : Z) (x : single) : Prop := shalf x m /\ 0 <= m < 2 ^ 23.

Lemma median_rel n s : 0 <= n -> below s (2 ^ 22) -> orel mrel (compute_median n s) (compute_median_float n s).
Proof.
  intros Hn HB. unfold compute_median, compute_median_float. destruct (vreject s).
  { split; [|lia]. apply (single_int_half 0). lia. }
  destruct (ofold _ (zrange 0 (Z.to_nat n)) []) as [cs| | |] eqn:E; cbn [obind orel]; auto.
  pose proof (gather_in _ _ _ HB [] (Forall_nil _) _ E) as HC.
  assert (zlen cs = n) as Lc.
  { clear -E Hn. assert (forall is acc r, ofold (fun acc i => let! c := rd "count[i]" (vcount s) i in Ok (acc ++ [c])) is acc = Ok r ->
      zlen r = zlen acc + zlen is) as H.
    { induction is as [|i is IH]; intros acc r; cbn [ofold]; [intros Q; injection Q as <-; rewrite zlen_nil; lia|].
      destruct (rd _ _ i); cbn [obind]; intros Q; [|discriminate Q..]. apply IH in Q. rewrite zlen_app in Q. rewrite zlen_cons. cbn in Q. lia. }
    apply H in E. rewrite E. unfold zlen. rewrite zrange_length. cbn. lia. }
  destruct (C06_sort _ compare_counts cs) as (l & El & Pl & _). rewrite Lc in El. rewrite El. cbn [obind].
  assert (forall i c, znth l i = Some c -> 0 <= c < 2 ^ 22) as HL.
  { intros i c H. rewrite Forall_forall in HC. apply HC. eapply Permutation_in; [apply Permutation_sym; exact Pl|]. eapply znth_In; eauto. }
  destruct (Z.odd n).
  - unfold rd. destruct (znth l (n / 2)) as [c|] eqn:Ec; cbn [obind orel]; [|reflexivity]. apply HL in Ec.
    split; [|lia]. apply to_single_half; [apply of_int_half|]; lia.
  - unfold rd. destruct (znth l (n / 2 - 1)) as [a|] eqn:Ea; cbn [obind orel]; [|reflexivity].
    destruct (znth l (n / 2)) as [c|] eqn:Ec; cbn [obind orel]; [|reflexivity]. apply HL in Ec, Ea.
    split; [|lia]. apply to_single_half; [|lia]. apply fdiv2_half; [|lia]. apply of_int_half. lia.
Qed.

Definition srel (p : vseq * Z) (q : vseq * single) : Prop := fst p = fst q /\ below (fst p) (2 ^ 22) /\ mrel (snd p) (snd q).

Lemma medians_rel n l : 0 <= n -> Forall (fun s => below s (2 ^ 22)) l ->
  orel (Forall2 srel)
    (ofold (fun acc s => let! m := compute_median n s in Ok (acc ++ [(s, m)])) l [])
    (ofold (fun acc s => let! m := compute_median_float n s in Ok (acc ++ [(s, m)])) l []).
Proof.
  intros Hn HB. apply ofold_rel; [|constructor]. intros s a b Hs H. rewrite Forall_forall in HB.
  eapply obind_rel; [apply median_rel; [exact Hn|now apply HB]|]. intros m x Hm. cbn [orel]. apply Forall2_app; [exact H|].
  constructor; [|constructor]. split; [reflexivity|]. split; [now apply HB|exact Hm].
Qed.
Lemma medians_length n l r : ofold (fun acc s => let! m := compute_median n s in Ok (acc ++ [(s, m)])) l [] = Ok r -> zlen r = zlen l.
Proof.
  assert (forall acc, ofold (fun acc s => let! m := compute_median n s in Ok (acc ++ [(s, m)])) l acc = Ok r -> zlen r = zlen acc + zlen l) as H.
  { induction l as [|s l IH]; intros acc; cbn [ofold]; [intros Q; injection Q as <-; rewrite zlen_nil; lia|].
    destruct (compute_median n s); cbn [obind]; intros Q; [|discriminate Q..]. apply IH in Q. rewrite zlen_app in Q. rewrite zlen_cons. cbn in Q. lia. }
  intros Q. apply H in Q. cbn in Q. lia.
Qed.

Definition drel (d : Z) (x : double) : Prop := dhalf x d /\ 0 <= d.

Lemma distance_rel i l m : Forall2 srel l m -> forall d x, dhalf x d -> 0 <= d -> d + 2 ^ 23 * zlen l < 2 ^ 53 ->
  orel drel
    (ofold (fun d sm => let! c := rd "count[index]" (vcount (fst sm)) i in
              let difference := 2 * c - snd sm in
              Ok (d + if difference <? 0 then - difference else difference)) l d)
    (ofold (fun d sm => let! c := rd "count[index]" (vcount (fst sm)) i in
              let difference := to_double (ssub (single_of_int c) (snd sm)) in
              Ok (fadd d (if flt difference (of_int 0) then fopp difference else difference))) m x).
Proof.
  induction 1 as [|[s m2] [s' y] l m (E & HB & HM & HM2) F IH]; intros d x Hx Hd HL; cbn [ofold].
  { split; auto. }
  cbn [fst snd] in *. subst s'. rewrite zlen_cons in HL. pose proof (zlen_nonneg l).
  unfold rd at 1 3. destruct (znth (vcount s) i) as [c|] eqn:Ec; cbn [obind orel]; [|reflexivity].
  assert (0 <= c < 2 ^ 22) as Hc by (unfold below in HB; rewrite Forall_forall in HB; apply HB; eapply znth_In; eauto).
  cbv zeta. assert (dhalf (to_double (ssub (single_of_int c) y)) (2 * c - m2)) as HD.
  { apply to_double_half; [|lia]. apply ssub_half; [apply single_int_half; lia|exact HM|lia]. }
  unfold flt. rewrite (half_lt _ _ _ _ _ (2 * 0) HD) by (apply of_int_half; lia). change (2 * 0) with 0.
  destruct (Z.ltb_spec (2 * c - m2) 0).
  - apply IH; [|lia|lia]. apply fadd_half; [exact Hx|apply half_opp; [exact HD|lia]|lia].
  - apply IH; [|lia|lia]. apply fadd_half; [exact Hx|exact HD|lia].
Qed.

(** *** The table *)
Definition vrel (v : voter) (w : fvoter) : Prop :=
  argnum v = fargnum w /\ filename v = ffilename w /\ vtext v = fvtext w /\ drel (distance v) (fdistance w).

Section Rank.
Variable uc : unicode_data.
Hypothesis Hwide : marks_wide uc.
Hypothesis Hnul : nul_hidden uc.
Variable order : list vseq -> list vseq.
Hypothesis Horder : forall l, Permutation l (order l).

Definition fits (t : list char) : Prop := text_ok t /\ zlen t < 2 ^ 22.

Lemma sequences_fit t : zlen t < 2 ^ 22 -> zlen (sequences 2 t) < 2 ^ 22.
Proof. intros H. pose proof (C50_sequences 2 t [] ltac:(lia)) as [_ S]. lia. Qed.

Lemma occs_length texts : Forall fits texts -> forall k, zlen (occs_from k texts) <= 2 ^ 22 * zlen texts.
Proof.
  induction 1 as [|t ts [_ H] F IH]; intros k; cbn [occs_from]; [cbn; lia|].
  rewrite zlen_app, zlen_cons. unfold occs_of. rewrite zlen_map. specialize (IH (k + 1)). apply sequences_fit in H. lia.
Qed.

Lemma table_fits voters : zlen voters <= 16 -> Forall (fun v => fits (vtext v)) voters ->
  exists table,
    ofold (fun t i => let! v := rd "voter[index]" voters i in count_sequences uc t i (vtext v))
      (zrange 0 (Z.to_nat (zlen voters))) [] = Ok table /\
    Forall (fun s => below s (2 ^ 22)) table /\ zlen table <= 2 ^ 26.
Proof.
  intros L HF. replace (Z.to_nat (zlen voters)) with (List.length voters) by (unfold zlen; lia).
  destruct (count_all_ok uc Hwide Hnul "voter[index]" voters [] [] []) as (ps & I & E).
  { change (zlen []) with 0. lia. }
  { eapply Forall_impl; [|exact HF]. intros v [H _]. exact H. }
  { constructor; [constructor|constructor|]. intros vs. split; [intros []|intros (i & [])]. }
  cbn [app map] in E, I. change (zlen []) with 0 in E, I. set (texts := map vtext voters) in *.
  assert (Forall fits texts) as FT by (apply Forall_map; exact HF).
  eexists. split; [exact E|]. split.
  - apply Forall_map, Forall_forall. intros vs _. unfold below. cbn [vcount entry]. apply Forall_map, Forall_forall. intros i _.
    rewrite cnt_from. destruct (znth texts (i - 0)) as [t|] eqn:Et; [|lia].
    apply znth_In in Et. rewrite Forall_forall in FT. destruct (FT t Et) as [_ Ft]. apply sequences_fit in Ft.
    split; [apply count_if_nonneg|]. eapply Z.le_lt_trans; [|exact Ft]. unfold occurrences, count_of, count_if, zlen.
    generalize (sequences 2 t). intros l. induction l as [|w l IH]; cbn; [lia|destruct (occurs_as vs w); cbn in *; lia].
  - rewrite zlen_map. pose proof (occs_length texts FT 0) as B.
    assert (zlen ps <= zlen (occs_from 0 texts)) as P.
    { unfold zlen. rewrite <- (map_length snd (occs_from 0 texts)). apply inj_le, NoDup_incl_length; [apply I|].
      intros vs Hv. apply (inv_in _ _ I) in Hv as [i Hi]. apply in_map_iff. exists (i, vs). auto. }
    assert (zlen texts <= 16) by (subst texts; rewrite zlen_map; exact L). lia.
Qed.

Lemma Forall2_Forall_l {X Y} (R : X -> Y -> Prop) (P : X -> Prop) l m : Forall2 R l m -> (forall x y, R x y -> P x) -> Forall P l.
Proof. induction 1; constructor; eauto. Qed.

Lemma rank_rel voters fvoters : Forall2 vrel voters fvoters -> zlen voters <= 16 -> Forall (fun v => fits (vtext v)) voters ->
  orel (Forall2 vrel) (rank_voters uc order voters) (rank_voters_float uc order fvoters).
Proof.
  intros HV L HF. unfold rank_voters, rank_voters_float.
  assert (zlen fvoters = zlen voters) as -> by (unfold zlen; now rewrite (related_length _ _ _ HV)).
  pose proof (zlen_nonneg voters).
  destruct (table_fits voters L HF) as (table & E & B & Lt).
  assert (ofold (fun t i => let! v := rd "voter[index]" fvoters i in count_sequences uc t i (fvtext v))
            (zrange 0 (Z.to_nat (zlen voters))) [] = Ok table) as ->.
  { rewrite <- E. apply orel_eq. apply ofold_rel; [|reflexivity]. intros i t ? _ <-.
    assert (orel vrel (rd "voter[index]" voters i) (rd "voter[index]" fvoters i)) as K by (now apply rd_rel).
    destruct (rd "voter[index]" voters i) as [v| | |], (rd "voter[index]" fvoters i) as [w| | |]; cbn in K; try contradiction; cbn [obind]; try (now cbn).
    destruct K as (_ & _ & -> & _). apply orel_refl. }
  rewrite E. cbn [obind].
  assert (Forall (fun s => below s (2 ^ 22)) (order table)) as B'.
  { apply Forall_forall. intros s Hs. rewrite Forall_forall in B. apply B. eapply Permutation_in; [apply Permutation_sym, Horder|exact Hs]. }
  assert (zlen (order table) = zlen table) as Lo by (unfold zlen; now rewrite <- (Permutation_length (Horder table))).
  pose proof (medians_rel (zlen voters) (order table) ltac:(lia) B') as M.
  destruct (ofold _ (order table) []) as [array| | |] eqn:EA; destruct (ofold (fun acc s => let! m := compute_median_float _ s in _) (order table) []) as [farray| | |];
    cbn in M; try contradiction; cbn [obind]; try exact M.
  apply medians_length in EA.
  eapply (obind_rel (Forall2 vrel)).
  - apply ofold_rel; [|constructor]. intros i a b _ Hab.
    eapply obind_rel; [apply rd_rel; exact HV|]. intros v w (V1 & V2 & V3 & V4).
    eapply (obind_rel drel).
    { apply distance_rel; [exact M|apply (of_int_half 0); lia|lia|]. rewrite EA, Lo. lia. }
    intros d x Hd. cbn [orel]. apply Forall2_app; [exact Hab|]. constructor; [|constructor]. repeat split; cbn; auto; apply Hd.
  - intros a b Hab. apply sort_rel; [|exact Hab]. intros v w v' w' (V1 & V2 & V3 & V4 & _) (V1' & V2' & V3' & V4' & _).
    unfold compare_distances, compare_distances_float, feq, flt.
    rewrite (half_eq _ _ _ _ _ _ V4 V4'), (half_lt _ _ _ _ _ _ V4 V4'), V1, V1'. reflexivity.
Qed.

Lemma debug_rel voters fvoters : Forall2 vrel voters fvoters -> debug_lines voters = debug_lines_float fvoters.
Proof.
  unfold debug_lines, debug_lines_float. induction 1 as [|v w l m (V1 & V2 & V3 & V4 & V5) F IH]; [reflexivity|].
  cbn [flat_map]. now rewrite IH, V2, (print_half _ _ V4 V5).
Qed.

Lemma vote_voters_rel signed debug optimize s w voters fvoters :
  Forall2 vrel voters fvoters -> zlen voters <= 16 -> Forall (fun v => fits (vtext v)) voters ->
  vote_voters_float uc order signed debug optimize s w fvoters = vote_voters uc order signed debug optimize s w voters.
Proof.
  intros HV L HF. unfold vote_voters, vote_voters_float.
  assert (zlen fvoters = zlen voters) as -> by (unfold zlen; now rewrite (related_length _ _ _ HV)).
  destruct (set_options _ _ _ _ _) as [st| | |]; cbn [obind]; try reflexivity.
  assert (select_voters_float uc order debug optimize (actual_voters st) fvoters = select_voters uc order debug optimize (actual_voters st) voters) as ->;
    [|reflexivity].
  symmetry. apply orel_eq. unfold select_voters, select_voters_float.
  eapply (obind_rel (fun p q => fst p = fst q /\ Forall2 vrel (snd p) (snd q))).
  - destruct optimize; [|split; [reflexivity|exact HV]].
    eapply obind_rel; [now apply rank_rel|]. intros a b Hab. split; [|exact Hab]. cbn [fst]. destruct debug; [now apply debug_rel|reflexivity].
  - intros [p a] [q b] [E Hab]. cbn [fst snd] in E, Hab. subst q.
    eapply (obind_rel eq); [|intros x ? <-; apply orel_refl].
    apply ofold_rel; [|reflexivity]. intros i acc ? _ <-.
    eapply obind_rel; [apply rd_rel; exact Hab|]. intros v v' (_ & _ & -> & _). reflexivity.
Qed.

Lemma vote_all_rel j j4 signed debug optimize s w files :
  (forall f t h, In f files -> read_text uc j j4 vote_opt [] (snd f) = Ok (t, h) -> fits t) ->
  vote_all_float uc order j j4 signed debug optimize s w files = vote_all uc order j j4 signed debug optimize s w files.
Proof.
  intros HF. unfold vote_all_float, vote_all.
  destruct (Z.ltb_spec (zlen files) MIN_VOTERS); [reflexivity|]. destruct (Z.ltb_spec MAX_VOTERS (zlen files)) as [|L]; [reflexivity|]. cbn [orb].
  symmetry. apply orel_eq.
  eapply (obind_rel (fun a b => Forall2 vrel a b /\ zlen a <= 16 /\ Forall (fun v => fits (vtext v)) a)).
  2: { intros a b (Hab & La & Fa). rewrite (vote_voters_rel _ _ _ _ _ _ _ Hab La Fa). apply orel_refl. }
  assert (forall fs a b, incl fs files -> Forall2 vrel a b -> zlen a + zlen fs <= 16 -> Forall (fun v => fits (vtext v)) a ->
    orel (fun a b => Forall2 vrel a b /\ zlen a <= 16 /\ Forall (fun v => fits (vtext v)) a)
     (ofold (fun acc f => let! (text, _) := read_text uc j j4 vote_opt [] (snd f) in Ok (acc ++ [mkvoter (zlen acc) (fst f) text 0])) fs a)
     (ofold (fun acc f => let! (text, _) := read_text uc j j4 vote_opt [] (snd f) in Ok (acc ++ [mkfvoter (zlen acc) (fst f) text (of_int 0)])) fs b)) as K.
  { induction fs as [|f fs IH]; intros a b Hi Hab La Fa; cbn [ofold].
    - cbn in La. cbn [orel]. split; [exact Hab|]. split; [lia|exact Fa].
    - rewrite zlen_cons in La.
      destruct (read_text uc j j4 vote_opt [] (snd f)) as [[t h]| | |] eqn:E; cbn [obind orel]; auto.
      apply IH.
      + intros x Hx. apply Hi. now right.
      + apply Forall2_app; [exact Hab|]. constructor; [|constructor]. split; [cbn; unfold zlen; now rewrite (related_length _ _ _ Hab)|].
        split; [reflexivity|]. split; [reflexivity|]. split; [apply (of_int_half 0); lia|cbn; lia].
      + rewrite zlen_app. cbn. lia.
      + apply Forall_app. split; [exact Fa|]. constructor; [|constructor]. cbn. eapply HF; [apply Hi; now left|exact E]. }
  apply K; [apply incl_refl|constructor|cbn; unfold MAX_VOTERS in L; lia|constructor].
Qed.
End Rank.
