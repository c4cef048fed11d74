(** Proofs about word segmentation. *)
From Coq Require Import Bool String.
From Verif Require Import Base Utf8Model TextSpec Utf8Proof WordTable WordSpec WordModel.
Local Open Scope Z_scope.
Local Open Scope list_scope.

(** * The lookup *)

Fixpoint sorted_ranges (low : Z) (l : list wb_range) : bool :=
  match l with
  | [] => true
  | r :: l => (low <? start r) && (start r <=? stop r) && sorted_ranges (stop r) l
  end.

Lemma table_sorted : sorted_ranges 0 WORD_BREAK_PROPERTY = true.
Proof. vm_compute. reflexivity. Qed.

Lemma sorted_low l : forall low, sorted_ranges low l = true ->
  Forall (fun r => low < start r /\ start r <= stop r) l.
Proof.
  induction l as [|r l IH]; intros low H; constructor.
  - cbn [sorted_ranges] in H. lia.
  - cbn [sorted_ranges] in H.
    apply andb_prop in H as [H1 H2]. specialize (IH _ H2).
    eapply Forall_impl; [|exact IH]. cbv beta. intros. lia.
Qed.

Lemma sorted_znth l : forall low i j ri rj, sorted_ranges low l = true ->
  znth l i = Some ri -> znth l j = Some rj -> i < j -> stop ri < start rj.
Proof.
  induction l as [|r l IH]; intros low i j ri rj H Hi Hj Hij.
  - apply znth_Some_lt in Hi. change (zlen (@nil wb_range)) with 0 in Hi. lia.
  - cbn [sorted_ranges] in H. apply andb_prop in H as [H1 H2].
    pose proof (znth_Some_lt _ _ _ Hi) as Ri.
    rewrite znth_cons_S in Hj by lia.
    destruct (Z.eq_dec i 0) as [E|E].
    + subst i. rewrite znth_cons_0 in Hi. injection Hi as <-.
      apply sorted_low in H2. apply znth_In in Hj.
      rewrite Forall_forall in H2. specialize (H2 _ Hj). lia.
    + rewrite znth_cons_S in Hi by lia. apply (IH _ (i-1) (j-1) _ _ H2 Hi Hj). lia.
Qed.

Lemma search_ok table c : sorted_ranges 0 table = true ->
  forall fuel left right, 0 <= left -> right < zlen table -> right - left < Z.of_nat fuel ->
  (forall i r, znth table i = Some r -> in_range c r -> left <= i <= right) ->
  exists p, search_for_property fuel table c left right = Ok p /\
  ((exists r, In r table /\ in_range c r /\ wb_value r = p) \/
   (forall r, In r table -> ~ in_range c r) /\ p = Other).
Proof.
  intros Hs. induction fuel as [|fuel IH]; intros left right Hl Hr Hf Hin;
    cbn [search_for_property].
  - replace (right <? left) with true by lia. exists Other. split; [reflexivity|].
    right. split; [|reflexivity]. intros r Hr' Hc.
    apply In_znth in Hr' as (i & Bi & Hi). specialize (Hin _ _ Hi Hc). lia.
  - destruct (Z.ltb_spec right left) as [E|E].
    + exists Other. split; [reflexivity|].
      right. split; [|reflexivity]. intros r Hr' Hc.
      apply In_znth in Hr' as (i & Bi & Hi). specialize (Hin _ _ Hi Hc). lia.
    + rewrite Z.quot_div_nonneg by lia.
      pose proof (Z.div_lt_upper_bound (right - left) 2 (right - left + 1) ltac:(lia) ltac:(lia)).
      pose proof (Z.div_pos (right - left) 2 ltac:(lia) ltac:(lia)).
      set (m := left + (right - left) / 2) in *.
      destruct (znth_lt_Some table m) as (r & Hm); [lia|].
      unfold rd. rewrite Hm. cbn [obind].
      destruct (Z.ltb_spec c (start r)) as [E1|E1].
      { apply IH; try lia. intros i r' Hi Hc. pose proof (Hin _ _ Hi Hc) as B. split; [lia|].
        destruct (Z_lt_le_dec i m) as [L|L]; [lia|]. exfalso. unfold in_range in Hc.
        destruct (Z.eq_dec i m) as [->|N].
        - assert (r' = r) by congruence. subst. lia.
        - pose proof (sorted_znth _ _ _ _ _ _ Hs Hm Hi ltac:(lia)).
          pose proof (sorted_low _ _ Hs) as A. rewrite Forall_forall in A.
          pose proof (A _ (znth_In _ _ _ Hm)). cbv beta in *. lia. }
      destruct (Z.ltb_spec (stop r) c) as [E2|E2].
      { apply IH; try lia. intros i r' Hi Hc. pose proof (Hin _ _ Hi Hc) as B. split; [|lia].
        destruct (Z_lt_le_dec m i) as [L|L]; [lia|]. exfalso. unfold in_range in Hc.
        destruct (Z.eq_dec i m) as [->|N].
        - assert (r' = r) by congruence. subst. lia.
        - pose proof (sorted_znth _ _ _ _ _ _ Hs Hi Hm ltac:(lia)).
          pose proof (sorted_low _ _ Hs) as A. rewrite Forall_forall in A.
          pose proof (A _ (znth_In _ _ _ Hm)). cbv beta in *. lia. }
      exists (wb_value r). split; [reflexivity|]. left. exists r.
      split; [eapply znth_In; eassumption|]. unfold in_range. split; [lia|reflexivity].
Qed.

Lemma sorted_unique table c r1 r2 : sorted_ranges 0 table = true ->
  In r1 table -> In r2 table -> in_range c r1 -> in_range c r2 -> r1 = r2.
Proof.
  intros Hs H1 H2 I1 I2. unfold in_range in *.
  apply In_znth in H1 as (i & Bi & Hi). apply In_znth in H2 as (j & Bj & Hj).
  destruct (Z.lt_trichotomy i j) as [L|[L|L]].
  - pose proof (sorted_znth _ _ _ _ _ _ Hs Hi Hj L). lia.
  - congruence.
  - pose proof (sorted_znth _ _ _ _ _ _ Hs Hj Hi L). lia.
Qed.

Lemma property_ok c :
  exists p, property c = Ok p /\
  ((exists r, In r WORD_BREAK_PROPERTY /\ in_range c r /\ wb_value r = p) \/
   (forall r, In r WORD_BREAK_PROPERTY -> ~ in_range c r) /\ p = Other).
Proof.
  unfold property. apply search_ok.
  - apply table_sorted.
  - lia.
  - lia.
  - unfold zlen. lia.
  - intros i r Hi _. apply znth_Some_lt in Hi. lia.
Qed.

#[global] Opaque property.

(** * The rules *)

Lemma is_spec p q : is p q = true <-> p = q.
Proof.
  split; [|intros ->; unfold is; apply Z.eqb_refl].
  unfold is. rewrite Z.eqb_eq. destruct p, q; cbn; congruence.
Qed.

Lemma AHLetter_spec p : AHLetter p = true <-> ahletter p.
Proof. unfold AHLetter, ahletter. rewrite orb_true_iff, !is_spec. tauto. Qed.

Lemma MidNumLetQ_spec p : MidNumLetQ p = true <-> midnumletq p.
Proof. unfold MidNumLetQ, midnumletq. rewrite orb_true_iff, !is_spec. tauto. Qed.

Lemma ExtendOrFormat_spec p : ExtendOrFormat p = true <-> extend_or_format p.
Proof. unfold ExtendOrFormat, extend_or_format. rewrite orb_true_iff, !is_spec. tauto. Qed.

Lemma if_cases (b c : bool) : (if b then true else c) = true -> b = true \/ c = true.
Proof. destruct b; auto. Qed.

Lemma rules_joined a b c d : rules a b c d = true <-> joined a b c d.
Proof.
  split.
  - unfold rules. intros H.
    apply if_cases in H as [H|H].
    { rewrite andb_true_iff, !is_spec in H. destruct H as [-> ->]. constructor. }
    destruct (is b Newline || is b CR || is b LF); [discriminate|].
    destruct (is c Newline || is c CR || is c LF); [discriminate|].
    repeat (apply if_cases in H as [H|H]; [
      repeat rewrite ?andb_true_iff, ?orb_true_iff, ?is_spec, ?AHLetter_spec, ?MidNumLetQ_spec in H|]);
    [.. | discriminate].
    + apply WB5; tauto.
    + apply WB6; tauto.
    + apply WB7; tauto.
    + destruct H as [-> ->]. apply WB7a.
    + destruct H as [[-> ->] ->]. apply WB7b.
    + destruct H as [[-> ->] ->]. apply WB7c.
    + destruct H as [-> ->]. apply WB8.
    + destruct H as [H ->]. apply WB9; tauto.
    + destruct H as [-> H]. apply WB10; tauto.
    + destruct H as [[-> H] ->]. apply WB11; tauto.
    + destruct H as [[-> H] ->]. apply WB12; tauto.
    + destruct H as [-> ->]. apply WB13.
    + destruct H as [H ->]. apply WB13a; tauto.
    + destruct H as [-> H]. apply WB13b; tauto.
    + destruct H as [-> ->]. apply WB13c.
  - intros H. unfold ahletter, midnumletq in *.
    destruct H; unfold ahletter, midnumletq in *;
    repeat match goal with H : _ \/ _ |- _ => destruct H end; subst;
    unfold rules; cbn [is wb_code AHLetter MidNumLetQ orb andb];
    unfold AHLetter, MidNumLetQ, is; cbn [wb_code Z.eqb Pos.eqb orb andb];
    repeat match goal with
    | |- (if ?b then true else _) = true => destruct b; [reflexivity|]
    end; reflexivity.
Qed.

Lemma rules_eot a b d : rules a b eot d = false.
Proof.
  destruct (rules a b eot d) eqn:E; [|reflexivity]. apply rules_joined in E.
  inversion E; subst; unfold ahletter, midnumletq in *;
  repeat match goal with H : _ \/ _ |- _ => destruct H end; discriminate.
Qed.

Lemma joined_lookbehind a b c d e : ~ joined a b c d -> (joined sot c d e <-> joined b c d e).
Proof.
  intros N. split; intros H.
  - inversion H; subst; try (econstructor; eauto; fail).
    match goal with A : ahletter sot |- _ => destruct A; discriminate end.
  - inversion H; subst; try (econstructor; eauto; fail); exfalso; apply N.
    + apply WB6; auto.
    + apply WB7b.
    + apply WB12; auto.
Qed.

Lemma rules_lookbehind a b c d e : rules a b c d = false -> rules sot c d e = rules b c d e.
Proof.
  intros H.
  assert (N : ~ joined a b c d) by (rewrite <- rules_joined; congruence).
  pose proof (joined_lookbehind _ _ _ _ e N) as J. rewrite <- !rules_joined in J.
  destruct (rules sot c d e), (rules b c d e); intuition congruence.
Qed.

(** * Skipping *)

Definition ext (c : Z) : bool := ExtendOrFormat (prop c).
(** The properties of the characters that are not Extend or Format. *)
Definition F (l : list Z) : list wb_property := map prop (filter (fun c => negb (ext c)) l).

Lemma F_app l1 l2 : F (l1 ++ l2) = F l1 ++ F l2.
Proof. unfold F. rewrite filter_app, map_app. reflexivity. Qed.
Lemma F_ext c l : ext c = true -> F (c :: l) = F l.
Proof. intros H. unfold F. cbn [filter]. rewrite H. reflexivity. Qed.
Lemma F_main c l : ext c = false -> F (c :: l) = prop c :: F l.
Proof. intros H. unfold F. cbn [filter]. rewrite H. reflexivity. Qed.
Lemma F_exts l : Forall (fun c => ext c = true) l -> F l = [].
Proof.
  induction 1; [reflexivity|]. rewrite F_ext by assumption. assumption.
Qed.
Lemma F_nil l : F l = [] -> Forall (fun c => ext c = true) l.
Proof.
  induction l as [|c l IH]; intros H; constructor.
  - destruct (ext c) eqn:E; [reflexivity|]. rewrite F_main in H by assumption. discriminate.
  - apply IH. destruct (ext c) eqn:E; [|rewrite F_main in H by assumption; discriminate].
    rewrite F_ext in H by assumption. assumption.
Qed.

Definition main_first (l : list Z) : Prop := match l with [] => True | c :: _ => ext c = false end.

Lemma skip_extend_ok l : exists e,
  l = e ++ skip_extend l /\ Forall (fun c => ext c = true) e /\ main_first (skip_extend l).
Proof.
  induction l as [|c l (e & E & He & Hm)].
  - exists []. cbn. auto.
  - cbn [skip_extend char_property]. fold (ext c). destruct (ext c) eqn:Ec.
    + exists (c :: e). cbn [app]. rewrite <- E. auto.
    + exists []. cbn. auto.
Qed.

Lemma skip_extend_F l : F (skip_extend l) = F l.
Proof.
  destruct (skip_extend_ok l) as (e & E & He & _). rewrite E at 2.
  rewrite F_app, (F_exts e) by assumption. reflexivity.
Qed.

Lemma main_char_property l : main_first l -> char_property l = hd eot (F l).
Proof.
  destruct l as [|c l]; [reflexivity|]. cbn [main_first]. intros H.
  rewrite F_main by assumption. reflexivity.
Qed.

Lemma skip_next_F c l : F (skip_to_next (c :: l)) = F l.
Proof. apply skip_extend_F. Qed.

Lemma skip_next_main c l : main_first (skip_to_next (c :: l)).
Proof. cbn [skip_to_next]. destruct (skip_extend_ok l) as (e & _ & _ & H). exact H. Qed.

Lemma next_property c l : char_property (skip_to_next (c :: l)) = hd eot (F l).
Proof.
  rewrite main_char_property by apply skip_next_main. rewrite skip_next_F. reflexivity.
Qed.

Lemma twice_property c l : char_property (skip_twice (c :: l)) = hd eot (tl (F l)).
Proof.
  unfold skip_twice. pose proof (skip_next_F c l) as H. pose proof (skip_next_main c l) as M.
  destruct (skip_to_next (c :: l)) as [|d m].
  - rewrite <- H. reflexivity.
  - rewrite next_property. rewrite <- H. rewrite F_main by exact M. reflexivity.
Qed.

Lemma end_of_extend_ok l : forall c, exists (e l' s : list Z) (z : Z),
  skip_to_end_of_extend (c :: l) = z :: l' /\ l = e ++ l' /\ c :: e = s ++ [z] /\
  Forall (fun c => ext c = true) e /\ main_first l'.
Proof.
  induction l as [|d l IH]; intros c.
  - exists [], [], [], c. cbn. auto.
  - cbn [skip_to_end_of_extend char_property]. fold (ext d). destruct (ext d) eqn:E.
    + destruct (IH d) as (e & l' & s & z & H1 & H2 & H3 & H4 & H5).
      exists (d :: e), l', (c :: s), z. split; [exact H1|].
      split; [cbn [app]; rewrite <- H2; reflexivity|].
      split; [cbn [app]; rewrite <- H3; reflexivity|]. auto.
    + exists [], (d :: l), [], c. cbn. auto.
Qed.

(** * One segment *)

(** Do the rules join [l1] and [l2], ignoring Extend and Format throughout? *)
Definition cjoin (l1 l2 : list Z) : bool :=
  rules (hd sot (tl (rev (F l1)))) (hd sot (rev (F l1))) (hd eot (F l2)) (hd eot (tl (F l2))).

Lemma cjoin_F l1 l2 m1 m2 : F l1 = F m1 -> F l2 = F m2 -> cjoin l1 l2 = cjoin m1 m2.
Proof. unfold cjoin. intros -> ->. reflexivity. Qed.

Lemma cjoin_snoc pre c l : ext c = false ->
  cjoin (pre ++ [c]) l =
  rules (hd sot (rev (F pre))) (prop c) (hd eot (F l)) (hd eot (tl (F l))).
Proof.
  intros H. unfold cjoin. rewrite F_app, F_main by assumption. change (F []) with (@nil wb_property).
  rewrite rev_app_distr. reflexivity.
Qed.

Lemma cjoin_end l1 l2 : F l2 = [] -> cjoin l1 l2 = false.
Proof. intros H. unfold cjoin. rewrite H. apply rules_eot. Qed.

Lemma loop_ok fuel : forall d r pre lb,
  (List.length r <= fuel)%nat -> F r <> [] ->
  rules lb (hd eot (F r)) (hd eot (tl (F r))) (hd eot (tl (tl (F r)))) =
  rules (hd sot (rev (F pre))) (hd eot (F r)) (hd eot (tl (F r))) (hd eot (tl (tl (F r)))) ->
  exists seg c l2,
    boundary_loop fuel (d :: r) lb = Ok (c :: l2) /\ r = seg ++ c :: l2 /\ ext c = false /\
    cjoin (pre ++ seg ++ [c]) l2 = false/\
    forall s1 x s2, seg ++ [c] = s1 ++ x :: s2 -> ext x = false -> F s1 <> [] ->
    cjoin (pre ++ s1) (x :: s2 ++ l2) = true.
Proof.
  induction fuel as [|fuel IH]; intros d r pre lb Hf Hr Hlb.
  - destruct r; [|cbn in Hf; lia]. exfalso. apply Hr. reflexivity.
  - destruct (skip_extend_ok r) as (e & E & He & Hm).
    assert (HF : F (skip_extend r) = F r) by apply skip_extend_F.
    destruct (skip_extend r) as [|c l2] eqn:Es.
    { exfalso. apply Hr. rewrite <- HF. reflexivity. }
    cbn [main_first] in Hm. rewrite F_main in HF by assumption.
    assert (Hloop : boundary_loop (Datatypes.S fuel) (d :: r) lb =
      if rules lb (prop c) (hd eot (F l2)) (hd eot (tl (F l2)))
      then boundary_loop fuel (c :: l2) (prop c) else Ok (c :: l2)).
    { destruct r as [|r0 r']; [exfalso; apply Hr; reflexivity|].
      cbn [boundary_loop]. change (skip_to_next (d :: r0 :: r')) with (skip_extend (r0 :: r')).
      rewrite Es. rewrite next_property, twice_property. reflexivity. }
    rewrite Hloop. rewrite <- HF in Hlb. cbn [hd tl] in Hlb. rewrite Hlb.
    assert (Hpre : F (pre ++ e) = F pre).
    { rewrite F_app, (F_exts e), app_nil_r by assumption. reflexivity. }
    pose proof (cjoin_snoc (pre ++ e) c l2 Hm) as Hj. rewrite Hpre in Hj.
    rewrite <- Hj.
    destruct (cjoin ((pre ++ e) ++ [c]) l2) eqn:Ej.
    + assert (Hl2 : F l2 <> []).
      { intros N. rewrite cjoin_end in Ej by assumption. discriminate. }
      destruct (IH c l2 (pre ++ e ++ [c]) (prop c)) as (seg & c' & l2' & H1 & H2 & H3 & H4 & H5).
      * rewrite E in Hf. rewrite app_length in Hf. cbn [List.length] in Hf. lia.
      * assumption.
      * rewrite app_assoc, F_app, F_main, rev_app_distr by assumption. reflexivity.
      * exists (e ++ c :: seg), c', l2'. split; [assumption|]. split.
        { rewrite E, H2. rewrite <- app_assoc. reflexivity. }
        split; [assumption|]. split.
        { rewrite <- H4. f_equal. rewrite <- !app_assoc. reflexivity. }
        intros s1 x s2 Hs Hx Hs1.
        assert (Hsplit : exists s1', s1 = e ++ c :: s1' /\ seg ++ [c'] = s1' ++ x :: s2).
        { clear - Hs Hx Hs1 He. revert s1 Hs Hs1.
          induction He as [|y e Hy He IHe]; intros s1 Hs Hs1.
          - destruct s1 as [|a s1]; [exfalso; apply Hs1; reflexivity|].
            cbn [app] in Hs. exists s1. injection Hs as -> Hs. auto.
          - destruct s1 as [|a s1]; [exfalso; apply Hs1; reflexivity|].
            cbn [app] in Hs. injection Hs as -> Hs. rewrite F_ext in Hs1 by assumption.
            destruct (IHe s1 Hs Hs1) as (s1' & -> & H). exists s1'. auto. }
        destruct Hsplit as (s1' & -> & Hs').
        destruct (F s1') as [|p q] eqn:Ef.
        -- rewrite <- Ej. apply cjoin_F.
           ++ rewrite !F_app, !F_main by assumption. rewrite Ef. rewrite <- app_assoc. reflexivity.
           ++ rewrite H2. replace (seg ++ c' :: l2') with ((seg ++ [c']) ++ l2')
                by (rewrite <- app_assoc; reflexivity).
              rewrite Hs'. rewrite <- app_assoc. rewrite (F_app s1'), Ef. reflexivity.
        -- replace (pre ++ e ++ c :: s1') with ((pre ++ e ++ [c]) ++ s1')
             by (rewrite <- !app_assoc; reflexivity).
           apply H5; auto. congruence.
    + exists e, c, l2. split; [reflexivity|]. split; [assumption|]. split; [assumption|].
      split; [rewrite app_assoc; assumption|].
      intros s1 x s2 Hs Hx Hs1. exfalso. apply Hs1. apply F_exts.
      clear - Hs He. revert s1 Hs. induction He as [|y e Hy He IHe]; intros s1 Hs.
      * destruct s1 as [|a [|]]; [constructor|discriminate|discriminate].
      * destruct s1 as [|a s1]; [constructor|]. cbn [app] in Hs. injection Hs as -> Hs.
        constructor; eauto.
Qed.

Lemma segment_ok first pre : F first <> [] ->
  (pre = [] \/ cjoin pre first = false) ->
  exists (s after s' : list Z) (z : Z),
    find_next_boundary first = Ok (z :: after) /\ first = s ++ after /\ s = s' ++ [z] /\
    main_first after /\ cjoin (pre ++ s) after = false /\ F s <> []/\
    forall s1 x s2, s = s1 ++ x :: s2 -> ext x = false -> F s1 <> [] ->
    cjoin (pre ++ s1) (x :: s2 ++ after) = true.
Proof.
  intros Hne Hpre.
  destruct (loop_ok (Datatypes.S (List.length first)) 0 first pre sot) as
    (seg & c & l2 & H1 & H2 & H3 & H4 & H5).
  - lia.
  - assumption.
  - destruct Hpre as [-> | Hc]; [reflexivity|]. unfold cjoin in Hc.
    apply (rules_lookbehind _ _ _ _ _ Hc).
  - destruct (end_of_extend_ok l2 c) as (e & after & s & z & E1 & E2 & E3 & E4 & E5).
    exists (seg ++ c :: e), after, (seg ++ s), z.
    assert (HF : F (pre ++ seg ++ c :: e) = F (pre ++ seg ++ [c])).
    { rewrite !F_app, !F_main by assumption. rewrite (F_exts e) by assumption. reflexivity. }
    assert (HFa : F after = F l2).
    { rewrite E2, F_app, (F_exts e) by assumption. reflexivity. }
    split; [|split; [|split; [|split; [|split; [|split]]]]].
    + unfold find_next_boundary. destruct first; [exfalso; apply Hne; reflexivity|].
      rewrite H1. cbn [obind]. rewrite E1. reflexivity.
    + rewrite H2, E2. rewrite <- app_assoc. reflexivity.
    + rewrite E3. rewrite app_assoc. reflexivity.
    + assumption.
    + rewrite <- H4. apply cjoin_F; assumption.
    + rewrite F_app, F_main by assumption. intros N. destruct (F seg); discriminate.
    + intros s1 x s2 Hs Hx Hs1.
      assert (exists s2', seg ++ [c] = s1 ++ x :: s2' /\ s2 = s2' ++ e) as (s2' & A & B).
      { clear - Hs Hx H3 E4.
        assert (G : (seg ++ [c]) ++ e = s1 ++ x :: s2) by (rewrite <- app_assoc; exact Hs).
        clear Hs. revert s1 G. generalize (seg ++ [c]) as u. clear H3.
        intros u. induction u as [|a u IH]; intros s1 G.
        - exfalso. cbn [app] in G. rewrite G in E4. apply Forall_app in E4 as [_ E4].
          inversion E4. congruence.
        - destruct s1 as [|b s1]; cbn [app] in G; injection G as -> G.
          + exists u. auto.
          + destruct (IH s1 G) as (s2' & -> & ->). exists s2'. auto. }
      rewrite <- (H5 s1 x s2' A Hx Hs1). apply cjoin_F; [reflexivity|].
      rewrite !F_main by assumption. rewrite B, !F_app, (F_exts e), HFa, app_nil_r by assumption.
      reflexivity.
Qed.

Lemma no_segment first : F first = [] -> find_next_boundary first = Ok [].
Proof.
  intros H. destruct first as [|c l]; [reflexivity|].
  unfold find_next_boundary. cbn [List.length boundary_loop].
  assert (E : skip_to_next (0 :: c :: l) = []).
  { pose proof (skip_next_F 0 (c :: l)) as A. pose proof (skip_next_main 0 (c :: l)) as B.
    destruct (skip_to_next (0 :: c :: l)) as [|x y]; [reflexivity|].
    cbn [main_first] in B. rewrite F_main, H in A by assumption. discriminate. }
  rewrite E. cbn [char_property skip_to_next skip_twice]. rewrite rules_eot.
  cbn [obind skip_to_end_of_extend]. reflexivity.
Qed.

(** * The whole text *)

Lemma encode_between_ok after s : Forall (fun c => 0 <= c <= 1114111) s ->
  encode_between (s ++ after) after = Ok (utf8s s).
Proof.
  induction 1 as [|c s Hc Hs IH].
  - cbn [app]. destruct after; cbn [encode_between]; rewrite Z.eqb_refl; reflexivity.
  - cbn [app encode_between]. pose proof (zlen_app s after) as L. pose proof (zlen_nonneg s).
    rewrite zlen_cons. replace (zlen (s ++ after) + 1 =? zlen after) with false by lia.
    rewrite encode_char_spec by assumption.
    replace (0 <? zlen (utf8 c)) with true.
    + rewrite IH. reflexivity.
    + unfold utf8. repeat (match goal with |- context [if ?b then _ else _] => destruct b end);
      reflexivity.
Qed.

Lemma utf8_nonzero c : 0 < c <= 1114111 -> Forall (fun b => b <> 0) (utf8 c).
Proof.
  intros H. unfold utf8.
  destruct (Z.ltb_spec c 128); [repeat constructor; lia|].
  destruct (Z.ltb_spec c 2048); [|destruct (Z.ltb_spec c 65536)];
  repeat constructor; Z.to_euclidean_division_equations; lia.
Qed.

Lemma c_string_app l m : Forall (fun b => b <> 0) l -> c_string (l ++ m) = l ++ c_string m.
Proof.
  induction 1 as [|b l Hb Hl IH]; [reflexivity|]. cbn [app c_string].
  replace (b =? 0) with false by lia. rewrite IH. reflexivity.
Qed.

Lemma c_string_utf8s s : Forall (fun c => 0 <= c <= 1114111) s ->
  c_string (utf8s s) = utf8s (before_nul s).
Proof.
  induction 1 as [|c s Hc Hs IH]; [reflexivity|].
  cbn [before_nul]. unfold utf8s in *. cbn [flat_map].
  destruct (Z.eqb_spec c 0) as [->|N]; [reflexivity|].
  rewrite c_string_app by (apply utf8_nonzero; lia). cbn [flat_map]. rewrite IH. reflexivity.
Qed.

(** The places where the code cuts the part [l1 ++ l2] of a text that follows [pre]. *)
Definition cut_place (pre l1 l2 : list Z) : Prop :=
  l1 = [] \/ l2 = [] \/
  exists x l2', l2 = x :: l2' /\ ext x = false /\ F l1 <> [] /\ cjoin (pre ++ l1) l2 = false.

Lemma app_split {A} (l1 l2 m1 m2 : list A) : l1 ++ l2 = m1 ++ m2 ->
  (exists x r, m1 = l1 ++ x :: r /\ l2 = x :: r ++ m2) \/ (exists r, l1 = m1 ++ r /\ m2 = r ++ l2).
Proof.
  revert m1. induction l1 as [|a l1 IH]; intros m1 H.
  - destruct m1 as [|b m1].
    + right. exists []. auto.
    + left. exists b, m1. auto.
  - destruct m1 as [|b m1].
    + right. exists (a :: l1). auto.
    + cbn [app] in H. injection H as -> H.
      destruct (IH _ H) as [(x & r & -> & ->)|(r & -> & ->)].
      * left. exists x, r. auto.
      * right. exists r. auto.
Qed.

Lemma words_ok fuel : forall first pre,
  (List.length first <= fuel)%nat -> (F first <> [] \/ first = []) ->
  (pre = [] \/ (main_first first /\ cjoin pre first = false)) ->
  Forall (fun c => 0 <= c <= 1114111) first ->
  exists segments, cuts first segments /\ ends_at (cut_place pre) first segments /\
  forall uc NFC wordlist,
  find_words_from uc NFC fuel first wordlist = Ok (wordlist ++ words_of uc NFC segments).
Proof.
  induction fuel as [|fuel IH]; intros first pre Hf Hne Hpre Hv.
  - destruct first; [|cbn in Hf; lia]. exists []. split; [split; [reflexivity|constructor]|].
    split.
    + intros l1 l2 E. apply app_eq_nil in E as [-> ->]. split; [left; reflexivity|].
      intros _. exists [], []. auto.
    + intros. cbn. rewrite app_nil_r. reflexivity.
  - destruct first as [|f0 first0].
    { exists []. split; [split; [reflexivity|constructor]|].
      split.
      + intros l1 l2 E. apply app_eq_nil in E as [-> ->]. split; [left; reflexivity|].
        intros _. exists [], []. auto.
      + intros. cbn. rewrite app_nil_r. reflexivity. }
    assert (Hne' : F (f0 :: first0) <> []) by (destruct Hne as [H|H]; [exact H|discriminate H]).
    remember (f0 :: first0) as first eqn:Efirst.
    destruct (segment_ok first pre Hne') as (s & after & s' & z & H1 & H2 & H3 & H4 & H5 & H6 & H7);
      [destruct Hpre as [|[]]; auto|].
    assert (Hs : s <> []) by (rewrite H3; destruct s'; discriminate).
    rewrite H2 in Hv. apply Forall_app in Hv as [Hvs Hva].
    destruct (IH after (pre ++ s)) as (segments & (C1 & C2) & E & W).
    + rewrite H2, app_length in Hf. destruct s; [contradiction|]. cbn [List.length] in Hf. lia.
    + destruct after as [|x after']; [right; reflexivity|]. left. cbn [main_first] in H4.
      rewrite F_main by assumption. discriminate.
    + right. auto.
    + assumption.
    + exists (s :: segments). split; [|split].
      * split; [cbn [concat]; rewrite C1; auto|constructor; assumption].
      * intros l1 l2 Hl. rewrite H2 in Hl.
        destruct (app_split _ _ _ _ Hl) as [(x & r & Es & El2)|(r & El1 & Ea)].
        -- split.
           ++ intros (s1 & s2 & A & B). destruct s1 as [|t s1]; [left; exact B|].
              exfalso. cbn [app] in A. injection A as <- A. cbn [concat] in B.
              apply (f_equal (@List.length Z)) in Es. rewrite B in Es.
              rewrite !app_length in Es. cbn [List.length] in Es. lia.
           ++ intros [-> | [-> | (y & l2' & A & Hy & HF & Hc)]].
              ** exists [], (s :: segments). auto.
              ** discriminate El2.
              ** exfalso. rewrite El2 in A. injection A as -> <-.
                 rewrite El2 in Hc. rewrite (H7 l1 y r Es Hy HF) in Hc. discriminate.
        -- specialize (E r l2 (eq_sym Ea)). split.
           ++ intros (s1 & s2 & A & B). destruct s1 as [|t s1].
              { cbn [concat] in B. rewrite B in El1. destruct s; [contradiction|discriminate]. }
              cbn [app] in A. injection A as <- A. cbn [concat] in B.
              rewrite El1 in B. apply app_inv_head in B.
              assert (cut_place (pre ++ s) r l2) as P by (apply E; eauto).
              destruct P as [P | [P | (y & l2' & P1 & P2 & P3 & P4)]].
              ** rewrite P in El1, Ea. rewrite app_nil_r in El1. rewrite El1. cbn [app] in Ea. rewrite <- Ea.
                 destruct after as [|y after']; [right; left; reflexivity|].
                 right. right. exists y, after'. auto.
              ** right. left. exact P.
              ** right. right. exists y, l2'. split; [assumption|]. split; [assumption|].
                 split; [rewrite El1, F_app; destruct (F s); [contradiction|discriminate]|].
                 rewrite El1, app_assoc. assumption.
           ++ intros P.
              assert (cut_place (pre ++ s) r l2) as Q.
              { destruct r as [|y r']; [left; reflexivity|].
                destruct P as [P | [P | (x & l2' & P1 & P2 & P3 & P4)]].
                - subst l1. destruct s; [contradiction|discriminate P].
                - right. left. exact P.
                - right. right. exists x, l2'. split; [assumption|]. split; [assumption|].
                  split.
                  + rewrite Ea in H4. cbn [main_first app] in H4. rewrite F_main by assumption.
                    discriminate.
                  + rewrite <- app_assoc, <- El1. assumption. }
              apply E in Q. destruct Q as (s1 & s2 & A & B).
              exists (s :: s1), s2. cbn [app concat]. rewrite A, B in *. auto.
      * intros uc NFC wl. cbn [find_words_from]. rewrite H1. cbn [obind].
        assert (Hrd : rd "first->value" first 0 = Ok f0).
        { apply rd_Ok. rewrite Efirst. apply znth_cons_0. }
        rewrite Hrd. cbn [obind].
        assert (Hst : starts_word uc s = is_word_start uc f0).
        { rewrite H2 in Efirst. destruct s as [|a s0]; [contradiction|].
          cbn [app] in Efirst. injection Efirst as -> _. reflexivity. }
        assert (Hw : append_word NFC first (z :: after) = Ok (NFC (utf8s (before_nul s)))).
        { unfold append_word. rewrite H2, encode_between_ok by assumption. cbn [obind].
          rewrite c_string_utf8s by assumption. reflexivity. }
        unfold words_of. cbn [filter]. rewrite Hst.
        destruct (is_word_start uc f0).
        -- rewrite Hw. cbn [obind map]. rewrite W. rewrite <- app_assoc. reflexivity.
        -- cbn [obind]. apply W.
Qed.

Lemma find_words_empty uc NFC text wl : F text = [] -> find_words uc NFC wl text = Ok wl.
Proof.
  intros H. unfold find_words.
  destruct text as [|c t]; [reflexivity|].
  cbn [List.length find_words_from]. rewrite no_segment by assumption. reflexivity.
Qed.

Lemma find_words_ok text : Forall (fun c => 0 <= c <= 1114111) text -> F text <> [] ->
  exists segments, cuts text segments /\ ends_at (cut_place []) text segments /\
  forall uc NFC wordlist,
  find_words uc NFC wordlist text = Ok (wordlist ++ words_of uc NFC segments).
Proof. intros H Hne. apply words_ok; auto. Qed.

(** * The annex *)

Lemma last_of_snoc {A} (l : list A) x : last_of (l ++ [x]) = Some x.
Proof. unfold last_of. rewrite rev_app_distr. reflexivity. Qed.

Definition G (l : list wb_property) : list wb_property :=
  filter (fun p => negb (ExtendOrFormat p)) l.

Lemma F_G l : F l = G (map prop l).
Proof.
  induction l as [|c l IH]; [reflexivity|]. unfold F, G in *. cbn [map filter]. fold (ext c).
  destruct (ext c); cbn [negb map]; rewrite IH; reflexivity.
Qed.

Lemma remaining_det prev l r1 : remaining prev l r1 -> forall r2, remaining prev l r2 -> r1 = r2.
Proof.
  induction 1; intros r2 H2; inversion H2; subst; try contradiction; auto.
  f_equal. auto.
Qed.

Lemma remaining_follow l : forall l0, extends_follow (l0 ++ l) -> remaining (last_of l0) l (G l).
Proof.
  induction l as [|p l IH]; intros l0 H; [constructor|].
  unfold G. cbn [filter]. fold (G l).
  specialize (IH (l0 ++ [p])). rewrite last_of_snoc, <- app_assoc in IH. specialize (IH H).
  destruct (ExtendOrFormat p) eqn:E; cbn [negb].
  - apply remaining_drop; [|assumption].
    apply ExtendOrFormat_spec in E. split; [assumption|].
    destruct (H l0 p l eq_refl E) as (m & q & -> & Hq). exists q. rewrite last_of_snoc. auto.
  - apply remaining_keep; [|assumption].
    intros [X _]. apply ExtendOrFormat_spec in X. congruence.
Qed.

Lemma boundary_cut l1 l2 : extends_follow (map prop (l1 ++ l2)) ->
  (cut_place [] l1 l2 <-> boundary (map prop l1) (map prop l2)).
Proof.
  intros H. rewrite map_app in H.
  assert (R2 : remaining (last_of (map prop l1)) (map prop l2) (F l2)).
  { rewrite F_G. apply remaining_follow. assumption. }
  assert (R1 : remaining None (map prop l1) (F l1)).
  { rewrite F_G. apply (remaining_follow (map prop l1) []). cbn [app].
    intros m1 p m2 E Hp. apply (H m1 p (m2 ++ map prop l2)); [|assumption].
    rewrite E, <- app_assoc. reflexivity. }
  destruct l1 as [|c1 l1']; [split; intros; left; reflexivity|].
  assert (HF1 : F (c1 :: l1') <> []).
  { destruct (ext c1) eqn:E; [|rewrite F_main by assumption; discriminate].
    apply ExtendOrFormat_spec in E.
    destruct (H [] (prop c1) (map prop l1' ++ map prop l2) eq_refl E) as (m & q & N & _).
    destruct m; discriminate N. }
  assert (IG : forall x l2', l2 = x :: l2' ->
    (ext x = false <-> ~ ignored (last_of (map prop (c1 :: l1'))) (prop x))).
  { intros x l2' ->. cbn [map] in H. unfold ext. split.
    - intros E [X _]. apply ExtendOrFormat_spec in X. congruence.
    - intros N. destruct (ExtendOrFormat (prop x)) eqn:E; [|reflexivity]. exfalso. apply N.
      apply ExtendOrFormat_spec in E. split; [assumption|].
      destruct (H _ (prop x) (map prop l2') eq_refl E) as (m & q & M & Hq).
      exists q. split; [|assumption]. cbn [map]. rewrite M. apply last_of_snoc. }
  unfold cut_place, boundary. split.
  - intros [N | [-> | (x & l2' & -> & P2 & P3 & P4)]]; [discriminate| right; left; reflexivity|].
    right. right. exists (prop x), (map prop l2'). split; [reflexivity|].
    split; [apply (IG x l2' eq_refl); assumption|].
    exists (F (c1 :: l1')), (F (x :: l2')). split; [assumption|]. split; [assumption|].
    rewrite <- rules_joined. unfold cjoin in P4. cbn [app] in P4. congruence.
  - intros [N | [N | (p & l2' & E & Hi & r1 & r2 & A1 & A2 & J)]].
    + discriminate.
    + apply map_eq_nil in N. right. left. assumption.
    + right. right. destruct l2 as [|x l2'']; [discriminate|]. exists x, l2''.
      split; [reflexivity|]. split.
      * apply (IG x l2'' eq_refl). cbn [map] in E.
        apply (f_equal (hd eot)) in E. cbn [hd] in E. rewrite E. assumption.
      * split; [assumption|].
        rewrite (remaining_det _ _ _ A1 _ R1), (remaining_det _ _ _ A2 _ R2) in J.
        rewrite <- rules_joined in J. unfold cjoin. cbn [app].
        match goal with |- ?b = false => destruct b eqn:Eb; [exfalso; apply J; reflexivity|reflexivity] end.
Qed.

Lemma extends_follow_F text : extends_follow (map prop text) -> text <> [] -> F text <> [].
Proof.
  intros H Hne. destruct text as [|c t]; [contradiction|].
  destruct (ext c) eqn:E; [|rewrite F_main by assumption; discriminate].
  apply ExtendOrFormat_spec in E. cbn [map] in H.
  destruct (H [] (prop c) (map prop t) eq_refl E) as (m & q & N & _). destruct m; discriminate N.
Qed.

(** There is only one way to cut a text at given places. *)
Lemma cuts_unique {A} (P : list A -> list A -> Prop) text segs1 segs2 :
  cuts text segs1 -> ends_at P text segs1 -> cuts text segs2 -> ends_at P text segs2 ->
  segs1 = segs2.
Proof.
  intros (C1 & N1) E1 (C2 & N2) E2.
  assert (Q : forall s1 s2, segs1 = s1 ++ s2 -> exists t1 t2, segs2 = t1 ++ t2 /\ concat s1 = concat t1).
  { intros s1 s2 E. assert (X : concat s1 ++ concat s2 = text).
    { rewrite <- concat_app, <- E. assumption. }
    apply (E2 _ _ X). apply (E1 _ _ X). eauto. }
  assert (Q' : forall s1 s2, segs2 = s1 ++ s2 -> exists t1 t2, segs1 = t1 ++ t2 /\ concat s1 = concat t1).
  { intros s1 s2 E. assert (X : concat s1 ++ concat s2 = text).
    { rewrite <- concat_app, <- E. assumption. }
    apply (E1 _ _ X). apply (E2 _ _ X). eauto. }
  clear E1 E2. rewrite <- C2 in C1. clear C2 P text.
  revert segs2 C1 N2 Q Q'. induction N1 as [|a s Ha N1 IH]; intros [|b t] C N2 Q Q'.
  - reflexivity.
  - cbn [concat] in C. inversion N2. destruct b; [contradiction|discriminate].
  - cbn [concat] in C. destruct a; [contradiction|discriminate].
  - inversion N2 as [|? ? Hb N2']; subst.
    assert (a = b).
    { destruct (Q [a] s eq_refl) as (t1 & t2 & E & X). destruct (Q' [b] t eq_refl) as (u1 & u2 & E' & X').
      destruct t1 as [|b' t1].
      { cbn in X. rewrite app_nil_r in X. contradiction. }
      destruct u1 as [|a' u1].
      { cbn in X'. rewrite app_nil_r in X'. contradiction. }
      cbn [app] in E, E'. injection E as <- E. injection E' as <- E'.
      cbn [concat] in X, X'. rewrite app_nil_r in X, X'.
      pose proof (f_equal (@List.length A) X) as L. pose proof (f_equal (@List.length A) X') as L'.
      rewrite app_length in L, L'.
      destruct (concat t1) as [|y u]; [rewrite X; apply app_nil_r|].
      cbn [List.length] in L. lia. }
    subst b. f_equal. cbn [concat] in C. apply app_inv_head in C.
    apply IH; auto.
    + intros s1 s2 ->. destruct (Q (a :: s1) s2 eq_refl) as (t1 & t2 & E & X).
      destruct t1 as [|b t1].
      { cbn in X. destruct a; [contradiction|discriminate]. }
      cbn [app] in E. injection E as <- E. cbn [concat] in X. apply app_inv_head in X. eauto.
    + intros s1 s2 ->. destruct (Q' (a :: s1) s2 eq_refl) as (t1 & t2 & E & X).
      destruct t1 as [|b t1].
      { cbn in X. destruct a; [contradiction|discriminate]. }
      cbn [app] in E. injection E as <- E. cbn [concat] in X. apply app_inv_head in X. eauto.
Qed.

(** * Properties of code points and of texts *)

Lemma has_property_prop c p : has_property c p <-> p = prop c.
Proof.
  assert (U : forall p, has_property c p -> property c = Ok p).
  { intros q Hq. destruct (property_ok c) as (p0 & E & Hp0). rewrite E. f_equal.
    destruct Hp0 as [(r & I & R & V)|(N & V)]; destruct Hq as [(r' & I' & R' & V')|(N' & V')].
    - rewrite <- V, <- V'. f_equal.
      apply (sorted_unique WORD_BREAK_PROPERTY c); auto using table_sorted.
    - exfalso. apply (N' _ I R).
    - exfalso. apply (N _ I' R').
    - congruence. }
  split.
  - intros H. unfold prop. rewrite (U _ H). reflexivity.
  - intros ->. destruct (property_ok c) as (p0 & E & H). unfold prop. rewrite E. exact H.
Qed.

Lemma has_properties l p : Forall2 has_property l p <-> p = map prop l.
Proof.
  split.
  - induction 1 as [|c q l p H _ IH]; [reflexivity|]. cbn [map].
    apply has_property_prop in H. subst. reflexivity.
  - intros ->. induction l as [|c l IH]; constructor; [apply has_property_prop; reflexivity|auto].
Qed.

Lemma word_boundary_prop l1 l2 : word_boundary l1 l2 <-> boundary (map prop l1) (map prop l2).
Proof.
  unfold word_boundary. split.
  - intros (p1 & p2 & H1 & H2 & B). apply has_properties in H1, H2. subst. assumption.
  - intros B. exists (map prop l1), (map prop l2). rewrite !has_properties. auto.
Qed.

Lemma mains_G l : mains l = G l.
Proof.
  unfold mains, G. apply filter_ext. intros []; reflexivity.
Qed.

Lemma loose_cut l1 l2 : loose_word_boundary l1 l2 <-> cut_place [] l1 l2.
Proof.
  assert (X : loose_word_boundary l1 l2 <-> loose_boundary (map prop l1) (map prop l2)).
  { unfold loose_word_boundary. split.
    - intros (p1 & p2 & H1 & H2 & B). apply has_properties in H1, H2. subst. assumption.
    - intros B. exists (map prop l1), (map prop l2). rewrite !has_properties. auto. }
  rewrite X. unfold loose_boundary, cut_place. rewrite !mains_G, <- !F_G. split.
  - intros [N | [N | (p & l2' & E & Hp & Hm & J)]].
    + left. apply map_eq_nil in N. assumption.
    + right. left. apply map_eq_nil in N. assumption.
    + right. right. destruct l2 as [|x l2'']; [discriminate E|]. exists x, l2''.
      cbn [map] in E. apply (f_equal (hd eot)) in E. cbn [hd] in E. subst p.
      split; [reflexivity|]. split; [|split; [assumption|]].
      * destruct (ext x) eqn:Ex; [|reflexivity]. apply ExtendOrFormat_spec in Ex. contradiction.
      * rewrite <- rules_joined in J. unfold cjoin. cbn [app].
        match goal with |- ?b = false =>
          destruct b eqn:Eb; [exfalso; apply J; reflexivity|reflexivity] end.
  - intros [-> | [-> | (x & l2' & -> & Hx & Hm & J)]]; auto.
    right. right. exists (prop x), (map prop l2'). split; [reflexivity|].
    split; [|split; [assumption|]].
    + rewrite <- ExtendOrFormat_spec. unfold ext in Hx. congruence.
    + rewrite <- rules_joined. unfold cjoin in J. cbn [app] in J. congruence.
Qed.

Lemma ends_at_iff {A} (P Q : list A -> list A -> Prop) text segs :
  (forall l1 l2, l1 ++ l2 = text -> (P l1 l2 <-> Q l1 l2)) ->
  ends_at P text segs -> ends_at Q text segs.
Proof. intros H E l1 l2 Hl. rewrite (E l1 l2 Hl). apply H. assumption. Qed.

(** NUL characters. *)
Lemma prop_nul : prop 0 = Other.
Proof.
  symmetry. apply has_property_prop. right. split; [|reflexivity].
  intros r Hr. pose proof (sorted_low _ _ table_sorted) as S. rewrite Forall_forall in S.
  specialize (S _ Hr). cbv beta in S. unfold in_range. lia.
Qed.

Lemma joined_other a b c d : joined a b c d -> b <> Other /\ c <> Other.
Proof.
  intros H; inversion H; subst; unfold ahletter, midnumletq in *;
  repeat match goal with H : _ \/ _ |- _ => destruct H end; subst; split; discriminate.
Qed.

Lemma before_nul_id s : ~ In 0 s -> before_nul s = s.
Proof.
  induction s as [|c s IH]; intros H; [reflexivity|]. cbn [before_nul].
  destruct (Z.eqb_spec c 0) as [->|N]; [exfalso; apply H; left; reflexivity|].
  rewrite IH; [reflexivity|]. intros I. apply H. right. assumption.
Qed.

Lemma no_nul_inside text segs s : cuts text segs -> ends_at (cut_place []) text segs ->
  main_first text -> In s segs -> In 0 (tl s) -> False.
Proof.
  intros (C & N) E M I Z0.
  apply in_split in I as (g1 & g2 & ->).
  destruct s as [|c s]; [contradiction|]. cbn [tl] in Z0.
  apply in_split in Z0 as (u & v & ->).
  assert (Hx0 : ext 0 = false) by (unfold ext; rewrite prop_nul; reflexivity).
  set (l1 := concat g1 ++ c :: u). set (l2 := 0 :: v ++ concat g2).
  assert (T : l1 ++ l2 = text).
  { rewrite <- C. unfold l1, l2. rewrite concat_app. cbn [concat]. rewrite <- !app_assoc. cbn [app].
    rewrite <- app_assoc. reflexivity. }
  assert (P : cut_place [] l1 l2).
  { right. right. exists 0, (v ++ concat g2). split; [reflexivity|]. split; [assumption|]. split.
    - destruct l1 as [|x l1'] eqn:El.
      { unfold l1 in El. destruct (concat g1); discriminate El. }
      rewrite <- T in M. cbn [app main_first] in M. rewrite F_main by assumption. discriminate.
    - unfold cjoin. destruct (rules _ _ _ _) eqn:Er; [exfalso|reflexivity].
      apply rules_joined in Er. apply joined_other in Er as [_ Er]. apply Er.
      unfold l2. rewrite F_main by assumption. cbn [hd]. apply prop_nul. }
  apply (E _ _ T) in P. destruct P as (h1 & h2 & Hs & Hl).
  (* the place lies inside the segment *)
  assert (K : forall (g1 : list (list Z)) g2 h1 h2 w z (y : list Z),
    g1 ++ ((w ++ z) :: g2) = h1 ++ h2 -> concat g1 ++ w = concat h1 -> w <> [] -> z <> [] -> False).
  { clear. induction g1 as [|a g1 IH]; intros g2 h1 h2 w z y A B Hw Hz.
    - destruct h1 as [|b h1].
      + cbn in B. contradiction.
      + cbn [app] in A. injection A as <- A. cbn [concat app] in B.
        apply (f_equal (@List.length Z)) in B. rewrite !app_length in B.
        destruct z; [contradiction|]. cbn [List.length] in B. lia.
    - destruct h1 as [|b h1].
      + cbn [concat] in B. apply (f_equal (@List.length Z)) in B. rewrite !app_length in B.
        destruct w; [contradiction|]. cbn [List.length] in B. lia.
      + cbn [app] in A. injection A as <- A. cbn [concat] in B. rewrite <- app_assoc in B.
        apply app_inv_head in B. eapply IH; eauto. }
  apply (K g1 g2 h1 h2 (c :: u) (0 :: v) []); auto; discriminate.
Qed.
