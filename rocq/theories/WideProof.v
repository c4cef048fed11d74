(** The checked counters agree with the unbounded ones: tools, and accuracy. *)
From Coq Require Import String.
From Verif Require Import Base CLib Utf8Model TextModel CharclassModel CompareModel SortModel SyncModel
  SyncSpec AccModel AccSpec SumProof AccCount AccTop ReportModel AccrptModel WideModel.
Local Open Scope Z_scope.
Local Open Scope list_scope.

(** Both give the same outcome, and a result satisfies [P]. *)
Definition agree {A} (P : A -> Prop) (x y : outcome A) : Prop := x = y /\ forall r, y = Ok r -> P r.

Lemma agree_refl {A} (P : A -> Prop) x : (forall r, x = Ok r -> P r) -> agree P x x.
Proof. split; auto. Qed.
Lemma agree_ok {A} (P : A -> Prop) r : P r -> agree P (Ok r) (Ok r).
Proof. intros H. split; [reflexivity|]. intros r' E. injection E as <-. exact H. Qed.
Lemma agree_weak {A} (P Q : A -> Prop) x y : agree P x y -> (forall r, P r -> Q r) -> agree Q x y.
Proof. intros [E H] W. split; auto. Qed.
Lemma agree_bind {A B} (P : A -> Prop) (Q : B -> Prop) x y (f g : A -> outcome B) :
  agree P x y -> (forall r, P r -> agree Q (f r) (g r)) -> agree Q (obind x f) (obind y g).
Proof.
  intros [-> H] F. destruct y as [r|m|m|]; cbn [obind].
  - exact (F r (H r eq_refl)).
  - apply agree_refl. intros r E. discriminate E.
  - apply agree_refl. intros r E. discriminate E.
  - apply agree_refl. intros r E. discriminate E.
Qed.
(** [x] is checked, [y] is not. *)
Lemma agree_long {A B} (Q : B -> Prop) ok (a : A) (f : A -> outcome B) y :
  ok = true -> agree Q (f a) y -> agree Q (obind (long ok a) f) y.
Proof. intros -> H. exact H. Qed.
Lemma agree_ofold {A B} (I : list A -> B -> Prop) (f g : B -> A -> outcome B) :
  (forall x l acc, I (x :: l) acc -> agree (I l) (f acc x) (g acc x)) ->
  forall l acc, I l acc -> agree (I []) (ofold f l acc) (ofold g l acc).
Proof.
  intros S. induction l as [|x l IH]; intros acc H; cbn [ofold]; [now apply agree_ok|].
  eapply agree_bind; [exact (S x l acc H)|exact IH].
Qed.

Lemma is_long_true z : -9223372036854775808 <= z <= 9223372036854775807 -> is_long z = true.
Proof. unfold is_long, LONG_MIN, LONG_MAX. lia. Qed.

Definition upto (n z : Z) : Prop := 0 <= z <= n.
Definition cls_upto n (c : accclass) : Prop := upto n (ccount c) /\ upto n (cmissed c).
Definition ops_upto n (o : accops) : Prop :=
  upto n (ins o) /\ upto n (AccModel.subst o) /\ upto n (del o) /\ upto n (errs o).
Definition num_upto a b c o (d : accdata) : Prop :=
  upto a (characters d) /\ upto b (errors d) /\ upto a (rejects d) /\ upto a (suspects d) /\
  upto c (false_marks d) /\ ops_upto o (marked_ops d) /\ ops_upto o (unmarked_ops d) /\
  ops_upto o (total_ops d).
Definition tab_upto n (d : accdata) : Prop :=
  (forall k, cls_upto n (large d k)) /\ cls_upto n (total_class d) /\ (forall v, cls_upto n (small d v)).
Definition conf_upto n (d : accdata) : Prop :=
  Forall (fun c => upto n (cerrors c) /\ upto n (cmarked c)) (conftable d).
(** The counts of characters and marks are at most [a], errors [b], false marks [c], operations
    [o], the tables of characters [n], the confusions [q]. *)
Definition figs_upto a b c o n q d : Prop := num_upto a b c o d /\ tab_upto n d /\ conf_upto q d.

Definition TOP : Z := 9223372036854775807.

Lemma class_long_true n c : cls_upto n c -> n <= TOP -> class_long c = true.
Proof. intros [? ?] ?. unfold class_long, upto, TOP in *. rewrite !is_long_true by lia. reflexivity. Qed.
Lemma ops_long_true n o : ops_upto n o -> n <= TOP -> ops_long o = true.
Proof. intros (? & ? & ? & ?) ?. unfold ops_long, upto, TOP in *. rewrite !is_long_true by lia. reflexivity. Qed.

Lemma cls_more n k c : cls_upto n c -> 0 <= k -> cls_upto (n + k) c.
Proof. unfold cls_upto, upto. lia. Qed.
Lemma update_upto n k c x y : cls_upto n c -> upto k x -> upto k y -> cls_upto (n + k) (update_class c x y).
Proof. unfold cls_upto, upto. cbn. lia. Qed.
Lemma upd_upto n k f i x y : (forall j, cls_upto n (f j)) -> upto k x -> upto k y ->
  forall j, cls_upto (n + k) (upd f i (update_class (f i) x y) j).
Proof.
  intros F X Y j. unfold upd. destruct (j =? i); [now apply update_upto|]. apply cls_more; [apply F|].
  unfold upto in X. lia.
Qed.

Lemma add_class_agree a b c o n q k d v x y : figs_upto a b c o n q d -> upto k x -> upto k y -> n + k <= TOP ->
  agree (figs_upto a b c o (n + k) q) (add_class64 d v x y) (add_class d v x y).
Proof.
  intros (N & (TL & TT & TS) & C) X Y M. unfold add_class64, add_class.
  destruct (charclass v) as [kk|m|m|]; cbn [obind]; try (apply agree_refl; intros r E; discriminate E).
  destruct ((0 <=? v) && (v <? NUM_CHARVALUES)); cbn [obind];
    [|apply agree_refl; intros r E; discriminate E].
  assert (T : forall d', d' = mkacc (characters d) (errors d) (rejects d) (suspects d) (false_marks d)
                (marked_ops d) (unmarked_ops d) (total_ops d)
                (upd (large d) kk (update_class (large d kk) x y)) (update_class (total_class d) x y)
                (conftable d) (upd (small d) v (update_class (small d v) x y)) ->
              tab_upto (n + k) d').
  { intros d' ->. split; [|split]; cbn [large total_class small];
      [now apply upd_upto|now apply update_upto|now apply upd_upto]. }
  specialize (T _ eq_refl). destruct T as (T1 & T2 & T3).
  unfold long. rewrite (class_long_true _ _ (T1 kk) M), (class_long_true _ _ T2 M), (class_long_true _ _ (T3 v) M).
  cbn [andb]. apply agree_ok. split; [exact N|]. split; [|exact C]. split; [exact T1|split; [exact T2|exact T3]].
Qed.

Lemma conf_add_upto n k l key x y : upto k x -> upto k y -> 0 <= n ->
  Forall (fun c => upto n (cerrors c) /\ upto n (cmarked c)) l ->
  Forall (fun c => upto (n + k) (cerrors c) /\ upto (n + k) (cmarked c)) (conf_add l key x y).
Proof.
  intros X Y Hn. induction l as [|c l IH]; intros F; cbn [conf_add].
  - constructor; [cbn; unfold upto in *; lia|constructor].
  - apply Forall_cons_iff in F as [H F]. destruct (streq (ckey c) key).
    + constructor; [cbn; unfold upto in *; lia|]. eapply Forall_impl; [|exact F]. cbn. unfold upto in *. lia.
    + constructor; [unfold upto in *; lia|auto].
Qed.
Lemma add_conf_agree a b c o n q k d key x y : figs_upto a b c o n q d -> upto k x -> upto k y -> 0 <= q -> q + k <= TOP ->
  agree (figs_upto a b c o n (q + k)) (add_conf64 d key x y) (Ok (add_conf d key x y)).
Proof.
  intros (N & T & C) X Y Q M. unfold add_conf64.
  assert (C' : conf_upto (q + k) (add_conf d key x y)) by (apply conf_add_upto; assumption).
  replace (forallb _ _) with true; [apply agree_ok; split; [exact N|split; [exact T|exact C']]|].
  symmetry. apply forallb_forall. intros cf Hc. unfold conf_upto in C'. rewrite Forall_forall in C'.
  destruct (C' cf Hc). unfold upto, TOP in *. rewrite !is_long_true by lia. reflexivity.
Qed.
Lemma add_counts_agree a b c o n q k1 k2 k3 d ch er re su fm : figs_upto a b c o n q d ->
  upto k1 ch -> upto k2 er -> upto k1 re -> upto k1 su -> upto k3 fm ->
  a + k1 <= TOP -> b + k2 <= TOP -> c + k3 <= TOP ->
  agree (figs_upto (a + k1) (b + k2) (c + k3) o n q) (add_counts64 d ch er re su fm)
        (Ok (add_counts d ch er re su fm)).
Proof.
  intros (N & T & C) X1 X2 X3 X4 X5 M1 M2 M3. unfold add_counts64.
  assert (N' : num_upto (a + k1) (b + k2) (c + k3) o (add_counts d ch er re su fm)).
  { unfold num_upto, ops_upto, upto in *. cbn. lia. }
  replace (is_long _ && _ && _ && _ && _) with true;
    [apply agree_ok; split; [exact N'|split; [exact T|exact C]]|].
  symmetry. unfold num_upto, upto, TOP in *. rewrite !is_long_true by lia. reflexivity.
Qed.
Lemma with_ops_agree a b c o n q k d m u t : figs_upto a b c o n q d ->
  ops_upto k m -> ops_upto k u -> ops_upto k t -> o + k <= TOP ->
  agree (figs_upto a b c (o + k) n q) (with_ops64 d m u t) (Ok (with_ops d m u t)).
Proof.
  intros (N & T & C) X1 X2 X3 M. unfold with_ops64.
  assert (N' : num_upto a b c (o + k) (with_ops d m u t)).
  { unfold num_upto, ops_upto, upto in *. cbn. lia. }
  destruct N' as (N1 & N2 & N3 & N4 & N5 & O1 & O2 & O3).
  unfold long. rewrite (ops_long_true _ _ O1 M), (ops_long_true _ _ O2 M), (ops_long_true _ _ O3 M).
  cbn [andb]. apply agree_ok. split; [|split; [exact T|exact C]]. unfold num_upto. tauto.
Qed.

(** The two loops of one item. *)
Lemma count_correct_agree a b c o q matched cs d n : figs_upto a b c o n q d -> 0 <= n -> n + zlen cs <= TOP ->
  agree (fun r => let '(d', ch, wild) := r in
           figs_upto a b c o (n + zlen cs) q d' /\ 0 <= ch /\ 0 <= wild /\ ch + wild = zlen cs)
        (count_correct64 matched cs d) (count_correct matched cs d).
Proof.
  intros F Hn M. unfold count_correct64, count_correct.
  pose (I := fun (l : list char) (st : accdata * Z * Z) => let '(d', ch, wild) := st in
           figs_upto a b c o (n + zlen cs - zlen l) q d' /\ 0 <= ch /\ 0 <= wild /\ ch + wild = zlen cs - zlen l).
  eapply agree_weak.
  - apply (agree_ofold I).
    + intros cr l [[d' ch] wild] (A & B & W & E). rewrite zlen_cons in *. pose proof (zlen_nonneg l).
      unfold count_correct_step64, count_correct_step, TOP in *.
      destruct (TextModel.value cr =? REJECT).
      * apply agree_long; [apply is_long_true; lia|]. apply agree_ok. unfold I.
        split; [|lia]. destruct A as (A1 & A2 & A3). split; [exact A1|]. split; [|exact A3].
        replace (n + zlen cs - zlen l) with (n + zlen cs - (zlen l + 1) + 1) by lia.
        destruct A2 as (X & Y & Z). split; [|split]; intros; apply cls_more; try lia; auto.
      * apply agree_long; [apply is_long_true; lia|].
        eapply agree_bind; [apply (add_class_agree a b c o _ q 1 _ _ _ _ A)|].
        -- unfold upto. lia.
        -- unfold upto. destruct matched; lia.
        -- unfold TOP. lia.
        -- intros d2 A'. apply agree_ok. unfold I.
           replace (n + zlen cs - zlen l) with (n + zlen cs - (zlen l + 1) + 1) by lia.
           split; [exact A'|lia].
    + unfold I. replace (n + zlen cs - zlen cs) with n by lia. split; [exact F|lia].
  - intros [[d' ch] wild]. unfold I. rewrite zlen_nil, !Z.sub_0_r. auto.
Qed.

Lemma count_generated_agree cs : zlen cs <= TOP ->
  count_generated64 cs = Ok (count_generated cs) /\
  0 <= fst (count_generated cs) /\ 0 <= snd (count_generated cs) /\
  fst (count_generated cs) + snd (count_generated cs) <= zlen cs.
Proof.
  intros M. unfold count_generated64, count_generated.
  assert (H : forall l re su, 0 <= re -> 0 <= su -> re + su + zlen l <= TOP ->
    let f := (fun (st : Z * Z) c => let '(re, su) := st in
           if TextModel.value c =? REJECT then long (is_long (re + 1)) (re + 1, su)
           else if TextModel.suspect c then long (is_long (su + 1)) (re, su + 1) else Ok (re, su)) in
    let g := (fun (st : Z * Z) c => let '(re, su) := st in
           if TextModel.value c =? REJECT then (re + 1, su)
           else if TextModel.suspect c then (re, su + 1) else (re, su)) in
    ofold f l (re, su) = Ok (fold_left g l (re, su)) /\
    0 <= fst (fold_left g l (re, su)) /\ 0 <= snd (fold_left g l (re, su)) /\
    fst (fold_left g l (re, su)) + snd (fold_left g l (re, su)) <= re + su + zlen l).
  { induction l as [|c l IH]; intros re su R S L f g.
    - cbn [ofold fold_left fst snd]. clear f g. change (zlen (@nil char)) with 0 in *. split; [reflexivity|lia].
    - rewrite zlen_cons in *. pose proof (zlen_nonneg l). cbn [ofold fold_left].
      assert (E : f (re, su) c = Ok (g (re, su) c)).
      { unfold f, g, TOP in *. destruct (_ =? _); [rewrite is_long_true by lia; reflexivity|].
        destruct (suspect c); [rewrite is_long_true by lia; reflexivity|reflexivity]. }
      rewrite E. cbn [obind]. destruct (g (re, su) c) as [re' su'] eqn:Eg.
      assert (0 <= re' /\ 0 <= su' /\ re' + su' <= re + su + 1) as (? & ? & ?).
      { unfold g in Eg. destruct (_ =? _); [|destruct (suspect c)]; injection Eg as <- <-; lia. }
      destruct (IH re' su' ltac:(lia) ltac:(lia) ltac:(lia)) as (IH1 & IH2 & IH3 & IH4).
      split; [exact IH1|]. split; [exact IH2|]. split; [exact IH3|]. unfold g in *. lia. }
  specialize (H cs 0 0 ltac:(lia) ltac:(lia) ltac:(lia)). cbv zeta in H. tauto.
Qed.

Lemma figs_le a b c o n q m d : figs_upto a b c o n q d ->
  a <= m -> b <= m -> c <= m -> o <= m -> n <= m -> q <= m -> figs_upto m m m m m m d.
Proof.
  intros (N & (T1 & T2 & T3) & C) A1 A2 A3 A4 A5 A6. split; [|split].
  - unfold num_upto, ops_upto, upto in *. lia.
  - split; [|split]; intros; [specialize (T1 k)| |specialize (T3 v)]; unfold cls_upto, upto in *; lia.
  - eapply Forall_impl; [|exact C]. cbn. unfold upto. lia.
Qed.

(** How many characters an item takes from the two texts. *)
Definition item_chars (it : item) : Z :=
  match isubs it with s0 :: s1 :: _ => slen s0 + slen s1 | _ => 0 end.

Section Texts.
Variable uc : unicode_data.
Variables t0 t1 : list char.

Lemma process_item_agree n d it : item_ok t0 t1 it -> figs_upto n n n n n n d -> 0 <= n ->
  n + item_chars it <= TOP ->
  agree (figs_upto (n + item_chars it) (n + item_chars it) (n + item_chars it) (n + item_chars it)
                   (n + item_chars it) (n + item_chars it))
        (process_item64 uc t0 t1 d it) (process_item uc t0 t1 d it).
Proof.
  intros (s0 & s1 & E & O0 & O1) F Hn M. unfold item_chars, process_item64, process_item in *. rewrite E in *.
  rewrite !sub_chars_ok by assumption. cbn [obind].
  pose proof (part_len _ _ O0) as P0. pose proof (part_len _ _ O1) as P1.
  pose proof (zlen_nonneg (part t0 s0)). pose proof (zlen_nonneg (part t1 s1)).
  set (k := slen s0 + slen s1) in *.
  eapply agree_bind; [apply (count_correct_agree n n n n n _ _ _ n F Hn); rewrite P0; lia|].
  intros [[d1 ch] wild] (F1 & C1 & C2 & C3). rewrite P0 in *. cbv beta iota.
  destruct (count_generated_agree (part t1 s1) ltac:(lia)) as (G & G1 & G2 & G3). rewrite G. cbn [obind].
  destruct (count_generated (part t1 s1)) as [re su]. cbn [fst snd] in *. rewrite P1 in *.
  change (add_counts d1 ch 0 re su 0) with (add_counts d1 ch 0 re su 0).
  pose proof (add_counts_agree n n n n (n + slen s0) n k 0 0 d1 ch 0 re su 0 F1
                ltac:(unfold upto; lia) ltac:(unfold upto; lia) ltac:(unfold upto; lia)
                ltac:(unfold upto; lia) ltac:(unfold upto; lia) ltac:(lia) ltac:(lia) ltac:(lia)) as [A1 A2].
  rewrite A1. cbn [obind]. specialize (A2 _ eq_refl). set (d2 := add_counts d1 ch 0 re su 0) in *.
  destruct (inum it).
  - eapply agree_weak.
    + apply (add_counts_agree _ _ _ _ _ _ 0 0 k _ _ _ _ _ _ A2); unfold upto; lia.
    + intros r Hr. eapply figs_le; [exact Hr|lia..].
  - apply agree_long; [apply is_long_true; unfold TOP in *; lia|].
    set (gen := Z.max 0 (slen s1 - wild)). set (er := Z.max ch gen).
    assert (0 <= gen <= slen s1) as Hg by (unfold gen; lia).
    assert (0 <= er <= k) as He by (unfold er; lia).
    destruct (0 <? er); [|apply agree_ok; eapply figs_le; [exact A2|lia..]].
    destruct (add_counts_agree _ _ _ _ _ _ 0 k 0 d2 0 er 0 0 0 A2
                ltac:(unfold upto; lia) ltac:(unfold upto; lia) ltac:(unfold upto; lia)
                ltac:(unfold upto; lia) ltac:(unfold upto; lia) ltac:(lia) ltac:(lia) ltac:(lia)) as [B1 B2].
    rewrite B1. cbn [obind]. specialize (B2 _ eq_refl). set (d3 := add_counts d2 0 er 0 0 0) in *.
    apply agree_long; [apply is_long_true; unfold TOP in *; lia|].
    apply agree_long; [apply is_long_true; unfold TOP in *; lia|].
    eapply agree_bind; [apply (agree_refl (fun _ => True)); auto|]. intros key _.
    apply agree_long; [apply is_long_true; unfold TOP in *; lia|].
    set (ops := mkops _ _ _ _).
    assert (Ho : ops_upto k ops) by (unfold ops, ops_upto, upto; cbn; lia).
    assert (Hz : ops_upto k no_ops) by (unfold no_ops, ops_upto, upto; cbn; lia).
    destruct (0 <? re + su).
    + destruct (add_conf_agree _ _ _ _ _ _ k d3 key er er B2 ltac:(unfold upto; lia) ltac:(unfold upto; lia)
                  ltac:(lia) ltac:(lia)) as [D1 D2].
      rewrite D1. cbn [obind]. specialize (D2 _ eq_refl). eapply agree_weak.
      * apply (with_ops_agree _ _ _ _ _ _ k _ _ _ _ D2); auto.
      * intros r Hr. eapply figs_le; [exact Hr|lia..].
    + destruct (add_conf_agree _ _ _ _ _ _ k d3 key er 0 B2 ltac:(unfold upto; lia) ltac:(unfold upto; lia)
                  ltac:(lia) ltac:(lia)) as [D1 D2].
      rewrite D1. cbn [obind]. specialize (D2 _ eq_refl). eapply agree_weak.
      * apply (with_ops_agree _ _ _ _ _ _ k _ _ _ _ D2); auto.
      * intros r Hr. eapply figs_le; [exact Hr|lia..].
Qed.

Lemma items_chars l : Forall (item_ok t0 t1) l ->
  zsum (map item_chars l) = zlen (flat_map (correct t0) l) + zlen (flat_map (generated t1) l).
Proof.
  induction 1 as [|it l (s0 & s1 & E & O0 & O1) F IH]; [reflexivity|].
  cbn [map flat_map]. rewrite zsum_cons, IH, !zlen_app. unfold item_chars at 1. rewrite E.
  unfold correct at 2, generated at 2, nth_part. rewrite E.
  change (znth [s0; s1] 0) with (Some s0). change (znth [s0; s1] 1) with (Some s1).
  cbv iota. rewrite (part_len _ _ O0), (part_len _ _ O1). lia.
Qed.
Lemma item_chars_nonneg it : item_ok t0 t1 it -> 0 <= item_chars it.
Proof. intros (s0 & s1 & E & (_ & ? & _) & (_ & ? & _)). unfold item_chars. rewrite E. lia. Qed.
Lemma items_chars_nonneg l : Forall (item_ok t0 t1) l -> 0 <= zsum (map item_chars l).
Proof. intros F. apply zsum_nonneg, Forall_map. eapply Forall_impl; [|exact F]. apply item_chars_nonneg. Qed.

(** Every list of items: the figures are at most the number of characters of the items. *)
Lemma process_items_agree l : Forall (item_ok t0 t1) l -> zsum (map item_chars l) <= TOP ->
  agree (fun d => let m := zsum (map item_chars l) in figs_upto m m m m m m d)
        (ofold (process_item64 uc t0 t1) l acc_empty) (ofold (process_item uc t0 t1) l acc_empty).
Proof.
  intros F M. pose (m := zsum (map item_chars l)).
  pose (I := fun (r : list item) d => Forall (item_ok t0 t1) r /\ zsum (map item_chars r) <= m /\
               let n := m - zsum (map item_chars r) in figs_upto n n n n n n d).
  eapply agree_weak.
  - apply (agree_ofold I).
    + intros it r d (Fr & S & Hd). cbv zeta in Hd. apply Forall_cons_iff in Fr as [Hit Fr].
      cbn [map] in *. rewrite zsum_cons in *. pose proof (item_chars_nonneg it Hit).
      pose proof (items_chars_nonneg r Fr).
      eapply agree_weak; [apply (process_item_agree _ d it Hit Hd); unfold m in *; lia|].
      intros d' Hd'. split; [exact Fr|]. split; [lia|]. cbv zeta.
      eapply figs_le; [exact Hd'|lia..].
    + split; [exact F|]. split; [unfold m; lia|]. cbv zeta. unfold m. rewrite Z.sub_diag.
      split; [|split].
      * repeat split; cbn; lia.
      * repeat split; cbn; lia.
      * constructor.
  - intros d (_ & _ & H). cbv zeta in *. unfold m in H. cbn [map] in H. change (zsum []) with 0 in H.
    rewrite Z.sub_0_r in H. exact H.
Qed.
End Texts.

(** In any case the checked program either does the same or stops at an overflow. *)
Definition overflow : string := "signed overflow".
Definition same_or_overflow {A} (x y : outcome A) : Prop := x = y \/ x = UB overflow.
Lemma so_refl {A} (x : outcome A) : same_or_overflow x x.
Proof. now left. Qed.
Lemma so_bind {A B} (x y : outcome A) (f g : A -> outcome B) :
  same_or_overflow x y -> (forall r, same_or_overflow (f r) (g r)) ->
  same_or_overflow (obind x f) (obind y g).
Proof. intros [->| ->] F; [|now right]. destruct y; cbn [obind]; try apply so_refl. apply F. Qed.
Lemma so_long {A} ok (x : A) : same_or_overflow (long ok x) (Ok x).
Proof. destruct ok; [now left|now right]. Qed.
Lemma so_long_bind {A B} ok (x : A) (f : A -> outcome B) y :
  same_or_overflow (f x) y -> same_or_overflow (obind (long ok x) f) y.
Proof. intros H. destruct ok; [exact H|now right]. Qed.
Lemma so_if {A} (c : bool) (x x' y y' : outcome A) :
  same_or_overflow x y -> same_or_overflow x' y' -> same_or_overflow (if c then x else x') (if c then y else y').
Proof. now destruct c. Qed.
Lemma so_add_class d v x y : same_or_overflow (add_class64 d v x y) (add_class d v x y).
Proof.
  unfold add_class64, add_class. destruct (charclass v); cbn [obind]; try apply so_refl.
  destruct (_ && _); cbn [obind]; [apply so_long|apply so_refl].
Qed.
Lemma so_conf_rows fuel : forall d st, same_or_overflow (conf_rows64 fuel d st) (conf_rows fuel d st).
Proof.
  induction fuel as [|fuel IH]; intros d st; cbn [conf_rows64 conf_rows];
    (apply so_bind; [apply so_refl|]); intros [[[v1 v2]|] st']; try apply so_refl.
  apply so_bind; [apply so_refl|]. intros key. unfold add_conf64. apply so_long_bind, IH.
Qed.
Lemma so_class_rows fuel : forall d st, same_or_overflow (class_rows64 fuel d st) (class_rows fuel d st).
Proof.
  induction fuel as [|fuel IH]; intros d st; cbn [class_rows64 class_rows];
    (apply so_bind; [apply so_refl|]); intros [[[v1 v2]|] st']; try apply so_refl;
    (apply so_bind; [apply so_refl|]); intros v3; (apply so_if; [apply so_refl|]);
    (apply so_bind; [apply so_add_class|]); intros d'; [apply so_refl|apply IH].
Qed.
Lemma so_read_accrpt b d f : same_or_overflow (read_accrpt64 b d f) (read_accrpt b d f).
Proof.
  unfold read_accrpt64, read_accrpt.
  do 17 (apply so_bind; [apply so_refl|];
         let x := fresh in intros x; try (match type of x with (_ * _)%type => destruct x end)).
  apply so_long_bind. apply so_long_bind. apply so_bind; [apply so_refl|]. intros st'.
  apply so_bind.
  - apply so_if; [|apply so_refl]. apply so_bind; [apply so_refl|]. intros [ok st2].
    apply so_if; [apply so_conf_rows|apply so_refl].
  - intros [d2 st2]. apply so_bind; [|intros [d3 st3]; apply so_refl].
    apply so_if; [|apply so_refl]. apply so_bind; [apply so_refl|]. intros [ok st4].
    apply so_if; [apply so_class_rows|apply so_refl].
Qed.
