(** Word accuracy figures: proofs. *)
From Coq Require Import String Permutation.
From Verif Require Import Base CLib TextIO LcsModel LcsSpec LcsProof LcsTop WacModel WacSpec.
Local Open Scope Z_scope.
Local Open Scope list_scope.

Definition wadd (a b : wac) : wac := mkwac (wcount a + wcount b) (wmissed a + wmissed b).
Lemma wadd_0_r a : wadd a no_wac = a.
Proof. destruct a. unfold wadd. cbn. f_equal; lia. Qed.
Lemma wadd_0_l a : wadd no_wac a = a.
Proof. destruct a. reflexivity. Qed.
Lemma wadd_assoc a b c : wadd a (wadd b c) = wadd (wadd a b) c.
Proof. unfold wadd. cbn. f_equal; lia. Qed.
Lemma wadd_comm a b : wadd a b = wadd b a.
Proof. unfold wadd. f_equal; lia. Qed.
Lemma wac_eq a b : wcount a = wcount b -> wmissed a = wmissed b -> a = b.
Proof. destruct a, b. cbn. congruence. Qed.
Lemma increment_wadd w c m : increment_wac w c m = wadd w (mkwac c m).
Proof. reflexivity. Qed.

Lemma increment_at_ok ws i c m : 0 <= i < zlen ws ->
  exists ws', increment_at ws i c m = Ok ws' /\ zlen ws' = zlen ws /\
    forall j w, znth ws j = Some w -> znth ws' j = Some (if j =? i then wadd w (mkwac c m) else w).
Proof.
  intros B. unfold increment_at. destruct (znth_lt_Some ws i B) as (w & E). unfold rd. rewrite E. cbn [obind].
  unfold wr. destruct (zset_lt_Some ws i (increment_wac w c m) B) as (ws' & E'). rewrite E'.
  exists ws'. split; [reflexivity|]. split; [exact (zset_zlen _ _ _ _ E')|].
  intros j x Ej. rewrite (zset_znth _ _ _ _ E'). destruct (Z.eqb_spec j i) as [->|]; [|exact Ej].
  rewrite E in Ej. injection Ej as <-. reflexivity.
Qed.

(** ** Sums over tables *)

Definition wsum (Q : term -> bool) (l : list term) : wac :=
  fold_right (fun t s => if Q t then wadd (twac t) s else s) no_wac l.
(** Terms, and terms never recognized. *)
Definition osum (Q : term -> bool) (l : list term) : wac :=
  mkwac (count_if Q l) (count_if (fun t => Q t && (wcount (twac t) =? wmissed (twac t))) l).

Lemma wsum_cons Q t l : wsum Q (t :: l) = if Q t then wadd (twac t) (wsum Q l) else wsum Q l.
Proof. reflexivity. Qed.
Lemma wsum_perm Q l l' : Permutation l l' -> wsum Q l = wsum Q l'.
Proof.
  induction 1 as [|x l l' P IH|x y l|l l' l'' P1 IH1 P2 IH2]; rewrite ?wsum_cons; auto.
  - now rewrite IH.
  - destruct (Q x), (Q y); auto. rewrite !wadd_assoc. f_equal. apply wadd_comm.
  - congruence.
Qed.
Lemma wsum_ext Q Q' l : (forall t, In t l -> Q t = Q' t) -> wsum Q l = wsum Q' l.
Proof.
  induction l as [|x l IH]; intros H; [reflexivity|].
  rewrite !wsum_cons, (H x (or_introl eq_refl)), IH; [reflexivity|]. intros; apply H; now right.
Qed.
Lemma count_if_cons {A} (P : A -> bool) x l : count_if P (x :: l) = (if P x then 1 else 0) + count_if P l.
Proof. unfold count_if. cbn [filter]. destruct (P x); rewrite ?zlen_cons; lia. Qed.
Lemma count_if_app {A} (P : A -> bool) l l' : count_if P (l ++ l') = count_if P l + count_if P l'.
Proof. unfold count_if. rewrite filter_app. apply zlen_app. Qed.
Lemma count_if_perm {A} (P : A -> bool) l l' : Permutation l l' -> count_if P l = count_if P l'.
Proof. induction 1; rewrite ?count_if_cons; lia. Qed.
Lemma count_if_ext {A} (P Q : A -> bool) l : (forall x, In x l -> P x = Q x) -> count_if P l = count_if Q l.
Proof.
  induction l as [|x l IH]; intros H; [reflexivity|]. rewrite !count_if_cons, (H x (or_introl eq_refl)), IH; [reflexivity|].
  intros; apply H; now right.
Qed.
Lemma count_if_nonneg {A} (P : A -> bool) l : 0 <= count_if P l.
Proof. apply zlen_nonneg. Qed.
Lemma count_if_map {A B} (f : A -> B) P l : count_if P (map f l) = count_if (fun x => P (f x)) l.
Proof. induction l as [|x l IH]; [reflexivity|]. cbn [map]. rewrite !count_if_cons, IH. reflexivity. Qed.
Lemma count_if_filter {A} (P Q : A -> bool) l : count_if P (filter Q l) = count_if (fun x => Q x && P x) l.
Proof.
  induction l as [|x l IH]; [reflexivity|]. cbn [filter]. rewrite count_if_cons.
  destruct (Q x); cbn [andb]; rewrite ?count_if_cons, IH; reflexivity.
Qed.
Lemma count_if_zero {A} (P : A -> bool) l : (forall x, In x l -> P x = false) -> count_if P l = 0.
Proof.
  induction l as [|x l IH]; intros H; [reflexivity|]. rewrite count_if_cons, (H x (or_introl eq_refl)), IH; [reflexivity|].
  intros; apply H; now right.
Qed.
Lemma count_if_true {A} (l : list A) : count_if (fun _ => true) l = zlen l.
Proof. induction l as [|x l IH]; [reflexivity|]. rewrite count_if_cons, IH, zlen_cons. lia. Qed.
Lemma count_if_split {A} (P Q : A -> bool) l :
  count_if P l = count_if (fun x => P x && Q x) l + count_if (fun x => P x && negb (Q x)) l.
Proof.
  induction l as [|x l IH]; [reflexivity|]. rewrite !count_if_cons, IH. destruct (P x), (Q x); cbn [andb negb]; lia.
Qed.

Lemma osum_perm Q l l' : Permutation l l' -> osum Q l = osum Q l'.
Proof. intros P. unfold osum. now rewrite (count_if_perm _ _ _ P), (count_if_perm _ _ _ P). Qed.

(** ** process_terms *)

Definition good_term (t : term) : Prop := 1 <= zlen (tkey t) <= MAX_WORDLENGTH /\ 1 <= wcount (twac t).

Definition after (f : Z -> wac) (ws ws' : list wac) : Prop :=
  zlen ws' = zlen ws /\ forall j w, znth ws j = Some w -> znth ws' j = Some (wadd w (f j)).

Lemma process_terms_ok l : forall total length occurs,
  Forall good_term l -> zlen length = MAX_WORDLENGTH + 1 ->
  (forall o, occurs = Some o -> zlen o = MAX_OCCURRENCES + 2) ->
  exists length' occurs', ofold process_term l (total, length, occurs) =
      Ok (wadd total (wsum (fun _ => true) l), length', occurs') /\
    after (fun j => wsum (fun t => (j =? 0) || (j =? zlen (tkey t))) l) length length' /\
    match occurs, occurs' with
    | Some o, Some o' =>
        after (fun j => osum (fun t => (j =? 0) || (j =? Z.min (wcount (twac t)) (MAX_OCCURRENCES + 1))) l) o o'
    | None, None => True
    | _, _ => False
    end.
Proof.
  induction l as [|t l IH]; intros total length occurs F L O.
  - exists length, occurs. cbn [ofold]. change (wsum _ []) with no_wac. rewrite wadd_0_r. split; [reflexivity|].
    split; [split; [reflexivity|]; intros j w E; now rewrite wadd_0_r|].
    destruct occurs as [o|]; [|exact I]. split; [reflexivity|]. intros j w E. now rewrite wadd_0_r.
  - inversion F as [|? ? [G1 G2] F']; subst. cbn [ofold]. unfold process_term at 1.
    destruct (increment_at_ok length 0 (wcount (twac t)) (wmissed (twac t))) as (l1 & E1 & L1 & C1);
      [unfold MAX_WORDLENGTH in *; lia|].
    rewrite E1. cbn [obind].
    destruct (increment_at_ok l1 (zlen (tkey t)) (wcount (twac t)) (wmissed (twac t))) as (l2 & E2 & L2 & C2);
      [unfold MAX_WORDLENGTH in *; lia|].
    rewrite E2. cbn [obind].
    assert (forall j w, znth length j = Some w -> znth l2 j = Some (if (j =? 0) || (j =? zlen (tkey t)) then wadd w (twac t) else w)) as C12.
    { intros j w E. rewrite (C2 _ _ (C1 _ _ E)). destruct (twac t) as [c m]. cbn [wcount wmissed].
      destruct (Z.eqb_spec j 0) as [->|]; cbn [orb]; [|reflexivity].
      destruct (Z.eqb_spec 0 (zlen (tkey t))); [lia|reflexivity]. }
    assert (wadd total (wsum (fun _ => true) (t :: l)) =
            wadd (increment_wac total (wcount (twac t)) (wmissed (twac t))) (wsum (fun _ => true) l)) as ET.
    { rewrite wsum_cons, increment_wadd. destruct (twac t) as [c m]. cbn [wcount wmissed]. now rewrite wadd_assoc. }
    rewrite ET. destruct occurs as [o|].
    + specialize (O o eq_refl). set (miss := if wcount (twac t) =? wmissed (twac t) then 1 else 0).
      destruct (increment_at_ok o 0 1 miss) as (o1 & F1 & M1 & D1); [unfold MAX_OCCURRENCES in *; lia|].
      rewrite F1. cbn [obind].
      destruct (increment_at_ok o1 (Z.min (wcount (twac t)) (MAX_OCCURRENCES + 1)) 1 miss) as (o2 & F2 & M2 & D2);
        [unfold MAX_OCCURRENCES in *; lia|].
      rewrite F2. cbn [obind].
      destruct (IH (increment_wac total (wcount (twac t)) (wmissed (twac t))) l2 (Some o2) F') as (l3 & o3 & E3 & (L3 & C3) & O3).
      { congruence. }
      { intros o' [= <-]. congruence. }
      exists l3, o3. split; [exact E3|]. split.
      * split; [congruence|]. intros j w E. rewrite (C3 _ _ (C12 _ _ E)). rewrite wsum_cons.
        destruct ((j =? 0) || (j =? zlen (tkey t))); [now rewrite wadd_assoc|reflexivity].
      * destruct o3 as [o3|]; [|exact O3]. destruct O3 as (M3 & D3). split; [congruence|]. intros j w E.
        assert (znth o2 j = Some (if (j =? 0) || (j =? Z.min (wcount (twac t)) (MAX_OCCURRENCES + 1)) then wadd w (mkwac 1 miss) else w)) as D12.
        { rewrite (D2 _ _ (D1 _ _ E)). destruct (Z.eqb_spec j 0) as [->|]; cbn [orb]; [|reflexivity].
          destruct (Z.eqb_spec 0 (Z.min (wcount (twac t)) (MAX_OCCURRENCES + 1))); [unfold MAX_OCCURRENCES in *; lia|reflexivity]. }
        rewrite (D3 _ _ D12). unfold osum. rewrite !count_if_cons. f_equal.
        destruct ((j =? 0) || (j =? Z.min (wcount (twac t)) (MAX_OCCURRENCES + 1))); cbn [andb].
        -- fold miss. apply wac_eq; cbn [wadd wcount wmissed andb]; fold miss; lia.
        -- apply wac_eq; cbn [wadd wcount wmissed andb]; fold miss; lia.
    + cbn [obind].
      destruct (IH (increment_wac total (wcount (twac t)) (wmissed (twac t))) l2 None F') as (l3 & o3 & E3 & (L3 & C3) & O3).
      { congruence. }
      { discriminate. }
      exists l3, o3. split; [exact E3|]. split; [|exact O3].
      split; [congruence|]. intros j w E. rewrite (C3 _ _ (C12 _ _ E)). rewrite wsum_cons.
      destruct ((j =? 0) || (j =? zlen (tkey t))); [now rewrite wadd_assoc|reflexivity].
Qed.

(** ** Tables of words *)

Definition put (T : list term) (wm : list Z * bool) : list term :=
  add_term T (fst wm) 1 (if snd wm then 0 else 1).

Lemma tabulate_split stop l : forall a b,
  fold_left (tabulate stop) l (a, b) =
  (fold_left put (filter (fun wm => stop (fst wm)) l) a,
   fold_left put (filter (fun wm => negb (stop (fst wm))) l) b).
Proof.
  induction l as [|[w r] l IH]; intros a b; cbn [fold_left filter fst]; [reflexivity|].
  unfold tabulate at 2. destruct (stop w) eqn:E; cbn [negb fold_left fst snd]; rewrite IH; reflexivity.
Qed.

Lemma word_eqb_spec v w : word_eqb v w = true <-> v = w.
Proof. unfold word_eqb. destruct (list_eq_dec _ v w); split; congruence. Qed.
Lemma word_eqb_refl w : word_eqb w w = true.
Proof. now apply word_eqb_spec. Qed.

Lemma wsum_add Q l k c m :
  wsum (fun t => Q (tkey t)) (add_term l k c m) = wadd (wsum (fun t => Q (tkey t)) l) (if Q k then mkwac c m else no_wac).
Proof.
  induction l as [|t l IH]; cbn [add_term].
  - rewrite wsum_cons. cbn [tkey twac]. destruct (Q k); [|reflexivity]. rewrite increment_wadd. now rewrite wadd_0_r.
  - destruct (streq (tkey t) k) eqn:E.
    + apply streq_spec in E. rewrite !wsum_cons. cbn [tkey twac]. rewrite <- E.
      destruct (Q (tkey t)); [|now rewrite wadd_0_r]. rewrite increment_wadd, <- !wadd_assoc. f_equal. apply wadd_comm.
    + rewrite !wsum_cons, IH. destruct (Q (tkey t)); [now rewrite wadd_assoc|reflexivity].
Qed.

Lemma add_term_keys l k c m w : In w (map tkey (add_term l k c m)) <-> In w (map tkey l) \/ w = k.
Proof.
  induction l as [|t l IH]; cbn [add_term map]; [cbn; intuition|].
  destruct (streq (tkey t) k) eqn:E.
  - apply streq_spec in E. cbn. subst k. intuition.
  - cbn. rewrite IH. intuition.
Qed.

Lemma add_term_nodup l k c m : NoDup (map tkey l) -> NoDup (map tkey (add_term l k c m)).
Proof.
  induction l as [|t l IH]; intros N; cbn [add_term map]; [constructor; [easy|constructor]|].
  inversion N as [|? ? N1 N2]; subst. destruct (streq (tkey t) k) eqn:E; [now constructor|].
  cbn [map]. constructor; [|auto]. rewrite add_term_keys. intros [Q|Q]; [auto|].
  apply streq_spec in Q. congruence.
Qed.

Lemma wsum_key l t : NoDup (map tkey l) -> In t l -> wsum (fun u => word_eqb (tkey t) (tkey u)) l = twac t.
Proof.
  induction l as [|u l IH]; intros N I; [easy|]. inversion N as [|? ? N1 N2]; subst. rewrite wsum_cons.
  destruct I as [->|I].
  - rewrite word_eqb_refl. rewrite (wsum_ext _ (fun _ => false)).
    + clear. induction l as [|x l IH]; [apply wadd_0_r|exact IH].
    + intros x Hx. destruct (word_eqb (tkey t) (tkey x)) eqn:E; [|reflexivity].
      apply word_eqb_spec in E. exfalso. apply N1. rewrite E. now apply in_map.
  - rewrite IH by auto. destruct (word_eqb (tkey t) (tkey u)) eqn:E; [|reflexivity].
    apply word_eqb_spec in E. exfalso. apply N1. rewrite <- E. now apply in_map.
Qed.

(** The figures of a list of marked words. *)
Definition ptally (Q : list Z -> bool) (l : list (list Z * bool)) : wac :=
  mkwac (count_if (fun wm => Q (fst wm)) l) (count_if (fun wm => Q (fst wm) && negb (snd wm)) l).

Lemma table_ok l : forall T, NoDup (map tkey T) ->
  let T' := fold_left put l T in
  NoDup (map tkey T') /\ (forall w, In w (map tkey T') <-> In w (map tkey T) \/ In w (map fst l)) /\
  forall Q, wsum (fun t => Q (tkey t)) T' = wadd (wsum (fun t => Q (tkey t)) T) (ptally Q l).
Proof.
  induction l as [|[w r] l IH]; intros T N; cbn [fold_left map].
  - split; [exact N|]. split; [intros; cbn; intuition|]. intros Q. now rewrite wadd_0_r.
  - destruct (IH (put T (w, r)) (add_term_nodup _ _ _ _ N)) as (N' & K' & S'). split; [exact N'|]. split.
    + intros v. rewrite K'. unfold put. cbn [fst snd]. rewrite add_term_keys. cbn. intuition.
    + intros Q. rewrite S'. unfold put. cbn [fst snd]. rewrite wsum_add, <- wadd_assoc. f_equal.
      unfold ptally. rewrite !count_if_cons. cbn [fst snd]. apply wac_eq; destruct (Q w), r; cbn; lia.
Qed.

Lemma ptally_filter Q P l : ptally Q (filter (fun wm => P (fst wm)) l) = ptally (fun w => P w && Q w) l.
Proof. unfold ptally. rewrite !count_if_filter. f_equal. apply count_if_ext. intros x _. now rewrite andb_assoc. Qed.

Lemma combine_fst (ws : list (list Z)) (ms : list bool) : List.length ms = List.length ws -> map fst (combine ws ms) = ws.
Proof. revert ms. induction ws as [|w ws IH]; intros [|m ms] E; cbn in *; try lia; auto. now rewrite IH by lia. Qed.

Section Figures.
Variable P : list Z -> bool.
Variable words : list (list Z).
Variable marks : list bool.
Hypothesis len : List.length marks = List.length words.
Local Notation wms := (combine words marks).
Local Notation T := (fold_left put (filter (fun wm => P (fst wm)) wms) []).

Lemma table_nodup : NoDup (map tkey T).
Proof. apply (table_ok _ []). constructor. Qed.

Lemma table_words w : In w (map tkey T) <-> In w words /\ P w = true.
Proof.
  destruct (table_ok (filter (fun wm => P (fst wm)) wms) [] ltac:(constructor)) as (_ & K & _).
  rewrite K. cbn [map]. split.
  - intros [[]|I]. apply in_map_iff in I. destruct I as ([v m] & <- & I). apply filter_In in I. destruct I as [I Hp].
    cbn [fst] in *. split; [|exact Hp]. exact (in_combine_l _ _ _ _ I).
  - intros [I Hp]. right. rewrite <- (combine_fst words marks len) in I. apply in_map_iff in I.
    destruct I as ([v m] & E & I). cbn [fst] in E. subst v. apply in_map_iff. exists (w, m). split; [reflexivity|].
    apply filter_In. auto.
Qed.

Lemma table_sum Q : wsum (fun t => Q (tkey t)) T = tally (fun w => P w && Q w) words marks.
Proof.
  destruct (table_ok (filter (fun wm => P (fst wm)) wms) [] ltac:(constructor)) as (_ & _ & S).
  rewrite S, ptally_filter. now rewrite wadd_0_l.
Qed.

Lemma tally_ext Q Q' : (forall w, In w words -> Q w = Q' w) -> tally Q words marks = tally Q' words marks.
Proof.
  intros H. unfold tally. f_equal; apply count_if_ext; intros [w m] I; cbn [fst snd]; apply in_combine_l in I; now rewrite H.
Qed.

Lemma table_term t : In t T -> twac t = of_word (tkey t) words marks.
Proof.
  intros I. rewrite <- (wsum_key _ _ table_nodup I).
  rewrite (table_sum (word_eqb (tkey t))). apply tally_ext. intros w _.
  assert (P (tkey t) = true) as Hp by (apply table_words; now apply in_map).
  destruct (word_eqb (tkey t) w) eqn:E; [|apply andb_false_r]. apply word_eqb_spec in E. subst w. now rewrite Hp.
Qed.

Lemma of_word_pos w : In w words -> 1 <= wcount (of_word w words marks).
Proof.
  intros I. rewrite <- (combine_fst words marks len) in I. apply in_map_iff in I. destruct I as ([v m] & E & I).
  cbn in E. subst v. unfold of_word, tally. cbn [wcount]. apply in_split in I. destruct I as (l1 & l2 & ->).
  rewrite count_if_app, count_if_cons. cbn [fst]. rewrite word_eqb_refl.
  pose proof (count_if_nonneg (fun wm : list Z * bool => word_eqb w (fst wm)) l1).
  pose proof (count_if_nonneg (fun wm : list Z * bool => word_eqb w (fst wm)) l2). lia.
Qed.

Lemma table_perm : Permutation (map tkey T) (filter P (distinct_words words)).
Proof.
  apply NoDup_Permutation; [apply table_nodup|apply NoDup_filter, NoDup_nodup|].
  intros w. rewrite table_words, filter_In. unfold distinct_words. now rewrite nodup_In.
Qed.

(** Counting table entries is counting distinct words. *)
Lemma table_count (R : wac -> bool) :
  count_if (fun t => R (twac t)) T = count_if (fun w => R (of_word w words marks)) (filter P (distinct_words words)).
Proof.
  rewrite <- (count_if_perm _ _ _ table_perm), count_if_map. apply count_if_ext. intros t I. now rewrite table_term.
Qed.

Lemma table_osum (R : wac -> bool) :
  osum (fun t => R (twac t)) T = tally_distinct (fun w => P w && R (of_word w words marks)) words marks.
Proof.
  unfold osum, tally_distinct. rewrite table_count, (table_count (fun w => R w && (wcount w =? wmissed w))).
  rewrite !count_if_filter. unfold count_if at 1. f_equal. apply count_if_ext. intros. now rewrite andb_assoc.
Qed.

Lemma table_good : (forall w, In w words -> 1 <= zlen w <= MAX_WORDLENGTH) -> Forall good_term T.
Proof.
  intros H. apply Forall_forall. intros t I. assert (In (tkey t) words) as Iw by (apply table_words; now apply in_map).
  split; [now apply H|]. rewrite (table_term _ I). now apply of_word_pos.
Qed.
End Figures.

Lemma znth_repeat {T} (x : T) c i : 0 <= i < Z.of_nat c -> znth (repeat x c) i = Some x.
Proof.
  intros B. destruct (znth_lt_Some (repeat x c) i) as (y & E); [now rewrite repeat_zlen|].
  rewrite E. f_equal. unfold znth in E. destruct (i <? 0); [discriminate|].
  apply nth_error_In, repeat_spec in E. exact E.
Qed.

(** ** Phrases *)

Definition all_true (l : list bool) : bool := forallb (fun r => r) l.
(** The marks of the [c] words from number [i]. *)
Definition window (marks : list bool) (i c : Z) : list bool := firstn (Z.to_nat c) (skipn (Z.to_nat i) marks).

Lemma window_cons marks i c r : znth marks i = Some r -> 0 < c -> window marks i c = r :: window marks (i + 1) (c - 1).
Proof.
  intros E C. pose proof (znth_Some_lt _ _ _ E). unfold window, znth in *. destruct (Z.ltb_spec i 0); [lia|].
  replace (Z.to_nat c) with (S (Z.to_nat (c - 1))) by lia. replace (Z.to_nat (i + 1)) with (S (Z.to_nat i)) by lia.
  clear -E. revert marks E. induction (Z.to_nat i) as [|n IH]; intros [|x marks] E; cbn in *; try discriminate.
  - injection E as ->. reflexivity.
  - now apply IH.
Qed.

Lemma phrases_from_ok marks i k : forall recognized j ps, 0 <= i -> 0 <= j -> j + Z.of_nat k <= MAX_PHRASELENGTH ->
  zlen ps = MAX_PHRASELENGTH + 1 ->
  exists ps', phrases_from recognized marks i j k ps = Ok ps' /\ zlen ps' = zlen ps /\
    forall len w, znth ps len = Some w -> znth ps' len = Some
      (if (j + 1 <=? len) && (len <=? j + Z.of_nat k) && (i + len <=? zlen marks)
       then wadd w (mkwac 1 (if recognized && all_true (window marks (i + j) (len - j)) then 0 else 1)) else w).
Proof.
  induction k as [|k IH]; intros recognized j ps I J K L; cbn [phrases_from].
  - exists ps. split; [reflexivity|]. split; [reflexivity|]. intros len w E.
    destruct (Z.leb_spec (j + 1) len), (Z.leb_spec len (j + Z.of_nat 0)); cbn [andb]; try exact E. lia.
  - destruct (Z.ltb_spec (i + j) (zlen marks)) as [B|B].
    + destruct (znth_lt_Some marks (i + j) ltac:(lia)) as (r & Er). unfold rd. rewrite Er. cbn [obind].
      destruct (increment_at_ok ps (j + 1) 1 (if recognized && r then 0 else 1) ltac:(lia)) as (p1 & E1 & L1 & C1).
      rewrite E1. cbn [obind].
      destruct (IH (recognized && r) (j + 1) p1 ltac:(lia) ltac:(lia) ltac:(lia) ltac:(congruence)) as (p2 & E2 & L2 & C2).
      exists p2. split; [exact E2|]. split; [congruence|]. intros len w E. rewrite (C2 _ _ (C1 _ _ E)). f_equal.
      destruct (Z.eqb_spec len (j + 1)) as [->|N].
      * destruct (Z.leb_spec (j + 1 + 1) (j + 1)); [lia|]. cbn [andb].
        destruct (Z.leb_spec (j + 1) (j + 1)); [|lia]. destruct (Z.leb_spec (j + 1) (j + Z.of_nat (S k))); [|lia].
        destruct (Z.leb_spec (i + (j + 1)) (zlen marks)); [|lia]. cbn [andb].
        rewrite (window_cons _ _ _ _ Er) by lia. unfold window at 1. replace (Z.to_nat (j + 1 - j - 1)) with O by lia.
        cbn [firstn all_true forallb]. now rewrite andb_true_r.
      * replace ((j + 1 + 1 <=? len) && (len <=? j + 1 + Z.of_nat k)) with ((j + 1 <=? len) && (len <=? j + Z.of_nat (S k)))
          by (destruct (Z.leb_spec (j + 1) len), (Z.leb_spec (j + 1 + 1) len), (Z.leb_spec len (j + 1 + Z.of_nat k)),
                       (Z.leb_spec len (j + Z.of_nat (S k))); cbn; auto; lia).
        destruct (Z.leb_spec (j + 1) len) as [B1|B1]; cbn [andb]; [|reflexivity].
        rewrite (window_cons marks (i + j) (len - j) r Er) by lia. unfold all_true. cbn [forallb].
        replace (i + (j + 1)) with (i + j + 1) by lia. replace (len - (j + 1)) with (len - j - 1) by lia.
        now rewrite andb_assoc.
    + exists ps. split; [reflexivity|]. split; [reflexivity|]. intros len w E.
      destruct (Z.leb_spec (j + 1) len), (Z.leb_spec len (j + Z.of_nat (S k))), (Z.leb_spec (i + len) (zlen marks));
        cbn [andb]; try exact E. lia.
Qed.

Lemma process_phrases_ok marks ps : zlen ps = MAX_PHRASELENGTH + 1 -> (forall i, 0 <= i <= MAX_PHRASELENGTH -> znth ps i = Some no_wac) ->
  exists ps', process_phrases marks ps = Ok ps' /\ phrases marks ps'.
Proof.
  intros L Z0. unfold process_phrases.
  destruct (ofold_count (fun ps i => phrases_from true marks i 0 (Z.to_nat MAX_PHRASELENGTH) ps)
    (fun c ps => zlen ps = MAX_PHRASELENGTH + 1 /\ znth ps 0 = Some no_wac /\ forall len, 1 <= len <= MAX_PHRASELENGTH ->
       znth ps len = Some (mkwac
         (count_if (fun i => i + len <=? zlen marks) (zrange 0 (Z.to_nat c)))
         (count_if (fun i => (i + len <=? zlen marks) && negb (all_true (window marks i len))) (zrange 0 (Z.to_nat c)))))
    (fun i => i) (List.length marks) 0 ps) as (ps' & E & L' & U' & H').
  - split; [exact L|]. split; [apply Z0; unfold MAX_PHRASELENGTH; lia|]. intros len B. apply Z0. lia.
  - intros i s Hi (Ls & Us & Hs).
    destruct (phrases_from_ok marks i (Z.to_nat MAX_PHRASELENGTH) true 0 s ltac:(lia) ltac:(lia)) as (s' & E' & L' & C');
      [unfold MAX_PHRASELENGTH in *; lia|exact Ls|].
    exists s'. split; [exact E'|]. split; [congruence|]. split.
    + rewrite (C' _ _ Us). reflexivity.
    + intros len B. rewrite (C' _ _ (Hs len B)).
      replace (Z.to_nat (i + 1)) with (Z.to_nat i + 1)%nat by lia. rewrite zrange_app, !count_if_app. cbn [zrange].
      rewrite !count_if_cons. replace (0 + Z.of_nat (Z.to_nat i)) with i by lia.
      destruct (Z.leb_spec (0 + 1) len); [|lia]. destruct (Z.leb_spec len (0 + Z.of_nat (Z.to_nat MAX_PHRASELENGTH))); [|unfold MAX_PHRASELENGTH in *; lia].
      cbn [andb]. rewrite Z.add_0_r, Z.sub_0_r. f_equal.
      assert (forall P : Z -> bool, count_if P [] = 0) as CN by reflexivity. rewrite !CN.
      destruct (i + len <=? zlen marks); cbn [andb]; apply wac_eq; cbn [wadd wcount wmissed]; try lia;
        destruct (all_true (window marks i len)); cbn [negb]; lia.
  - rewrite map_id in E. exists ps'. split; [exact E|]. split; [exact L'|exact U'|]. intros len B. rewrite (H' len B).
    f_equal. unfold phrase_figures, phrase_marks.
    replace (0 + Z.of_nat (List.length marks)) with (zlen marks) by reflexivity.
    set (c := Z.max 0 (zlen marks - len + 1)).
    replace (Z.to_nat (zlen marks)) with (Z.to_nat c + Z.to_nat (zlen marks - c))%nat by (pose proof (zlen_nonneg marks); lia).
    replace (Z.to_nat (zlen marks - len + 1)) with (Z.to_nat c) by lia.
    rewrite zrange_app, !count_if_app.
    assert (forall P, count_if (fun i => (i + len <=? zlen marks) && P i) (zrange (0 + Z.of_nat (Z.to_nat c)) (Z.to_nat (zlen marks - c))) = 0) as Z1.
    { intros P. apply count_if_zero. intros i Hi. apply In_zrange in Hi. destruct (Z.leb_spec (i + len) (zlen marks)); [lia|reflexivity]. }
    assert (forall P, count_if (fun i => (i + len <=? zlen marks) && P i) (zrange 0 (Z.to_nat c)) = count_if P (zrange 0 (Z.to_nat c))) as Z2.
    { intros P. apply count_if_ext. intros i Hi. apply In_zrange in Hi. destruct (Z.leb_spec (i + len) (zlen marks)); [reflexivity|lia]. }
    pose proof (Z1 (fun _ => true)) as Z1t. pose proof (Z2 (fun _ => true)) as Z2t.
    rewrite (count_if_ext _ (fun i => i + len <=? zlen marks)) in Z1t by (intros; apply andb_true_r).
    rewrite (count_if_ext _ (fun i => i + len <=? zlen marks)) in Z2t by (intros; apply andb_true_r).
    rewrite Z1, Z2, Z1t, Z2t, !Z.add_0_r, count_if_map, count_if_true. f_equal.
    unfold zlen. rewrite zrange_length. lia.
Qed.

(** ** All figures *)

Lemma select_missed {T} : forall (ws : list T) ms, List.length ms = List.length ws ->
  count_if (fun wm : T * bool => negb (snd wm)) (combine ws ms) = zlen ws - zlen (select ms ws).
Proof.
  induction ws as [|w ws IH]; intros [|[|] ms] E; cbn [List.length] in E; try lia; cbn [combine select]; [reflexivity| |];
    rewrite count_if_cons; cbn [snd negb]; rewrite IH, !zlen_cons by lia; lia.
Qed.

Theorem determine_ok stop order words marks :
  (forall l, Permutation (order l) l) -> List.length marks = List.length words ->
  (forall w, In w words -> 1 <= zlen w <= MAX_WORDLENGTH) ->
  exists d, determine_wacdata stop order words marks = Ok d /\ figures stop words marks d /\ phrases marks (phrase d).
Proof.
  intros Ord Len H. unfold determine_wacdata. rewrite tabulate_split.
  set (st := fold_left put (filter (fun wm => stop (fst wm)) (combine words marks)) []).
  set (ns := fold_left put (filter (fun wm => negb (stop (fst wm))) (combine words marks)) []).
  assert (Forall good_term (order st) /\ Forall good_term (order ns)) as [Gs Gn].
  { split; apply Forall_forall; intros t I; (eapply Permutation_in in I; [|apply Ord]);
      [pose proof (table_good stop words marks Len H) as G|pose proof (table_good (fun w => negb (stop w)) words marks Len H) as G];
      rewrite Forall_forall in G; now apply G. }
  cbn [wac_empty wtotal stopword non_stopword distinct phrase].
  destruct (process_terms_ok (order st) no_wac (repeat no_wac (Z.to_nat (MAX_WORDLENGTH + 1))) None Gs)
    as (sw & os & E1 & (L1 & C1) & O1); [reflexivity|discriminate|].
  rewrite E1. cbn [obind]. 
  destruct (process_terms_ok (order ns) (wadd no_wac (wsum (fun _ => true) (order st)))
     (repeat no_wac (Z.to_nat (MAX_WORDLENGTH + 1))) (Some (repeat no_wac (Z.to_nat (MAX_OCCURRENCES + 2)))) Gn)
    as (nsw & on & E2 & (L2 & C2) & O2); [reflexivity|intros o [= <-]; reflexivity|].
  rewrite E2. cbn [obind]. destruct on as [on|]; [|easy]. destruct O2 as (L3 & C3).
  destruct (process_phrases_ok marks (repeat no_wac (Z.to_nat (MAX_PHRASELENGTH + 1)))) as (ps & E4 & Ph);
    [reflexivity|intros; apply znth_repeat; unfold MAX_PHRASELENGTH in *; lia|].
  rewrite E4. cbn [obind]. eexists. split; [reflexivity|]. cbn [phrase]. split; [|exact Ph].
  rewrite wadd_0_l.
  assert (forall (P : list Z -> bool) T arr, T = fold_left put (filter (fun wm => P (fst wm)) (combine words marks)) [] ->
    zlen arr = zlen (repeat no_wac (Z.to_nat (MAX_WORDLENGTH + 1))) ->
    (forall j w, znth (repeat no_wac (Z.to_nat (MAX_WORDLENGTH + 1))) j = Some w ->
       znth arr j = Some (wadd w (wsum (fun t => (j =? 0) || (j =? zlen (tkey t))) (order T)))) ->
    class_figures P words marks arr T) as CF.
  { intros P T arr ET La Ca.
    assert (forall j, 0 <= j <= MAX_WORDLENGTH -> znth arr j = Some (wsum (fun t => (j =? 0) || (j =? zlen (tkey t))) T)) as Cb.
    { intros j B. rewrite (Ca j no_wac), wadd_0_l, (wsum_perm _ _ _ (Ord T)); [reflexivity|].
      apply znth_repeat. unfold MAX_WORDLENGTH in *. lia. }
    subst T. constructor.
    - rewrite La. reflexivity.
    - rewrite Cb by (unfold MAX_WORDLENGTH; lia). f_equal. rewrite Z.eqb_refl. cbn [orb].
      rewrite (table_sum P words marks (fun _ => true)). apply tally_ext. intros. apply andb_true_r.
    - intros len B. rewrite Cb by lia. f_equal. destruct (Z.eqb_spec len 0); [lia|]. cbn [orb].
      rewrite (table_sum P words marks (fun w => len =? zlen w)). apply tally_ext. intros. now rewrite Z.eqb_sym.
    - apply table_nodup.
    - apply (table_words P words marks Len).
    - apply (table_term P words marks Len). }
  assert (forall T, wsum (fun _ => true) (order T) = wsum (fun _ => true) T) as WO by (intros; apply wsum_perm, Ord).
  assert (wsum (fun _ => true) st = tally stop words marks) as Ss.
  { unfold st. rewrite (table_sum stop words marks (fun _ => true)). apply tally_ext. intros. apply andb_true_r. }
  assert (wsum (fun _ => true) ns = tally (fun w => negb (stop w)) words marks) as Sn.
  { unfold ns. rewrite (table_sum (fun w => negb (stop w)) words marks (fun _ => true)). apply tally_ext. intros. apply andb_true_r. }
  assert (forall c, 0 <= c <= MAX_OCCURRENCES + 1 -> znth on c = Some (osum (fun t => (c =? 0) || (c =? Z.min (wcount (twac t)) (MAX_OCCURRENCES + 1))) ns)) as Co.
  { intros c B. rewrite (C3 c no_wac), wadd_0_l, (osum_perm _ _ _ (Ord ns)); [reflexivity|].
    apply znth_repeat. unfold MAX_OCCURRENCES in *. lia. }
  assert (forall R : wac -> bool, osum (fun t => R (twac t)) ns =
            tally_distinct (fun w => negb (stop w) && R (of_word w words marks)) words marks) as CO
    by (intros; apply (table_osum (fun w => negb (stop w)) words marks Len)).
  assert (forall P Q, (forall w, P w = Q w) -> tally_distinct P words marks = tally_distinct Q words marks) as TD.
  { intros P Q E. unfold tally_distinct. now rewrite (filter_ext _ _ E). }
  assert (wcount (tally stop words marks) + wcount (tally (fun w => negb (stop w)) words marks) = zlen words) as WC.
  { unfold tally. cbn [wcount]. pose proof (count_if_split (fun _ => true) (fun wm : list Z * bool => stop (fst wm)) (combine words marks)) as Q.
    cbn [andb] in Q. rewrite <- Q, count_if_true. unfold zlen. rewrite combine_length, Len. lia. }
  constructor; cbn [wtotal stopword non_stopword distinct stop_terms non_terms].
  - rewrite !WO, Ss, Sn. exact WC.
  - rewrite !WO, Ss, Sn. unfold tally. cbn [wadd wmissed]. rewrite <- (select_missed words marks Len).
    rewrite (count_if_split (fun wm : list Z * bool => negb (snd wm)) (fun wm => stop (fst wm))).
    f_equal; apply count_if_ext; intros; apply andb_comm.
  - apply CF; [reflexivity|exact L1|exact C1].
  - apply (CF (fun w => negb (stop w))); [reflexivity|exact L2|exact C2].
  - rewrite !WO, Ss, Sn. reflexivity.
  - rewrite L3. reflexivity.
  - rewrite Co by (unfold MAX_OCCURRENCES; lia). rewrite Z.eqb_refl. cbn [orb]. f_equal.
    rewrite (CO (fun _ => true)). apply TD. intros. apply andb_true_r.
  - intros c B. rewrite Co by lia. f_equal. destruct (Z.eqb_spec c 0); [lia|]. cbn [orb].
    rewrite (CO (fun x => c =? Z.min (wcount x) (MAX_OCCURRENCES + 1))). apply TD. intros w. f_equal.
    destruct (Z.eqb_spec c (Z.min (wcount (of_word w words marks)) (MAX_OCCURRENCES + 1))), (Z.eqb_spec (wcount (of_word w words marks)) c); auto; lia.
  - rewrite Co by (unfold MAX_OCCURRENCES; lia). f_equal. destruct (Z.eqb_spec (MAX_OCCURRENCES + 1) 0); [discriminate|]. cbn [orb].
    rewrite (CO (fun x => MAX_OCCURRENCES + 1 =? Z.min (wcount x) (MAX_OCCURRENCES + 1))). apply TD. intros w. f_equal.
    destruct (Z.eqb_spec (MAX_OCCURRENCES + 1) (Z.min (wcount (of_word w words marks)) (MAX_OCCURRENCES + 1))), (Z.ltb_spec MAX_OCCURRENCES (wcount (of_word w words marks))); auto; lia.
Qed.

Lemma common_shared l l' : common l l' = shared l l'.
Proof.
  apply filter_ext. intros w. destruct (in_dec _ w l') as [I|I].
  - now apply existsb_streq.
  - destruct (existsb (streq w) l') eqn:E; [|reflexivity]. now apply existsb_streq in E.
Qed.

Theorem wordacc_ok stop order w0 w1 :
  (forall l, Permutation (order l) l) -> zlen (shared w0 w1) <= 65535 ->
  (forall w, In w w0 -> 1 <= zlen w <= MAX_WORDLENGTH) ->
  exists marks d, lcs_marks marks w0 w1 /\ wordacc stop order w0 w1 = Ok d /\ figures stop w0 marks d /\
    phrases marks (phrase d).
Proof.
  intros Ord Sh H. rewrite <- common_shared in Sh. destruct (proj2 (recognize_ok w0 w1) Sh) as (marks & E & L).
  destruct (determine_ok stop order w0 marks Ord (proj1 L) H) as (d & Ed & F & Ph).
  exists marks, d. split; [exact L|]. split; [|auto]. unfold wordacc. rewrite E. exact Ed.
Qed.

(** ** Long words *)

Lemma process_long l : forall total length occurs,
  Forall (fun t => 1 <= wcount (twac t)) l -> Exists (fun t => MAX_WORDLENGTH < zlen (tkey t)) l ->
  zlen length = MAX_WORDLENGTH + 1 -> (forall o, occurs = Some o -> zlen o = MAX_OCCURRENCES + 2) ->
  ofold process_term l (total, length, occurs) = UB "wac[index]".
Proof.
  induction l as [|t l IH]; intros total length occurs F Ex L O; inversion Ex as [? ? H|? ? H]; subst;
    inversion F as [|? ? G F']; subst; cbn [ofold]; unfold process_term at 1;
    (destruct (increment_at_ok length 0 (wcount (twac t)) (wmissed (twac t))) as (l1 & E1 & L1 & C1);
      [unfold MAX_WORDLENGTH in *; lia|]); rewrite E1; cbn [obind].
  - unfold increment_at, rd. destruct (znth l1 (zlen (tkey t))) eqn:E; [|reflexivity].
    apply znth_Some_lt in E. lia.
  - destruct (Z_le_gt_dec (zlen (tkey t)) MAX_WORDLENGTH) as [B|B].
    2: { unfold increment_at, rd. destruct (znth l1 (zlen (tkey t))) eqn:E; [|reflexivity].
         apply znth_Some_lt in E. lia. }
    destruct (increment_at_ok l1 (zlen (tkey t)) (wcount (twac t)) (wmissed (twac t))) as (l2 & E2 & L2 & C2);
      [pose proof (zlen_nonneg (tkey t)); lia|].
    rewrite E2. cbn [obind]. destruct occurs as [o|].
    + specialize (O o eq_refl). set (miss := if wcount (twac t) =? wmissed (twac t) then 1 else 0).
      destruct (increment_at_ok o 0 1 miss) as (o1 & F1 & M1 & D1); [unfold MAX_OCCURRENCES in *; lia|].
      rewrite F1. cbn [obind].
      destruct (increment_at_ok o1 (Z.min (wcount (twac t)) (MAX_OCCURRENCES + 1)) 1 miss) as (o2 & F2 & M2 & D2);
        [unfold MAX_OCCURRENCES in *; lia|].
      rewrite F2. cbn [obind]. apply IH; [exact F'|exact H|congruence|]. intros o' [= <-]. congruence.
    + cbn [obind]. apply IH; [exact F'|exact H|congruence|discriminate].
Qed.

Theorem wordacc_long stop order w0 w1 w :
  (forall l, Permutation (order l) l) -> zlen (shared w0 w1) <= 65535 ->
  (forall w, In w w0 -> 1 <= zlen w) -> In w w0 -> MAX_WORDLENGTH < zlen w ->
  wordacc stop order w0 w1 = UB "wac[index]".
Proof.
  intros Ord Sh H I Lg. rewrite <- common_shared in Sh. destruct (proj2 (recognize_ok w0 w1) Sh) as (marks & E & (Len & _)).
  unfold wordacc. rewrite E. cbn [obind]. unfold determine_wacdata. rewrite tabulate_split.
  set (st := fold_left put (filter (fun wm => stop (fst wm)) (combine w0 marks)) []).
  set (ns := fold_left put (filter (fun wm => negb (stop (fst wm))) (combine w0 marks)) []).
  assert (forall (P : list Z -> bool) T, T = fold_left put (filter (fun wm => P (fst wm)) (combine w0 marks)) [] ->
    Forall (fun t => 1 <= zlen (tkey t) /\ 1 <= wcount (twac t)) (order T) /\
    (P w = true -> Exists (fun t => MAX_WORDLENGTH < zlen (tkey t)) (order T))) as Q.
  { intros P T ->. split.
    - apply Forall_forall. intros t It. eapply Permutation_in in It; [|apply Ord].
      assert (In (tkey t) w0) as Iw by (apply (table_words P w0 marks Len); now apply in_map).
      split; [now apply H|]. rewrite (table_term P w0 marks Len t It). now apply of_word_pos.
    - intros Pw. pose proof (proj2 (table_words P w0 marks Len w) (conj I Pw)) as Ik. apply in_map_iff in Ik.
      destruct Ik as (t & <- & It). apply Exists_exists. exists t. split; [|exact Lg].
      eapply Permutation_in; [apply Permutation_sym, Ord|exact It]. }
  destruct (Q stop st eq_refl) as [Gs Xs]. destruct (Q (fun w => negb (stop w)) ns eq_refl) as [Gn Xn].
  assert (forall T, Forall (fun t => 1 <= zlen (tkey t) /\ 1 <= wcount (twac t)) T -> Forall (fun t => 1 <= wcount (twac t)) T) as W
    by (intros T; apply Forall_impl; intros t [_ G]; exact G).
  cbn [wac_empty wtotal stopword non_stopword distinct phrase].
  destruct (Exists_dec (fun t => MAX_WORDLENGTH < zlen (tkey t)) (order st) ltac:(intros; apply Z_lt_dec)) as [Ex|Nx].
  { rewrite (process_long (order st)); [reflexivity|auto|exact Ex|reflexivity|discriminate]. }
  destruct (process_terms_ok (order st) no_wac (repeat no_wac (Z.to_nat (MAX_WORDLENGTH + 1))) None)
    as (sw & os & E1 & (L1 & C1) & O1); [|reflexivity|discriminate|].
  { apply Forall_forall. intros t It. rewrite Forall_forall in Gs. destruct (Gs t It) as [G1 G2].
    split; [|exact G2]. split; [exact G1|]. destruct (Z_le_gt_dec (zlen (tkey t)) MAX_WORDLENGTH); [assumption|].
    exfalso. apply Nx. apply Exists_exists. exists t. split; [exact It|lia]. }
  rewrite E1. cbn [obind]. destruct (stop w) eqn:Sw; [exfalso; apply Nx, Xs; reflexivity|].
  rewrite (process_long (order ns)); [reflexivity|auto|apply Xn; now rewrite ?Sw|reflexivity|intros o [= <-]; reflexivity].
Qed.

Lemma ascii_characters w : Forall (fun b => 0 <= b < 128) w -> num_characters w = zlen w.
Proof.
  intros F. unfold num_characters. rewrite <- count_if_true. apply count_if_ext. intros b I.
  rewrite Forall_forall in F. specialize (F b I). destruct (Z.eqb_spec (b / 64) 2) as [E|]; [|reflexivity].
  Z.to_euclidean_division_equations. lia.
Qed.
