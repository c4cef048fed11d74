(** longest_match finds a longest common substring free of rejects. *)
From Verif Require Import Base SyncModel SyncSpec EditProof SyncProof.

Section Match.
Variables c1 c2 : list Z.

(** The [len] characters from s1 in c1 and from s2 in c2 agree and contain no reject. *)
Definition cm (s1 s2 len : Z) : Prop :=
  forall x, 0 <= x < len ->
    exists c, znth c1 (s1 + x) = Some c /\ znth c2 (s2 + x) = Some c /\ c <> 126.

Lemma cm_sub s1 s2 len len' : cm s1 s2 len -> len' <= len -> cm s1 s2 len'.
Proof. intros H Hl x Hx. apply H. lia. Qed.

Lemma agree_test x y : (x =? y) && negb (x =? REJECT) = true <-> x = y /\ x <> 126.
Proof.
  unfold REJECT. rewrite andb_true_iff, negb_true_iff, Z.eqb_eq, Z.eqb_neq. tauto.
Qed.

Lemma extend_ok stop1 stop2 s1 s2 : forall fuel i,
  0 <= s1 -> 0 <= s2 -> stop1 < zlen c1 -> stop2 < zlen c2 -> 0 <= i ->
  s1 + i <= stop1 + 1 -> s2 + i <= stop2 + 1 ->
  stop1 - (s1 + i) + 1 <= Z.of_nat fuel ->
  cm s1 s2 i ->
  exists i', extend fuel c1 c2 (s1 + i) stop1 (s2 + i) stop2 = Ok (s1 + i') /\ i <= i' /\
    s1 + i' <= stop1 + 1 /\ s2 + i' <= stop2 + 1 /\ cm s1 s2 i' /\
    (forall l, s1 + l <= stop1 + 1 -> s2 + l <= stop2 + 1 -> cm s1 s2 l -> l <= i').
Proof.
  induction fuel as [|f IH]; intros i H1 H2 B1 B2 Hi L1 L2 Hf Hcm; cbn [extend].
  - assert (s1 + i = stop1 + 1) as E by lia.
    destruct (Z.leb_spec (s1 + i) stop1); [lia|]. cbn [andb]. exists i.
    repeat split; auto; try lia.
  - destruct (Z.leb_spec (s1 + i) stop1) as [G1|G1], (Z.leb_spec (s2 + i) stop2) as [G2|G2];
      cbn [andb]; try (exists i; repeat split; auto; lia).
    destruct (znth_lt_Some c1 (s1 + i)) as [x Hx]; [lia|].
    destruct (znth_lt_Some c2 (s2 + i)) as [y Hy]; [lia|].
    unfold rd. rewrite Hx, Hy. cbn [obind].
    destruct ((x =? y) && negb (x =? REJECT)) eqn:E.
    + apply agree_test in E as [<- Hne].
      destruct (IH (i + 1)) as (i' & E' & R1 & R2 & R3 & R4 & R5); auto; try lia.
      { intros z Hz. destruct (Z.eq_dec z i) as [->|]; [exists x; auto|]. apply Hcm. lia. }
      exists i'. rewrite <- !Z.add_assoc. rewrite E'. repeat split; auto; lia.
    + exists i. repeat split; auto; try lia.
      intros l Hl1 Hl2 Hl. destruct (Z.le_gt_cases l i) as [|Hgt]; [assumption|].
      exfalso. destruct (Hl i) as (c & Ha & Hb & Hc); [lia|].
      assert (x = c) by congruence. assert (y = c) by congruence. subst x y.
      assert ((c =? c) && negb (c =? REJECT) = true); [|congruence].
      apply agree_test. auto.
Qed.

Variables start1 stop1 start2 stop2 maxlen : Z.
Variables p1 p2 : option Z.
Hypothesis Hs1 : 0 <= start1.
Hypothesis Hs2 : 0 <= start2.
Hypothesis Hb1 : stop1 < zlen c1.
Hypothesis Hb2 : stop2 < zlen c2.

(** All matches from (s1, s2) have at most the current length. *)
Definition seen (L s1 s2 : Z) : Prop :=
  forall l, s1 + l <= stop1 + 1 -> s2 + l <= stop2 + 1 -> cm s1 s2 l -> l <= L.

Record lminv (st : lmstate) : Prop := {
  lm_1 : s1limit st = stop1 - lmax st;
  lm_2 : s2limit st = stop2 - lmax st;
  lm_ge : maxlen <= lmax st;
  lm_res : (lmax st = maxlen /\ m1 st = p1 /\ m2 st = p2) \/
           (maxlen < lmax st /\
            exists a1 a2, m1 st = Some a1 /\ m2 st = Some a2 /\
              start1 <= a1 /\ a1 + lmax st <= stop1 + 1 /\
              start2 <= a2 /\ a2 + lmax st <= stop2 + 1 /\ cm a1 a2 (lmax st)) }.

Lemma seen_mono L L' s1 s2 : seen L s1 s2 -> L <= L' -> seen L' s1 s2.
Proof. intros H Hl l H1 H2 H3. specialize (H l H1 H2 H3). lia. Qed.

Lemma lm_body_ok s1 s2 st :
  0 <= maxlen -> lminv st -> start1 <= s1 <= stop1 -> start2 <= s2 <= stop2 ->
  exists st', lm_body c1 c2 stop1 stop2 s1 s2 st = Ok st' /\ lminv st' /\
    lmax st <= lmax st' /\ seen (lmax st') s1 s2.
Proof.
  intros Hm Hinv R1 R2. unfold lm_body.
  destruct (znth_lt_Some c1 s1) as [x Hx]; [lia|].
  destruct (znth_lt_Some c2 s2) as [y Hy]; [lia|].
  unfold rd. rewrite Hx, Hy. cbn [obind].
  destruct Hinv as [I1 I2 I3 I4].
  destruct ((x =? y) && negb (x =? REJECT)) eqn:E.
  - apply agree_test in E as [<- Hne].
    destruct (extend_ok stop1 stop2 s1 s2 (Z.to_nat (stop1 - s1)) 1)
      as (i & E & G1 & G2 & G3 & G4 & G5); auto; try lia.
    { intros z Hz. replace z with 0 by lia. rewrite !Z.add_0_r. exists x. auto. }
    rewrite E. cbn [obind].
    replace (s1 + i - s1 - lmax st) with (i - lmax st) by lia.
    destruct (Z.ltb_spec 0 (i - lmax st)) as [Hi|Hi].
    + eexists. split; [reflexivity|]. cbn [lmax s1limit s2limit m1 m2]. split; [|split].
      * constructor; cbn [lmax s1limit s2limit m1 m2]; try lia.
        right. replace (lmax st + (i - lmax st)) with i by lia. split; [lia|].
        exists s1, s2. repeat split; auto; lia.
      * lia.
      * replace (lmax st + (i - lmax st)) with i by lia. exact G5.
    + exists st. split; [reflexivity|]. split; [constructor; auto|]. split; [lia|].
      intros l H1 H2 H3. specialize (G5 l H1 H2 H3). lia.
  - exists st. split; [reflexivity|]. split; [constructor; auto|]. split; [lia|].
    intros l H1 H2 H3. destruct (Z.le_gt_cases l 0) as [|Hl]; [lia|].
    exfalso. destruct (H3 0) as (c & Ha & Hb & Hc); [lia|]. rewrite Z.add_0_r in *.
    assert (x = c) by congruence. assert (y = c) by congruence. subst x y.
    assert ((c =? c) && negb (c =? REJECT) = true); [|congruence].
    apply agree_test. auto.
Qed.

Lemma lm_inner_ok s1 : forall fuel s2 st,
  0 <= maxlen -> lminv st -> start1 <= s1 <= stop1 -> start2 <= s2 ->
  stop2 - s2 + 1 <= Z.of_nat fuel ->
  exists st', lm_inner fuel c1 c2 stop1 stop2 s1 s2 st = Ok st' /\ lminv st' /\
    lmax st <= lmax st' /\ forall z, s2 <= z -> seen (lmax st') s1 z.
Proof.
  assert (forall s2 st, lminv st -> s2limit st < s2 ->
            forall z, s2 <= z -> seen (lmax st) s1 z) as Hout.
  { intros s2 st Hinv Hlt z Hz l G1 G2 G3. destruct Hinv. lia. }
  induction fuel as [|f IH]; intros s2 st Hm Hinv R1 R2 Hf; cbn [lm_inner].
  - pose proof (lm_2 _ Hinv) as I2. pose proof (lm_ge _ Hinv).
    destruct (Z.leb_spec s2 (s2limit st)); [lia|].
    exists st. repeat split; auto; try lia. apply Hinv. all: try apply Hinv.
    intros z Hz. eapply Hout; eauto.
  - destruct (Z.leb_spec s2 (s2limit st)) as [Hle|Hgt].
    + pose proof (lm_2 _ Hinv) as I2. pose proof (lm_ge _ Hinv).
      destruct (lm_body_ok s1 s2 st) as (st1 & E1 & Hinv1 & G1 & G2); auto; try lia.
      rewrite E1. cbn [obind].
      destruct (IH (s2 + 1) st1) as (st' & E' & Hinv' & G3 & G4); auto; try lia.
      exists st'. split; [exact E'|]. split; [exact Hinv'|]. split; [lia|].
      intros z Hz. destruct (Z.eq_dec z s2) as [->|]; [|apply G4; lia].
      eapply seen_mono; eauto.
    + exists st. split; [reflexivity|]. split; [exact Hinv|]. split; [lia|].
      intros z Hz. eapply Hout; eauto.
Qed.

Lemma lm_outer_ok : forall fuel s1 st,
  0 <= maxlen -> lminv st -> start1 <= s1 -> stop1 - s1 + 1 <= Z.of_nat fuel ->
  exists st', lm_outer fuel c1 c2 stop1 start2 stop2 s1 st = Ok st' /\ lminv st' /\
    lmax st <= lmax st' /\
    forall y z, s1 <= y -> start2 <= z -> seen (lmax st') y z.
Proof.
  assert (forall s1 st, lminv st -> s1limit st < s1 ->
            forall y z, s1 <= y -> seen (lmax st) y z) as Hout.
  { intros s1 st Hinv Hlt y z Hy l G1 G2 G3. destruct Hinv. lia. }
  induction fuel as [|f IH]; intros s1 st Hm Hinv R1 Hf; cbn [lm_outer].
  - pose proof (lm_1 _ Hinv) as I1. pose proof (lm_ge _ Hinv).
    destruct (Z.leb_spec s1 (s1limit st)); [lia|].
    exists st. split; [reflexivity|]. split; [exact Hinv|]. split; [lia|].
    intros y z Hy Hz. eapply Hout; eauto.
  - destruct (Z.leb_spec s1 (s1limit st)) as [Hle|Hgt].
    + pose proof (lm_1 _ Hinv) as I1. pose proof (lm_ge _ Hinv).
      destruct (lm_inner_ok s1 (Z.to_nat (stop2 - start2 + 1)) start2 st)
        as (st1 & E1 & Hinv1 & G1 & G2); auto; try lia.
      rewrite E1. cbn [obind].
      destruct (IH (s1 + 1) st1) as (st' & E' & Hinv' & G3 & G4); auto; try lia.
      exists st'. split; [exact E'|]. split; [exact Hinv'|]. split; [lia|].
      intros y z Hy Hz. destruct (Z.eq_dec y s1) as [->|]; [|apply G4; lia].
      eapply seen_mono; [apply G2; lia|lia].
    + exists st. split; [reflexivity|]. split; [exact Hinv|]. split; [lia|].
      intros y z Hy Hz. eapply Hout; eauto.
Qed.

Lemma longest_match_ok :
  0 <= maxlen ->
  exists L r1 r2,
    longest_match maxlen c1 start1 stop1 c2 start2 stop2 p1 p2 = Ok (L, r1, r2) /\
    ((L = maxlen /\ r1 = p1 /\ r2 = p2) \/
     (maxlen < L /\ exists a1 a2, r1 = Some a1 /\ r2 = Some a2 /\
        start1 <= a1 /\ a1 + L <= stop1 + 1 /\ start2 <= a2 /\ a2 + L <= stop2 + 1 /\
        cm a1 a2 L)) /\
    (forall y z l, start1 <= y -> y + l <= stop1 + 1 -> start2 <= z -> z + l <= stop2 + 1 ->
       cm y z l -> l <= L).
Proof.
  intros Hm. unfold longest_match.
  destruct (lm_outer_ok (Z.to_nat (stop1 - start1 + 1)) start1
    (mklm (stop1 - maxlen) (stop2 - maxlen) maxlen p1 p2))
    as (st & E & Hinv & G1 & G2); auto; try lia.
  { constructor; cbn; auto; lia. }
  rewrite E. cbn [obind]. exists (lmax st), (m1 st), (m2 st). split; [reflexivity|].
  split; [apply (lm_res _ Hinv)|].
  intros y z l H1 H2 H3 H4 H5. eapply G2; eauto.
Qed.

End Match.
