(** The synchronisation of several copies of one text: every item covers the same part of all
    the copies. *)
From Coq Require Import String.
From Verif Require Import Base SyncModel SyncSpec EditProof SyncProof LongestProof HeurProof.
Local Open Scope Z_scope.
Local Open Scope list_scope.

(** ** longest_match finds the first of the longest matches *)
Section First.
Variables c1 c2 : list Z.
Variables start1 stop1 start2 stop2 : Z.
Hypothesis Hs1 : 0 <= start1.
Hypothesis Hs2 : 0 <= start2.
Hypothesis Hb1 : stop1 < zlen c1.
Hypothesis Hb2 : stop2 < zlen c2.
Local Notation seen := (seen c1 c2 stop1 stop2).
Local Notation inv := (lminv c1 c2 start1 stop1 start2 stop2 0 None None).

(** (y, z) comes before (s1, s2) in the order of the search. *)
Definition before (y z s1 s2 : Z) : Prop :=
  start1 <= y /\ start2 <= z /\ (y < s1 \/ y = s1 /\ z < s2).

Definition first_ok (st : lmstate) : Prop :=
  forall a1 a2, m1 st = Some a1 -> m2 st = Some a2 ->
    forall y z, before y z a1 a2 -> seen (lmax st - 1) y z.

Definition done_ok (st : lmstate) (s1 s2 : Z) : Prop :=
  forall y z, before y z s1 s2 -> seen (lmax st) y z.

Lemma body_first s1 s2 st : inv st -> start1 <= s1 <= stop1 -> start2 <= s2 <= stop2 ->
  first_ok st -> done_ok st s1 s2 ->
  exists st', lm_body c1 c2 stop1 stop2 s1 s2 st = Ok st' /\ inv st' /\ lmax st <= lmax st' /\
    first_ok st' /\ done_ok st' s1 (s2 + 1).
Proof.
  intros Hinv R1 R2 Hf Hd.
  destruct (lm_body_ok c1 c2 start1 stop1 start2 stop2 0 None None Hs1 Hs2 Hb1 Hb2 s1 s2 st)
    as (st' & E & Hinv' & Hle & Hse); auto; [lia|].
  exists st'. split; [exact E|]. split; [exact Hinv'|]. split; [exact Hle|]. split.
  - unfold lm_body in E.
    destruct (rd "c1" c1 s1) as [x| | |]; cbn [obind] in E; try discriminate E.
    destruct (rd "c2" c2 s2) as [y| | |]; cbn [obind] in E; try discriminate E.
    destruct ((x =? y) && negb (x =? REJECT)).
    + destruct (extend (Z.to_nat (stop1 - s1)) c1 c2 (s1 + 1) stop1 (s2 + 1) stop2) as [i| | |];
        cbn [obind] in E; try discriminate E.
      destruct (Z.ltb_spec 0 (i - s1 - lmax st)) as [Hi|Hi]; injection E as <-; [|exact Hf].
      intros a1 a2 [= <-] [= <-] y' z' Hb. cbn [lmax]. eapply seen_mono; [apply Hd, Hb|lia].
    + injection E as <-. exact Hf.
  - intros y z (Hy & Hz & Hlt). destruct (Z.eq_dec y s1) as [->|Hne].
    + destruct (Z.eq_dec z s2) as [->|Hne2]; [exact Hse|].
      eapply seen_mono; [apply Hd|exact Hle]. unfold before. lia.
    + eapply seen_mono; [apply Hd|exact Hle]. unfold before. lia.
Qed.

Lemma inner_first s1 : forall fuel s2 st, inv st -> start1 <= s1 <= stop1 -> start2 <= s2 ->
  stop2 - s2 + 1 <= Z.of_nat fuel -> first_ok st -> done_ok st s1 s2 ->
  exists st', lm_inner fuel c1 c2 stop1 stop2 s1 s2 st = Ok st' /\ inv st' /\ lmax st <= lmax st' /\
    first_ok st' /\ done_ok st' (s1 + 1) start2.
Proof.
  assert (forall s2 st, inv st -> s2limit st < s2 -> done_ok st s1 s2 ->
            done_ok st (s1 + 1) start2) as Hout.
  { intros s2 st Hinv Hlt Hd y z (Hy & Hz & Hlt2).
    destruct (Z.lt_ge_cases y s1); [apply Hd; unfold before; lia|].
    destruct (Z.lt_ge_cases z s2); [apply Hd; unfold before; lia|].
    intros l G1 G2 G3. destruct Hinv. lia. }
  induction fuel as [|f IH]; intros s2 st Hinv R1 R2 Hfu Hf Hd; cbn [lm_inner];
    pose proof (lm_2 _ _ _ _ _ _ _ _ _ _ Hinv) as I2; pose proof (lm_ge _ _ _ _ _ _ _ _ _ _ Hinv) as I3.
  - destruct (Z.leb_spec s2 (s2limit st)); [lia|].
    exists st. split; [reflexivity|]. split; [exact Hinv|]. split; [lia|]. split; [exact Hf|]. eauto.
  - destruct (Z.leb_spec s2 (s2limit st)) as [Hle|Hgt].
    + destruct (body_first s1 s2 st) as (st1 & E1 & Hinv1 & L1 & F1 & D1); auto; [lia|].
      rewrite E1. cbn [obind].
      destruct (IH (s2 + 1) st1) as (st' & E' & Hinv' & L' & F' & D'); auto; try lia.
      exists st'. split; [exact E'|]. split; [exact Hinv'|]. split; [lia|]. auto.
    + exists st. split; [reflexivity|]. split; [exact Hinv|]. split; [lia|]. split; [exact Hf|]. eauto.
Qed.

Lemma outer_first : forall fuel s1 st, inv st -> start1 <= s1 ->
  stop1 - s1 + 1 <= Z.of_nat fuel -> first_ok st -> done_ok st s1 start2 ->
  exists st', lm_outer fuel c1 c2 stop1 start2 stop2 s1 st = Ok st' /\ inv st' /\ first_ok st' /\
    forall y z, start1 <= y -> start2 <= z -> seen (lmax st') y z.
Proof.
  assert (forall s1 st, inv st -> s1limit st < s1 -> done_ok st s1 start2 ->
            forall y z, start1 <= y -> start2 <= z -> seen (lmax st) y z) as Hout.
  { intros s1 st Hinv Hlt Hd y z Hy Hz. destruct (Z.lt_ge_cases y s1); [apply Hd; unfold before; lia|].
    intros l G1 G2 G3. destruct Hinv. lia. }
  induction fuel as [|f IH]; intros s1 st Hinv R1 Hfu Hf Hd; cbn [lm_outer];
    pose proof (lm_1 _ _ _ _ _ _ _ _ _ _ Hinv) as I1; pose proof (lm_ge _ _ _ _ _ _ _ _ _ _ Hinv) as I3.
  - destruct (Z.leb_spec s1 (s1limit st)); [lia|].
    exists st. split; [reflexivity|]. split; [exact Hinv|]. split; [exact Hf|]. eauto.
  - destruct (Z.leb_spec s1 (s1limit st)) as [Hle|Hgt].
    + destruct (inner_first s1 (Z.to_nat (stop2 - start2 + 1)) start2 st)
        as (st1 & E1 & Hinv1 & L1 & F1 & D1); auto; try lia.
      rewrite E1. cbn [obind]. apply IH; auto; lia.
    + exists st. split; [reflexivity|]. split; [exact Hinv|]. split; [exact Hf|]. eauto.
Qed.

Lemma longest_match_first :
  exists L r1 r2,
    longest_match 0 c1 start1 stop1 c2 start2 stop2 None None = Ok (L, r1, r2) /\
    (forall y z l, start1 <= y -> y + l <= stop1 + 1 -> start2 <= z -> z + l <= stop2 + 1 ->
       cm c1 c2 y z l -> l <= L) /\
    (L = 0 \/
     (0 < L /\ exists a1 a2, r1 = Some a1 /\ r2 = Some a2 /\
        start1 <= a1 /\ a1 + L <= stop1 + 1 /\ start2 <= a2 /\ a2 + L <= stop2 + 1 /\
        cm c1 c2 a1 a2 L /\
        forall y z, before y z a1 a2 -> y + L <= stop1 + 1 -> z + L <= stop2 + 1 -> ~ cm c1 c2 y z L)).
Proof.
  unfold longest_match.
  destruct (outer_first (Z.to_nat (stop1 - start1 + 1)) start1 (mklm (stop1 - 0) (stop2 - 0) 0 None None))
    as (st & E & Hinv & F & D); try lia.
  { constructor; cbn; auto; lia. }
  { intros a1 a2 H. discriminate H. }
  { intros y z (H1 & H2 & H3). lia. }
  rewrite E. cbn [obind]. exists (lmax st), (m1 st), (m2 st). split; [reflexivity|]. split.
  - intros y z l H1 H2 H3 H4 H5. eapply D; eauto.
  - destruct (lm_res _ _ _ _ _ _ _ _ _ _ Hinv) as [(-> & _)|(HL & a1 & a2 & E1 & E2 & G1 & G2 & G3 & G4 & G5)]; [auto|].
    right. split; [exact HL|]. exists a1, a2. do 7 (split; [assumption|]).
    intros y z Hb H1 H2 Hc. specialize (F a1 a2 E1 E2 y z Hb (lmax st) H1 H2 Hc). lia.
Qed.
End First.

(** ** The same text on both sides *)
Section Same.
Variable t : list Z.
Variable u : substr.
Hypothesis Hu : sub_ok t u.

(** The match is the first of its length in the part [u] of the text. *)
Definition earliest (s len : Z) : Prop :=
  (s = start u /\ len = slen u) \/
  (cm t t s s len /\ forall y, start u <= y < s -> ~ cm t t y y len).

Lemma cm_diag a b len : cm t t a b len -> cm t t a a len /\ cm t t b b len.
Proof.
  intros H. split; intros x Hx; destruct (H x Hx) as (c & H1 & H2 & H3); exists c; auto.
Qed.

Lemma same_first s len : start u <= s -> 0 <= len -> s + len <= start u + slen u -> earliest s len ->
  exists L r1 r2, longest_match 0 t s (s + len - 1) t (start u) (stop u) None None = Ok (L, r1, r2) /\
    (L = 0 \/ (0 < L /\ exists a, r1 = Some a /\ r2 = Some a /\ s <= a /\ a + L <= s + len /\ earliest a L)).
Proof.
  intros H1 H2 H3 He. destruct Hu as (U1 & U2 & U3 & U4).
  destruct (longest_match_first t t s (s + len - 1) (start u) (stop u)) as (L & r1 & r2 & E & Hmax & Hres); try lia.
  exists L, r1, r2. split; [exact E|].
  destruct Hres as [->|(HL & a1 & a2 & -> & -> & G1 & G2 & G3 & G4 & G5 & G6)]; [auto|]. right. split; [exact HL|].
  destruct (cm_diag _ _ _ G5) as [D1 D2].
  assert (forall y, start u <= y < a1 -> ~ cm t t y y L) as Hear.
  { intros y Hy Hc. destruct He as [(-> & ->)|(Hc2 & He)].
    - apply (G6 y y); auto; unfold before; lia.
    - assert (len <= L) by (apply (Hmax s s len); auto; lia).
      assert (a1 = s) by lia. subst a1. apply (He y Hy). eapply cm_sub; [exact Hc|lia]. }
  assert (a2 = a1) as ->.
  { destruct (Z.lt_trichotomy a2 a1) as [Hlt|[->|Hgt]]; [|reflexivity|].
    - exfalso. apply (Hear a2); [lia|exact D2].
    - exfalso. apply (G6 a1 a1); try lia; [unfold before; lia|exact D1]. }
  exists a1. split; [reflexivity|]. split; [reflexivity|]. split; [lia|]. split; [lia|].
  right. split; [exact D1|exact Hear].
Qed.

Lemma match_rest_same : forall n k s len r, start u <= s -> 0 <= len -> s + len <= start u + slen u ->
  earliest s len -> (0 < k)%nat ->
  match_rest t (combine (repeat t n) (repeat u n)) (repeat s k) len = Ok (Some r) ->
  exists a, r = (repeat a (k + n), snd r) /\ start u <= a /\ 0 <= snd r /\ a + snd r <= start u + slen u.
Proof.
  induction n as [|n IH]; intros k s len r H1 H2 H3 He Hk E; cbn [repeat combine match_rest] in E.
  - injection E as <-. exists s. cbn [snd]. rewrite Nat.add_0_r. auto.
  - assert (rd "start[0]" (repeat s k) 0 = Ok s) as E0 by (destruct k; [lia|reflexivity]).
    rewrite E0 in E. cbn [obind] in E.
    destruct (same_first s len) as (L & r1 & r2 & EL & Hres); auto. rewrite EL in E. cbn [obind] in E.
    destruct Hres as [->|(HL & a & -> & -> & A1 & A2 & A3)]; [cbn in E; discriminate E|].
    destruct (Z.eqb_spec L 0) as [|_]; [lia|]. cbn [get_set obind] in E.
    assert ((if 0 <? a - s then map (fun x => x + (a - s)) (repeat s k) else repeat s k) ++ [a] = repeat a (Datatypes.S k)) as Er.
    { assert (repeat a k ++ [a] = repeat a (Datatypes.S k)) as <- by (symmetry; apply repeat_cons).
      f_equal. destruct (Z.ltb_spec 0 (a - s)).
      - clear -s a. induction k as [|k IHk]; [reflexivity|]. cbn [repeat map]. rewrite IHk. f_equal. lia.
      - f_equal. lia. }
    rewrite Er in E. apply IH in E as (a' & E & B1 & B2 & B3); auto; try lia.
    exists a'. split; [|auto]. rewrite E at 1. do 2 f_equal. lia.
Qed.
End Same.

(** ** The items *)
Section Level.
Variable t : list Z.
Variable n : nat.

Definition flat (s : sync) : Prop := exists u, subs s = repeat u n /\ sub_ok t u.
Definition level (l : list sync) : Prop := Forall flat l.

Lemma zip_repeat f u a m len : zip_starts f (repeat u m) (repeat a m) len = repeat (f u a len) m.
Proof.
  unfold zip_starts. induction m as [|m IH]; [reflexivity|]. cbn [repeat combine map]. f_equal. exact IH.
Qed.

Lemma level_before l id x : level l -> flat x -> level (insert_before l id x).
Proof.
  intros H Hx. induction H as [|s l Hs Hl IH]; cbn [insert_before]; [constructor|].
  destruct (sid s =? id); repeat constructor; auto.
Qed.
Lemma level_after l id x : level l -> flat x -> level (insert_after l id x).
Proof.
  intros H Hx. induction H as [|s l Hs Hl IH]; cbn [insert_after]; [constructor|].
  destruct (sid s =? id); repeat constructor; auto.
Qed.
Lemma level_update l id x : level l -> flat x -> level (update_item l id x).
Proof.
  intros H Hx. induction H as [|s l Hs Hl IH]; cbn [update_item]; [constructor|].
  destruct (sid s =? id); constructor; auto.
Qed.
Lemma level_get l id s : level l -> get_item l id = Some s -> flat s.
Proof.
  intros H. induction H as [|x l Hx Hl IH]; cbn [get_item]; [discriminate|].
  destruct (sid x =? id); [now intros [= <-]|exact IH].
Qed.

Lemma save_level sl id u a len m sl' : level (items sl) ->
  (exists s, get_item (items sl) id = Some s /\ subs s = repeat u n) -> sub_ok t u ->
  start u <= a -> 0 <= len -> a + len <= start u + slen u ->
  save_match sl id (repeat a n) len m = Ok sl' -> level (items sl').
Proof.
  intros Hl (s & Eg & Es) (U1 & U2 & U3 & U4) A1 A2 A3 E. unfold save_match in E. rewrite Eg, Es in E.
  rewrite !zip_repeat in E. injection E as <-. cbn [items subs].
  assert (forall i o, flat (mksync i (repeat (left_sub u a len) n) o)) as F1.
  { intros i o. exists (left_sub u a len). split; [reflexivity|]. unfold sub_ok, left_sub. cbn [start stop slen]. lia. }
  assert (forall i o, flat (mksync i (repeat (right_sub u a len) n) o)) as F2.
  { intros i o. exists (right_sub u a len). split; [reflexivity|]. unfold sub_ok, right_sub. cbn [start stop slen]. lia. }
  assert (forall i o, flat (mksync i (repeat (mid_sub u a len) n) o)) as F3.
  { intros i o. exists (mid_sub u a len). split; [reflexivity|]. unfold sub_ok, mid_sub. cbn [start stop slen]. lia. }
  repeat first [match goal with |- level (if ?b then _ else _) => destruct b end
               | apply level_after | apply level_before | apply level_update]; auto.
Qed.

Lemma recursive_level : forall fuel sl id sl', (0 < n)%nat -> level (items sl) ->
  recursive_sync fuel (repeat t n) sl id = Ok sl' -> level (items sl').
Proof.
  induction fuel as [|f IH]; intros sl id sl' Hn Hl E; cbn [recursive_sync] in E; [discriminate E|].
  destruct (get_item (items sl) id) as [s|] eqn:Eg; [|discriminate E].
  destruct (existsb (fun u => slen u =? 0) (subs s)); [injection E as <-; exact Hl|].
  destruct (level_get _ _ _ Hl Eg) as (u & Es & Hu).
  assert (forall A (x : A), repeat x n = x :: repeat x (pred n)) as Hr by (intros; destruct n; [lia|reflexivity]).
  assert (match repeat t n, subs s with
    | t0 :: trest, s0 :: srest => match_rest t0 (combine trest srest) [start s0] (slen s0)
    | _, _ => UB "no text" end
    = match_rest t (combine (repeat t (pred n)) (repeat u (pred n))) (repeat (start u) 1) (slen u)) as Em
    by (rewrite Es, !Hr; reflexivity).
  rewrite Es in *.
  destruct (repeat t n) as [|t0 tr] eqn:Et; [rewrite Hr in Et; discriminate Et|].
  destruct (repeat u n) as [|u0 ur] eqn:Eu; [rewrite Hr in Eu; discriminate Eu|].
  rewrite Em in E. pose proof Hu as (U1 & U2 & U3 & U4).
  destruct (match_rest t (combine (repeat t (pred n)) (repeat u (pred n))) (repeat (start u) 1) (slen u))
    as [r| | |] eqn:Em2; cbn [obind] in E; try discriminate E.
  destruct r as [[starts len]|]; [|injection E as <-; exact Hl].
  apply match_rest_same in Em2 as (a & Er & A1 & A2 & A3); auto; try lia; [|now left].
  cbn [snd] in A2, A3. injection Er as Er. assert (starts = repeat a n) as Er2 by (rewrite Hr; exact Er).
  rewrite Er2 in E.
  destruct (save_match (mkslist (items sl) (fresh sl + 1)) id (repeat a n) len (fresh sl))
    as [sl1| | |] eqn:Esv; cbn [obind] in E; try discriminate E.
  assert (level (items sl1)) as Hl1.
  { eapply save_level; [| |exact Hu|exact A1|exact A2|exact A3|exact Esv]; [exact Hl|].
    exists s. cbn [items]. rewrite Es, Eu. auto. }
  destruct (prev_id None (items sl1) id) as [p|].
  - destruct (recursive_sync f (t0 :: tr) sl1 p) as [sl2| | |] eqn:E2; cbn [obind] in E; try discriminate E.
    apply IH in E2; auto.
    destruct (next_id (items sl2) id) as [q|]; [|injection E as <-; exact E2].
    eapply IH; [exact Hn|exact E2|exact E].
  - cbn [obind] in E. destruct (next_id (items sl1) id) as [q|]; [|injection E as <-; exact Hl1].
    eapply IH; [exact Hn|exact Hl1|exact E].
Qed.

Lemma synchronize_level l : (0 < n)%nat -> synchronize (repeat t n) = Ok l ->
  Forall (fun it => exists u, isubs it = repeat u n /\ sub_ok t u) l.
Proof.
  intros Hn E. unfold synchronize in E.
  destruct ((zlen (repeat t n) <? MIN_STREAMS) || (MAX_STREAMS <? zlen (repeat t n))); [discriminate E|].
  assert (level (items (initialize_synclist (repeat t n) 1))) as H0.
  { unfold initialize_synclist. destruct (valid_sync _); cbn [items]; constructor; [|constructor].
    exists (mksub 0 (zlen t - 1) (zlen t)). cbn [subs]. split.
    - clear. induction n as [|m IH]; [reflexivity|]. cbn [repeat map]. now rewrite IH.
    - unfold sub_ok. cbn [start stop slen]. pose proof (zlen_nonneg t). lia. }
  assert (exists sl, level (items sl) /\ l = view (number_matches (items sl) 0 no_numbers) (items sl)) as (sl & Hsl & ->).
  { destruct (items (initialize_synclist (repeat t n) 1)) as [|s r] eqn:Ei.
    - cbn [obind] in E. injection E as <-. eexists. split; [|reflexivity]. rewrite Ei. constructor.
    - destruct (recursive_sync (Datatypes.S (List.length (hd [] (repeat t n)))) (repeat t n)
        (initialize_synclist (repeat t n) 1) (sid s)) as [sl| | |] eqn:Er; cbn [obind] in E; try discriminate E.
      injection E as <-. exists sl. split; [|reflexivity]. eapply recursive_level; [exact Hn| |exact Er]. now rewrite Ei. }
  unfold view. apply Forall_map. eapply Forall_impl; [|exact Hsl]. intros s (u & Hs & Hu). exists u. cbn [isubs]. auto.
Qed.
End Level.
