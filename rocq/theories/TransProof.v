(** transpose_sync: greedy, longest-first pairing of substrings. *)
From Coq Require Import String Permutation.
From Verif Require Import Base SyncModel SyncSpec EditProof SyncProof LongestProof HeurProof.
Local Open Scope Z_scope.
Local Open Scope list_scope.

(** *** One list *)

Section One.
Variable t : list Z.

Definition infree (sl : synclist) (y l : Z) : Prop :=
  exists s u, In s (items sl) /\ mptr s = None /\ subs s = [u] /\
    start u <= y /\ y + l <= start u + slen u.

Definition blocked (sl : synclist) (y l : Z) : Prop :=
  exists s u, In s (items sl) /\ mptr s <> None /\ subs s = [u] /\ l <= slen u /\
    start u < y + l /\ y < start u + slen u.

Definition free_of (s : sync) : Z := if unmatched s then at0 s else 0.
Definition free (l : list sync) : Z := fold_right Z.add 0 (map free_of l).

Lemma free_app l1 l2 : free (l1 ++ l2) = free l1 + free l2.
Proof. unfold free. rewrite map_app. induction (map free_of l1); cbn; lia. Qed.

Lemma linv_one sl s : linv [t] sl -> In s (items sl) -> exists u, subs s = [u] /\ sub_ok t u.
Proof.
  intros Hinv Hs. pose proof (linv_zlen _ _ _ Hinv Hs) as Hz.
  destruct (linv_sub [t] sl s 0 t Hinv Hs eq_refl) as (u & Hu & Hok).
  exists u. split; [|exact Hok]. destruct (subs s) as [|v [|w r]]; try discriminate.
  - now injection Hu as ->.
  - rewrite !zlen_cons in Hz. pose proof (zlen_nonneg r). cbn in Hz. lia.
Qed.

Lemma free_nonneg sl : linv [t] sl -> 0 <= free (items sl).
Proof.
  intros Hinv. assert (Forall (fun s => 0 <= free_of s) (items sl)) as H.
  { apply Forall_forall. intros s Hs. destruct (linv_one sl s Hinv Hs) as (u & Hu & (_ & H & _)).
    unfold free_of, at0. rewrite Hu. destruct (unmatched s); lia. }
  induction H; cbn; [lia|]. unfold free in IHForall. lia.
Qed.

Lemma free_opt s : subs s <> [] -> (forall u, subs s = [u] -> 0 <= slen u) -> mptr s = None ->
  (exists u, subs s = [u]) -> free (opt_item s) = at0 s.
Proof.
  intros Hne Hnn Hm (u & Hu). unfold opt_item, at0. rewrite Hu. cbn [valid_sync existsb].
  specialize (Hnn _ Hu). destruct (Z.ltb_spec 0 (slen u)); cbn.
  - unfold free_of, unmatched, at0. rewrite Hm, Hu. lia.
  - lia.
Qed.

Definition old_kept (sl sl' : synclist) : Prop :=
  forall x, In x (items sl) -> mptr x <> None -> In x (items sl').

Lemma save_one sl s u a L m :
  linv [t] sl -> In s (items sl) -> mptr s = None -> subs s = [u] ->
  0 < L -> start u <= a -> a + L <= start u + slen u -> ~ In 126 (slice t a L) ->
  exists sl' l1 l2, save_match sl (sid s) [a] L m = Ok sl' /\ linv [t] sl' /\
    ptrs (items sl) = ptrs l1 ++ ptrs l2 /\ ptrs (items sl') = ptrs l1 ++ m :: ptrs l2 /\
    free (items sl') + L = free (items sl) /\
    old_kept sl sl' /\
    (exists x, In x (items sl') /\ mptr x = Some m /\ subs x = [mksub a (a + L - 1) L]) /\
    (forall x p, In x (items sl') -> mptr x = Some p ->
       In x (items sl) \/ (p = m /\ subs x = [mksub a (a + L - 1) L])) /\
    (forall y l, 0 < l -> infree sl y l -> infree sl' y l \/ (a < y + l /\ y < a + L)).
Proof.
  intros Hinv Hs Hm Hu HL Ha1 Ha2 Hno.
  destruct (linv_one sl s Hinv Hs) as (u' & Hu' & (K1 & K2 & K3 & K4)).
  rewrite Hu in Hu'. injection Hu' as <-.
  destruct (in_split _ _ Hs) as (l1 & l2 & Hit).
  destruct (save_match_ok [t] sl l1 s l2 [a] L m) as (sl' & E & Hinv' & Hit' & Hfr); auto.
  { split; [exact HL|]. split; [rewrite Hu; reflexivity|].
    intros q v st Hv Hst. rewrite Hu in Hv. unfold znth in *. destruct (q <? 0); [discriminate|].
    destruct (Z.to_nat q) as [|[|]]; cbn in *; try discriminate.
    injection Hv as <-. injection Hst as <-. lia. }
  { exists (slice t a L). split; [apply zlen_slice; lia|]. split; [exact Hno|].
    intros q v Hv. exists a. unfold znth in *. destruct (q <? 0); [discriminate|].
    destruct (Z.to_nat q) as [|[|]]; cbn in *; try discriminate.
    injection Hv as <-. auto. }
  set (left := left_of sl s [a] L) in *. set (right := right_of sl s [a] L) in *.
  set (mid := mid_of s [a] L m) in *.
  assert (subs left = [left_sub u a L]) as Sl by (cbn; rewrite Hu; reflexivity).
  assert (subs right = [right_sub u a L]) as Sr by (cbn; rewrite Hu; reflexivity).
  assert (subs mid = [mid_sub u a L]) as Sm by (cbn; rewrite Hu; reflexivity).
  exists sl', l1, l2. split; [exact E|]. split; [exact Hinv'|].
  split; [rewrite Hit, ptrs_app; cbn [ptrs flat_map]; now rewrite Hm|].
  split; [rewrite Hit'; apply ptrs_save; reflexivity|]. split; [|split; [|split; [|split]]].
  - rewrite Hit, Hit', !free_app.
    change (mid :: opt_item right ++ l2) with ([mid] ++ (opt_item right ++ l2)).
    change (s :: l2) with ([s] ++ l2). rewrite !free_app.
    rewrite (free_opt left), (free_opt right); eauto; try (rewrite Sl || rewrite Sr; discriminate).
    + unfold free. cbn [map fold_right]. unfold free_of, unmatched. rewrite Hm. cbn [mptr mid mid_of].
      unfold at0. rewrite Sl, Sr, Hu. cbn. lia.
    + intros v Hv. rewrite Sr in Hv. injection Hv as <-. cbn. lia.
    + intros v Hv. rewrite Sl in Hv. injection Hv as <-. cbn. lia.
  - intros x Hx Hxm. rewrite Hit in Hx. rewrite Hit'.
    apply in_app_or in Hx as [Hx|[Hx|Hx]].
    + apply in_or_app. now left.
    + congruence.
    + apply in_or_app. right. apply in_or_app. right. right. apply in_or_app. now right.
  - exists mid. split; [|split; [reflexivity|exact Sm]].
    rewrite Hit'. apply in_or_app. right. apply in_or_app. right. now left.
  - intros x p Hx Hxp. rewrite Hit' in Hx. rewrite Hit.
    apply in_app_or in Hx as [Hx|Hx]; [left; apply in_or_app; now left|].
    apply in_app_or in Hx as [Hx|[Hx|Hx]].
    + unfold opt_item in Hx. destruct (valid_sync (subs left)); [|destruct Hx].
      destruct Hx as [<-|[]]. discriminate.
    + right. subst x. cbn [mptr mid mid_of] in Hxp. injection Hxp as <-. split; [reflexivity|exact Sm].
    + apply in_app_or in Hx as [Hx|Hx].
      * unfold opt_item in Hx. destruct (valid_sync (subs right)); [|destruct Hx].
        destruct Hx as [<-|[]]. discriminate.
      * left. apply in_or_app. right. now right.
  - intros y l Hl (x & v & Hx & Hxm & Hxs & Y1 & Y2). rewrite Hit in Hx.
    apply in_app_or in Hx as [Hx|[Hx|Hx]].
    + left. exists x, v. split; [rewrite Hit'; apply in_or_app; now left|]. auto.
    + subst x. rewrite Hu in Hxs. injection Hxs as <-.
      destruct (Z_le_gt_dec (y + l) a) as [G|G].
      * left. exists left, (left_sub u a L).
        split; [|split; [reflexivity|split; [exact Sl|cbn; lia]]].
        rewrite Hit'. apply in_or_app. right. apply in_or_app. left. unfold opt_item.
        rewrite Sl. cbn [valid_sync existsb left_sub slen].
        destruct (Z.ltb_spec 0 (a - start u)); [now left|lia].
      * destruct (Z_le_gt_dec (a + L) y) as [G'|G']; [|right; lia].
        left. exists right, (right_sub u a L).
        split; [|split; [reflexivity|split; [exact Sr|cbn; lia]]].
        rewrite Hit'. apply in_or_app. right. apply in_or_app. right. right.
        apply in_or_app. left. unfold opt_item.
        rewrite Sr. cbn [valid_sync existsb right_sub slen].
        destruct (Z.ltb_spec 0 (stop u - (a + L - 1))); [now left|lia].
    + left. exists x, v. split; [|auto]. rewrite Hit'.
      apply in_or_app. right. apply in_or_app. right. right. apply in_or_app. now right.
Qed.
End One.

(** *** The search *)

Section Two.
Variables t1 t2 : list Z.

Section Search.
Variables sl1 sl2 : synclist.
Hypothesis Hi1 : linv [t1] sl1.
Hypothesis Hi2 : linv [t2] sl2.

Definition tr_good (st : trstate) : Prop :=
  trlen st = 0 \/
  (0 < trlen st /\ exists s1 s2 u1 u2 a1 a2,
     In s1 (items sl1) /\ mptr s1 = None /\ subs s1 = [u1] /\ tr1 st = Some (sid s1) /\
     In s2 (items sl2) /\ mptr s2 = None /\ subs s2 = [u2] /\ tr2 st = Some (sid s2) /\
     trs1 st = Some a1 /\ trs2 st = Some a2 /\
     start u1 <= a1 /\ a1 + trlen st <= start u1 + slen u1 /\
     start u2 <= a2 /\ a2 + trlen st <= start u2 + slen u2 /\
     cm t1 t2 a1 a2 (trlen st)).

Definition covered (s1 s2 : sync) (L : Z) : Prop :=
  forall u1 u2 y z l, mptr s1 = None -> mptr s2 = None -> subs s1 = [u1] -> subs s2 = [u2] ->
    start u1 <= y -> y + l <= start u1 + slen u1 ->
    start u2 <= z -> z + l <= start u2 + slen u2 -> cm t1 t2 y z l -> l <= L.

Lemma tr_inner_ok s1 : In s1 (items sl1) -> mptr s1 = None ->
  forall l2 st, incl l2 (items sl2) -> tr_good st ->
  exists st', tr_inner t1 t2 s1 l2 st = Ok st' /\ tr_good st' /\ trlen st <= trlen st' /\
    Forall (fun s2 => covered s1 s2 (trlen st')) l2.
Proof.
  intros Hs1 Hm1. destruct (linv_one t1 sl1 s1 Hi1 Hs1) as (u1 & Hu1 & (K1 & K2 & K3 & K4)).
  unfold tr_inner.
  induction l2 as [|s2 l2 IH]; intros st Hincl Hgood; cbn [ofold].
  { exists st. split; [reflexivity|]. split; [exact Hgood|]. split; [lia|constructor]. }
  assert (In s2 (items sl2)) as Hs2 by (apply Hincl; now left).
  destruct (linv_one t2 sl2 s2 Hi2 Hs2) as (u2 & Hu2 & (V1 & V2 & V3 & V4)).
  assert (0 <= trlen st) as Hnn by (destruct Hgood as [->|[? _]]; lia).
  assert (incl l2 (items sl2)) as Hincl' by (intros x Hx; apply Hincl; now right).
  unfold sub0 at 1 2. rewrite Hu1, Hu2. cbn [obind].
  assert (forall st1, tr_good st1 -> trlen st <= trlen st1 -> covered s1 s2 (trlen st1) ->
    exists st', obind (Ok st1) (fun st => ofold (fun st s2 =>
           let! u1 := sub0 s1 in
           let! u2 := sub0 s2 in
           if unmatched s2 && (trlen st <? slen u2) then
             let! (newlen, a1, a2) :=
               longest_match (trlen st) t1 (start u1) (stop u1) t2 (start u2) (stop u2)
                             (trs1 st) (trs2 st) in
             if trlen st <? newlen
             then Ok (mktr newlen (Some (sid s1)) (Some (sid s2)) a1 a2)
             else Ok (mktr (trlen st) (tr1 st) (tr2 st) a1 a2)
           else Ok st) l2 st) = Ok st' /\ tr_good st' /\ trlen st <= trlen st' /\
    Forall (fun s2 => covered s1 s2 (trlen st')) (s2 :: l2)) as Hnext.
  { intros st1 Hg Hle Hcov. cbn [obind]. destruct (IH st1 Hincl' Hg) as (st' & E & Hg' & Hle' & Hf).
    exists st'. split; [exact E|]. split; [exact Hg'|]. split; [lia|].
    constructor; [|exact Hf]. intros v1 v2 y z l A B C D E1 E2 E3 E4 E5.
    specialize (Hcov v1 v2 y z l A B C D E1 E2 E3 E4 E5). lia. }
  destruct (unmatched s2) eqn:Em; cbn [andb].
  2: { apply Hnext; [exact Hgood|lia|]. intros v1 v2 y z l A B. unfold unmatched in Em.
       rewrite B in Em. discriminate. }
  assert (mptr s2 = None) as Hm2 by (unfold unmatched in Em; destruct (mptr s2); congruence).
  destruct (Z.ltb_spec (trlen st) (slen u2)) as [Hlt|Hge].
  2: { apply Hnext; [exact Hgood|lia|]. intros v1 v2 y z l A B C D. rewrite Hu2 in D.
       injection D as <-. lia. }
  destruct (longest_match_ok t1 t2 (start u1) (stop u1) (start u2) (stop u2) (trlen st)
              (trs1 st) (trs2 st)) as (L & r1 & r2 & E & Hres & Hmax); try lia.
  rewrite E. cbn [obind].
  assert (covered s1 s2 L) as Hcov.
  { intros v1 v2 y z l A B C D. rewrite Hu1 in C. rewrite Hu2 in D. injection C as <-.
    injection D as <-. intros. apply (Hmax y z l); auto; lia. }
  destruct (Z.ltb_spec (trlen st) L) as [HL|HL].
  - destruct Hres as [(-> & _)|(_ & a1 & a2 & -> & -> & G1 & G2 & G3 & G4 & G5)]; [lia|].
    apply Hnext; [|cbn; lia|exact Hcov].
    right. cbn [trlen tr1 tr2 trs1 trs2]. split; [lia|].
    exists s1, s2, u1, u2, a1, a2. repeat (split; [first [assumption|reflexivity|lia]|]). exact G5.
  - destruct Hres as [(-> & -> & ->)|(? & _)]; [|lia].
    assert (mktr (trlen st) (tr1 st) (tr2 st) (trs1 st) (trs2 st) = st) as -> by (destruct st; reflexivity).
    apply Hnext; [exact Hgood|lia|exact Hcov].
Qed.

Lemma tr_search_ok st0 :
  exists st, tr_search t1 t2 (items sl1) (items sl2) st0 = Ok st /\ tr_good st /\
    forall s1 s2, In s1 (items sl1) -> In s2 (items sl2) -> covered s1 s2 (trlen st).
Proof.
  unfold tr_search.
  assert (forall l1 st, incl l1 (items sl1) -> tr_good st ->
    exists st', ofold (fun st s1 =>
           let! u1 := sub0 s1 in
           if unmatched s1 && (trlen st <? slen u1) then tr_inner t1 t2 s1 (items sl2) st
           else Ok st) l1 st = Ok st' /\ tr_good st' /\ trlen st <= trlen st' /\
      Forall (fun s1 => forall s2, In s2 (items sl2) -> covered s1 s2 (trlen st')) l1) as Hgen.
  { induction l1 as [|s1 l1 IH]; intros st Hincl Hg; cbn [ofold].
    { exists st. split; [reflexivity|]. split; [exact Hg|]. split; [lia|constructor]. }
    assert (In s1 (items sl1)) as Hs1 by (apply Hincl; now left).
    assert (incl l1 (items sl1)) as Hincl' by (intros x Hx; apply Hincl; now right).
    destruct (linv_one t1 sl1 s1 Hi1 Hs1) as (u1 & Hu1 & (K1 & K2 & K3 & K4)).
    unfold sub0 at 1. rewrite Hu1. cbn [obind].
    assert (exists st1, (if unmatched s1 && (trlen st <? slen u1) then tr_inner t1 t2 s1 (items sl2) st
           else Ok st) = Ok st1 /\ tr_good st1 /\ trlen st <= trlen st1 /\
           forall s2, In s2 (items sl2) -> covered s1 s2 (trlen st1)) as (st1 & E & Hg1 & Hle & Hc).
    { destruct (unmatched s1) eqn:Em; cbn [andb].
      2: { exists st. split; [reflexivity|]. split; [exact Hg|]. split; [lia|].
           intros s2 _ v1 v2 y z l A. unfold unmatched in Em. rewrite A in Em. discriminate. }
      destruct (Z.ltb_spec (trlen st) (slen u1)).
      - destruct (tr_inner_ok s1 Hs1) with (l2 := items sl2) (st := st) as (st1 & E & G1 & G2 & G3); auto.
        + unfold unmatched in Em. destruct (mptr s1); congruence.
        + apply incl_refl.
        + exists st1. rewrite Forall_forall in G3. auto.
      - exists st. split; [reflexivity|]. split; [exact Hg|]. split; [lia|].
        intros s2 _ v1 v2 y z l A B C. rewrite Hu1 in C. injection C as <-. lia. }
    rewrite E. cbn [obind]. destruct (IH st1 Hincl' Hg1) as (st' & E' & Hg' & Hle' & Hf).
    exists st'. split; [exact E'|]. split; [exact Hg'|]. split; [lia|]. constructor; [|exact Hf].
    intros s2 Hs2 v1 v2 y z l A B C D E1 E2 E3 E4 E5.
    specialize (Hc s2 Hs2 v1 v2 y z l A B C D E1 E2 E3 E4 E5). lia. }
  destruct (Hgen (items sl1) (mktr 0 (tr1 st0) (tr2 st0) (trs1 st0) (trs2 st0))) as (st & E & Hg & _ & Hf).
  - apply incl_refl.
  - left. reflexivity.
  - exists st. split; [exact E|]. split; [exact Hg|]. rewrite Forall_forall in Hf. auto.
Qed.
End Search.

(** *** The main loop *)

Definition same_string (s1 s2 : sync) : Prop :=
  exists u1 u2, subs s1 = [u1] /\ subs s2 = [u2] /\
    slice t1 (start u1) (slen u1) = slice t2 (start u2) (slen u2).

Record tinv (sl1 sl2 : synclist) (m : Z) : Prop := {
  ti_1 : linv [t1] sl1;
  ti_2 : linv [t2] sl2;
  ti_nd1 : NoDup (ptrs (items sl1));
  ti_nd2 : NoDup (ptrs (items sl2));
  ti_lt1 : Forall (fun p => p < m) (ptrs (items sl1));
  ti_lt2 : Forall (fun p => p < m) (ptrs (items sl2));
  ti_set : forall p, In p (ptrs (items sl1)) <-> In p (ptrs (items sl2));
  ti_same : forall s1 s2 p, In s1 (items sl1) -> In s2 (items sl2) ->
      mptr s1 = Some p -> mptr s2 = Some p -> same_string s1 s2;
  ti_greedy : forall y z l, 0 < l -> 0 <= y -> y + l <= zlen t1 -> 0 <= z -> z + l <= zlen t2 ->
      cm t1 t2 y z l ->
      (infree sl1 y l /\ infree sl2 z l) \/ blocked sl1 y l \/ blocked sl2 z l }.

Lemma In_ptrs l p : In p (ptrs l) <-> exists s, In s l /\ mptr s = Some p.
Proof.
  unfold ptrs. rewrite in_flat_map. split.
  - intros (s & Hs & Hp). exists s. split; [exact Hs|]. destruct (mptr s); [|destruct Hp].
    destruct Hp as [->|[]]. reflexivity.
  - intros (s & Hs & Hp). exists s. rewrite Hp. split; [exact Hs|now left].
Qed.

Lemma NoDup_insert {A} (l1 l2 : list A) x :
  NoDup (l1 ++ l2) -> ~ In x (l1 ++ l2) -> NoDup (l1 ++ x :: l2).
Proof. intros. apply NoDup_Add with (a := x) (l := l1 ++ l2); [apply Add_app|auto]. Qed.

Lemma blocked_kept sl sl' y l : old_kept sl sl' -> blocked sl y l -> blocked sl' y l.
Proof. intros H (s & u & H1 & H2 & H3). exists s, u. auto. Qed.

Lemma cm_slice a1 a2 L :
  0 <= a1 -> a1 + L <= zlen t1 -> 0 <= a2 -> a2 + L <= zlen t2 -> 0 <= L -> cm t1 t2 a1 a2 L ->
  slice t1 a1 L = slice t2 a2 L /\ ~ In 126 (slice t1 a1 L).
Proof.
  intros H1 H2 H3 H4 H5 H. split.
  - apply znth_ext; [rewrite !zlen_slice by lia; reflexivity|]. rewrite zlen_slice by lia.
    intros i Hi. rewrite !znth_slice by lia. destruct (H i Hi) as (c & -> & -> & _). reflexivity.
  - intros Hin. apply In_znth in Hin as (i & Hi & E). rewrite zlen_slice in Hi by lia.
    rewrite znth_slice in E by lia. destruct (H i Hi) as (c & Ec & _ & Hc). congruence.
Qed.

(** One step: the items found are unmatched, and the match is saved in both lists. *)
Lemma tr_step sl1 sl2 m st0 st : tinv sl1 sl2 m -> tr_search t1 t2 (items sl1) (items sl2) st0 = Ok st -> trlen st <> 0 ->
  exists s1 s2 a1 a2 sl1' sl2', In s1 (items sl1) /\ mptr s1 = None /\ tr1 st = Some (sid s1) /\
    In s2 (items sl2) /\ mptr s2 = None /\ tr2 st = Some (sid s2) /\ trs1 st = Some a1 /\ trs2 st = Some a2 /\
    save_match sl1 (sid s1) [a1] (trlen st) m = Ok sl1' /\ save_match sl2 (sid s2) [a2] (trlen st) m = Ok sl2' /\
    tinv sl1' sl2' (m + 1) /\ free (items sl1') < free (items sl1) /\ 0 <= free (items sl1').
Proof.
  intros Hinv E E0.
  destruct (tr_search_ok sl1 sl2 (ti_1 _ _ _ Hinv) (ti_2 _ _ _ Hinv) st0) as (st' & E' & Hg & Hmax). rewrite E in E'. injection E' as <-.
  destruct Hg as [?|(HL & s1 & s2 & u1 & u2 & a1 & a2 & G1 & G2 & G3 & G4 & G5 & G6 & G7 & G8 & G9 & G10 & G11 & G12 & G13 & G14 & G15)]; [lia|].
  pose proof (ti_1 _ _ _ Hinv) as L1; pose proof (ti_2 _ _ _ Hinv) as L2.
  destruct (linv_one t1 sl1 s1 L1 G1) as (u1' & Hu1' & (K1 & K2 & K3 & K4)).
  destruct (linv_one t2 sl2 s2 L2 G5) as (u2' & Hu2' & (V1 & V2 & V3 & V4)).
  rewrite G3 in Hu1'; injection Hu1' as <-; rewrite G7 in Hu2'; injection Hu2' as <-.
  destruct (cm_slice a1 a2 (trlen st)) as [Hsl Hno]; auto; try lia.
  destruct (save_one t1 sl1 s1 u1 a1 (trlen st) m)
    as (sl1' & p1 & q1 & E1 & I1 & P1 & P1' & F1 & O1 & M1 & N1 & R1); auto.
  destruct (save_one t2 sl2 s2 u2 a2 (trlen st) m)
      as (sl2' & p2 & q2 & E2 & I2 & P2 & P2' & F2 & O2 & M2 & N2 & R2); auto.
    { rewrite <- Hsl. exact Hno. }
  exists s1, s2, a1, a2, sl1', sl2'. repeat (split; [assumption|]). split; [|pose proof (free_nonneg t1 sl1' I1); split; lia].
  destruct Hinv as [_ _ D1 D2 T1 T2 Tset Tsame Tgr].
  rewrite P1 in D1, T1. rewrite P2 in D2, T2.
  assert (~ In m (ptrs p1 ++ ptrs q1)) as Hm1.
  { intros Hi. rewrite Forall_forall in T1. specialize (T1 _ Hi). lia. }
  assert (~ In m (ptrs p2 ++ ptrs q2)) as Hm2.
  { intros Hi. rewrite Forall_forall in T2. specialize (T2 _ Hi). lia. }
  constructor; auto.
  + rewrite P1'. apply NoDup_insert; auto.
  + rewrite P2'. apply NoDup_insert; auto.
  + rewrite P1'. apply Forall_forall. intros p Hp. rewrite Forall_forall in T1.
    assert (p = m \/ In p (ptrs p1 ++ ptrs q1)) as [->|Hi].
    { rewrite in_app_iff in *. cbn in Hp. intuition. }
    * lia.
    * specialize (T1 _ Hi). lia.
  + rewrite P2'. apply Forall_forall. intros p Hp. rewrite Forall_forall in T2.
    assert (p = m \/ In p (ptrs p2 ++ ptrs q2)) as [->|Hi].
    { rewrite in_app_iff in *. cbn in Hp. intuition. }
    * lia.
    * specialize (T2 _ Hi). lia.
  + intros p. specialize (Tset p). rewrite P1, P2 in Tset. rewrite P1', P2'.
    rewrite !in_app_iff in *. cbn [In]. tauto.
  + intros x1 x2 p X1 X2 Y1 Y2.
    destruct (N1 _ _ X1 Y1) as [O|[-> S1]], (N2 _ _ X2 Y2) as [O'|[E' S2]].
    * eauto.
    * subst p. exfalso. apply Hm1. rewrite <- P1. apply In_ptrs. eauto.
    * exfalso. apply Hm2. rewrite <- P2. apply In_ptrs. eauto.
    * exists (mksub a1 (a1 + trlen st - 1) (trlen st)), (mksub a2 (a2 + trlen st - 1) (trlen st)).
      auto.
  + intros y z l Hl Y1 Y2 Z1 Z2 Hcm.
    destruct (Tgr y z l Hl Y1 Y2 Z1 Z2 Hcm) as [[Fr1 Fr2]|[Hb|Hb]].
    * assert (l <= trlen st) as Hle.
      { destruct Fr1 as (x1 & v1 & A1 & A2 & A3 & A4 & A5).
        destruct Fr2 as (x2 & v2 & B1 & B2 & B3 & B4 & B5).
        apply (Hmax x1 x2 A1 B1 v1 v2 y z l); auto. }
      destruct (R1 y l Hl Fr1) as [F1'|O1'].
      -- destruct (R2 z l Hl Fr2) as [F2'|O2']; [left; auto|].
         right. right. destruct M2 as (x & X1 & X2 & X3). exists x. eexists.
         split; [exact X1|]. split; [congruence|]. split; [exact X3|]. cbn. lia.
      -- right. left. destruct M1 as (x & X1 & X2 & X3). exists x. eexists.
         split; [exact X1|]. split; [congruence|]. split; [exact X3|]. cbn. lia.
    * right. left. eapply blocked_kept; eauto.
    * right. right. eapply blocked_kept; eauto.
Qed.

Lemma tr_loop_ok : forall fuel sl1 sl2 m st0,
  tinv sl1 sl2 m -> free (items sl1) <= Z.of_nat fuel ->
  exists sl1' sl2' m', tr_loop fuel t1 t2 sl1 sl2 m st0 = Ok (sl1', sl2') /\ tinv sl1' sl2' m' /\
    forall y z l, 0 < l -> 0 <= y -> y + l <= zlen t1 -> 0 <= z -> z + l <= zlen t2 ->
      cm t1 t2 y z l -> blocked sl1' y l \/ blocked sl2' z l.
Proof.
  induction fuel as [|f IH]; intros sl1 sl2 m st0 Hinv Hfree.
  all: destruct (tr_search_ok sl1 sl2 (ti_1 _ _ _ Hinv) (ti_2 _ _ _ Hinv) st0) as (st & E & Hg & Hmax).
  all: cbn [tr_loop]; rewrite E; cbn [obind].
  all: destruct (Z.eqb_spec (trlen st) 0) as [E0|E0].
  all: try (exists sl1, sl2, m; split; [reflexivity|]; split; [exact Hinv|];
            intros y z l Hl Y1 Y2 Z1 Z2 Hcm;
            destruct (ti_greedy _ _ _ Hinv y z l) as [[F1 F2]|Hb]; auto; exfalso;
            destruct F1 as (x1 & v1 & A1 & A2 & A3 & A4 & A5);
            destruct F2 as (x2 & v2 & B1 & B2 & B3 & B4 & B5);
            specialize (Hmax x1 x2 A1 B1 v1 v2 y z l A2 B2 A3 B3 A4 A5 B4 B5 Hcm); lia).
  all: destruct (tr_step sl1 sl2 m st0 st Hinv E E0) as (s1 & s2 & a1 & a2 & sl1' & sl2' & _ & _ & G4 & _ & _ & G8 & G9 & G10 & E1 & E2 & Hinv' & F1 & F2).
  - cbn in Hfree. lia.
  - rewrite G4, G8, G9, G10. cbn [get_set obind]. rewrite E1. cbn [obind].
    rewrite E2. cbn [obind]. apply IH; [exact Hinv'|lia].
Qed.

Lemma init_infree t y l : 0 < l -> 0 <= y -> y + l <= zlen t -> infree (initialize_synclist [t] 1) y l.
Proof.
  intros Hl H1 H2. unfold initialize_synclist. cbn [map valid_sync existsb slen].
  destruct (Z.ltb_spec 0 (zlen t)); [|lia]. cbn [orb].
  exists (mksync 1 [mksub 0 (zlen t - 1) (zlen t)] None), (mksub 0 (zlen t - 1) (zlen t)).
  cbn. repeat split; auto; lia.
Qed.

Lemma init_free t : free (items (initialize_synclist [t] 1)) = zlen t.
Proof.
  unfold initialize_synclist. cbn [map valid_sync existsb slen].
  pose proof (zlen_nonneg t).
  destruct (Z.ltb_spec 0 (zlen t)); cbn; lia.
Qed.

Lemma initial_tinv : tinv (initialize_synclist [t1] 1) (initialize_synclist [t2] 1) 1.
Proof.
  constructor; try rewrite !initialize_ptrs; try apply initialize_linv; try constructor; auto.
  + intros s1 s2 p H1 _ E _. exfalso.
    assert (In p (ptrs (items (initialize_synclist [t1] 1)))) as Hp by (apply In_ptrs; eauto).
    rewrite initialize_ptrs in Hp. destruct Hp.
  + split; apply init_infree; auto.
Qed.

Lemma transpose_loop_ok :
  exists sl1 sl2 m,
    tr_loop (List.length t1) t1 t2 (initialize_synclist [t1] 1) (initialize_synclist [t2] 1)
            1 (mktr 0 None None None None) = Ok (sl1, sl2) /\ tinv sl1 sl2 m /\
    forall y z l, 0 < l -> 0 <= y -> y + l <= zlen t1 -> 0 <= z -> z + l <= zlen t2 ->
      cm t1 t2 y z l -> blocked sl1 y l \/ blocked sl2 z l.
Proof.
  apply tr_loop_ok; [apply initial_tinv|]. rewrite init_free. unfold zlen. lia.
Qed.
End Two.

Lemma map_inj_NoDup {A B} (f : A -> B) l x y :
  NoDup (map f l) -> In x l -> In y l -> f x = f y -> x = y.
Proof.
  induction l as [|a l IH]; cbn [map In]; [tauto|]. intros H. inversion H as [|? ? Hn Hd]; subst.
  intros [->|Hx] [->|Hy] E; auto.
  - exfalso. apply Hn. rewrite E. now apply in_map.
  - exfalso. apply Hn. rewrite <- E. now apply in_map.
Qed.
