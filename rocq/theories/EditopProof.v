(** Proofs about editop.c. *)
From Coq Require Import String Permutation.
From Verif Require Import Base AccSpec SumProof SyncModel SyncSpec EdoModel EdoSpec EdoProof EditopModel EditopSpec.
Local Open Scope Z_scope.
Local Open Scope list_scope.

(** ** The moves *)

Section Moves.
Context {A : Type} (wt : A -> Z).

(** The blocks [l] stand for the sequence [s], and in the order of their numbers for [tgt]. *)
Record rep (G : Z -> list A) (l : list block) (s tgt : list A) : Prop := {
  r_perm : Permutation (map bmatch l) (zrange 1 (List.length l));
  r_len : Forall (fun b => blen b = zsum (map wt (G (bmatch b))) /\ G (bmatch b) <> [] /\ 1 <= blen b) l;
  r_s : flat_map (fun b => G (bmatch b)) l = s;
  r_tgt : flat_map G (zrange 1 (List.length l)) = tgt }.

Lemma flat_map_ext_in {X Y} (f g : X -> list Y) l :
  (forall x, In x l -> f x = g x) -> flat_map f l = flat_map g l.
Proof.
  induction l as [|x l IH]; intros H; [reflexivity|]. cbn. f_equal; [apply H; left; reflexivity|].
  apply IH. intros y Hy. apply H. right. exact Hy.
Qed.

Lemma flat_map_map {X Y W} (f : Y -> list W) (g : X -> Y) l :
  flat_map f (map g l) = flat_map (fun x => f (g x)) l.
Proof. induction l; cbn; congruence. Qed.

Definition dec_by (m j : Z) := if m <? j then j - 1 else j.

Lemma decrement_matches m l : map bmatch (decrement_match m l) = map (dec_by m) (map bmatch l).
Proof.
  unfold decrement_match. rewrite !map_map. apply map_ext. intros b. unfold dec_by.
  destruct (m <? bmatch b); reflexivity.
Qed.

Lemma rep_nodup G l s t : rep G l s t -> NoDup (map bmatch l).
Proof.
  intros H. eapply Permutation_NoDup; [symmetry; apply (r_perm _ _ _ _ H)|apply NoDup_zrange].
Qed.

Lemma rep_range G l s t b : rep G l s t -> In b l -> 1 <= bmatch b <= zlen l.
Proof.
  intros H I. assert (J : In (bmatch b) (map bmatch l)) by (apply in_map; exact I).
  eapply Permutation_in in J; [|apply (r_perm _ _ _ _ H)]. apply In_zrange in J. unfold zlen. lia.
Qed.

Lemma zrange_shift (G : Z -> list A) lo n :
  flat_map (fun j => G (j + 1)) (zrange lo n) = flat_map G (zrange (lo + 1) n).
Proof. revert lo; induction n; intros lo; cbn [zrange flat_map]; [reflexivity|]. now rewrite IHn. Qed.

Lemma rep_merge G a x y b s t :
  rep G (a ++ x :: y :: b) s t -> bmatch y = bmatch x + 1 ->
  exists G', rep G' (decrement_match (bmatch x) (a ++ mkblock (bmatch x) (blen x + blen y) :: b)) s t.
Proof.
  intros H E. set (m := bmatch x) in *.
  set (x' := mkblock m (blen x + blen y)).
  set (G' := fun j => if j <? m then G j else if j =? m then G m ++ G (m + 1) else G (j + 1)).
  exists G'. pose proof (rep_nodup _ _ _ _ H) as N. rewrite map_app in N. cbn [map] in N.
  pose proof (fun b => rep_range _ _ _ _ b H) as Rg.
  assert (Lx : 1 <= m /\ m + 1 <= zlen (a ++ x :: y :: b)).
  { split; [apply (Rg x); apply in_or_app; right; left; reflexivity|].
    rewrite <- E. apply (Rg y). apply in_or_app; right; right; left; reflexivity. }
  assert (Other : forall c, In c a \/ In c b -> bmatch c <> m /\ bmatch c <> m + 1).
  { intros c Hc. rewrite <- E. fold m in N.
    assert (N' : NoDup (m :: bmatch y :: map bmatch a ++ map bmatch b)).
    { eapply Permutation_NoDup; [|exact N].
      rewrite <- Permutation_middle. apply perm_skip. rewrite <- Permutation_middle. reflexivity. }
    inversion N' as [|? ? N1 N2]; subst. inversion N2 as [|? ? N3 N4]; subst.
    assert (In (bmatch c) (map bmatch a ++ map bmatch b)).
    { apply in_or_app. destruct Hc; [left|right]; apply in_map; assumption. }
    split; intros X; [apply N1; right|apply N3]; rewrite <- X; assumption. }
  assert (Dec : forall c, In c a \/ In c b -> G' (dec_by m (bmatch c)) = G (bmatch c)).
  { intros c Hc. destruct (Other c Hc) as [X Y]. unfold G', dec_by.
    destruct (Z.ltb_spec m (bmatch c)).
    - destruct (Z.ltb_spec (bmatch c - 1) m); [lia|]. destruct (Z.eqb_spec (bmatch c - 1) m); [lia|].
      f_equal. lia.
    - destruct (Z.ltb_spec (bmatch c) m); [reflexivity|lia]. }
  assert (Gm : G' m = G m ++ G (m + 1)).
  { unfold G'. rewrite Z.ltb_irrefl, Z.eqb_refl. reflexivity. }
  assert (Dm : dec_by m m = m) by (unfold dec_by; rewrite Z.ltb_irrefl; reflexivity).
  assert (Len : List.length (decrement_match m (a ++ x' :: b)) = (List.length a + 1 + List.length b)%nat).
  { unfold decrement_match. rewrite map_length, app_length. cbn [List.length]. lia. }
  assert (Len0 : List.length (a ++ x :: y :: b) = (List.length a + 2 + List.length b)%nat).
  { rewrite app_length. cbn [List.length]. lia. }
  constructor.
  - rewrite decrement_matches. apply NoDup_Permutation_bis.
    + assert (N' : NoDup (map bmatch (a ++ x' :: b))).
      { rewrite map_app. cbn [map]. change (bmatch x') with m.
        assert (Eq : map bmatch a ++ bmatch x :: bmatch y :: map bmatch b = (map bmatch a ++ [m]) ++ bmatch y :: map bmatch b)
          by (rewrite <- app_assoc; reflexivity).
        rewrite Eq in N. apply NoDup_remove_1 in N. rewrite <- app_assoc in N. exact N. }
      assert (Not : ~ In (m + 1) (map bmatch (a ++ x' :: b))).
      { rewrite in_map_iff. intros (c & E1 & I). apply in_app_or in I. destruct I as [I|[I|I]].
        - destruct (Other c); auto.
        - subst c. cbn in E1. lia.
        - destruct (Other c); auto. }
      revert N' Not. generalize (map bmatch (a ++ x' :: b)). clear. intros l N Not.
      induction N as [|j l J N IH]; cbn [map]; constructor.
      * rewrite in_map_iff. intros (k & E & I). apply J.
        assert (k <> m + 1) by (intros ->; apply Not; right; exact I).
        assert (j <> m + 1) by (intros ->; apply Not; left; reflexivity).
        replace j with k; [exact I|]. unfold dec_by in E.
        destruct (Z.ltb_spec m k), (Z.ltb_spec m j); lia.
      * apply IH. intros I. apply Not. right. exact I.
    + rewrite Len, !map_length, zrange_length, app_length. cbn [List.length]. lia.
    + intros j Hj. rewrite Len. apply In_zrange. apply in_map_iff in Hj. destruct Hj as (k & <- & I).
      apply in_map_iff in I. destruct I as (c & <- & I).
      assert (B : 1 <= bmatch c <= zlen (a ++ x :: y :: b)).
      { apply in_app_or in I. destruct I as [I|[I|I]].
        - apply Rg. apply in_or_app. left. exact I.
        - subst c. cbn. lia.
        - apply Rg. apply in_or_app. right. right. right. exact I. }
      unfold zlen in *. rewrite Len0 in *. unfold dec_by. destruct (Z.ltb_spec m (bmatch c)); [lia|].
      split; [lia|]. lia.
  - apply Forall_forall. intros c Hc. apply in_map_iff in Hc. destruct Hc as (c0 & <- & I).
    pose proof (r_len _ _ _ _ H) as F. rewrite Forall_forall in F.
    apply in_app_or in I. destruct I as [I|[I|I]].
    + destruct (F c0 ltac:(apply in_or_app; left; exact I)) as [F1 F2].
      pose proof (Dec c0 (or_introl I)) as D. unfold dec_by in D.
      destruct (m <? bmatch c0); cbn [bmatch blen]; rewrite D; split; assumption.
    + subst c0. change (bmatch x') with m. rewrite Z.ltb_irrefl. change (bmatch x') with m.
      change (blen x') with (blen x + blen y). rewrite Gm.
      destruct (F x ltac:(apply in_or_app; right; left; reflexivity)) as [F1 F2].
      destruct (F y ltac:(apply in_or_app; right; right; left; reflexivity)) as [F3 F4].
      destruct F2 as [F2 F5], F4 as [F4 F6].
      split; [rewrite map_app, zsum_app, F1, F3, E; reflexivity|]. split; [|lia]. fold m in F2.
      destruct (G m); [congruence|discriminate].
    + destruct (F c0 ltac:(apply in_or_app; right; right; right; exact I)) as [F1 F2].
      pose proof (Dec c0 (or_intror I)) as D. unfold dec_by in D.
      destruct (m <? bmatch c0); cbn [bmatch blen]; rewrite D; split; assumption.
  - rewrite <- (r_s _ _ _ _ H). rewrite <- (flat_map_map G' bmatch), decrement_matches, map_map, flat_map_map.
    rewrite !flat_map_app. cbn [flat_map]. f_equal.
    + apply flat_map_ext_in. intros c I. apply Dec. left. exact I.
    + change (bmatch x') with m. rewrite Dm, Gm, <- app_assoc. fold m. rewrite E. f_equal. f_equal.
      apply flat_map_ext_in. intros c I. apply Dec. right. exact I.
  - rewrite <- (r_tgt _ _ _ _ H), Len, Len0. unfold zlen in Lx. rewrite Len0 in Lx.
    set (n1 := Z.to_nat (m - 1)). set (n2 := (List.length a + 1 + List.length b - n1 - 1)%nat).
    replace (List.length a + 1 + List.length b)%nat with (n1 + (1 + n2))%nat by lia.
    replace (List.length a + 2 + List.length b)%nat with (n1 + (2 + n2))%nat by lia.
    rewrite (zrange_app 1 n1 (1 + n2)), (zrange_app 1 n1 (2 + n2)), !flat_map_app. cbn [zrange flat_map Nat.add].
    replace (1 + Z.of_nat n1) with m by lia. rewrite Gm, <- app_assoc. f_equal.
    + apply flat_map_ext_in. intros j Hj. apply In_zrange in Hj. unfold G'.
      destruct (Z.ltb_spec j m); [reflexivity|lia].
    + f_equal. f_equal. rewrite <- (zrange_shift G). apply flat_map_ext_in. intros j Hj.
      apply In_zrange in Hj. unfold G'. destruct (Z.ltb_spec j m); [lia|].
      destruct (Z.eqb_spec j m); [lia|reflexivity].
Qed.

(** No two neighbours have consecutive numbers. *)
Fixpoint apart (l : list block) : Prop :=
  match l with
  | x :: r => match r with y :: _ => bmatch y <> bmatch x + 1 | [] => True end /\ apart r
  | [] => True
  end.

Lemma combine_from_ok fuel : forall before x rest G s t,
  rep G (before ++ x :: rest) s t -> (List.length rest < fuel)%nat ->
  exists l' G', combine_from fuel before x rest = Ok l' /\ rep G' l' s t /\
    zlen l' <= zlen (before ++ x :: rest) /\
    (zlen l' = zlen (before ++ x :: rest) -> l' = before ++ x :: rest /\ apart (x :: rest)).
Proof.
  induction fuel as [|fuel IH]; intros before x rest G s t H L; [lia|]. cbn [combine_from].
  destruct rest as [|y rest].
  - exists (before ++ [x]), G. split; [reflexivity|]. split; [exact H|]. split; [lia|].
    intros _. split; [reflexivity|]. cbn. auto.
  - destruct (Z.eqb_spec (bmatch y) (bmatch x + 1)) as [E|E].
    + cbn [decrement_match map bmatch blen]. rewrite Z.ltb_irrefl.
      destruct (rep_merge _ _ _ _ _ _ _ H E) as (G' & H').
      unfold decrement_match at 1 in H'. rewrite map_app in H'. cbn [map bmatch] in H'.
      rewrite Z.ltb_irrefl in H'. fold (decrement_match (bmatch x) before) (decrement_match (bmatch x) rest) in H'.
      destruct (IH _ _ _ _ _ _ H') as (l' & G'' & E1 & H1 & H2 & H3).
      { unfold decrement_match. rewrite map_length. cbn [List.length] in L. lia. }
      exists l', G''. split; [exact E1|]. split; [exact H1|].
      assert (zlen l' < zlen (before ++ x :: y :: rest)).
      { eapply Z.le_lt_trans; [exact H2|]. unfold zlen, decrement_match. rewrite !app_length. cbn [List.length].
        rewrite !map_length. lia. }
      split; [lia|]. intros X. lia.
    + destruct (IH (before ++ [x]) y rest G s t) as (l' & G' & E1 & H1 & H2 & H3).
      { rewrite <- app_assoc. exact H. } { cbn [List.length] in L. lia. }
      rewrite <- app_assoc in H2, H3. cbn [app] in H2, H3.
      exists l', G'. split; [exact E1|]. split; [exact H1|]. split; [exact H2|].
      intros X. destruct (H3 X) as [X1 X2]. split; [exact X1|]. cbn [apart]. split; [exact E|exact X2].
Qed.

Lemma combine_ok G l s t : rep G l s t ->
  exists l' G', combine_adjacent l = Ok l' /\ rep G' l' s t /\ zlen l' <= zlen l /\
    (zlen l' = zlen l -> l' = l /\ apart l).
Proof.
  intros H. destruct l as [|x rest].
  - exists [], G. split; [reflexivity|]. split; [exact H|]. split; [lia|]. cbn. auto.
  - unfold combine_adjacent. apply (combine_from_ok (List.length (x :: rest)) [] x rest G s t H).
    cbn [List.length]. lia.
Qed.

(** ** The candidates *)

Definition good (l : list block) (x : candidate) (i : Z) : Prop :=
  forall b, csync x = Some b -> In b l /\ bmatch b = i.

Lemma set_candidate_ok c i f : 0 <= i < zlen c ->
  exists c' x, set_candidate c i f = Ok c' /\ znth c i = Some x /\ zlen c' = zlen c /\
    znth c' i = Some (f x) /\ forall j, j <> i -> znth c' j = znth c j.
Proof.
  intros H. unfold set_candidate. destruct (znth_lt_Some c i H) as (x & Ex).
  apply (rd_Ok "candidate[i]") in Ex. rewrite Ex. cbn [obind]. apply rd_Ok in Ex.
  destruct (zset_lt_Some c i (f x) H) as (c' & Ec). unfold wr. rewrite Ec. exists c', x.
  split; [reflexivity|]. split; [exact Ex|]. split; [eapply zset_zlen; exact Ec|].
  split; [rewrite (zset_znth _ _ _ _ Ec), Z.eqb_refl; reflexivity|].
  intros j Hj. rewrite (zset_znth _ _ _ _ Ec). destruct (Z.eqb_spec j i); [contradiction|reflexivity].
Qed.

Fixpoint insb (l : list block) (i : Z) : bool :=
  match l with
  | a :: r => match r with b :: _ => (bmatch b =? bmatch a + 2) && (i =? bmatch a + 1) | [] => false end
              || insb r i
  | [] => false
  end.
Fixpoint delb (l : list block) (i : Z) : bool :=
  match l with
  | a :: r => match r with b :: c :: _ => (bmatch c =? bmatch a + 1) && (i =? bmatch b) | _ => false end
              || delb r i
  | [] => false
  end.
Fixpoint lk (l : list block) (i : Z) : option block :=
  match l with
  | b :: r => match lk r i with Some y => Some y | None => if i =? bmatch b then Some b else None end
  | [] => None
  end.

Definition bounded (n : Z) (l : list block) : Prop := Forall (fun b => 1 <= bmatch b < n) l.

Lemma fill_ok l : forall c, bounded (zlen c) l ->
  exists c', fill_candidates l c = Ok c' /\ zlen c' = zlen c /\
    forall i x, znth c i = Some x ->
      znth c' i = Some (mkcand (for_insertion x || insb l i) (for_deletion x || delb l i)
                               (match lk l i with Some y => Some y | None => csync x end)).
Proof.
  induction l as [|a l IH]; intros c B.
  - exists c. split; [reflexivity|]. split; [reflexivity|]. intros i x E. rewrite E. cbn.
    rewrite !orb_false_r. destruct x; reflexivity.
  - inversion B as [|? ? B1 B2]; subst.
    assert (S1 : exists c1, (match l with
              | n :: _ => if bmatch n =? bmatch a + 2
                          then set_candidate c (bmatch a + 1) set_insertion else Ok c
              | [] => Ok c end) = Ok c1 /\ zlen c1 = zlen c /\
              forall i x, znth c i = Some x -> znth c1 i = Some (mkcand (for_insertion x ||
                match l with b :: _ => (bmatch b =? bmatch a + 2) && (i =? bmatch a + 1) | [] => false end)
                (for_deletion x) (csync x))).
    { destruct l as [|b l].
      - exists c. split; [reflexivity|]. split; [reflexivity|]. intros i x E. rewrite E, orb_false_r. destruct x; reflexivity.
      - destruct (Z.eqb_spec (bmatch b) (bmatch a + 2)) as [E|E].
        + inversion B2 as [|? ? B3 B4]; subst.
          destruct (set_candidate_ok c (bmatch a + 1) set_insertion) as (c1 & x1 & E1 & E2 & E3 & E4 & E5); [lia|].
          exists c1. split; [exact E1|]. split; [exact E3|]. intros i x Ex. cbn [andb].
          destruct (Z.eqb_spec i (bmatch a + 1)) as [-> |N].
          * rewrite E4. assert (x1 = x) as -> by congruence. rewrite orb_true_r. reflexivity.
          * rewrite (E5 i N), Ex, orb_false_r. destruct x; reflexivity.
        + exists c. split; [reflexivity|]. split; [reflexivity|]. intros i x Ex. cbn [andb]. rewrite Ex, orb_false_r. destruct x; reflexivity. }
    destruct S1 as (c1 & E1 & L1 & F1).
    assert (S2 : exists c2, (match l with
              | n :: nn :: _ => if bmatch nn =? bmatch a + 1
                                then set_candidate c1 (bmatch n) set_deletion else Ok c1
              | _ => Ok c1 end) = Ok c2 /\ zlen c2 = zlen c /\
              forall i x, znth c1 i = Some x -> znth c2 i = Some (mkcand (for_insertion x)
                (for_deletion x ||
                match l with b :: c :: _ => (bmatch c =? bmatch a + 1) && (i =? bmatch b) | _ => false end)
                (csync x))).
    { destruct l as [|b [|b2 l]].
      - exists c1. split; [reflexivity|]. split; [exact L1|]. intros i x E. rewrite E, orb_false_r. destruct x; reflexivity.
      - exists c1. split; [reflexivity|]. split; [exact L1|]. intros i x E. rewrite E, orb_false_r. destruct x; reflexivity.
      - inversion B2 as [|? ? B3 B4]; subst. rewrite <- L1 in *.
        destruct (Z.eqb_spec (bmatch b2) (bmatch a + 1)) as [E|E].
        + destruct (set_candidate_ok c1 (bmatch b) set_deletion) as (c2 & x1 & E1' & E2 & E3 & E4 & E5); [lia|].
          exists c2. split; [exact E1'|]. split; [exact E3|]. intros i x Ex. cbn [andb].
          destruct (Z.eqb_spec i (bmatch b)) as [-> |N].
          * rewrite E4. assert (x1 = x) as -> by congruence. rewrite orb_true_r. reflexivity.
          * rewrite (E5 i N), Ex, orb_false_r. destruct x; reflexivity.
        + exists c1. split; [reflexivity|]. split; [reflexivity|]. intros i x Ex. cbn [andb]. rewrite Ex, orb_false_r. destruct x; reflexivity. }
    destruct S2 as (c2 & E2 & L2 & F2). cbn [fill_candidates]. rewrite E1. cbn [obind]. rewrite E2. cbn [obind].
    destruct (set_candidate_ok c2 (bmatch a) (set_sync a)) as (c3 & x3 & E3 & E4 & L3 & E5 & E6); [lia|].
    rewrite E3. cbn [obind]. destruct (IH c3) as (c4 & E7 & L4 & F4).
    { rewrite L3, L2. exact B2. }
    exists c4. split; [exact E7|]. split; [congruence|]. intros i x Ex.
    specialize (F1 i x Ex). specialize (F2 _ _ F1). cbn [for_insertion for_deletion csync] in F2.
    cbn [insb delb lk]. destruct (Z.eqb_spec i (bmatch a)) as [-> |N].
    + rewrite E4 in F2. assert (Hx : x3 = _) by (injection F2 as F2; exact F2). subst x3.
      rewrite (F4 _ _ E5). unfold set_sync. cbn [for_insertion for_deletion csync]. rewrite !orb_assoc.
      destruct (lk l (bmatch a)); reflexivity.
    + rewrite <- (E6 i N) in F2. rewrite (F4 _ _ F2). cbn [for_insertion for_deletion csync]. rewrite !orb_assoc.
      destruct (lk l i); reflexivity.
Qed.

Lemma lk_spec l i b : lk l i = Some b -> In b l /\ bmatch b = i.
Proof.
  induction l as [|a l IH]; cbn [lk]; [discriminate|]. destruct (lk l i) as [y|].
  - intros E. destruct (IH E). split; [right|]; assumption.
  - destruct (Z.eqb_spec i (bmatch a)) as [-> |N]; [|discriminate]. intros [= <-]. split; [left|]; reflexivity.
Qed.

Lemma lk_In l b : NoDup (map bmatch l) -> In b l -> lk l (bmatch b) = Some b.
Proof.
  induction l as [|a l IH]; intros N I; [destruct I|]. inversion N as [|? ? N1 N2]; subst.
  cbn [lk]. destruct I as [-> |I].
  - destruct (lk l (bmatch b)) as [y|] eqn:E.
    + apply lk_spec in E. destruct E as [E1 E2]. exfalso. apply N1. rewrite <- E2. apply in_map. exact E1.
    + rewrite Z.eqb_refl. reflexivity.
  - rewrite (IH N2 I). reflexivity.
Qed.

Lemma candidates_ok l : NoDup (map bmatch l) -> Forall (fun b => 1 <= bmatch b <= zlen l) l ->
  exists c, find_candidates l = Ok c /\ zlen c = zlen l + 1 /\
    forall i, 0 <= i <= zlen l -> znth c i = Some (mkcand (insb l i) (delb l i) (lk l i)).
Proof.
  intros N B. unfold find_candidates.
  set (c0 := repeat (mkcand false false None) (Datatypes.S (List.length l))).
  assert (L0 : zlen c0 = zlen l + 1) by (unfold c0, zlen; rewrite repeat_length; lia).
  destruct (fill_ok l c0) as (c & E & L & F).
  { rewrite L0. eapply Forall_impl; [|exact B]. cbv beta. lia. }
  exists c. split; [exact E|]. split; [congruence|]. intros i Hi.
  assert (E0 : znth c0 i = Some (mkcand false false None)).
  { destruct (znth_lt_Some c0 i) as (x & Ex); [lia|]. rewrite Ex. f_equal.
    apply znth_In in Ex. eapply repeat_spec. exact Ex. }
  rewrite (F _ _ E0). cbn [for_insertion for_deletion csync orb]. destruct (lk l i); reflexivity.
Qed.

(** ** The choice *)

Definition b2z (b : bool) : Z := if b then 1 else 0.
Definition gain (l : list block) (b : block) : Z := 1 + b2z (insb l (bmatch b)) + b2z (delb l (bmatch b)).
(** [b] is the better choice, or the same. *)
Definition beats (l : list block) (b b' : block) : Prop :=
  gain l b' < gain l b \/
  (gain l b' = gain l b /\ (blen b < blen b' \/ (blen b = blen b' /\ bmatch b <= bmatch b'))).

Lemma consider_all l c : (forall i, 0 <= i <= zlen l -> znth c i = Some (mkcand (insb l i) (delb l i) (lk l i))) ->
  NoDup (map bmatch l) -> (forall i, 1 <= i <= zlen l -> exists b, In b l /\ bmatch b = i) ->
  forall n, (0 < n <= List.length l)%nat ->
  exists b, In b l /\ bmatch b <= Z.of_nat n /\
    ofold (consider c) (zrange 1 n) (None, 0) = Ok (Some (bmatch b, blen b), gain l b) /\
    forall b', In b' l -> bmatch b' <= Z.of_nat n -> 1 <= bmatch b' -> beats l b b'.
Proof.
  intros C N T. induction n as [|n IH]; intros Hn; [lia|].
  replace (Datatypes.S n) with (n + 1)%nat by lia. rewrite zrange_app, ofold_app. cbn [zrange].
  set (i := 1 + Z.of_nat n). destruct (T i) as (x & Ix & Ex); [unfold zlen; lia|].
  pose proof (C i ltac:(unfold zlen; lia)) as Ci. pose proof (lk_In l x N Ix) as K. rewrite Ex in K. rewrite K in Ci.
  apply (rd_Ok "candidate[i]") in Ci.
  assert (G : gain l x = 1 + (if insb l i then 1 else 0) + (if delb l i then 1 else 0))
    by (unfold gain; rewrite Ex; reflexivity).
  assert (Only : forall b', In b' l -> bmatch b' = i -> b' = x).
  { intros b' Ib Eb. pose proof (lk_In l b' N Ib) as K'. rewrite Eb in K'. congruence. }
  destruct n as [|n].
  - cbn [zrange ofold obind]. unfold consider at 1. rewrite Ci. cbn [obind for_insertion for_deletion].
    rewrite <- G. assert (0 < gain l x) by (rewrite G; destruct (insb l i), (delb l i); lia).
    destruct (Z.ltb_spec 0 (gain l x)); [|lia]. cbn [obind candidate_length csync].
    exists x. split; [exact Ix|]. split; [lia|]. split; [rewrite Ex; reflexivity|].
    intros b' Ib Hb Hb1. rewrite (Only b' Ib ltac:(lia)). right. split; [reflexivity|]. right. lia.
  - destruct IH as (b & Ib & Hb & E & Hbest); [lia|]. rewrite E. cbn [obind ofold].
    unfold consider at 1. rewrite Ci. cbn [obind for_insertion for_deletion]. rewrite <- G.
    cbn [candidate_length csync obind].
    destruct (Z.ltb_spec (gain l b) (gain l x)) as [L1|L1].
    + cbn [obind]. exists x. split; [exact Ix|]. split; [lia|]. split; [rewrite Ex; reflexivity|].
      intros b' Ib' Hb' Hb1. destruct (Z.eq_dec (bmatch b') i) as [Q|Q].
      * rewrite (Only b' Ib' Q). right. split; [reflexivity|]. right. lia.
      * destruct (Hbest b' Ib' ltac:(lia) Hb1) as [H|[H _]]; left; lia.
    + destruct (Z.eqb_spec (gain l x) (gain l b)) as [L2|L2]; cbn [obind].
      * destruct (Z.ltb_spec (blen x) (blen b)) as [L3|L3]; cbn [obind].
        -- exists x. split; [exact Ix|]. split; [lia|]. split; [rewrite Ex; reflexivity|].
           intros b' Ib' Hb' Hb1. destruct (Z.eq_dec (bmatch b') i) as [Q|Q].
           ++ rewrite (Only b' Ib' Q). right. split; [reflexivity|]. right. lia.
           ++ destruct (Hbest b' Ib' ltac:(lia) Hb1) as [H|[H H']]; [left; lia|]. right. lia.
        -- exists b. split; [exact Ib|]. split; [lia|]. split; [reflexivity|].
           intros b' Ib' Hb' Hb1. destruct (Z.eq_dec (bmatch b') i) as [Q|Q].
           ++ rewrite (Only b' Ib' Q). right. lia.
           ++ apply Hbest; [exact Ib'|lia|exact Hb1].
      * exists b. split; [exact Ib|]. split; [lia|]. split; [reflexivity|].
        intros b' Ib' Hb' Hb1. destruct (Z.eq_dec (bmatch b') i) as [Q|Q].
        -- rewrite (Only b' Ib' Q). left. lia.
        -- apply Hbest; [exact Ib'|lia|exact Hb1].
Qed.

Lemma rep_total G l s t : rep G l s t -> forall i, 1 <= i <= zlen l -> exists b, In b l /\ bmatch b = i.
Proof.
  intros H i Hi. assert (I : In i (map bmatch l)).
  { eapply Permutation_in; [symmetry; apply (r_perm _ _ _ _ H)|]. apply In_zrange. unfold zlen in Hi. lia. }
  apply in_map_iff in I. destruct I as (b & E & I). eauto.
Qed.

Lemma find_move_ok G l s t : rep G l s t -> 1 < zlen l ->
  exists c b, find_candidates l = Ok c /\ find_move l c = Ok b /\ In b l /\
    (forall i, 0 <= i <= zlen l -> znth c i = Some (mkcand (insb l i) (delb l i) (lk l i))) /\
    forall b', In b' l -> beats l b b'.
Proof.
  intros H L. pose proof (rep_nodup _ _ _ _ H) as N. pose proof (fun b => rep_range _ _ _ _ b H) as Rg.
  destruct (candidates_ok l N) as (c & E & Lc & C); [apply Forall_forall; exact Rg|].
  destruct (consider_all l c C N (rep_total _ _ _ _ H) (List.length l)) as (b & Ib & Hb & Ef & Best).
  { unfold zlen in L. lia. }
  exists c, b. split; [exact E|]. unfold find_move. rewrite Ef. cbn [obind].
  pose proof (Rg b Ib). pose proof (C (bmatch b) ltac:(lia)) as Cb. apply (rd_Ok "candidate[move_i]") in Cb.
  rewrite Cb. cbn [obind csync]. rewrite (lk_In l b N Ib). split; [reflexivity|]. split; [exact Ib|].
  split; [exact C|]. intros b' Ib'. pose proof (Rg b' Ib'). apply Best; [exact Ib'|unfold zlen in *; lia|lia].
Qed.

(** ** One move *)

Lemma remove_ok l x : NoDup (map bmatch l) -> In x l ->
  exists p q, l = p ++ x :: q /\ list_remove l x = Ok (p ++ q).
Proof.
  induction l as [|a l IH]; intros N I; [destruct I|]. inversion N as [|? ? N1 N2]; subst. cbn [list_remove].
  destruct (Z.eqb_spec (bmatch a) (bmatch x)) as [E|E].
  - destruct I as [-> |I]; [exists [], l; split; reflexivity|].
    exfalso. apply N1. rewrite E. apply in_map. exact I.
  - destruct I as [-> |I]; [congruence|]. destruct (IH N2 I) as (p & q & -> & E2). rewrite E2.
    exists (a :: p), q. split; reflexivity.
Qed.
Lemma before_ok l x y : NoDup (map bmatch l) -> In y l ->
  exists p q, l = p ++ y :: q /\ list_insert_before l x y = Ok (p ++ x :: y :: q).
Proof.
  induction l as [|a l IH]; intros N I; [destruct I|]. inversion N as [|? ? N1 N2]; subst. cbn [list_insert_before].
  destruct (Z.eqb_spec (bmatch a) (bmatch y)) as [E|E].
  - destruct I as [-> |I]; [exists [], l; split; reflexivity|].
    exfalso. apply N1. rewrite E. apply in_map. exact I.
  - destruct I as [-> |I]; [congruence|]. destruct (IH N2 I) as (p & q & -> & E2). rewrite E2.
    exists (a :: p), q. split; reflexivity.
Qed.
Lemma after_ok l x y : NoDup (map bmatch l) -> In y l ->
  exists p q, l = p ++ y :: q /\ list_insert_after l y x = Ok (p ++ y :: x :: q).
Proof.
  induction l as [|a l IH]; intros N I; [destruct I|]. inversion N as [|? ? N1 N2]; subst. cbn [list_insert_after].
  destruct (Z.eqb_spec (bmatch a) (bmatch y)) as [E|E].
  - destruct I as [-> |I]; [exists [], l; split; reflexivity|].
    exfalso. apply N1. rewrite E. apply in_map. exact I.
  - destruct I as [-> |I]; [congruence|]. destruct (IH N2 I) as (p & q & -> & E2). rewrite E2.
    exists (a :: p), q. split; reflexivity.
Qed.

Lemma apart_app l1 a b l2 : apart (l1 ++ a :: b :: l2) -> bmatch b <> bmatch a + 1.
Proof. induction l1 as [|c l1 IH]; cbn [app]; intros H; [apply H|]. apply IH. cbn [apart] in H. apply H. Qed.

Definition recorded (d : edodata) (n : Z) (d' : edodata) : Prop :=
  insertions d' = insertions d /\ deletions d' = deletions d /\ total_moves d' = total_moves d + 1 /\
  zlen (moves d') = zlen (moves d) /\
  forall i, entry (moves d') i = entry (moves d) i + (if Z.min n 100 =? i then 1 else 0).

(** [x] has been put before its successor, if it is the first, or else after its predecessor. *)
Definition placed (x : block) (p q : list block) : Prop :=
  (bmatch x = 1 -> exists y q', q = y :: q' /\ bmatch y = bmatch x + 1) /\
  (bmatch x <> 1 -> exists p' y, p = p' ++ [y] /\ bmatch y = bmatch x - 1).

Lemma perform_ok G l s t c x d : rep G l s t -> 1 < zlen l -> In x l -> zlen (moves d) = 101 ->
  (forall i, 0 <= i <= zlen l -> znth c i = Some (mkcand (insb l i) (delb l i) (lk l i))) ->
  exists p q p' q' s' d', l = p ++ x :: q /\ p ++ q = p' ++ q' /\
    perform_move l c x d = Ok (p' ++ x :: q', d') /\ recorded d (blen x) d' /\
    rep G (p' ++ x :: q') s' t /\ moved wt s (blen x) s' /\ 1 <= blen x /\ ~ apart (p' ++ x :: q') /\
    placed x p' q'.
Proof.
  intros H L I M C. pose proof (rep_nodup _ _ _ _ H) as N. pose proof (rep_range _ _ _ _ x H I) as Rg.
  destruct (remove_ok l x N I) as (p & q & El & Er).
  assert (Npq : NoDup (map bmatch (p ++ q))).
  { rewrite El, map_app in N. cbn [map] in N. rewrite map_app. eapply NoDup_remove_1. exact N. }
  assert (Ins : exists p' q', p ++ q = p' ++ q' /\ (~ apart (p' ++ x :: q') /\ placed x p' q') /\
    (if bmatch x =? 1 then obind (candidate_sync c 2) (fun b => list_insert_before (p ++ q) x b)
     else obind (candidate_sync c (bmatch x - 1)) (fun b => list_insert_after (p ++ q) b x)) = Ok (p' ++ x :: q')).
  { assert (Get : forall i, 1 <= i <= zlen l -> i <> bmatch x ->
      exists y, candidate_sync c i = Ok y /\ In y (p ++ q) /\ bmatch y = i).
    { intros i Hi Hx. destruct (rep_total _ _ _ _ H i Hi) as (y & Iy & Ey). exists y.
      unfold candidate_sync. pose proof (C i ltac:(lia)) as Ci. apply (rd_Ok "candidate[i]") in Ci. rewrite Ci.
      cbn [obind csync]. rewrite <- Ey, (lk_In l y N Iy). split; [reflexivity|]. split; [|reflexivity].
      rewrite El in Iy. apply in_app_or in Iy. apply in_or_app. destruct Iy as [Iy|[Iy|Iy]]; auto.
      subst y. congruence. }
    destruct (Z.eqb_spec (bmatch x) 1) as [E1|E1].
    - destruct (Get 2) as (y & Ey & Iy & My); [lia|lia|]. rewrite Ey. cbn [obind].
      destruct (before_ok (p ++ q) x y Npq Iy) as (p' & q' & E2 & E3). exists p', (y :: q').
      split; [exact E2|]. split; [|exact E3]. split.
      + intros Ap. apply apart_app in Ap. lia.
      + split; [|lia]. intros _. exists y, q'. split; [reflexivity|lia].
    - destruct (Get (bmatch x - 1)) as (y & Ey & Iy & My); [lia|lia|]. rewrite Ey. cbn [obind].
      destruct (after_ok (p ++ q) x y Npq Iy) as (p' & q' & E2 & E3). exists (p' ++ [y]), q'.
      rewrite <- !app_assoc. cbn [app].
      split; [exact E2|]. split; [|exact E3]. split.
      + intros Ap. apply apart_app in Ap. lia.
      + split; [lia|]. intros _. exists p', y. split; [reflexivity|lia]. }
  destruct Ins as (p' & q' & E1 & (E2 & Pl) & E3).
  pose proof (r_len _ _ _ _ H) as F. rewrite Forall_forall in F. destruct (F x I) as [F1 F2].
  destruct F2 as [F2 P1].
  destruct (znth_lt_Some (moves d) (Z.min (blen x) 100)) as (m & Em); [lia|].
  destruct (zset_lt_Some (moves d) (Z.min (blen x) 100) (m + 1)) as (ms & Ems); [lia|].
  set (d' := mkedo (insertions d) (deletions d) (total_moves d + 1) ms).
  exists p, q, p', q', (flat_map (fun b => G (bmatch b)) (p' ++ x :: q')), d'.
  split; [exact El|]. split; [exact E1|]. split.
  { unfold perform_move. rewrite Er. cbn [obind]. rewrite E3. cbn [obind]. unfold add_at.
    change MAX_MOVE_LENGTH with 100. apply (rd_Ok "moves[value2]") in Em. rewrite Em. cbn [obind]. unfold wr. rewrite Ems.
    reflexivity. }
  split.
  { repeat (split; [reflexivity|]). split; [apply (zset_zlen _ _ _ _ Ems)|]. intros i. unfold entry. cbn [moves d'].
    rewrite (zset_znth _ _ _ _ Ems), (Z.eqb_sym i). destruct (Z.eqb_spec (Z.min (blen x) 100) i) as [<- |X].
    - rewrite Em. reflexivity.
    - rewrite Z.add_0_r. reflexivity. }
  assert (Pm : Permutation l (p' ++ x :: q')).
  { rewrite El. rewrite <- !Permutation_middle, E1. reflexivity. }
  split.
  { constructor.
    - rewrite <- (Permutation_length Pm), <- Pm. apply (r_perm _ _ _ _ H).
    - apply Forall_forall. intros b Hb. apply F. eapply Permutation_in; [symmetry; exact Pm|exact Hb].
    - reflexivity.
    - rewrite <- (Permutation_length Pm). apply (r_tgt _ _ _ _ H). }
  split; [|split; [exact P1|split; [exact E2|exact Pl]]].
  exists (flat_map (fun b => G (bmatch b)) p), (G (bmatch x)), (flat_map (fun b => G (bmatch b)) q),
    (flat_map (fun b => G (bmatch b)) p'), (flat_map (fun b => G (bmatch b)) q').
  rewrite <- (r_s _ _ _ _ H), El, !flat_map_app. cbn [flat_map].
  split; [reflexivity|]. split; [reflexivity|]. split; [rewrite <- !flat_map_app, E1; reflexivity|].
  split; [exact F2|exact F1].
Qed.

(** ** All the moves *)

Lemma moves_loop_ok : forall fuel G l s t d, rep G l s t -> zlen (moves d) = 101 -> (List.length l <= fuel)%nat ->
  exists l' d' ls, moves_loop fuel l d = Ok (l', d') /\ moves_to wt s ls t /\
    zlen ls <= Z.max 0 (zlen l - 1) /\ Forall (fun n => 1 <= n) ls /\
    insertions d' = insertions d /\ deletions d' = deletions d /\ total_moves d' = total_moves d + zlen ls /\
    zlen (moves d') = 101 /\
    (forall i, entry (moves d') i = entry (moves d) i + zlen (filter (fun n => Z.min n 100 =? i) ls)) /\
    (zlen l <= 1 -> ls = []).
Proof.
  induction fuel as [|fuel IH]; intros G l s t d H M L.
  - assert (l = []) as -> by (destruct l; [reflexivity|cbn in L; lia]).
    exists [], d, []. split; [reflexivity|].
    assert (s = t) as -> by (rewrite <- (r_s _ _ _ _ H), <- (r_tgt _ _ _ _ H); reflexivity).
    split; [constructor|]. split; [cbn; lia|]. split; [constructor|]. rewrite zlen_nil.
    do 4 (split; [try reflexivity; try lia; try assumption|]). split; [|reflexivity]. intros i. cbn [filter]. rewrite zlen_nil. lia.
  - cbn [moves_loop]. destruct (Z.ltb_spec 1 (zlen l)) as [L1|L1].
    + destruct (find_move_ok _ _ _ _ H L1) as (c & x & E1 & E2 & Ix & C & _).
      rewrite E1. cbn [obind]. rewrite E2. cbn [obind].
      destruct (perform_ok _ _ _ _ c x d H L1 Ix M C) as (p & q & p' & q' & s' & d1 & El & Epq & E3 & R & H1 & Mv & P1 & Ap & _).
      rewrite E3. cbn [obind]. destruct (combine_ok _ _ _ _ H1) as (l2 & G2 & E4 & H2 & L2 & L3).
      rewrite E4. cbn [obind]. destruct R as (R1 & R2 & R3 & R4 & R5).
      assert (Ll : zlen (p' ++ x :: q') = zlen l).
      { rewrite El. unfold zlen. rewrite !app_length. cbn [List.length].
        apply (f_equal (@List.length block)) in Epq. rewrite !app_length in Epq. lia. }
      assert (zlen l2 <> zlen (p' ++ x :: q')) by (intros X; apply Ap, (L3 X)).
      destruct (IH G2 l2 s' t d1) as (l' & d' & ls & E5 & Mt & B1 & B2 & B3 & B4 & B5 & B6 & B7 & B8);
        [exact H2|congruence|unfold zlen in *; lia|].
      exists l', d', (blen x :: ls). split; [exact E5|]. split; [econstructor; eauto|].
      rewrite zlen_cons. split; [lia|]. split; [constructor; assumption|].
      split; [congruence|]. split; [congruence|]. split; [lia|]. split; [exact B6|]. split; [|intros; lia].
      intros i. rewrite B7, R5. cbn [filter]. destruct (Z.min (blen x) 100 =? i).
      * rewrite zlen_cons. lia.
      * lia.
    + exists l, d, []. split; [reflexivity|].
      assert (s = t) as ->.
      { rewrite <- (r_s _ _ _ _ H), <- (r_tgt _ _ _ _ H). destruct l as [|a [|b l]].
        - reflexivity.
        - pose proof (rep_range _ _ _ _ a H (or_introl eq_refl)) as Ra. change (zlen [a]) with 1 in Ra.
          cbn. replace (bmatch a) with 1 by lia. reflexivity.
        - rewrite !zlen_cons in L1. pose proof (zlen_nonneg l). lia. }
      split; [constructor|]. rewrite zlen_nil. split; [lia|]. split; [constructor|].
      do 4 (split; [try reflexivity; try lia; try assumption|]). split; [|reflexivity].
      intros i. cbn [filter]. rewrite zlen_nil. lia.
Qed.

Lemma count_moves_ok G l s t d : rep G l s t -> zlen (moves d) = 101 ->
  exists l' d' ls, count_moves l d = Ok (l', d') /\ moves_to wt s ls t /\
    zlen ls <= Z.max 0 (zlen l - 1) /\ Forall (fun n => 1 <= n) ls /\
    insertions d' = insertions d /\ deletions d' = deletions d /\ total_moves d' = total_moves d + zlen ls /\
    zlen (moves d') = 101 /\
    (forall i, entry (moves d') i = entry (moves d) i + zlen (filter (fun n => Z.min n 100 =? i) ls)).
Proof.
  intros H M. destruct (combine_ok _ _ _ _ H) as (l1 & G1 & E & H1 & L1 & _). unfold count_moves. rewrite E.
  cbn [obind]. destruct (moves_loop_ok (List.length l1) G1 l1 s t d H1 M (le_n _))
    as (l' & d' & ls & E2 & B1 & B2 & B3 & B4 & B5 & B6 & B7 & B8 & _).
  exists l', d', ls. split; [exact E2|]. split; [exact B1|]. split; [lia|]. auto 9.
Qed.
End Moves.


(** Blocks that are already in order: no move. *)
Lemma dec_range n : forall lo, 1 <= lo -> map (dec_by 1) (zrange (lo + 1) n) = zrange lo n.
Proof.
  induction n as [|n IH]; intros lo H; cbn [zrange map]; [reflexivity|]. rewrite IH by lia. f_equal.
  unfold dec_by. destruct (Z.ltb_spec 1 (lo + 1)); lia.
Qed.

Lemma combine_sorted n : forall fuel x rest, bmatch x = 1 -> map bmatch rest = zrange 2 n -> (n < fuel)%nat ->
  exists b, combine_from fuel [] x rest = Ok [b].
Proof.
  induction n as [|n IH]; intros fuel x rest Ex Er L; (destruct fuel as [|fuel]; [lia|]);
    (destruct rest as [|y rest]; cbn [map zrange] in Er; [try discriminate|]); try discriminate; cbn [combine_from].
  - exists x. reflexivity.
  - injection Er as Ey Er. rewrite Ey, Ex. cbn [Z.eqb Z.add Pos.add Pos.eqb decrement_match map bmatch].
    cbn [Z.ltb Z.compare Pos.compare Pos.compare_cont]. apply IH; [reflexivity| |lia].
    fold (decrement_match 1 rest). rewrite decrement_matches, Er. apply (dec_range n 2). lia.
Qed.

Lemma count_moves_sorted l d : map bmatch l = zrange 1 (List.length l) ->
  exists l', count_moves l d = Ok (l', d).
Proof.
  intros H. unfold count_moves, combine_adjacent. destruct l as [|x rest]; [exists []; reflexivity|].
  cbn [map List.length zrange] in H. pose proof (f_equal (hd 0) H) as H1. pose proof (f_equal (@tl Z) H) as H2.
  cbn [hd tl] in H1, H2. destruct (combine_sorted (List.length rest) (List.length (x :: rest)) x rest H1 H2) as (b & E).
  { cbn [List.length]. lia. }
  rewrite E. exists [b]. reflexivity.
Qed.

(** ** The texts *)

Definition plain (c : Z) : bool := negb (c =? 126).

Lemma slice_cons t i n : 0 <= i -> 0 < n -> i < zlen t ->
  exists x, znth t i = Some x /\ slice t i n = x :: slice t (i + 1) (n - 1).
Proof.
  intros Hi Hn L. destruct (znth_lt_Some t i ltac:(lia)) as (x & Ex). exists x. split; [exact Ex|].
  unfold slice. rewrite <- (Z2Nat.id i Hi), znth_nth in Ex. apply nth_error_split in Ex.
  destruct Ex as (a & b & -> & La). rewrite <- La. rewrite skipn_app, Nat.sub_diag, skipn_all. cbn [skipn app].
  replace (Z.to_nat n) with (Datatypes.S (Z.to_nat (n - 1))) by lia. cbn [firstn]. f_equal. f_equal.
  replace (Z.to_nat (i + 1)) with (List.length a + 1)%nat by lia.
  rewrite skipn_app, skipn_all2 by lia. replace (List.length a + 1 - List.length a)%nat with 1%nat by lia. reflexivity.
Qed.

Lemma count_plain_ok text n : forall fuel i stop total, stop + 1 - i = Z.of_nat n -> 0 <= i -> stop < zlen text ->
  (n <= fuel)%nat ->
  count_plain fuel text i stop total = Ok (total + zlen (filter plain (slice text i (stop + 1 - i)))).
Proof.
  induction n as [|n IH]; intros fuel i stop total E Hi L F.
  - rewrite E. change (slice text i (Z.of_nat 0)) with (@nil Z).
    destruct fuel; cbn [count_plain]; (destruct (Z.leb_spec i stop); [lia|]); cbn; f_equal; lia.
  - destruct fuel as [|fuel]; [lia|]. cbn [count_plain]. destruct (Z.leb_spec i stop); [|lia].
    destruct (slice_cons text i (stop + 1 - i)) as (x & Ex & Es); [lia|lia|lia|].
    apply (rd_Ok "text->array") in Ex. rewrite Ex. cbn [obind]. rewrite IH by lia. f_equal. rewrite Es. cbn [filter].
    replace (stop + 1 - i - 1) with (stop + 1 - (i + 1)) by lia. unfold plain at 2. change REJECT with 126.
    destruct (x =? 126); cbn [negb]; [reflexivity|]. rewrite zlen_cons. lia.
Qed.

(** The items of one text, as a chain. *)
Fixpoint chain (t : list Z) (pos : Z) (l : list item) : Prop :=
  match l with
  | [] => pos = zlen t
  | it :: r => exists u, isubs it = [u] /\ SyncModel.start u = pos /\ 0 <= slen u /\
                 SyncModel.stop u = pos + slen u - 1 /\ pos + slen u <= zlen t /\ chain t (pos + slen u) r
  end.

Lemma consecutive_le ss : forall pos fin, consecutive pos ss fin -> pos <= fin.
Proof.
  induction ss as [|s ss IH]; intros pos fin H; cbn in H; [lia|]. destruct H as (H1 & H2 & _ & H3). apply IH in H3. lia.
Qed.

Lemma partition_chain t l : partition [t] l -> chain t 0 l.
Proof.
  intros (H1 & H2 & _). specialize (H2 0 t eq_refl). revert H1 H2. generalize 0 at 1 3 as pos.
  induction l as [|it l IH]; intros pos H1 H2; [exact H2|]. inversion H1 as [|? ? H3 H4]; subst.
  cbn [column map] in H2. fold (column 0 l) in H2. change (zlen [t]) with 1 in H3.
  destruct (isubs it) as [|u [|u2 us]] eqn:E; [discriminate| |].
  - change (znth [u] 0) with (Some u) in H2. cbn [consecutive] in H2. destruct H2 as (E1 & E2 & E3 & E4). cbn [chain].
    pose proof (consecutive_le _ _ _ E4). exists u. rewrite <- E1. split; [exact E|]. split; [reflexivity|]. split; [exact E2|].
    split; [lia|]. split; [lia|]. apply IH; [exact H4|exact E4].
  - rewrite !zlen_cons in H3. pose proof (zlen_nonneg us). lia.
Qed.

Lemma slice_len t i n : 0 <= i -> 0 <= n -> i + n <= zlen t -> zlen (slice t i n) = n.
Proof. intros. unfold slice, zlen in *. rewrite firstn_length, skipn_length. lia. Qed.

Lemma slice_join t i n : 0 <= i -> 0 <= n -> i + n <= zlen t ->
  skipn (Z.to_nat i) t = slice t i n ++ skipn (Z.to_nat (i + n)) t.
Proof.
  intros. unfold slice. rewrite <- (firstn_skipn (Z.to_nat n) (skipn (Z.to_nat i) t)) at 1. f_equal.
  rewrite Z2Nat.inj_add by lia. generalize (Z.to_nat i) (Z.to_nat n). clear. intros a b. revert t.
  induction a as [|a IH]; intros t; [reflexivity|]. destruct t; cbn [skipn Nat.add]; [destruct b; reflexivity|apply IH].
Qed.

Lemma chain_pieces t l : forall pos, 0 <= pos -> chain t pos l -> flat_map (piece t) l = skipn (Z.to_nat pos) t.
Proof.
  induction l as [|it l IH]; intros pos Hp H; cbn [chain flat_map] in *.
  - rewrite skipn_all2; [reflexivity|]. unfold zlen in H. lia.
  - destruct H as (u & E & E1 & E2 & E3 & E4 & E5). rewrite (IH (pos + slen u)) by (auto; lia).
    unfold piece at 1. rewrite E, E1. symmetry. apply slice_join; lia.
Qed.

Lemma insertions_ok t l : forall pos total, 0 <= pos -> chain t pos l ->
  count_insertions l t total = Ok (total + zlen (filter plain (unmatched_part t l))).
Proof.
  unfold count_insertions. induction l as [|it l IH]; intros pos total Hp H; cbn [chain ofold] in *.
  - f_equal. cbn. lia.
  - destruct H as (u & E & E1 & E2 & E3 & E4 & E5). unfold unmatched_part. cbn [filter]. unfold is_match at 1.
    destruct (inum it) as [k|]; cbn [negb].
    + cbn [obind]. apply (IH (pos + slen u)); [lia|exact E5].
    + rewrite E. change (rd "substr" [u] 0) with (Ok u). cbn [obind].
      rewrite (count_plain_ok t (Z.to_nat (slen u))) by (try lia; unfold zlen in *; lia). cbn [obind].
      rewrite (IH (pos + slen u)) by (auto; lia). f_equal. cbn [flat_map]. rewrite filter_app, zlen_app.
      unfold piece at 1. rewrite E. replace (SyncModel.stop u + 1 - SyncModel.start u) with (slen u) by lia.
      unfold unmatched_part. lia.
Qed.

Definition blocks (l : list item) : list block :=
  flat_map (fun it => match inum it with Some n => [mkblock n (zsum (map slen (isubs it)))] | None => [] end) l.

Lemma deletions_ok t l : forall pos total, 0 <= pos -> chain t pos l ->
  count_deletions l total = Ok (total + zlen (unmatched_part t l), blocks l).
Proof.
  induction l as [|it l IH]; intros pos total Hp H; cbn [chain count_deletions] in *.
  - cbn. rewrite Z.add_0_r. reflexivity.
  - destruct H as (u & E & E1 & E2 & E3 & E4 & E5). unfold unmatched_part. cbn [filter blocks flat_map]. unfold is_match at 1.
    rewrite E. change (rd "substr" [u] 0) with (Ok u). cbn [obind]. destruct (inum it) as [k|]; cbn [negb].
    + rewrite (IH (pos + slen u)) by (auto; lia). cbn [obind map app]. rewrite zsum_cons. change (zsum []) with 0.
      rewrite Z.add_0_r. reflexivity.
    + rewrite (IH (pos + slen u)) by (auto; lia). f_equal. f_equal. cbn [flat_map]. rewrite zlen_app.
      unfold piece at 1. rewrite E, slice_len by lia. unfold unmatched_part. lia.
Qed.

(** ** The script *)

Lemma deletes_app a b n : deletes a b n -> forall w, deletes (w ++ a) (w ++ b) n.
Proof. intros H w. induction w; cbn; [exact H|constructor; assumption]. Qed.
Lemma deletes_all a b n : deletes a b n -> forall w, deletes (w ++ a) b (n + zlen w).
Proof.
  intros H w. induction w as [|x w IH]; cbn [app]; [rewrite zlen_nil, Z.add_0_r; exact H|].
  rewrite zlen_cons, Z.add_assoc. constructor. exact IH.
Qed.
Lemma inserts_app a b n : inserts a b n -> forall w, inserts (w ++ a) (w ++ b) n.
Proof. intros H w. induction w; cbn; [exact H|constructor; assumption]. Qed.
Lemma inserts_all a b n : inserts a b n -> forall w, inserts a (w ++ b) (n + zlen (filter plain w)).
Proof.
  intros H w. induction w as [|x w IH]; cbn [app filter]; [rewrite zlen_nil, Z.add_0_r; exact H|].
  unfold plain at 1. destruct (Z.eqb_spec x 126) as [-> |N]; cbn [negb].
  - apply inserts_tilde. exact IH.
  - rewrite zlen_cons, Z.add_assoc. apply inserts_one; assumption.
Qed.

Lemma parts_deletes t l : deletes (flat_map (piece t) l) (matched_part t l) (zlen (unmatched_part t l)).
Proof.
  unfold matched_part, unmatched_part. induction l as [|it l IH]; [constructor|]. cbn [flat_map filter].
  destruct (is_match it); cbn [negb flat_map].
  - apply deletes_app. exact IH.
  - rewrite zlen_app, Z.add_comm. apply deletes_all. exact IH.
Qed.
Lemma parts_inserts t l :
  inserts (matched_part t l) (flat_map (piece t) l) (zlen (filter plain (unmatched_part t l))).
Proof.
  unfold matched_part, unmatched_part. induction l as [|it l IH]; [constructor|]. cbn [flat_map filter].
  destruct (is_match it); cbn [negb flat_map].
  - apply inserts_app. exact IH.
  - rewrite filter_app, zlen_app, Z.add_comm. apply inserts_all. exact IH.
Qed.

Lemma zsum_each w : zsum (map each w) = zlen w.
Proof. induction w as [|x w IH]; [reflexivity|]. cbn [map]. rewrite zsum_cons, IH, zlen_cons. unfold each. lia. Qed.

Lemma moves_flatten (wt : Z -> Z) (f : Z -> list Z) s ls s' :
  (forall x, In x s -> wt x = zlen (f x) /\ f x <> []) -> moves_to wt s ls s' ->
  moves_to each (flat_map f s) ls (flat_map f s').
Proof.
  intros Hf H. induction H as [s|s n s' ls s'' (p & w & q & p' & q' & E1 & E2 & E3 & E4 & E5) M IH]; [constructor|].
  assert (Pm : Permutation s s').
  { subst. rewrite (Permutation_app_comm w q), (Permutation_app_comm w q'), !app_assoc, E3. reflexivity. }
  apply (moves_one each (flat_map f s) n (flat_map f s')).
  - exists (flat_map f p), (flat_map f w), (flat_map f q), (flat_map f p'), (flat_map f q').
    rewrite E1, E2, !flat_map_app. split; [reflexivity|]. split; [reflexivity|].
    split; [rewrite <- !flat_map_app, E3; reflexivity|]. split.
    + destruct w as [|x w]; [congruence|]. cbn [flat_map].
      destruct (Hf x) as [_ N]; [rewrite E1; apply in_or_app; right; apply in_or_app; left; left; reflexivity|].
      destruct (f x); [congruence|discriminate].
    + rewrite E5, zsum_each. assert (Hw : forall x, In x w -> wt x = zlen (f x)).
      { intros x Hx. apply Hf. rewrite E1. apply in_or_app; right; apply in_or_app; left; exact Hx. }
      clear - Hw. induction w as [|x w IH]; [reflexivity|]. cbn [map flat_map]. rewrite zsum_cons, zlen_app, IH.
      * rewrite (Hw x (or_introl eq_refl)). reflexivity.
      * intros y Hy. apply Hw. right. exact Hy.
  - apply IH. intros x Hx. apply Hf. eapply Permutation_in; [symmetry; exact Pm|exact Hx].
Qed.

Lemma numbers_filter l : map inum (filter is_match l) = map Some (numbers l).
Proof.
  unfold numbers. induction l as [|it l IH]; [reflexivity|]. cbn [filter flat_map]. unfold is_match at 1.
  destruct (inum it) eqn:E; [|exact IH]. cbn [map app]. rewrite E, IH. reflexivity.
Qed.

Lemma map_Some_inj {X} (a b : list X) : map Some a = map Some b -> a = b.
Proof.
  revert b; induction a as [|x a IH]; intros [|y b] H; cbn in H; try discriminate; [reflexivity|].
  injection H as H1 H2. f_equal; [exact H1|apply IH; exact H2].
Qed.

Lemma In_numbers l n : In n (numbers l) <-> exists it, In it l /\ inum it = Some n.
Proof.
  unfold numbers. rewrite in_flat_map. split; intros (it & I & E); exists it; split; auto.
  - destruct (inum it); [destruct E as [-> |[]]; reflexivity|destruct E].
  - rewrite E. left. reflexivity.
Qed.

Lemma blocks_numbers l : map bmatch (blocks l) = numbers l.
Proof.
  unfold blocks, numbers. induction l as [|it l IH]; [reflexivity|]. cbn [flat_map]. rewrite map_app, IH.
  destruct (inum it); reflexivity.
Qed.

Lemma length_of_one l it n : NoDup (numbers l) -> In it l -> inum it = Some n ->
  length_of l n = zsum (map slen (isubs it)).
Proof.
  unfold length_of. induction l as [|a l IH]; intros N I E; [destruct I|]. cbn [map]. rewrite zsum_cons.
  unfold numbers in N. cbn [flat_map] in N. fold (numbers l) in N.
  assert (Z0 : ~ In n (numbers l) -> zsum (map (fun it0 => match inum it0 with
     | Some m => if m =? n then zsum (map slen (isubs it0)) else 0 | None => 0 end) l) = 0).
  { intros X. apply zsum_map_zero. intros y Hy. destruct (inum y) as [m|] eqn:Ey; [|reflexivity].
    destruct (Z.eqb_spec m n) as [-> |]; [|reflexivity]. exfalso. apply X, In_numbers. eauto. }
  destruct I as [-> |I].
  - rewrite E in *. cbn [app] in N. inversion N; subst. rewrite Z.eqb_refl, Z0 by assumption. lia.
  - destruct (inum a) as [m|] eqn:Ea.
    + cbn [app] in N. inversion N as [|? ? N1 N2]; subst. destruct (Z.eqb_spec m n) as [-> |X].
      * exfalso. apply N1, In_numbers. eauto.
      * rewrite IH by assumption. lia.
    + rewrite IH by assumption. lia.
Qed.

(** The string of the item with number [n]. *)
Definition string_of (t : list Z) (l : list item) (n : Z) : list Z :=
  match find (fun it => match inum it with Some m => m =? n | None => false end) l with
  | Some it => piece t it
  | None => []
  end.

Lemma string_of_In t l n : In n (numbers l) -> exists it, In it l /\ inum it = Some n /\ string_of t l n = piece t it.
Proof.
  intros H. apply In_numbers in H. destruct H as (it & I & E). unfold string_of.
  destruct (find _ l) as [it'|] eqn:F.
  - apply find_some in F. destruct F as [F1 F2]. exists it'. split; [exact F1|]. split; [|reflexivity].
    destruct (inum it') as [m|]; [|discriminate]. apply Z.eqb_eq in F2. congruence.
  - exfalso. pose proof (find_none _ _ F it I) as X. cbv beta in X. rewrite E, Z.eqb_refl in X. discriminate.
Qed.

Lemma matched_numbers t l (f : Z -> list Z) :
  (forall it n, In it l -> inum it = Some n -> piece t it = f n) -> matched_part t l = flat_map f (numbers l).
Proof.
  intros H. unfold matched_part, numbers. induction l as [|it l IH]; [reflexivity|]. cbn [filter flat_map].
  unfold is_match at 1. destruct (inum it) as [n|] eqn:E.
  - cbn [flat_map app]. rewrite (H it n (or_introl eq_refl) E), IH; [reflexivity|].
    intros it' m I. apply H. right. exact I.
  - cbn [app]. apply IH. intros it' m I. apply H. right. exact I.
Qed.
