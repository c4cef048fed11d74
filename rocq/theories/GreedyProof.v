(** Proofs about the choice of moves by editop. *)
From Coq Require Import String Permutation.
From Verif Require Import Base AccSpec SumProof SyncModel SyncSpec EdoModel EdoSpec EditopModel EditopSpec EditopProof GreedySpec.
Local Open Scope Z_scope.
Local Open Scope list_scope.

(** ** Blocks are apart after combine_adjacent *)

Lemma apart_snoc l a b : apart (l ++ [a]) -> bmatch b <> bmatch a + 1 -> apart ((l ++ [a]) ++ [b]).
Proof.
  induction l as [|c l IH]; intros H N; [cbn; auto|].
  cbn [app apart] in *. destruct H as [H1 H2]. split; [|apply IH; assumption].
  destruct l; exact H1.
Qed.

Lemma apart_decrement m l : apart l -> ~ In (m + 1) (map bmatch l) ->
  (forall u a b v, l = u ++ a :: b :: v -> bmatch a <> m) -> apart (decrement_match m l).
Proof.
  induction l as [|a l IH]; intros H N L; [exact I|]. cbn [decrement_match map apart]. cbn [apart] in H.
  destruct H as [H1 H2]. split.
  - destruct l as [|b l]; [exact I|]. cbn [map].
    assert (bmatch a <> m + 1 /\ bmatch b <> m + 1).
    { split; intros X; apply N; [left|right; left]; exact X. }
    pose proof (L [] a b l eq_refl).
    destruct (Z.ltb_spec m (bmatch a)), (Z.ltb_spec m (bmatch b)); cbn [bmatch]; lia.
  - apply IH; [exact H2|intros X; apply N; right; exact X|].
    intros u c d v ->. apply (L (a :: u) c d v eq_refl).
Qed.

Lemma apart_last_link l x y : apart (l ++ [x]) -> bmatch y = bmatch x -> apart (l ++ [y]).
Proof.
  induction l as [|c l IH]; intros H E; [cbn; auto|]. cbn [app apart] in *. destruct H as [H1 H2].
  split; [|apply IH; assumption]. destruct l as [|d l]; cbn [app] in *; congruence.
Qed.

Lemma combine_from_apart {A} (wt : A -> Z) fuel : forall before x rest G s t l',
  rep wt G (before ++ x :: rest) s t -> apart (before ++ [x]) ->
  combine_from fuel before x rest = Ok l' -> apart l'.
Proof.
  induction fuel as [|fuel IH]; intros before x rest G s t l' H Ap E; [discriminate|]. cbn [combine_from] in E.
  destruct rest as [|y rest]; [injection E as <-; exact Ap|].
  destruct (Z.eqb_spec (bmatch y) (bmatch x + 1)) as [Ey|Ey].
  - cbn [decrement_match map bmatch blen] in E. rewrite Z.ltb_irrefl in E.
    fold (decrement_match (bmatch x) before) (decrement_match (bmatch x) rest) in E.
    destruct (rep_merge _ _ _ _ _ _ _ _ H Ey) as (G' & H').
    unfold decrement_match at 1 in H'. rewrite map_app in H'. cbn [map bmatch] in H'.
    rewrite Z.ltb_irrefl in H'. fold (decrement_match (bmatch x) before) (decrement_match (bmatch x) rest) in H'.
    eapply IH; [exact H'| |exact E]. pose proof (rep_nodup _ _ _ _ _ H) as N. rewrite map_app in N. cbn [map] in N.
    set (x' := mkblock (bmatch x) (blen x + blen y)).
    assert (D : apart (decrement_match (bmatch x) (before ++ [x']))).
    { apply apart_decrement.
      - eapply apart_last_link; [exact Ap|reflexivity].
      - rewrite map_app, in_app_iff. cbn [map In x' bmatch]. intros [X|[X|[]]]; [|lia].
        assert (N' : NoDup ((map bmatch before ++ [bmatch x]) ++ bmatch y :: map bmatch rest))
          by (rewrite <- app_assoc; exact N).
        apply NoDup_remove_2 in N'. apply N'. rewrite Ey. rewrite !in_app_iff. auto.
      - intros u a b v Eu. apply NoDup_remove_2 in N. intros X. apply N. apply in_or_app. left. rewrite <- X. apply in_map.
        assert (Ea : exists v', before = u ++ a :: v').
        { clear - Eu. revert before Eu. induction u as [|c u IHu]; intros [|d before] Eu; cbn [app] in Eu.
          - discriminate (f_equal (@List.length block) Eu).
          - injection Eu as E1 E2. exists before. rewrite E1. reflexivity.
          - exfalso. injection Eu as _ E2. destruct u; discriminate.
          - injection Eu as -> E2. destruct (IHu before E2) as (w & ->). exists w. reflexivity. }
        destruct Ea as (v' & ->). apply in_or_app. right. left. reflexivity. }
    unfold decrement_match in D at 1. rewrite map_app in D. cbn [map bmatch x'] in D. rewrite Z.ltb_irrefl in D. exact D.
  - eapply (IH (before ++ [x]) y rest G s t); [rewrite <- app_assoc; exact H| |exact E].
    apply apart_snoc; assumption.
Qed.

Lemma combine_apart {A} (wt : A -> Z) G l s t l' :
  rep wt G l s t -> combine_adjacent l = Ok l' -> apart l'.
Proof.
  intros H E. destruct l as [|x rest]; [injection E as <-; exact I|].
  eapply (combine_from_apart wt _ [] x rest); [exact H| |exact E]. cbn. auto.
Qed.

(** ** Joined neighbours *)

Definition link (a b : option block) : Z :=
  match a, b with Some a, Some b => b2z (bmatch b =? bmatch a + 1) | _, _ => 0 end.
Fixpoint lasto (l : list block) : option block :=
  match l with [] => None | a :: r => match r with [] => Some a | _ => lasto r end end.
Definition hdo (l : list block) : option block := match l with [] => None | a :: _ => Some a end.
Fixpoint joined (l : list block) : Z :=
  match l with [] => 0 | a :: r => link (Some a) (hdo r) + joined r end.

Lemma joined_app u v : joined (u ++ v) = joined u + joined v + link (lasto u) (hdo v).
Proof.
  induction u as [|a u IH]; [cbn; lia|]. cbn [app joined]. rewrite IH. destruct u as [|b u]; cbn [app hdo lasto]; [cbn; lia|lia].
Qed.

Lemma apart_joined l : apart l <-> joined l = 0.
Proof.
  assert (P : forall l, 0 <= joined l).
  { intros k. induction k as [|a k IH]; [cbn; lia|]. cbn [joined]. unfold link, b2z. destruct (hdo k) as [b|]; [|lia].
    destruct (bmatch b =? bmatch a + 1); lia. }
  induction l as [|a l IH]; [cbn; tauto|]. cbn [apart joined]. specialize (P l). destruct l as [|b l]; cbn [hdo link].
  - rewrite IH. split; [intros [_ H]; rewrite H; reflexivity|intros H; split; [exact Logic.I|lia]].
  - rewrite IH. unfold b2z. destruct (Z.eqb_spec (bmatch b) (bmatch a + 1)); split; intros; intuition lia.
Qed.

Lemma lasto_snoc l a : lasto (l ++ [a]) = Some a.
Proof. induction l as [|b l IH]; [reflexivity|]. cbn [app lasto]. destruct l; [reflexivity|exact IH]. Qed.

Lemma lasto_In l a : lasto l = Some a -> exists k, l = k ++ [a].
Proof.
  induction l as [|b l IH]; [discriminate|]. cbn [lasto]. destruct l as [|c l].
  - intros [= <-]. exists []. reflexivity.
  - intros E. destruct (IH E) as (k & ->). exists (b :: k). reflexivity.
Qed.

Lemma insb_In l i : insb l i = true -> In (i - 1) (map bmatch l) /\ In (i + 1) (map bmatch l).
Proof.
  induction l as [|a l IH]; [discriminate|]. cbn [insb]. rewrite orb_true_iff. intros [H|H].
  - destruct l as [|b l]; [discriminate|]. apply andb_true_iff in H. destruct H as [H1 H2].
    apply Z.eqb_eq in H1, H2. cbn [map In]. split; [left; lia|right; left; lia].
  - destruct (IH H). split; right; assumption.
Qed.

Lemma insb_at u y v i : NoDup (map bmatch (u ++ y :: v)) -> bmatch y = i - 1 ->
  insb (u ++ y :: v) i = match hdo v with Some b => bmatch b =? i + 1 | None => false end.
Proof.
  intros N E. induction u as [|a u IH].
  - cbn [app insb]. inversion N as [|? ? N1 N2]; subst.
    assert (insb v i = false) as ->.
    { destruct (insb v i) eqn:X; [|reflexivity]. apply insb_In in X. destruct X as [X _]. rewrite <- E in X. contradiction. }
    rewrite orb_false_r. destruct v as [|b v]; [reflexivity|]. cbn [hdo].
    destruct (Z.eqb_spec i (bmatch y + 1)); [|lia]. rewrite andb_true_r. f_equal. lia.
  - cbn [app insb]. inversion N as [|? ? N1 N2]; subst. rewrite (IH N2).
    assert (bmatch a <> i - 1).
    { intros X. apply N1. rewrite X, <- E. apply in_map, in_or_app. right. left. reflexivity. }
    destruct (u ++ y :: v) as [|b r]; [reflexivity|]. destruct (Z.eqb_spec i (bmatch a + 1)); [lia|].
    rewrite andb_false_r. reflexivity.
Qed.

Lemma delb_In l i : delb l i = true -> In i (map bmatch (tl l)).
Proof.
  induction l as [|a l IH]; [discriminate|]. cbn [delb tl]. rewrite orb_true_iff. intros [H|H].
  - destruct l as [|b [|c l]]; try discriminate. apply andb_true_iff in H. destruct H as [_ H].
    apply Z.eqb_eq in H. left. symmetry. exact H.
  - apply IH in H. destruct l; [destruct H|]. right. exact H.
Qed.

Lemma delb_at u : forall x v, NoDup (map bmatch (u ++ x :: v)) ->
  b2z (delb (u ++ x :: v) (bmatch x)) = link (lasto u) (hdo v).
Proof.
  induction u as [|a u IH]; intros x v N.
  - cbn [lasto link app]. destruct (delb (x :: v) (bmatch x)) eqn:X; [|reflexivity].
    apply delb_In in X. cbn [tl] in X. inversion N; subst. contradiction.
  - cbn [app delb]. cbn [app map] in N. inversion N as [|? ? N1 N2]; subst. destruct u as [|b u].
    + cbn [app lasto] in *.
      assert (delb (x :: v) (bmatch x) = false) as ->.
      { destruct (delb (x :: v) (bmatch x)) eqn:X; [|reflexivity]. apply delb_In in X. cbn [tl] in X. inversion N2; subst. contradiction. }
      rewrite orb_false_r. destruct v as [|c v]; [reflexivity|]. cbn [hdo link]. rewrite Z.eqb_refl, andb_true_r. reflexivity.
    + change (lasto (a :: b :: u)) with (lasto (b :: u)). rewrite <- (IH x v N2). f_equal.
      replace (match (b :: u) ++ x :: v with
               | b0 :: c :: _ => (bmatch c =? bmatch a + 1) && (bmatch x =? bmatch b0) | _ => false end) with false; [reflexivity|].
      cbn [app]. cbn [app map] in N2. inversion N2 as [|? ? N3 N4]; subst.
      destruct (u ++ x :: v) as [|c r] eqn:Er; [reflexivity|].
      destruct (Z.eqb_spec (bmatch x) (bmatch b)) as [X|X]; [|rewrite andb_false_r; reflexivity].
      exfalso. apply N3. rewrite <- X. rewrite <- Er. apply in_map, in_or_app. right. left. reflexivity.
Qed.

Lemma app_split {X} (a b c d : list X) : a ++ b = c ++ d ->
  (exists e, c = a ++ e /\ b = e ++ d) \/ (exists e, a = c ++ e /\ d = e ++ b).
Proof.
  revert c; induction a as [|x a IH]; intros c H.
  - left. exists c. split; [reflexivity|exact H].
  - destruct c as [|y c]; cbn [app] in H.
    + right. exists (x :: a). split; [reflexivity|symmetry; exact H].
    + injection H as -> H. destruct (IH c H) as [(e & -> & ->)|(e & -> & ->)]; [left|right]; exists e; split; reflexivity.
Qed.

(** Moving [x] home joins as many blocks as its gain. *)
Lemma joined_home p x q p' q' : apart (p ++ x :: q) -> NoDup (map bmatch (p ++ x :: q)) ->
  Forall (fun b => 1 <= bmatch b) (p ++ x :: q) -> p ++ q = p' ++ q' -> placed x p' q' ->
  joined (p' ++ x :: q') = gain (p ++ x :: q) x.
Proof.
  intros Ap N F E (P1 & P2). rewrite apart_joined in Ap. unfold gain. rewrite (delb_at p x q N).
  pose proof Ap as Ap'. rewrite joined_app in Ap. cbn [joined hdo] in Ap.
  assert (NN : forall l, 0 <= joined l).
  { intros k. induction k as [|a k IH]; [cbn; lia|]. cbn [joined]. unfold link, b2z. destruct (hdo k) as [b|]; [|lia].
    destruct (bmatch b =? bmatch a + 1); lia. }
  assert (LN : forall a b, 0 <= link a b).
  { intros [a|] [b|]; cbn [link]; try lia. unfold b2z. destruct (bmatch b =? bmatch a + 1); lia. }
  pose proof (NN p). pose proof (NN q). pose proof (LN (lasto p) (Some x)). pose proof (LN (Some x) (hdo q)).
  assert (D : joined (p' ++ q') = link (lasto p) (hdo q)) by (rewrite <- E, joined_app; lia).
  rewrite joined_app in D. rewrite joined_app. cbn [joined hdo].
  assert (Npq : ~ In (bmatch x) (map bmatch (p ++ q))).
  { rewrite map_app in N. cbn [map] in N. apply NoDup_remove_2 in N. rewrite map_app. exact N. }
  rewrite E in Npq.
  assert (Hd : forall b, hdo q' = Some b -> bmatch b <> bmatch x).
  { intros b Hb X. apply Npq. rewrite <- X. destruct q'; [discriminate|]. injection Hb as ->. apply in_map, in_or_app. right. left. reflexivity. }
  assert (Hl : forall b, lasto p' = Some b -> bmatch b <> bmatch x /\ 1 <= bmatch b).
  { intros b Hb. apply lasto_In in Hb. destruct Hb as (k & Ek).
    assert (I : In b (p' ++ q')) by (rewrite Ek, <- app_assoc; apply in_or_app; right; left; reflexivity).
    split; [intros X; apply Npq; rewrite <- X; apply in_map; exact I|]. rewrite Forall_forall in F. apply F.
    rewrite <- E in I. apply in_app_or in I. apply in_or_app. destruct I; [left|right; right]; assumption. }
  destruct (Z.eq_dec (bmatch x) 1) as [X1|X1].
  - destruct (P1 X1) as (y & q2 & -> & Ey). cbn [hdo link] in *. rewrite Ey, Z.eqb_refl.
    assert (insb (p ++ x :: q) (bmatch x) = false) as ->.
    { destruct (insb (p ++ x :: q) (bmatch x)) eqn:Z1; [|reflexivity]. apply insb_In in Z1. destruct Z1 as [Z1 _].
      apply in_map_iff in Z1. destruct Z1 as (b & Eb & Ib). rewrite Forall_forall in F. specialize (F b Ib). lia. }
    destruct (lasto p') as [z|]; cbn [link] in *.
    + destruct (Hl z eq_refl) as [Hz1 Hz2]. unfold b2z in *.
      destruct (Z.eqb_spec (bmatch y) (bmatch z + 1)); [lia|]. destruct (Z.eqb_spec (bmatch x) (bmatch z + 1)); [lia|]. lia.
    + unfold b2z. lia.
  - destruct (P2 X1) as (p2 & y & -> & Ey). rewrite lasto_snoc in *. cbn [link] in *.
    assert (I : insb (p ++ x :: q) (bmatch x) = match hdo q' with Some b => bmatch b =? bmatch x + 1 | None => false end).
    { rewrite <- app_assoc in E. cbn [app] in E.
      destruct (app_split _ _ _ _ E) as [(e & Ee1 & Ee2)|(e & Ee1 & Ee2)].
      - (* y in q *) subst q. change (p ++ x :: e ++ y :: q') with (p ++ (x :: e) ++ y :: q'). rewrite app_assoc.
        apply insb_at; [|lia]. rewrite <- app_assoc. cbn [app]. exact N.
      - destruct e as [|y' e].
        + cbn [app] in Ee2. subst q. change (p ++ x :: y :: q') with (p ++ [x] ++ y :: q'). rewrite app_assoc.
          apply insb_at; [|lia]. rewrite <- app_assoc. exact N.
        + cbn [app] in Ee2. injection Ee2 as <- Ee2. subst p.
          assert (Ne : e <> []).
          { intros ->. rewrite <- app_assoc in Ap'. cbn [app] in Ap'. rewrite joined_app in Ap'. cbn [joined hdo] in Ap'.
            assert (L1 : link (Some y) (Some x) = 1).
            { cbn [link]. destruct (Z.eqb_spec (bmatch x) (bmatch y + 1)); [reflexivity|lia]. }
            pose proof (NN p2). pose proof (LN (lasto p2) (Some y)). pose proof (LN (Some x) (hdo q)). pose proof (NN q). lia. }
          rewrite <- app_assoc. cbn [app]. rewrite insb_at with (i := bmatch x); [| |lia].
          * subst q'. destruct e; [congruence|reflexivity].
          * rewrite <- app_assoc in N. exact N. }
    rewrite I. destruct (hdo q') as [b|] eqn:Eb; cbn [link] in *.
    + specialize (Hd b eq_refl). unfold b2z in *.
      destruct (Z.eqb_spec (bmatch b) (bmatch y + 1)); [lia|].
      destruct (Z.eqb_spec (bmatch x) (bmatch y + 1)); [|lia].
      destruct (bmatch b =? bmatch x + 1); lia.
    + unfold b2z in *. destruct (Z.eqb_spec (bmatch x) (bmatch y + 1)); lia.
Qed.

(** ** Runs *)

Lemma last_range lo n : last_of (zrange lo (Datatypes.S n)) = lo + Z.of_nat n.
Proof.
  unfold last_of. replace (Datatypes.S n) with (n + 1)%nat by lia. rewrite zrange_app. cbn [zrange]. apply last_last.
Qed.

Lemma part_of_range a : forall b c lo N, a ++ b ++ c = zrange lo N -> b = zrange (lo + zlen a) (List.length b).
Proof.
  induction a as [|x a IH]; intros b c lo N H.
  - rewrite zlen_nil, Z.add_0_r. cbn [app] in H. assert (L : (List.length b <= N)%nat).
    { apply (f_equal (@List.length Z)) in H. rewrite app_length, zrange_length in H. lia. }
    replace N with (List.length b + (N - List.length b))%nat in H by lia. rewrite zrange_app in H.
    apply (f_equal (firstn (List.length b))) in H. rewrite firstn_app, Nat.sub_diag, firstn_all, firstn_O, app_nil_r in H.
    rewrite H at 1. rewrite firstn_app, firstn_all2 by (rewrite zrange_length; lia).
    rewrite zrange_length, Nat.sub_diag, firstn_O, app_nil_r. reflexivity.
  - destruct N as [|N]; [discriminate|]. cbn [app zrange] in H. pose proof (f_equal (@tl Z) H) as H1. cbn [tl] in H1.
    rewrite (IH b c (lo + 1) N H1) at 1. rewrite zlen_cons. f_equal. lia.
Qed.

Lemma split_nil r : split_runs r = [] -> r = [].
Proof.
  destruct r as [|x r]; [reflexivity|]. cbn [split_runs]. destruct (split_runs r) as [|[|y w] rs]; try discriminate.
  destruct (y =? x + 1); discriminate.
Qed.

Lemma split_head x r : exists w rs, split_runs (x :: r) = (x :: w) :: rs.
Proof.
  cbn [split_runs]. destruct (split_runs r) as [|[|y w] rs]; eauto. destruct (y =? x + 1); eauto.
Qed.

Lemma split_range k : forall lo r, split_runs (zrange lo (Datatypes.S k) ++ r) =
  match split_runs r with
  | (y :: v) :: rs => if y =? lo + Z.of_nat (Datatypes.S k) then (zrange lo (Datatypes.S k) ++ y :: v) :: rs
                      else zrange lo (Datatypes.S k) :: (y :: v) :: rs
  | rs => zrange lo (Datatypes.S k) :: rs
  end.
Proof.
  induction k as [|k IH]; intros lo r.
  - cbn [zrange app split_runs Z.of_nat Pos.of_succ_nat]. reflexivity.
  - change (zrange lo (Datatypes.S (Datatypes.S k))) with (lo :: zrange (lo + 1) (Datatypes.S k)).
    cbn [app]. change (split_runs (lo :: zrange (lo + 1) (Datatypes.S k) ++ r)) with
      (match split_runs (zrange (lo + 1) (Datatypes.S k) ++ r) with
       | (y :: w) :: rs => if y =? lo + 1 then (lo :: y :: w) :: rs else [lo] :: (y :: w) :: rs
       | rs => [lo] :: rs end).
    rewrite IH. replace (lo + 1 + Z.of_nat (Datatypes.S k)) with (lo + Z.of_nat (Datatypes.S (Datatypes.S k))) by lia.
    destruct (split_runs r) as [|[|y v] rs]; [| |destruct (y =? lo + Z.of_nat (Datatypes.S (Datatypes.S k)))];
      cbn [zrange app]; rewrite Z.eqb_refl; reflexivity.
Qed.

Section Intervals.
Variable G : Z -> list Z.
Variables n N : nat.
Hypothesis Gall : flat_map G (zrange 1 n) = zrange 1 N.
Hypothesis Gne : forall j, 1 <= j <= Z.of_nat n -> G j <> [].

Definition off (j : Z) : Z := 1 + zlen (flat_map G (zrange 1 (Z.to_nat (j - 1)))).

Lemma off_S j : 1 <= j -> off (j + 1) = off j + zlen (G j).
Proof.
  intros H. unfold off. replace (Z.to_nat (j + 1 - 1)) with (Z.to_nat (j - 1) + 1)%nat by lia.
  rewrite zrange_app, flat_map_app, zlen_app. cbn [zrange flat_map]. rewrite app_nil_r.
  replace (1 + Z.of_nat (Z.to_nat (j - 1))) with j by lia. lia.
Qed.

Lemma off_mono k : forall i, 1 <= i -> i + Z.of_nat k <= Z.of_nat n + 1 -> off i + Z.of_nat k <= off (i + Z.of_nat k).
Proof.
  induction k as [|k IH]; intros i H1 H2; [change (Z.of_nat 0) with 0; rewrite !Z.add_0_r; lia|].
  replace (i + Z.of_nat (Datatypes.S k)) with (i + Z.of_nat k + 1) by lia. rewrite off_S by lia.
  specialize (IH i H1 ltac:(lia)). pose proof (Gne (i + Z.of_nat k) ltac:(lia)) as X.
  destruct (G (i + Z.of_nat k)) as [|g gs]; [congruence|]. rewrite zlen_cons. pose proof (zlen_nonneg gs). lia.
Qed.

Lemma off_lt i j : 1 <= i -> i < j <= Z.of_nat n + 1 -> off i < off j.
Proof.
  intros H1 H2. pose proof (off_mono (Z.to_nat (j - i)) i H1 ltac:(lia)) as M.
  replace (i + Z.of_nat (Z.to_nat (j - i))) with j in M by lia. lia.
Qed.

Lemma off_le i j : 1 <= i <= Z.of_nat n + 1 -> 1 <= j <= Z.of_nat n + 1 -> (off i <= off j <-> i <= j).
Proof.
  intros H1 H2. destruct (Z.lt_total i j) as [L|[-> |L]]; [| lia |].
  - pose proof (off_lt i j ltac:(lia) ltac:(lia)). lia.
  - pose proof (off_lt j i ltac:(lia) ltac:(lia)). lia.
Qed.

Lemma interval j : 1 <= j <= Z.of_nat n -> exists k, G j = zrange (off j) (Datatypes.S k) /\ Z.of_nat (Datatypes.S k) = zlen (G j).
Proof.
  intros H. pose proof Gall as E. replace n with (Z.to_nat (j - 1) + (1 + (n - Z.to_nat (j - 1) - 1)))%nat in E by lia.
  rewrite zrange_app, flat_map_app in E. cbn [Nat.add zrange flat_map] in E.
  replace (1 + Z.of_nat (Z.to_nat (j - 1))) with j in E by lia. apply part_of_range in E. fold (off j) in E.
  pose proof (Gne j H) as X. destruct (List.length (G j)) as [|k] eqn:L.
  - destruct (G j); [congruence|discriminate].
  - exists k. split; [exact E|]. unfold zlen. lia.
Qed.

Lemma first_G j : 1 <= j <= Z.of_nat n -> first_of (G j) = off j.
Proof. intros H. destruct (interval j H) as (k & E & _). rewrite E. reflexivity. Qed.
Lemma last_G j : 1 <= j <= Z.of_nat n -> last_of (G j) + 1 = off (j + 1).
Proof. intros H. rewrite off_S by lia. destruct (interval j H) as (k & E & L). rewrite <- L, E, last_range. lia. Qed.

Lemma follows i j : 1 <= i <= Z.of_nat n -> 1 <= j <= Z.of_nat n ->
  (first_of (G j) = last_of (G i) + 1 <-> j = i + 1).
Proof.
  intros Hi Hj. rewrite first_G, last_G by assumption. split; [|intros ->; reflexivity].
  intros E. pose proof (off_le j (i + 1) ltac:(lia) ltac:(lia)). pose proof (off_le (i + 1) j ltac:(lia) ltac:(lia)). lia.
Qed.

Lemma first_one j : 1 <= j <= Z.of_nat n -> (first_of (G j) = 1 <-> j = 1).
Proof.
  intros H. rewrite first_G by assumption. change 1 with (off 1) at 1. split; [|intros ->; reflexivity].
  intros E. pose proof (off_le j 1 ltac:(lia) ltac:(lia)). lia.
Qed.

Definition gb (b : block) : list Z := G (bmatch b).

Lemma runs_blocks l : Forall (fun b => 1 <= bmatch b <= Z.of_nat n) l ->
  runs (flat_map gb l) = zlen l - joined l /\ (apart l -> split_runs (flat_map gb l) = map gb l).
Proof.
  intros F. induction F as [|b l Hb F IH]; [split; reflexivity|]. destruct IH as [IH1 IH2]. cbn [flat_map map joined].
  destruct (interval (bmatch b) Hb) as (k & E & L). change (gb b) with (G (bmatch b)). unfold runs in *. rewrite E.
  rewrite split_range. destruct l as [|c l].
  - cbn [flat_map split_runs hdo link joined]. split; [reflexivity|]. reflexivity.
  - inversion F as [|? ? Hc F']; subst. cbn [flat_map] in *.
    destruct (interval (bmatch c) Hc) as (k2 & E2 & L2).
    assert (Hy : exists v rs, split_runs (gb c ++ flat_map gb l) = (off (bmatch c) :: v) :: rs).
    { unfold gb at 1. rewrite E2. cbn [zrange app]. apply split_head. }
    destruct Hy as (v & rs & Ev). rewrite Ev in IH1, IH2 |- *. cbn [hdo link].
    pose proof (off_S (bmatch b) ltac:(lia)) as S1. rewrite L, <- S1.
    assert (Q : off (bmatch c) = off (bmatch b + 1) <-> bmatch c = bmatch b + 1).
    { rewrite <- (follows (bmatch b) (bmatch c) Hb Hc), first_G, last_G by assumption. reflexivity. }
    destruct (Z.eqb_spec (off (bmatch c)) (off (bmatch b + 1))) as [X|X], (Z.eqb_spec (bmatch c) (bmatch b + 1)) as [Y|Y]; try tauto; cbn [b2z].
    + split; [rewrite !zlen_cons in *; lia|]. intros Ap. destruct Ap as [Ap _]. contradiction.
    + split; [rewrite !zlen_cons in *; lia|]. intros [_ Ap]. rewrite (IH2 Ap). reflexivity.
Qed.
End Intervals.

Section Loop.
Variable wt : Z -> Z.
Variable N : nat.

Lemma rep_ne G l s t : rep wt G l s t -> forall j, 1 <= j <= Z.of_nat (List.length l) -> G j <> [].
Proof.
  intros H j Hj. destruct (rep_total _ _ _ _ _ H j) as (b & Ib & <-); [unfold zlen; lia|].
  pose proof (r_len _ _ _ _ _ H) as F. rewrite Forall_forall in F. apply (F b Ib).
Qed.

Lemma rep_runs G l s : rep wt G l s (zrange 1 N) ->
  (forall k, Forall (fun b => 1 <= bmatch b <= zlen l) k ->
    runs (flat_map (gb G) k) = zlen k - joined k) /\
  runs s = zlen l - joined l /\ (apart l -> split_runs s = map (gb G) l).
Proof.
  intros H. pose proof (rep_ne _ _ _ _ H) as Ne. pose proof (r_tgt _ _ _ _ _ H) as T.
  assert (F : Forall (fun b => 1 <= bmatch b <= zlen l) l).
  { apply Forall_forall. intros b. apply (rep_range _ _ _ _ _ _ H). }
  split; [intros k Fk; apply (runs_blocks G (List.length l) N T Ne k Fk)|].
  pose proof (runs_blocks G (List.length l) N T Ne l F) as X. rewrite <- (r_s _ _ _ _ _ H). exact X.
Qed.

Lemma home_gain G l s p x q p' q' : rep wt G l s (zrange 1 N) -> apart l -> l = p ++ x :: q ->
  p ++ q = p' ++ q' -> placed x p' q' ->
  runs (flat_map (gb G) (p' ++ x :: q')) = zlen l - gain l x.
Proof.
  intros H Ap El E P. assert (Pm : Permutation l (p' ++ x :: q')).
  { rewrite El. rewrite <- !Permutation_middle, E. reflexivity. }
  destruct (rep_runs _ _ _ H) as [R _]. rewrite R.
  - replace (zlen (p' ++ x :: q')) with (zlen l) by (unfold zlen; rewrite (Permutation_length Pm); reflexivity).
    rewrite El. rewrite (joined_home p x q p' q'); [reflexivity| | | |exact E|exact P]; rewrite <- El.
    + exact Ap.
    + apply (rep_nodup _ _ _ _ _ H).
    + apply Forall_forall. intros b Hb. apply (rep_range _ _ _ _ _ b H Hb).
  - apply Forall_forall. intros b Hb. apply (rep_range _ _ _ _ _ b H).
    eapply Permutation_in; [symmetry; exact Pm|exact Hb].
Qed.

Lemma any_home G l s before w after s2 : rep wt G l s (zrange 1 N) -> apart l ->
  split_runs s = before ++ w :: after -> put_home before w after s2 ->
  exists b, In b l /\ w = gb G b /\ runs s2 = zlen l - gain l b.
Proof.
  intros H Ap E (C & D & E1 & E2 & P1 & P2). destruct (rep_runs _ _ _ H) as (_ & _ & R). rewrite (R Ap) in E.
  apply map_eq_app in E. destruct E as (la & lb & El & Ea & Eb). apply map_eq_cons in Eb.
  destruct Eb as (b & lb' & -> & Ew & Eb). subst before w after.
  rewrite <- map_app in E1. apply map_eq_app in E1. destruct E1 as (lc & ld & Ec & <- & <-).
  exists b. split; [rewrite El; apply in_or_app; right; left; reflexivity|]. split; [reflexivity|].
  pose proof (rep_ne _ _ _ _ H) as Ne. pose proof (r_tgt _ _ _ _ _ H) as T.
  assert (Rg : forall c, In c l -> 1 <= bmatch c <= Z.of_nat (List.length l)) by (intros c; apply (rep_range _ _ _ _ _ c H)).
  assert (Ib : In b l) by (rewrite El; apply in_or_app; right; left; reflexivity).
  assert (Iall : forall c, In c (lc ++ ld) -> In c l).
  { intros c Hc. rewrite <- Ec in Hc. rewrite El. apply in_app_or in Hc. apply in_or_app. cbn [In]. tauto. }
  rewrite E2, <- !flat_map_concat_map.
  change (gb G b ++ flat_map (gb G) ld) with (flat_map (gb G) (b :: ld)). rewrite <- flat_map_app.
  apply (home_gain G l s la b lb' lc ld H Ap El Ec). split.
  - intros X. rewrite <- (first_one G _ N T Ne (bmatch b) (Rg b Ib)) in X.
    destruct (P1 X) as (v & rest & Ed & Ev). destruct ld as [|y ld]; [discriminate|]. cbn [map] in Ed.
    assert (Hv : v = gb G y) by congruence. subst v. exists y, ld. split; [reflexivity|].
    apply (follows G _ N T Ne); [apply Rg; exact Ib| |exact Ev]. apply Rg, Iall, in_or_app. right. left. reflexivity.
  - intros X. assert (X' : first_of (gb G b) <> 1).
    { intros Z. apply X. apply (first_one G _ N T Ne (bmatch b) (Rg b Ib)). exact Z. }
    destruct (P2 X') as (rest & v & Ed & Ev). apply map_eq_app in Ed. destruct Ed as (lc' & ly & -> & _ & Ey).
    destruct ly as [|y [|z ly]]; try discriminate. injection Ey as Ey. subst v. exists lc', y. split; [reflexivity|].
    assert (Iy : In y l) by (apply Iall, in_or_app; left; apply in_or_app; right; left; reflexivity).
    assert (bmatch b = bmatch y + 1); [|lia].
    apply (follows G _ N T Ne); [apply Rg; exact Iy|apply Rg; exact Ib|]. unfold gb in Ev. lia.
Qed.

Lemma greedy_loop_ok : forall fuel G l s d, rep wt G l s (zrange 1 N) -> apart l -> zlen (moves d) = 101 ->
  (List.length l <= fuel)%nat ->
  exists l' d' ls, moves_loop fuel l d = Ok (l', d') /\ greedy wt s ls /\
    Forall (fun n => 1 <= n) ls /\ total_moves d' = total_moves d + zlen ls /\ zlen (moves d') = 101 /\
    (forall i, entry (moves d') i = entry (moves d) i + zlen (filter (fun n => Z.min n 100 =? i) ls)).
Proof.
  induction fuel as [|fuel IH]; intros G l s d H Ap M L.
  - assert (l = []) as -> by (destruct l; [reflexivity|cbn in L; lia]).
    exists [], d, []. split; [reflexivity|]. split.
    { constructor. destruct (rep_runs _ _ _ H) as (_ & R & _). rewrite R. cbn. lia. }
    split; [constructor|]. rewrite zlen_nil. split; [lia|]. split; [exact M|]. intros i. cbn [filter]. rewrite zlen_nil. lia.
  - cbn [moves_loop]. destruct (rep_runs _ _ _ H) as (_ & R & Sp). specialize (Sp Ap).
    pose proof (proj1 (apart_joined l) Ap) as J0. destruct (Z.ltb_spec 1 (zlen l)) as [L1|L1].
    + destruct (find_move_ok _ _ _ _ _ H L1) as (c & x & E1 & E2 & Ix & C & Best).
      rewrite E1. cbn [obind]. rewrite E2. cbn [obind].
      destruct (perform_ok _ _ _ _ _ c x d H L1 Ix M C)
        as (p & q & p' & q' & s' & d1 & El & Epq & E3 & Rc & H1 & Mv & P1 & Nap & Pl).
      rewrite E3. cbn [obind]. destruct (combine_ok _ _ _ _ _ H1) as (l2 & G2 & E4 & H2 & L2 & L3).
      rewrite E4. cbn [obind]. destruct Rc as (R1 & R2 & R3 & R4 & R5).
      assert (Ll : zlen (p' ++ x :: q') = zlen l).
      { rewrite El. unfold zlen. rewrite !app_length. cbn [List.length].
        apply (f_equal (@List.length block)) in Epq. rewrite !app_length in Epq. lia. }
      assert (zlen l2 <> zlen (p' ++ x :: q')) by (intros X; apply Nap, (L3 X)).
      destruct (IH G2 l2 s' d1 H2) as (l' & d' & ls & E5 & Gr & B2 & B5 & B6 & B7);
        [eapply combine_apart; [exact H1|exact E4]|congruence|unfold zlen in *; lia|].
      pose proof (r_len _ _ _ _ _ H) as F. rewrite Forall_forall in F.
      destruct (F x Ix) as [F1 _]. change (G (bmatch x)) with (gb G x) in F1.
      pose proof (rep_ne _ _ _ _ H) as Ne. pose proof (r_tgt _ _ _ _ _ H) as T.
      assert (Rg : forall c, In c l -> 1 <= bmatch c <= Z.of_nat (List.length l)) by (intros c0; apply (rep_range _ _ _ _ _ c0 H)).
      assert (Es' : s' = flat_map (gb G) (p' ++ x :: q')) by (symmetry; apply (r_s _ _ _ _ _ H1)).
      assert (Iall : forall c, In c (p' ++ q') -> In c l).
      { intros c0 Hc. rewrite <- Epq in Hc. rewrite El. apply in_app_or in Hc. apply in_or_app. cbn [In]. tauto. }
      exists l', d', (blen x :: ls). split; [exact E5|]. split.
      { rewrite F1. apply (greedy_move wt s (map (gb G) p) (gb G x) (map (gb G) q) s').
        - rewrite R. lia.
        - rewrite Sp, El, map_app. reflexivity.
        - exists (map (gb G) p'), (map (gb G) q'). rewrite <- !map_app, Epq. split; [reflexivity|].
          split; [rewrite Es', flat_map_app, <- !flat_map_concat_map; reflexivity|]. destruct Pl as [Pl1 Pl2]. split.
          + intros X. apply (first_one G _ N T Ne (bmatch x) (Rg x Ix)) in X.
            destruct (Pl1 X) as (y & q2 & -> & Ey). exists (gb G y), (map (gb G) q2). split; [reflexivity|].
            apply (follows G _ N T Ne); [apply Rg; exact Ix| |exact Ey].
            apply Rg, Iall, in_or_app. right. left. reflexivity.
          + intros X. assert (X' : bmatch x <> 1).
            { intros Z. apply X. apply (first_one G _ N T Ne (bmatch x) (Rg x Ix)). exact Z. }
            destruct (Pl2 X') as (p2 & y & -> & Ey). exists (map (gb G) p2), (gb G y). rewrite map_app.
            split; [reflexivity|].
            assert (Iy : In y l) by (apply Iall, in_or_app; left; apply in_or_app; right; left; reflexivity).
            assert (first_of (gb G x) = last_of (gb G y) + 1); [|lia].
            apply (follows G _ N T Ne); [apply Rg; exact Iy|apply Rg; exact Ix|lia].
        - intros b2 w2 a2 s2 Q1 Q2. destruct (any_home G l s b2 w2 a2 s2 H Ap Q1 Q2) as (b & Ib & -> & Rb).
          pose proof (home_gain G l s p x q p' q' H Ap El Epq Pl) as Rx. rewrite <- Es' in Rx.
          unfold preferred. rewrite Rx, Rb, <- F1. destruct (F b Ib) as [F2 _]. change (G (bmatch b)) with (gb G b) in F2.
          rewrite <- F2. unfold gb. rewrite !(first_G G _ N T Ne) by (apply Rg; assumption).
          pose proof (Rg x Ix). pose proof (Rg b Ib).
          rewrite (off_le G (List.length l) Ne) by lia.
          destruct (Best b Ib) as [Bt|Bt]; [left; lia|right; lia].
        - exact Gr. }
      rewrite zlen_cons. split; [constructor; assumption|].
      split; [lia|]. split; [exact B6|].
      intros i. rewrite B7, R5. cbn [filter]. destruct (Z.min (blen x) 100 =? i).
      * rewrite zlen_cons. lia.
      * lia.
    + exists l, d, []. split; [reflexivity|]. split; [constructor; lia|]. split; [constructor|]. rewrite zlen_nil.
      split; [lia|]. split; [exact M|]. intros i. cbn [filter]. rewrite zlen_nil. lia.
Qed.

Lemma greedy_moves_ok G l s d : rep wt G l s (zrange 1 N) -> zlen (moves d) = 101 ->
  exists l' d' ls, count_moves l d = Ok (l', d') /\ greedy wt s ls /\
    Forall (fun n => 1 <= n) ls /\ total_moves d' = total_moves d + zlen ls /\ zlen (moves d') = 101 /\
    (forall i, entry (moves d') i = entry (moves d) i + zlen (filter (fun n => Z.min n 100 =? i) ls)).
Proof.
  intros H M. destruct (combine_ok _ _ _ _ _ H) as (l1 & G1 & E & H1 & L1 & _). unfold count_moves. rewrite E.
  cbn [obind]. apply (greedy_loop_ok (List.length l1) G1 l1 s d H1); [eapply combine_apart; [exact H|exact E]|exact M|lia].
Qed.
End Loop.
