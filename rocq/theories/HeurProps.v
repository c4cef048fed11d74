(** C21, C22: the heuristic synchronisation of 2 to 16 texts (synchronize). *)
From Coq Require Import String.
From Verif Require Import Base SyncModel SyncSpec EditProof SyncProof LongestProof HeurProof.
Local Open Scope Z_scope.
Local Open Scope list_scope.

Definition all_done (texts : list (list Z)) (l : list item) : Prop :=
  forall t0 t1, texts = [t0; t1] ->
    Forall (fun it => is_match it = false ->
      forall u0 u1, isubs it = [u0; u1] ->
        forall c, c <> tilde -> ~ (occurs t0 u0 c /\ occurs t1 u1 c)) l.

Definition longest_found (texts : list (list Z)) (l : list item) : Prop :=
  forall t0 t1 w, texts = [t0; t1] -> w <> [] -> ~ In tilde w -> substring w t0 -> substring w t1 ->
    exists it u, In it l /\ is_match it = true /\ znth (isubs it) 0 = Some u /\ zlen w <= slen u.

Lemma is_match_view mem s : is_match (mkitem (subs s) (option_map mem (mptr s))) = true <-> matched s.
Proof. unfold is_match, matched. cbn. destruct (mptr s); cbn; split; congruence. Qed.

Lemma adj_view texts mem l : adj_ok texts l -> no_extension texts (view mem l).
Proof.
  induction l as [|x l IH]; [exact (fun H => H)|]. intros [H1 H2]. specialize (IH H2).
  split; [|exact IH]. destruct l as [|y l]; [exact I|].
  destruct H1 as [P1 P2]. split.
  - intros Hm. apply P1. now apply (is_match_view mem).
  - intros Hm. apply P2. now apply (is_match_view mem).
Qed.

Lemma substring_cm w t0 t1 : w <> [] -> ~ In tilde w -> substring w t0 -> substring w t1 ->
  exists y z, 0 <= y /\ y + zlen w <= zlen t0 /\ 0 <= z /\ z + zlen w <= zlen t1 /\
    cm t0 t1 y z (zlen w).
Proof.
  intros _ Hw (a0 & b0 & ->) (a1 & b1 & ->). exists (zlen a0), (zlen a1).
  rewrite !zlen_app. pose proof (zlen_nonneg a0). pose proof (zlen_nonneg a1).
  pose proof (zlen_nonneg b0). pose proof (zlen_nonneg b1).
  repeat split; try lia.
  intros x Hx. destruct (znth_lt_Some w x Hx) as [c Hc]. exists c.
  assert (forall a b : list Z, znth (a ++ w ++ b) (zlen a + x) = Some c) as Hn.
  { intros a b. rewrite znth_app2 by lia. replace (zlen a + x - zlen a) with x by lia.
    rewrite znth_app1 by lia. exact Hc. }
  repeat split; auto. intros ->. apply Hw. eapply znth_In; eauto.
Qed.

Lemma synchronize_ok texts : 2 <= zlen texts <= 16 ->
  exists l, synchronize texts = Ok l /\ partition texts l /\ matches_genuine texts l /\
    numbered_in_order l /\ no_extension texts l /\ all_done texts l /\ longest_found texts l.
Proof.
  intros [H2 H16]. unfold synchronize, MIN_STREAMS, MAX_STREAMS.
  destruct (Z.ltb_spec (zlen texts) 2); [lia|]. destruct (Z.ltb_spec 16 (zlen texts)); [lia|].
  cbn [orb].
  pose proof (initialize_linv texts 1) as Hinv.
  set (ss := map (fun t : list Z => mksub 0 (zlen t - 1) (zlen t)) texts).
  unfold initialize_synclist in *. fold ss in Hinv |- *.
  destruct (valid_sync ss) eqn:Ev; cbn [items].
  - set (s := mksync 1 ss None) in *. set (sl := mkslist [s] (1 + 1)) in *.
    destruct (recursive_ok texts H2 (S (List.length (hd [] texts))) sl [] s [])
      as (sl' & res & E & P); auto.
    + cbn. constructor.
    + cbn. constructor.
    + unfold at0. cbn [s subs]. unfold ss. destruct texts as [|t0 r]; [cbn in H2; lia|].
      cbn [map slen hd]. unfold zlen. lia.
    + rewrite E. cbn [obind]. destruct P. cbn [app] in rp_items. rewrite app_nil_r in rp_items.
      eexists. split; [reflexivity|].
      split; [apply view_partition; assumption|].
      split; [apply view_genuine; assumption|].
      split; [apply view_numbered; assumption|].
      split; [apply adj_view; rewrite rp_items; assumption|]. split.
      * intros t0 t1 Et. unfold view. apply Forall_map, Forall_forall. intros x Hx Hm u0 u1 Eu c Hc [O1 O2].
        rewrite rp_items in Hx. rewrite Forall_forall in rp_done.
        apply (rp_done x Hx) with (t0 := t0) (t1 := t1) (u0 := u0) (u1 := u1) (c := c); auto.
        intros Hmm. apply is_match_view with (mem := number_matches (items sl') 0 no_numbers) in Hmm.
        congruence.
      * intros t0 t1 w Et Hw1 Hw2 S0 S1.
        destruct (substring_cm w t0 t1 Hw1 Hw2 S0 S1) as (y & z & Y1 & Y2 & Z1 & Z2 & Hcm).
        assert (0 < zlen w) as Hlw by (destruct w; [congruence|]; rewrite zlen_cons; pose proof (zlen_nonneg w); lia).
        specialize (rp_long (zlen w) Hlw). apply Exists_exists in rp_long as (x & Hx & Hm & Hl).
        -- exists (mkitem (subs x) (option_map (number_matches (items sl') 0 no_numbers) (mptr x))).
           unfold at0 in Hl. destruct (subs x) as [|u r] eqn:Ex; [lia|].
           exists u. split; [|split; [|split]].
           ++ rewrite <- Ex, rp_items. unfold view.
              apply in_map_iff. exists x. split; [reflexivity|exact Hx].
           ++ rewrite <- Ex. now apply is_match_view.
           ++ reflexivity.
           ++ exact Hl.
        -- exists t0, t1, (mksub 0 (zlen t0 - 1) (zlen t0)), (mksub 0 (zlen t1 - 1) (zlen t1)), y, z.
           cbn [start slen s subs]. unfold ss. rewrite Et. repeat split; auto; lia.
  - eexists. split; [reflexivity|].
    split; [apply (view_partition texts no_numbers (mkslist [] 1)); assumption|].
    split; [constructor|]. split; [reflexivity|]. split; [exact I|]. split.
    + intros t0 t1 _. constructor.
    + intros t0 t1 w Et Hw1 Hw2 S0 S1. exfalso.
      destruct (substring_cm w t0 t1 Hw1 Hw2 S0 S1) as (y & z & Y1 & Y2 & Z1 & Z2 & Hcm).
      assert (0 < zlen w) as Hlw by (destruct w; [congruence|]; rewrite zlen_cons; pose proof (zlen_nonneg w); lia).
      assert (slen (mksub 0 (zlen t0 - 1) (zlen t0)) <= 0) as Hz.
      { apply (valid_sync_false ss 0); [exact Ev|]. unfold ss. rewrite Et. reflexivity. }
      cbn in Hz. lia.
Qed.

(** C21: with 2 to 16 texts the items are consecutive in every text, cover all texts, are
    never empty in all of them; matched items are equal '~'-free strings, numbered in
    order.  Any other number of texts is an error. *)
Theorem C21_synchronize : forall texts : list (list Z),
  if (2 <=? zlen texts) && (zlen texts <=? 16) then
    exists l, synchronize texts = Ok l /\
      partition texts l /\ matches_genuine texts l /\ numbered_in_order l
  else synchronize texts = Fail "invalid number of text streams".
Proof.
  intros texts. destruct (Z.leb_spec 2 (zlen texts)); [destruct (Z.leb_spec (zlen texts) 16)|]; cbn [andb].
  - destruct (synchronize_ok texts) as (l & E & H1 & H2 & H3 & _); [lia|]. eauto.
  - unfold synchronize, MIN_STREAMS, MAX_STREAMS.
    destruct (Z.ltb_spec 16 (zlen texts)); [|lia]. now rewrite orb_true_r.
  - unfold synchronize, MIN_STREAMS, MAX_STREAMS.
    destruct (Z.ltb_spec (zlen texts) 2); [|lia]. reflexivity.
Qed.
Print Assumptions C21_synchronize.

(** C22: no matched item can be extended into its neighbours, for any number of texts. *)
Theorem C22_not_extendable : forall (texts : list (list Z)) (l : list item),
  synchronize texts = Ok l -> no_extension texts l.
Proof.
  intros texts l E. assert (2 <= zlen texts <= 16) as H.
  { pose proof (C21_synchronize texts) as H. destruct (Z.leb_spec 2 (zlen texts)), (Z.leb_spec (zlen texts) 16);
      cbn [andb] in H; try lia; congruence. }
  destruct (synchronize_ok texts H) as (l' & E' & _ & _ & _ & H1 & _). congruence.
Qed.
Print Assumptions C22_not_extendable.

(** C22: for two texts, the two sides of an unmatched item have no character in common
    ('~' apart). *)
Theorem C22_nothing_left : forall (t0 t1 : list Z) (l : list item),
  synchronize [t0; t1] = Ok l ->
  forall it u0 u1 c, In it l -> is_match it = false -> isubs it = [u0; u1] -> c <> tilde ->
    ~ (occurs t0 u0 c /\ occurs t1 u1 c).
Proof.
  intros t0 t1 l E. destruct (synchronize_ok [t0; t1]) as (l' & E' & _ & _ & _ & _ & H1 & _); [cbn; lia|].
  assert (l' = l) as -> by congruence. intros it u0 u1 c Hi Hm Hu Hc.
  specialize (H1 t0 t1 eq_refl). rewrite Forall_forall in H1. eapply H1; eauto.
Qed.
Print Assumptions C22_nothing_left.

(** C22: for two texts, some matched item is at least as long as every common '~'-free
    substring (so, being genuine by C21, the longest matched item is one of maximal
    length). *)
Theorem C22_longest_matched : forall (t0 t1 : list Z) (l : list item),
  synchronize [t0; t1] = Ok l ->
  forall w, w <> [] -> ~ In tilde w -> substring w t0 -> substring w t1 ->
    exists it u, In it l /\ is_match it = true /\ znth (isubs it) 0 = Some u /\ zlen w <= slen u.
Proof.
  intros t0 t1 l E. destruct (synchronize_ok [t0; t1]) as (l' & E' & _ & _ & _ & _ & _ & H1); [cbn; lia|].
  assert (l' = l) as -> by congruence. intros w. apply (H1 t0 t1 w eq_refl).
Qed.
Print Assumptions C22_longest_matched.

(** Three texts, the middle one with a reject character. *)
Example synchronize_nonvacuous :
  match synchronize [bytes "the quick fox"; bytes "th~ quick fix"; bytes "teh quirk fox"] with
  | Ok l => zlen (filter is_match l) = 5
  | _ => False
  end.
Proof. vm_compute. reflexivity. Qed.

(** Two texts: the longest common substring "quick f" is matched. *)
Example synchronize_two :
  match synchronize [bytes "a quick fox"; bytes "quick fix a"] with
  | Ok l => map inum l = [None; Some 1; None; Some 2; None] /\
            znth (map isubs l) 1 = Some [mksub 2 8 7; mksub 0 6 7]
  | _ => False
  end.
Proof. vm_compute. repeat split. Qed.
