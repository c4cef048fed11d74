(** Voting: one round, the rounds of an item, the whole vote. *)
From Coq Require Import String.
From Verif Require Import Base TextModel SyncModel SyncSpec SyncProof VoteModel VoteSpec SumProof.
Local Open Scope Z_scope.
Local Open Scope list_scope.

Lemma abstainsb_iff b : abstainsb b = true <-> abstains b.
Proof.
  unfold abstainsb, abstains. destruct b as [c|].
  - rewrite Z.eqb_eq. split; [intros H; exists c; auto|intros (c' & [= <-] & H); exact H].
  - split; [discriminate|intros (c & H & _); discriminate H].
Qed.

Lemma opt_eqb_iff x y : opt_eqb x y = true <-> x = y.
Proof.
  destruct x, y; cbn; try rewrite Z.eqb_eq; split; try congruence; intros H; discriminate H.
Qed.

Lemma same_vote_iff c x : same_vote c x = true <-> choice c = choice x.
Proof.
  destruct c, x; cbn; try rewrite Z.eqb_eq; split; try congruence; intros H; discriminate H.
Qed.

(** ** First occurrences *)
Definition fstep (fs : list ballot) (b : ballot) : list ballot :=
  if abstainsb b || existsb (same_vote b) fs then fs else fs ++ [b].
Definition firsts (bs : list ballot) : list ballot := fold_left fstep bs [].

Lemma firsts_snoc bs b : firsts (bs ++ [b]) = fstep (firsts bs) b.
Proof. unfold firsts. now rewrite fold_left_app. Qed.

Lemma firsts_spec bs :
  (forall b, In b bs -> abstains b \/ exists y, In y (firsts bs) /\ choice y = choice b) /\
  (forall l1 x l2, firsts bs = l1 ++ x :: l2 ->
     ~ abstains x /\
     exists before after, bs = before ++ x :: after /\
       Forall (fun b => abstains b \/ exists y, In y l1 /\ choice y = choice b) before) /\
  NoDup (map choice (firsts bs)) /\ (List.length (firsts bs) <= List.length bs)%nat.
Proof.
  induction bs as [|b bs IH] using rev_ind.
  - split; [intros b []|]. split; [|split; [constructor|cbn; lia]].
    intros l1 x l2 H. destruct l1; discriminate H.
  - destruct IH as (A & B & N & L). rewrite firsts_snoc. unfold fstep.
    rewrite app_length. cbn [List.length].
    destruct (abstainsb b) eqn:Eb; cbn [orb]; [|destruct (existsb (same_vote b) (firsts bs)) eqn:Ex].
    + apply abstainsb_iff in Eb. split; [|split; [|split; [exact N|lia]]].
      * intros b' Hb. apply in_app_or in Hb as [Hb|[<-|[]]]; auto.
      * intros l1 x l2 H. destruct (B l1 x l2 H) as (Hx & bf & af & -> & Hf). split; [exact Hx|].
        exists bf, (af ++ [b]). split; [now rewrite <- app_assoc|exact Hf].
    + apply existsb_exists in Ex as (y & Hy & Hs). apply same_vote_iff in Hs.
      split; [|split; [|split; [exact N|lia]]].
      * intros b' Hb. apply in_app_or in Hb as [Hb|[<-|[]]]; auto. right. exists y. auto.
      * intros l1 x l2 H. destruct (B l1 x l2 H) as (Hx & bf & af & -> & Hf). split; [exact Hx|].
        exists bf, (af ++ [b]). split; [now rewrite <- app_assoc|exact Hf].
    + assert (forall y, In y (firsts bs) -> choice b <> choice y) as Hne.
      { intros y Hy E. apply same_vote_iff in E.
        assert (existsb (same_vote b) (firsts bs) = true); [|congruence].
        apply existsb_exists. eauto. }
      split; [|split; [|split]].
      * intros b' Hb. apply in_app_or in Hb as [Hb|[<-|[]]].
        -- destruct (A b' Hb) as [H|(y & Hy & E)]; [auto|]. right. exists y.
           split; [apply in_or_app; auto|exact E].
        -- right. exists b. split; [apply in_or_app; right; left; reflexivity|reflexivity].
      * intros l1 x l2 H. destruct l2 as [|z l2 _] using rev_ind.
        -- apply app_inj_tail in H as [<- <-]. split.
           { intros Ha. apply abstainsb_iff in Ha. congruence. }
           exists bs, []. split; [reflexivity|]. apply Forall_forall. exact A.
        -- rewrite app_comm_cons, app_assoc in H. apply app_inj_tail in H as [H <-].
           destruct (B l1 x l2 H) as (Hx & bf & af & -> & Hf). split; [exact Hx|].
           exists bf, (af ++ [b]). split; [now rewrite <- app_assoc|exact Hf].
      * rewrite map_app. cbn [map].
        assert (forall l : list (option Z), forall k, NoDup l -> ~ In k l -> NoDup (l ++ [k])) as Hs.
        { intros l k Hl Hk. apply NoDup_rev in Hl. rewrite <- (rev_involutive (l ++ [k])).
          apply NoDup_rev. rewrite rev_app_distr. cbn [rev app]. constructor; [|exact Hl].
          now rewrite <- in_rev. }
        apply Hs; [exact N|]. rewrite in_map_iff. intros (y & E & Hy). now apply (Hne y Hy).
      * rewrite app_length. cbn [List.length]. lia.
Qed.

Section Votes.
Variable st : settings.
Local Notation sw := (suspect_weight st).
Local Notation uw := (unmarked_weight st).
Local Notation tally := (tally sw uw).
Local Notation weight := (weight sw uw).

Lemma tally_app bs bs' k : tally (bs ++ bs') k = tally bs k + tally bs' k.
Proof.
  unfold VoteSpec.tally. rewrite filter_app, map_app.
  induction (map weight (filter (fun b => negb (abstainsb b) && opt_eqb (choice b) k) bs)) as [|x l IH];
    cbn [app fold_right]; lia.
Qed.

Lemma tally_one b k :
  tally [b] k = if negb (abstainsb b) && opt_eqb (choice b) k then weight b else 0.
Proof.
  unfold VoteSpec.tally. cbn [filter].
  destruct (negb (abstainsb b) && opt_eqb (choice b) k); cbn; lia.
Qed.

Lemma tally_none bs k : (forall b, In b bs -> abstains b \/ choice b <> k) -> tally bs k = 0.
Proof.
  induction bs as [|b bs IH]; intros H; [reflexivity|].
  change (b :: bs) with ([b] ++ bs). rewrite tally_app, tally_one, IH.
  - destruct (H b (or_introl eq_refl)) as [Ha|Hn].
    + apply abstainsb_iff in Ha. rewrite Ha. reflexivity.
    + destruct (opt_eqb (choice b) k) eqn:E; [apply opt_eqb_iff in E; congruence|].
      now rewrite andb_false_r.
  - intros b' Hb. apply H. now right.
Qed.

(** The candidates after the ballots [bs]. *)
Definition cands (bs : list ballot) : candidates :=
  map (fun b => (b, tally bs (choice b))) (firsts bs).

Lemma add_votes_ok b w : forall cs room, zlen cs < room ->
  NoDup (map (fun x => choice (fst x)) cs) ->
  add_votes cs room b w =
  Ok (if existsb (fun x => same_vote b (fst x)) cs
      then map (fun x => (fst x, snd x + if opt_eqb (choice b) (choice (fst x)) then w else 0)) cs
      else cs ++ [(b, w)]).
Proof.
  induction cs as [|[x n] cs IH]; intros room Hr N; cbn [add_votes existsb map fst snd app].
  - unfold zlen in Hr. cbn [List.length Z.of_nat] in Hr. destruct (Z.ltb_spec 0 room); [reflexivity|lia].
  - rewrite zlen_cons in Hr. inversion N as [|k l Hk Hl]; subst k l. cbn [fst] in Hk.
    destruct (same_vote b x) eqn:E; cbn [orb].
    + apply same_vote_iff in E. rewrite E.
      destruct (opt_eqb (choice x) (choice x)) eqn:E2;
        [|assert (opt_eqb (choice x) (choice x) = true) by (now apply opt_eqb_iff); congruence].
      f_equal. f_equal. symmetry. rewrite <- (map_id cs) at 2. apply map_ext_in. intros [y m] Hy. cbn [fst snd].
      destruct (opt_eqb (choice x) (choice y)) eqn:E3; [|f_equal; lia].
      apply opt_eqb_iff in E3. exfalso. apply Hk. rewrite E3. apply in_map_iff. exists (y, m). auto.
    + rewrite IH by (auto; lia). cbn [obind].
      destruct (existsb (fun x0 => same_vote b (fst x0)) cs); [|reflexivity].
      f_equal. f_equal. f_equal.
      destruct (opt_eqb (choice b) (choice x)) eqn:E3; [|lia].
      apply opt_eqb_iff, same_vote_iff in E3. congruence.
Qed.

Lemma existsb_map {A B} (f : A -> B) (p : B -> bool) l :
  existsb p (map f l) = existsb (fun x => p (f x)) l.
Proof. induction l as [|x l IH]; [reflexivity|]. cbn. now rewrite IH. Qed.

Lemma place_vote_ok bs b : zlen bs < 16 ->
  place_vote st (cands bs) b = Ok (cands (bs ++ [b])).
Proof.
  intros Hl. destruct (firsts_spec bs) as (A & _ & N & L).
  assert (cands (bs ++ [b]) =
    map (fun x => (x, tally bs (choice x) + if negb (abstainsb b) && opt_eqb (choice b) (choice x) then weight b else 0))
      (fstep (firsts bs) b)) as E.
  { unfold cands. rewrite firsts_snoc. apply map_ext. intros x. now rewrite tally_app, tally_one. }
  unfold fstep in E. destruct (abstainsb b) eqn:Eb; cbn [orb negb andb] in E.
  - rewrite E. destruct b as [c|]; [|discriminate Eb]. cbn [abstainsb] in Eb. unfold place_vote.
    change REJECT with tilde. rewrite Eb. f_equal. unfold cands. apply map_ext. intros x. now rewrite Z.add_0_r.
  - assert (place_vote st (cands bs) b = add_votes (cands bs) MAX_VOTERS b (weight b)) as ->.
    { unfold place_vote, VoteSpec.weight. destruct b as [c|]; [|reflexivity].
      cbn [abstainsb] in Eb. change REJECT with tilde. rewrite Eb. reflexivity. }
    rewrite add_votes_ok.
    + f_equal. rewrite E. unfold cands. rewrite existsb_map. cbn [fst].
      destruct (existsb (same_vote b) (firsts bs)) eqn:Ex.
      * change (existsb (fun x : ballot => same_vote b x) (firsts bs)) with (existsb (same_vote b) (firsts bs)).
        rewrite Ex, map_map. reflexivity.
      * change (existsb (fun x : ballot => same_vote b x) (firsts bs)) with (existsb (same_vote b) (firsts bs)).
        rewrite Ex, map_app. cbn [map]. f_equal.
        -- apply map_ext_in. intros x Hx. destruct (opt_eqb (choice b) (choice x)) eqn:E3; [|f_equal; lia].
           apply opt_eqb_iff, same_vote_iff in E3.
           assert (existsb (same_vote b) (firsts bs) = true); [|congruence].
           apply existsb_exists. eauto.
        -- rewrite tally_none.
           ++ assert (opt_eqb (choice b) (choice b) = true) as -> by now apply opt_eqb_iff. f_equal.
           ++ intros b' Hb. destruct (A b' Hb) as [H|(y & Hy & Ey)]; [auto|]. right. intros E3.
              assert (existsb (same_vote b) (firsts bs) = true); [|congruence].
              apply existsb_exists. exists y. split; [exact Hy|]. apply same_vote_iff. congruence.
    + unfold cands, zlen, MAX_VOTERS in *. rewrite map_length. lia.
    + unfold cands. rewrite map_map. cbn [fst]. exact N.
Qed.

(** ** The winner *)
Lemma find_leader_ok : forall cs x, exists l1 y l2,
  x :: cs = l1 ++ y :: l2 /\ find_leader cs x = y /\
  Forall (fun z => snd z < snd y) l1 /\ Forall (fun z => snd z <= snd y) l2.
Proof.
  induction cs as [|z cs IH]; intros x; cbn [find_leader].
  - exists [], x, []. auto.
  - destruct (Z.ltb_spec (snd x) (snd z)) as [Hlt|Hge].
    + destruct (IH z) as (l1 & y & l2 & E & E2 & F1 & F2).
      exists (x :: l1), y, l2. rewrite E. split; [reflexivity|]. split; [exact E2|]. split; [|exact F2].
      constructor; [|exact F1]. destruct l1 as [|w l1].
      * injection E as <- _. exact Hlt.
      * injection E as <- _. inversion F1; subst. lia.
    + destruct (IH x) as (l1 & y & l2 & E & E2 & F1 & F2). destruct l1 as [|w l1].
      * injection E as -> ->. exists [], y, (z :: l2). split; [reflexivity|]. split; [exact E2|].
        split; [constructor|]. constructor; [lia|exact F2].
      * injection E as <- E. inversion F1 as [|a b Ha Hb]; subst a b.
        exists (x :: z :: l1), y, l2. split; [rewrite E; reflexivity|]. split; [exact E2|].
        split; [|exact F2]. constructor; [exact Ha|]. constructor; [lia|exact Hb].
Qed.

Lemma map_eq_mid {A B} (f : A -> B) l l1 y l2 : map f l = l1 ++ y :: l2 ->
  exists k1 x k2, l = k1 ++ x :: k2 /\ map f k1 = l1 /\ f x = y /\ map f k2 = l2.
Proof.
  intros H. apply map_eq_app in H as (k1 & k2' & -> & E1 & E2). apply map_eq_cons in E2 as (x & k2 & -> & E2 & E3).
  exists k1, x, k2. auto.
Qed.

Lemma winner_ok bs : elects sw uw (suspect_threshold st) bs (winner st (cands bs)).
Proof.
  destruct (firsts_spec bs) as (A & B & N & L). unfold winner.
  destruct (cands bs) as [|x cs] eqn:E.
  - apply elects_reject. apply map_eq_nil in E. rewrite E in A. apply Forall_forall. intros b Hb.
    destruct (A b Hb) as [H|(y & [] & _)]; exact H.
  - destruct (find_leader_ok cs x) as (l1 & y & l2 & E1 & E2 & F1 & F2). rewrite E2.
    rewrite <- E in E1. unfold cands in E1.
    apply map_eq_mid in E1 as (k1 & b & k2 & Ef & <- & <- & <-).
    destruct (B _ _ _ Ef) as (Hb & bf & af & Ebs & Hbf).
    assert (match b with Some c => Some (mkchar (tally bs (choice b) <=? suspect_threshold st) (value c)) | None => None end
            = option_map (fun c => mkchar (tally bs (choice b) <=? suspect_threshold st) (value c)) b) as ->
      by now destruct b.
    apply elects_leader with bf af; auto.
    + apply Forall_forall. intros b' Hb'. rewrite Forall_forall in Hbf.
      destruct (Hbf b' Hb') as [|(z & Hz & Ez)]; [auto|]. right. rewrite <- Ez.
      rewrite Forall_map, Forall_forall in F1. apply (F1 z Hz).
    + apply Forall_forall. intros b' Hb'.
      destruct (A b') as [|(z & Hz & Ez)]; [rewrite Ebs; apply in_or_app; right; now right|auto|].
      right. rewrite <- Ez. rewrite Ef in Hz. apply in_app_or in Hz as [Hz|[->|Hz]].
      * rewrite Forall_map, Forall_forall in F1. specialize (F1 z Hz). cbn [snd] in F1. lia.
      * lia.
      * rewrite Forall_map, Forall_forall in F2. apply (F2 z Hz).
Qed.

(** ** A round *)
Definition rest (t : list char) (u : substr) : list char :=
  firstn (Z.to_nat (stop u - start u + 1)) (skipn (Z.to_nat (start u)) t).
Definition sub_in (t : list char) (u : substr) : Prop :=
  0 <= start u /\ start u <= stop u + 1 /\ stop u < zlen t.
Definition adv (u : substr) : substr :=
  if start u <=? stop u then mksub (start u + 1) (stop u) (slen u) else u.

Lemma skipn_znth {A} (t : list A) i c : znth t i = Some c -> skipn (Z.to_nat i) t = c :: skipn (Z.to_nat (i + 1)) t.
Proof.
  intros H. assert (0 <= i) by now apply znth_Some_lt in H. replace (Z.to_nat (i + 1)) with (Datatypes.S (Z.to_nat i)) by lia.
  unfold znth in H. destruct (Z.ltb_spec i 0); [lia|].
  revert t H. induction (Z.to_nat i) as [|n IH]; intros [|x t] Hz; try discriminate Hz; cbn in *.
  - congruence.
  - now apply IH.
Qed.

Lemma rest_step t u : sub_in t u -> start u <= stop u ->
  exists c, znth t (start u) = Some c /\ rest t u = c :: rest t (adv u).
Proof.
  intros (H1 & H2 & H3) Hle. destruct (znth_lt_Some t (start u)) as [c Hc]; [lia|].
  exists c. split; [exact Hc|]. unfold rest, adv. destruct (Z.leb_spec (start u) (stop u)); [|lia].
  cbn [start stop]. rewrite (skipn_znth t (start u) c Hc).
  replace (Z.to_nat (stop u - start u + 1)) with (Datatypes.S (Z.to_nat (stop u - (start u + 1) + 1))) by lia.
  reflexivity.
Qed.

Lemma rest_end t u : stop u < start u -> rest t u = [].
Proof. intros H. unfold rest. now replace (Z.to_nat (stop u - start u + 1)) with 0%nat by lia. Qed.

Lemma adv_in t u : sub_in t u -> sub_in t (adv u).
Proof.
  unfold sub_in, adv. intros (H1 & H2 & H3). destruct (Z.leb_spec (start u) (stop u)); cbn [start stop]; lia.
Qed.

Lemma rest_adv t u : sub_in t u -> rest t (adv u) = tl (rest t u).
Proof.
  intros H. destruct (Z.leb_spec (start u) (stop u)) as [Hle|Hgt].
  - destruct (rest_step t u H Hle) as (c & _ & ->). reflexivity.
  - unfold adv. destruct (Z.leb_spec (start u) (stop u)); [lia|]. now rewrite rest_end.
Qed.

Definition rests (ts : list (list char)) (us : list substr) : list (list char) :=
  map (fun tu => rest (fst tu) (snd tu)) (combine ts us).

Lemma place_votes_ok : forall ts us bs, Forall2 sub_in ts us ->
  zlen bs + zlen ts <= 16 ->
  place_votes st ts us (List.length ts) (cands bs) =
  Ok (cands (bs ++ map (@hd_error char) (rests ts us)), map adv us).
Proof.
  intros ts us bs H. revert bs. induction H as [|t u ts us Hu Hf IH]; intros bs Hl; cbn [place_votes List.length].
  - now rewrite app_nil_r.
  - rewrite zlen_cons in Hl. pose proof (zlen_nonneg ts).
    change (rd "input[i]" (t :: ts) 0) with (Ok t). change (rd "substr[i]" (u :: us) 0) with (Ok u).
    cbn [obind tl]. unfold rests. cbn [combine map fst snd].
    replace (adv u) with (if start u <=? stop u then mksub (start u + 1) (stop u) (slen u) else u) by reflexivity.
    assert (forall b, zlen (bs ++ [b]) = zlen bs + 1) as Hs by (intros b; rewrite zlen_app; reflexivity).
    destruct (Z.leb_spec (start u) (stop u)) as [Hle|Hgt].
    + destruct (rest_step t u Hu Hle) as (c & Hc & ->). unfold rd. rewrite Hc. cbn [obind hd_error].
      rewrite place_vote_ok by lia. cbn [obind]. rewrite IH by (rewrite Hs; lia). cbn [obind].
      rewrite <- app_assoc. reflexivity.
    + rewrite rest_end by lia. cbn [hd_error]. rewrite place_vote_ok by lia. cbn [obind].
      rewrite IH by (rewrite Hs; lia). cbn [obind]. rewrite <- app_assoc. reflexivity.
Qed.

Lemma adv_Forall2 ts us : Forall2 sub_in ts us -> Forall2 sub_in ts (map adv us).
Proof. induction 1; cbn; constructor; auto using adv_in. Qed.

Lemma rests_adv ts us : Forall2 sub_in ts us -> rests ts (map adv us) = map (@tl char) (rests ts us).
Proof.
  unfold rests. induction 1; cbn [map combine fst snd]; [reflexivity|]. rewrite rest_adv by auto. f_equal. exact IHForall2.
Qed.

(** Each round but the last shortens what remains. *)
Lemma elects_shorter thr parts c : parts <> [] ->
  elects sw uw thr (map (@hd_error char) parts) (Some c) ->
  (List.length (concat (map (@tl char) parts)) < List.length (concat parts))%nat.
Proof.
  intros Hne H.
  assert (exists p, In p parts /\ p <> []) as (p & Hp & Hpn).
  { inversion H as [Hall E|bf b af E Hb F1 F2 E2].
    - destruct parts as [|p ps]; [congruence|]. inversion Hall as [|x l (d & Hd & _) _]; subst.
      exists p. split; [now left|]. destruct p; [discriminate Hd|discriminate].
    - destruct b as [d|]; [|discriminate E2].
      assert (In (Some d) (map (@hd_error char) parts)) as Hi by (rewrite E; apply in_or_app; right; now left).
      apply in_map_iff in Hi as (p & Hp & Hi). exists p. split; [exact Hi|]. destruct p; [discriminate Hp|discriminate]. }
  clear H Hne. induction parts as [|q ps IH]; [destruct Hp|]. cbn [map concat]. rewrite !app_length.
  assert (forall l : list (list char), (List.length (concat (map (@tl char) l)) <= List.length (concat l))%nat) as Hle.
  { induction l as [|x l IHl]; [cbn; lia|]. cbn [map concat]. rewrite !app_length. destruct x; cbn [tl List.length]; lia. }
  destruct Hp as [->|Hp].
  - specialize (Hle ps). destruct p; [congruence|]. cbn [tl List.length]. lia.
  - specialize (IH Hp). destruct q; cbn [tl List.length]; lia.
Qed.

Hypothesis Hvoters : 1 <= actual_voters st <= 16.

Lemma vote_item_ok : forall fuel ts us, zlen ts = actual_voters st -> Forall2 sub_in ts us ->
  (List.length (concat (rests ts us)) < fuel)%nat ->
  exists out, vote_item st fuel ts us = Ok out /\
    rounds sw uw (suspect_threshold st) (rests ts us) out.
Proof.
  induction fuel as [|f IH]; intros ts us Hts Hf Hl; [lia|]. cbn [vote_item].
  replace (Z.to_nat (actual_voters st)) with (List.length ts) by (unfold zlen in Hts; lia).
  change (@nil (option char * Z)) with (cands []).
  rewrite place_votes_ok; auto; [|rewrite Hts; change (zlen (@nil ballot)) with 0; lia].
  cbn [obind app]. pose proof (winner_ok (map (@hd_error char) (rests ts us))) as W.
  destruct (winner st (cands (map (@hd_error char) (rests ts us)))) as [c|].
  - destruct (IH ts (map adv us)) as (out & E & R); auto using adv_Forall2.
    + rewrite rests_adv by auto. apply elects_shorter in W; [lia|].
      destruct ts as [|t ts]; [change (zlen (@nil (list char))) with 0 in Hts; lia|].
      inversion Hf; subst. discriminate.
    + rewrite E. cbn [obind]. exists (c :: out). split; [reflexivity|]. apply rounds_next; [exact W|].
      now rewrite <- rests_adv.
  - exists []. split; [reflexivity|]. now apply rounds_end.
Qed.

Lemma rest_len t u : (List.length (rest t u) <= List.length t)%nat.
Proof. unfold rest. rewrite firstn_length, skipn_length. lia. Qed.

Lemma rests_len ts us : (List.length (concat (rests ts us)) <= List.length (concat ts))%nat.
Proof.
  revert us. induction ts as [|t ts IH]; intros [|u us]; cbn [rests combine map concat List.length]; try lia.
  rewrite !app_length. cbn [fst snd]. pose proof (rest_len t u). specialize (IH us). unfold rests in IH. lia.
Qed.

Lemma perform_vote_ok ts items fuel : zlen ts = actual_voters st ->
  Forall (fun it => Forall2 sub_in ts (isubs it)) items ->
  (List.length (concat ts) < fuel)%nat ->
  exists outs, perform_vote st fuel ts items = Ok (concat outs) /\
    Forall2 (fun it out => rounds sw uw (suspect_threshold st) (rests ts (isubs it)) out) items outs.
Proof.
  intros Hts HF Hfuel. induction HF as [|it items Hi HF IH]; cbn [perform_vote].
  - exists []. split; [reflexivity|constructor].
  - destruct (vote_item_ok fuel ts (isubs it)) as (out & E & R); auto.
    { pose proof (rests_len ts (isubs it)). lia. }
    destruct IH as (outs & E2 & R2). rewrite E. cbn [obind]. rewrite E2. cbn [obind].
    exists (out :: outs). split; [reflexivity|]. now constructor.
Qed.
End Votes.
