(** C47, C48, C49: voting. *)
From Coq Require Import String.
From Verif Require Import Base CLib Utf8Model TextModel SyncModel SyncSpec SyncProof LongestProof HeurProof HeurProps
  VoteModel VoteSpec VoteProof VoteSame.
Local Open Scope Z_scope.
Local Open Scope list_scope.

Lemma partition_subs texts l it : partition texts l -> In it l ->
  Forall2 sub_ok texts (isubs it).
Proof.
  intros (P1 & P2 & _) Hi. rewrite Forall_forall in P1. specialize (P1 it Hi).
  assert (forall t text u, znth texts t = Some text -> znth (isubs it) t = Some u -> sub_ok text u) as H.
  { intros t text u Ht Hu. specialize (P2 t text Ht). apply consecutive_sub with (u := u) in P2.
    - unfold sub_ok. lia.
    - unfold column. apply in_map_iff. exists it. rewrite Hu. auto. }
  clear P2 Hi. revert P1 H. generalize (isubs it) as us. clear.
  induction texts as [|x texts IH]; intros [|u us] Hz H.
  - constructor.
  - exfalso. rewrite zlen_cons in Hz. pose proof (zlen_nonneg us). unfold zlen in Hz at 2. cbn in Hz. lia.
  - exfalso. rewrite zlen_cons in Hz. pose proof (zlen_nonneg texts). unfold zlen in Hz at 1. cbn in Hz. lia.
  - rewrite !zlen_cons in Hz. constructor.
    + apply (H 0); reflexivity.
    + apply IH; [lia|]. intros t text u' Ht Hu. pose proof (znth_Some_lt _ _ _ Ht).
      apply (H (t + 1)); rewrite znth_cons_S by lia; now rewrite Z.add_simpl_r.
Qed.

Lemma sub_ok_in (ts : list (list char)) us : Forall2 sub_ok (map (map value) ts) us -> Forall2 sub_in ts us.
Proof.
  revert us. induction ts as [|t ts IH]; intros us H; inversion H as [|a u b l Hu Hl]; subst; constructor; auto.
  destruct Hu as (U1 & U2 & U3 & U4). unfold sub_in, zlen in *. rewrite map_length in U3. lia.
Qed.

Lemma rests_parts (ts : list (list char)) it : Forall2 sub_ok (map (map value) ts) (isubs it) ->
  rests ts (isubs it) = parts_of ts it.
Proof.
  unfold rests, parts_of. generalize (isubs it) as us.
  induction ts as [|t ts IH]; intros us H; inversion H as [|a u b l Hu Hl]; subst; [reflexivity|].
  cbn [combine map fst snd]. f_equal; [|now apply IH].
  destruct Hu as (U1 & U2 & U3 & U4). unfold rest. now replace (stop u - start u + 1) with (slen u) by lia.
Qed.

(** C47: the vote runs over the items of the synchronisation in order; the output of each is
    that of its rounds of election.  Voting always ends. *)
Theorem C47_vote : forall (st : settings) (texts : list (list char)),
  2 <= zlen texts <= 16 -> actual_voters st = zlen texts ->
  exists items outs,
    synchronize (map (map value) texts) = Ok items /\
    partition (map (map value) texts) items /\
    vote_texts st texts = Ok (concat outs) /\
    Forall2 (fun it out => rounds (suspect_weight st) (unmarked_weight st) (suspect_threshold st)
                             (parts_of texts it) out) items outs.
Proof.
  intros st texts H2 Ha.
  assert (2 <= zlen (map (map value) texts) <= 16) as H2' by (unfold zlen in *; rewrite map_length; lia).
  destruct (synchronize_ok _ H2') as (l & E & P & _).
  exists l. unfold vote_texts. rewrite E. cbn [obind].
  assert (forall it, In it l -> Forall2 sub_ok (map (map value) texts) (isubs it)) as HF
    by (intros; eapply partition_subs; eauto).
  destruct (perform_vote_ok st ltac:(lia) texts l (Datatypes.S (List.length (concat texts)))) as (outs & E2 & R); auto.
  { apply Forall_forall. intros it Hi. now apply sub_ok_in, HF. }
  exists outs. split; [reflexivity|]. split; [exact P|]. split; [exact E2|].
  clear -HF R. induction R as [|it out l outs Hr R IH]; constructor.
  - rewrite <- rests_parts; [exact Hr|]. apply HF. now left.
  - apply IH. intros it' Hi. apply HF. now right.
Qed.
Print Assumptions C47_vote.

Lemma firstpos {A} (P : A -> Prop) (b1 : list A) : forall x1 a1 b2 x2 a2,
  b1 ++ x1 :: a1 = b2 ++ x2 :: a2 ->
  (exists m, b2 = b1 ++ x1 :: m) \/ (b1 = b2 /\ x1 = x2) \/ (exists m, b1 = b2 ++ x2 :: m).
Proof.
  induction b1 as [|y b1 IH]; intros x1 a1 [|z b2] x2 a2 E; cbn in E; injection E as -> E.
  - right. left. auto.
  - left. exists b2. reflexivity.
  - right. right. exists b1. reflexivity.
  - destruct (IH _ _ _ _ _ E) as [(m & ->)|[(-> & ->)|(m & ->)]].
    + left. exists m. reflexivity.
    + right. left. auto.
    + right. right. exists m. reflexivity.
Qed.

Lemma elects_fun sw uw thr bs r1 r2 : elects sw uw thr bs r1 -> elects sw uw thr bs r2 -> r1 = r2.
Proof.
  intros H1 H2.
  destruct H1 as [A1|b1 x1 a1 E1 N1 F1 G1]; inversion H2 as [A2 E|b2 x2 a2 E2 N2 F2 G2 E]; subst r2; auto.
  - exfalso. apply N2. rewrite Forall_forall in A1. apply A1. rewrite E2. apply in_or_app. right. now left.
  - exfalso. apply N1. rewrite Forall_forall in A2. apply A2. rewrite E1. apply in_or_app. right. now left.
  - assert (b1 ++ x1 :: a1 = b2 ++ x2 :: a2) as E by congruence.
    destruct (firstpos (fun _ => True) _ _ _ _ _ _ E) as [(m & Em)|[(_ & <-)|(m & Em)]]; [exfalso| |exfalso]; auto.
    + rewrite Em in E. rewrite <- app_assoc in E. apply app_inv_head in E. injection E as E.
      rewrite Em, Forall_app in F2. destruct F2 as [_ F2]. inversion F2 as [|? ? [Hab|Hlt] _]; subst; [contradiction|].
      rewrite Forall_app in G1. destruct G1 as [_ G1]. inversion G1 as [|? ? [Hab|Hle] _]; subst; [contradiction|].
      lia.
    + rewrite Em in E. rewrite <- app_assoc in E. apply app_inv_head in E. injection E as E.
      rewrite Em, Forall_app in F1. destruct F1 as [_ F1]. inversion F1 as [|? ? [Hab|Hlt] _]; subst; [contradiction|].
      rewrite Forall_app in G2. destruct G2 as [_ G2]. inversion G2 as [|? ? [Hab|Hle] _]; subst; [contradiction|].
      lia.
Qed.

(** C47: the rules of the election determine the output. *)
Theorem C47_unique : forall sw uw thr parts out1 out2,
  rounds sw uw thr parts out1 -> rounds sw uw thr parts out2 -> out1 = out2.
Proof.
  intros sw uw thr parts out1 out2 H1. revert out2.
  induction H1 as [parts He|parts c out He Hr IH]; intros out2 H2; inversion H2 as [p He2 E1 E2|p c2 o2 He2 Hr2 E1 E2]; subst.
  - reflexivity.
  - pose proof (elects_fun _ _ _ _ _ _ He He2) as E. discriminate E.
  - pose proof (elects_fun _ _ _ _ _ _ He He2) as E. discriminate E.
  - pose proof (elects_fun _ _ _ _ _ _ He He2) as E. injection E as <-. f_equal. apply IH, Hr2.
Qed.
Print Assumptions C47_unique.

Lemma elects_in sw uw thr bs r : bs <> [] -> elects sw uw thr bs r ->
  exists b, In b bs /\ choice b = option_map value r.
Proof.
  intros Hne [Ha|bf b af E Hb F1 F2].
  - destruct bs as [|b bs]; [congruence|]. inversion Ha as [|x l (c & -> & Hc) _]; subst.
    exists (Some c). split; [now left|]. cbn. now rewrite Hc.
  - exists b. split; [rewrite E; apply in_or_app; right; now left|]. now destruct b.
Qed.

(** C47: what an item contributes is at least as long as the shortest part and at most as long
    as the longest; the character at position i is that of some voter at position i. *)
Theorem C47_bounds : forall sw uw thr parts out, parts <> [] -> rounds sw uw thr parts out ->
  (exists p, In p parts /\ zlen p <= zlen out) /\
  (exists p, In p parts /\ zlen out <= zlen p) /\
  (forall i c, znth out i = Some c ->
     exists p d, In p parts /\ znth p i = Some d /\ value d = value c).
Proof.
  intros sw uw thr parts out Hne H. induction H as [parts He|parts c out He Hr IH].
  - apply elects_in in He as (b & Hb & E); [|destruct parts; [congruence|discriminate]].
    apply in_map_iff in Hb as (p & <- & Hp). destruct p as [|x p]; [|discriminate E].
    split; [exists []; split; [exact Hp|reflexivity]|]. split; [exists []; split; [exact Hp|reflexivity]|].
    intros i c Hc. pose proof (znth_Some_lt _ _ _ Hc) as Hl. unfold zlen in Hl. cbn in Hl. lia.
  - assert (map (@tl char) parts <> []) as Hne2 by (destruct parts; [congruence|discriminate]).
    destruct (IH Hne2) as ((p & Hp & Lp) & (q & Hq & Lq) & Hc). clear IH.
    apply in_map_iff in Hp as (p' & <- & Hp). apply in_map_iff in Hq as (q' & <- & Hq).
    apply elects_in in He as (b & Hb & E); [|destruct parts; [congruence|discriminate]].
    apply in_map_iff in Hb as (r & <- & Hr').
    destruct r as [|x r]; [discriminate E|]. cbn in E. injection E as E.
    pose proof (zlen_nonneg out). rewrite zlen_cons. split; [|split].
    + exists p'. split; [exact Hp|]. destruct p' as [|y p']; [unfold zlen at 1; cbn; lia|].
      rewrite zlen_cons. cbn [tl] in Lp. lia.
    + destruct q' as [|y q'].
      * exists (x :: r). split; [exact Hr'|]. unfold zlen in Lq at 2. cbn in Lq. rewrite zlen_cons.
        pose proof (zlen_nonneg r). lia.
      * exists (y :: q'). split; [exact Hq|]. rewrite zlen_cons. cbn [tl] in Lq. lia.
    + intros i d Hd. pose proof (znth_Some_lt _ _ _ Hd) as Hi.
      destruct (Z.eq_dec i 0) as [->|Hi0].
      * injection Hd as <-. exists (x :: r), x. split; [exact Hr'|]. split; [reflexivity|exact E].
      * rewrite znth_cons_S in Hd by lia. destruct (Hc _ _ Hd) as (p0 & d0 & Hp0 & Hd0 & Ed).
        apply in_map_iff in Hp0 as (p1 & <- & Hp1). destruct p1 as [|y p1].
        { pose proof (znth_Some_lt _ _ _ Hd0) as Hx. unfold zlen in Hx. cbn in Hx. lia. }
        exists (y :: p1), d0. split; [exact Hp1|]. rewrite znth_cons_S by lia. auto.
Qed.
Print Assumptions C47_bounds.

(** The total weight of all the ballots of a round. *)
Definition all_weight (sw uw : Z) (bs : list ballot) : Z := fold_right Z.add 0 (map (weight sw uw) bs).

Lemma tally_cons sw uw b bs k : tally sw uw (b :: bs) k =
  (if negb (abstainsb b) && opt_eqb (choice b) k then weight sw uw b else 0) + tally sw uw bs k.
Proof.
  unfold tally. cbn [filter]. destruct (negb (abstainsb b) && opt_eqb (choice b) k); cbn [map fold_right]; lia.
Qed.

Lemma tally_nonneg sw uw bs k : 0 <= sw -> 0 <= uw -> 0 <= tally sw uw bs k.
Proof.
  intros Hs Hu. induction bs as [|b bs IH]; [cbn; lia|]. rewrite tally_cons.
  assert (0 <= weight sw uw b) by (unfold weight; destruct b as [c|]; [destruct (suspect c)|]; lia).
  destruct (negb (abstainsb b) && opt_eqb (choice b) k); lia.
Qed.

Lemma tally_two sw uw bs k k' : 0 <= sw -> 0 <= uw -> k <> k' ->
  tally sw uw bs k + tally sw uw bs k' <= all_weight sw uw bs.
Proof.
  intros Hs Hu Hne. induction bs as [|b bs IH]; [cbn; lia|]. rewrite !tally_cons.
  unfold all_weight in *. cbn [map fold_right].
  assert (0 <= weight sw uw b) by (unfold weight; destruct b as [c|]; [destruct (suspect c)|]; lia).
  destruct (abstainsb b); cbn [negb andb]; [lia|].
  destruct (opt_eqb (choice b) k) eqn:E1, (opt_eqb (choice b) k') eqn:E2; try lia.
  apply opt_eqb_iff in E1, E2. congruence.
Qed.

(** C47: a character with more than half of the weight of a round is elected; so is the end. *)
Theorem C47_majority : forall sw uw thr bs r k, 0 <= sw -> 0 <= uw ->
  elects sw uw thr bs r -> all_weight sw uw bs < 2 * tally sw uw bs k ->
  option_map value r = k.
Proof.
  intros sw uw thr bs r k Hs Hu He Hk.
  assert (0 < tally sw uw bs k) as Hpos.
  { assert (0 <= all_weight sw uw bs); [|lia]. unfold all_weight. clear -Hs Hu. induction bs as [|b bs IH]; cbn; [lia|].
    unfold weight at 1. destruct b as [c|]; [destruct (suspect c)|]; lia. }
  assert (exists b, In b bs /\ ~ abstains b /\ choice b = k) as (b0 & Hb0 & Hna & Ek).
  { clear -Hpos. induction bs as [|b bs IH]; [cbn in Hpos; lia|]. rewrite tally_cons in Hpos.
    destruct (abstainsb b) eqn:Ea; cbn [negb andb] in Hpos.
    - destruct IH as (b0 & H1 & H2); [lia|]. exists b0. split; [now right|exact H2].
    - destruct (opt_eqb (choice b) k) eqn:Eo.
      + exists b. split; [now left|]. split; [|now apply opt_eqb_iff].
        intros Ha. apply abstainsb_iff in Ha. congruence.
      + destruct IH as (b0 & H1 & H2); [lia|]. exists b0. split; [now right|exact H2]. }
  destruct He as [Ha|bf b af E Hb F1 F2].
  - exfalso. rewrite Forall_forall in Ha. apply Hna, Ha, Hb0.
  - assert (option_map value (option_map (fun c => mkchar (tally sw uw bs (choice b) <=? thr) (value c)) b) = choice b) as ->
      by now destruct b.
    assert (tally sw uw bs k <= tally sw uw bs (choice b)) as Hle.
    { rewrite <- Ek. rewrite E in Hb0. apply in_app_or in Hb0 as [Hi|[->|Hi]].
      - rewrite Forall_forall in F1. destruct (F1 _ Hi); [contradiction|lia].
      - lia.
      - rewrite Forall_forall in F2. destruct (F2 _ Hi); [contradiction|lia]. }
    destruct (opt_eqb (choice b) k) eqn:Eo; [now apply opt_eqb_iff|]. exfalso.
    assert (choice b <> k) as Hne by (intros Hk'; apply opt_eqb_iff in Hk'; congruence).
    pose proof (tally_two sw uw bs (choice b) k Hs Hu Hne). lia.
Qed.
Print Assumptions C47_majority.

(** Agreement of all the voters on an item. *)
Lemma rounds_agree sw uw thr : forall w parts out, parts <> [] ->
  Forall (fun p => map value p = w) parts -> rounds sw uw thr parts out -> map value out = w.
Proof.
  assert (forall w parts r, parts <> [] -> Forall (fun p => map value p = w) parts ->
    elects sw uw thr (map (@hd_error char) parts) r ->
    exists q, In q parts /\ map value q = w /\ choice (hd_error q) = option_map value r) as Hq.
  { intros w parts r Hne HF He. apply elects_in in He as (b & Hb & E); [|destruct parts; [congruence|discriminate]].
    apply in_map_iff in Hb as (q & <- & Hq). rewrite Forall_forall in HF. exists q. auto. }
  induction w as [|v w IH]; intros parts out Hne HF H;
    inversion H as [p He E1 E2|p c o He Hr E1 E2]; subst;
    destruct (Hq _ _ _ Hne HF He) as (q & Hqi & Eq & E); rewrite Forall_forall in HF.
  - reflexivity.
  - destruct q; [discriminate E|discriminate Eq].
  - destruct q; [discriminate Eq|discriminate E].
  - destruct q as [|x q]; [discriminate Eq|]. cbn in E, Eq. injection E as E. injection Eq as Ev Eq.
    cbn [map]. f_equal; [congruence|]. apply (IH (map (@tl char) parts)).
    + destruct parts; [congruence|discriminate].
    + apply Forall_map, Forall_forall. intros p Hp. specialize (HF p Hp). destruct p as [|y p]; [discriminate HF|].
      cbn in HF. now injection HF.
    + exact Hr.
Qed.

(** C47: a part on which all the voters agree is copied. *)
Theorem C47_agreement : forall sw uw thr w parts out, parts <> [] ->
  Forall (fun p => map value p = w) parts -> rounds sw uw thr parts out -> map value out = w.
Proof. exact rounds_agree. Qed.
Print Assumptions C47_agreement.

Lemma firstn_skipn_join {A} (t : list A) i a : (i + a <= List.length t)%nat ->
  firstn a (skipn i t) ++ skipn (i + a) t = skipn i t.
Proof.
  revert t. induction i as [|i IH]; intros [|x t] H; cbn [skipn List.length Nat.add] in *.
  - destruct a; reflexivity.
  - apply firstn_skipn.
  - destruct a; reflexivity.
  - apply IH. lia.
Qed.

Lemma pieces {A} (t : list A) us : forall pos, 0 <= pos -> consecutive pos us (zlen t) ->
  concat (map (fun u => firstn (Z.to_nat (slen u)) (skipn (Z.to_nat (start u)) t)) us) = skipn (Z.to_nat pos) t.
Proof.
  induction us as [|u us IH]; intros pos Hp H; cbn [consecutive] in H.
  - subst pos. cbn. symmetry. apply skipn_all2. unfold zlen. lia.
  - destruct H as (H1 & H2 & H3 & H4). cbn [map concat]. rewrite (IH (start u + slen u)) by (auto; lia).
    apply consecutive_le in H4. rewrite H1.
    replace (Z.to_nat (pos + slen u)) with (Z.to_nat pos + Z.to_nat (slen u))%nat by lia.
    apply firstn_skipn_join. unfold zlen in H4. lia.
Qed.

(** The items of copies of one text cover the same part of each. *)
Lemma same_items w n l : (0 < n)%nat -> synchronize (repeat w n) = Ok l -> partition (repeat w n) l ->
  exists us, Forall2 (fun it u => isubs it = repeat u n) l us /\ consecutive 0 us (zlen w).
Proof.
  intros Hn E (_ & P & _). pose proof (synchronize_level w n l Hn E) as HL.
  assert (znth (repeat w n) 0 = Some w) as H0 by (destruct n; [lia|reflexivity]).
  specialize (P 0 w H0). exists (column 0 l). split; [|exact P].
  clear P E. induction HL as [|it l (u & Eu & _) HL IH]; [constructor|]. cbn [column map]. constructor; [|exact IH].
  rewrite Eu. destruct n; [lia|reflexivity].
Qed.

(** C48: voters whose texts have the same characters elect these characters. *)
Theorem C48_same_characters : forall (st : settings) (texts : list (list char)) (w : list Z),
  2 <= zlen texts <= 16 -> actual_voters st = zlen texts ->
  Forall (fun t => map value t = w) texts ->
  exists out, vote_texts st texts = Ok out /\ map value out = w.
Proof.
  intros st texts w H2 Ha HF.
  destruct (C47_vote st texts H2 Ha) as (items & outs & E & P & Ev & R).
  assert (map (map value) texts = repeat w (List.length texts)) as Er.
  { clear -HF. induction HF as [|t ts Ht HF IH]; [reflexivity|]. cbn. now rewrite Ht, IH. }
  rewrite Er in E, P.
  assert ((0 < List.length texts)%nat) as Hn by (unfold zlen in H2; lia).
  destruct (same_items w (List.length texts) items Hn E P) as (us & HU & HC).
  exists (concat outs). split; [exact Ev|].
  assert (map (map value) outs = map (fun u => firstn (Z.to_nat (slen u)) (skipn (Z.to_nat (start u)) w)) us) as Eo.
  { clear -R HU HF Hn. revert us HU. induction R as [|it out items outs Hr R IH]; intros us HU.
    - inversion HU; subst. reflexivity.
    - inversion HU as [|it' u items' us' Hi HU']; subst. cbn [map]. f_equal; [|now apply IH].
      apply (rounds_agree _ _ _ _ _ _) with (3 := Hr).
      + destruct texts as [|t texts]; [cbn in Hn; lia|]. unfold parts_of. rewrite Hi. discriminate.
      + unfold parts_of. rewrite Hi. clear -HF. induction HF as [|t ts Ht HF IH]; [constructor|].
        cbn [List.length repeat combine map fst snd]. constructor; [|exact IH].
        now rewrite <- firstn_map, <- skipn_map, Ht. }
  rewrite concat_map, Eo. apply (pieces w us 0); [lia|exact HC].
Qed.
Print Assumptions C48_same_characters.

(** C48: copies of one text elect that text; a character is marked when the weights of the
    copies together do not exceed the threshold ('~' never is). *)
Definition elected (st : settings) (n : Z) (c : char) : char :=
  mkchar (negb (value c =? tilde) &&
          (n * weight (suspect_weight st) (unmarked_weight st) (Some c) <=? suspect_threshold st))
         (value c).

Lemma tally_repeat sw uw b n : ~ abstains b ->
  tally sw uw (repeat b n) (choice b) = Z.of_nat n * weight sw uw b.
Proof.
  intros Hb. induction n as [|n IH]; [cbn; lia|]. cbn [repeat]. rewrite tally_cons, IH.
  destruct (abstainsb b) eqn:Ea; [apply abstainsb_iff in Ea; contradiction|].
  assert (opt_eqb (choice b) (choice b) = true) as -> by now apply opt_eqb_iff. cbn [negb andb]. lia.
Qed.

Lemma elects_repeat st b n : (0 < n)%nat ->
  elects (suspect_weight st) (unmarked_weight st) (suspect_threshold st) (repeat b n)
    (option_map (elected st (Z.of_nat n)) b).
Proof.
  intros Hn. destruct (abstainsb b) eqn:Ea.
  - apply abstainsb_iff in Ea as (c & -> & Hc). cbn [option_map]. unfold elected. rewrite Hc. cbn [Z.eqb Pos.eqb negb andb].
    apply elects_reject. apply Forall_forall. intros b Hb. apply repeat_spec in Hb as ->. exists c. auto.
  - assert (~ abstains b) as Hb by (intros H; apply abstainsb_iff in H; congruence).
    assert (option_map (elected st (Z.of_nat n)) b =
      option_map (fun c => mkchar (tally (suspect_weight st) (unmarked_weight st) (repeat b n) (choice b)
        <=? suspect_threshold st) (value c)) b) as ->.
    { rewrite tally_repeat by exact Hb. destruct b as [c|]; [|reflexivity]. cbn [option_map]. unfold elected.
      cbn [abstainsb] in Ea. rewrite Ea. reflexivity. }
    destruct n as [|n]; [lia|]. apply elects_leader with [] (repeat b n); auto.
    apply Forall_forall. intros b' Hb'. apply repeat_spec in Hb' as ->. right. lia.
Qed.

Lemma rounds_repeat st n : (0 < n)%nat -> forall p,
  rounds (suspect_weight st) (unmarked_weight st) (suspect_threshold st) (repeat p n)
    (map (elected st (Z.of_nat n)) p).
Proof.
  assert (forall A B (f : A -> B) x m, map f (repeat x m) = repeat (f x) m) as Hm.
  { intros A B f x m. induction m as [|m IH]; [reflexivity|]. cbn. now rewrite IH. }
  intros Hn. induction p as [|c p IH].
  - apply rounds_end. rewrite Hm. apply (elects_repeat st None n Hn).
  - cbn [map]. apply rounds_next.
    + rewrite Hm. apply (elects_repeat st (Some c) n Hn).
    + rewrite Hm. exact IH.
Qed.

Theorem C48_copies : forall (st : settings) (text : list char) (n : nat),
  (2 <= n <= 16)%nat -> actual_voters st = Z.of_nat n ->
  vote_texts st (repeat text n) = Ok (map (elected st (Z.of_nat n)) text).
Proof.
  intros st text n H2 Ha.
  assert (zlen (repeat text n) = Z.of_nat n) as Hz by (unfold zlen; now rewrite repeat_length).
  destruct (C47_vote st (repeat text n)) as (items & outs & E & P & Ev & R); [lia|lia|].
  assert (map (map value) (repeat text n) = repeat (map value text) n) as Er.
  { clear. induction n as [|n IH]; [reflexivity|]. cbn. now rewrite IH. }
  rewrite Er in E, P.
  destruct (same_items (map value text) n items ltac:(lia) E P) as (us & HU & HC).
  rewrite Ev. f_equal.
  assert (outs = map (map (elected st (Z.of_nat n)))
    (map (fun u => firstn (Z.to_nat (slen u)) (skipn (Z.to_nat (start u)) text)) us)) as ->.
  { clear -R HU H2. revert us HU. induction R as [|it out items outs Hr R IH]; intros us HU.
    - inversion HU; subst. reflexivity.
    - inversion HU as [|it' u items' us' Hi HU']; subst. cbn [map]. f_equal; [|now apply IH].
      assert (parts_of (repeat text n) it = repeat (firstn (Z.to_nat (slen u)) (skipn (Z.to_nat (start u)) text)) n) as Ep.
      { unfold parts_of. rewrite Hi. clear. induction n as [|n IH]; [reflexivity|].
        cbn [repeat combine map fst snd]. now rewrite IH. }
      rewrite Ep in Hr. eapply C47_unique; [exact Hr|]. apply rounds_repeat. lia. }
  rewrite <- concat_map. f_equal. apply (pieces text us 0); [lia|].
  unfold zlen in HC |- *. rewrite map_length in HC. exact HC.
Qed.
Print Assumptions C48_copies.

(** [s] is the string "m/n" with 1 <= m <= n <= 9. *)
Definition fraction (s : list Z) (m n : Z) : Prop :=
  1 <= m <= n /\ n <= 9 /\ s = [48 + m; 47; 48 + n].

(** C49: a string is taken as the fraction m/n exactly when it is one, whether char is signed or
    not; no byte beyond the string is read. *)
Theorem C49_fraction : forall (signed : bool) (s : list Z),
  Forall (fun b => 0 < b < 256) s ->
  (exists m n, fraction s m n /\ valid_fraction signed s = Ok (Some (m, n))) \/
  ((forall m n, ~ fraction s m n) /\ valid_fraction signed s = Ok None).
Proof.
  intros signed s Hs.
  assert (forall b, 0 < b < 256 -> (b < 128 /\ char_val signed b = b) \/
            (128 <= b /\ (char_val signed b = b \/ char_val signed b = b - 256))) as Hv.
  { intros b Hb. unfold char_val. destruct signed; cbn [andb]; [destruct (Z.leb_spec 128 b)|]; lia. }
  assert (char_val signed 0 = 0) as Hv0 by (unfold char_val; destruct signed; reflexivity).
  assert (forall (P : Prop), (forall m n, fraction s m n -> P) -> ~ P -> forall m n, ~ fraction s m n) as Hno
    by (intros P H1 H2 m n H; apply H2; eapply H1; eauto).
  unfold valid_fraction.
  destruct s as [|f0 s].
  { right. split; [intros m n (_ & _ & H); discriminate H|].
    change (rd "fraction[i]" ([] ++ [0]) 0) with (Ok 0). cbn [obind]. rewrite Hv0. reflexivity. }
  change (rd "fraction[i]" ((f0 :: s) ++ [0]) 0) with (Ok f0). cbn [obind].
  inversion Hs as [|? ? H0 Hs1]; subst. specialize (Hv f0 H0) as V0.
  destruct (Z.leb_spec 49 (char_val signed f0)) as [L0|L0].
  2: { right. split; [|reflexivity]. intros m n (H1 & H2 & H3).
       assert (f0 = 48 + m) as -> by congruence. lia. }
  destruct s as [|f1 s].
  { right. split; [intros m n (_ & _ & H); discriminate H|].
    change (rd "fraction[i]" ([f0] ++ [0]) 1) with (Ok 0). cbn [obind]. rewrite Hv0. reflexivity. }
  change (rd "fraction[i]" ((f0 :: f1 :: s) ++ [0]) 1) with (Ok f1). cbn [obind].
  inversion Hs1 as [|? ? H1 Hs2]; subst. specialize (Hv f1 H1) as V1.
  destruct (Z.eqb_spec (char_val signed f1) 47) as [L1|L1].
  2: { right. split; [|reflexivity]. intros m n (_ & _ & H). assert (f1 = 47) as -> by congruence. lia. }
  assert (f1 = 47) as -> by lia.
  destruct s as [|f2 s].
  { right. split; [intros m n (_ & _ & H); discriminate H|].
    change (rd "fraction[i]" ([f0; 47] ++ [0]) 2) with (Ok 0). cbn [obind]. rewrite Hv0.
    cbn [Z.leb Z.compare andb]. destruct (Z.leb_spec (char_val signed f0) 0); [lia|reflexivity]. }
  change (rd "fraction[i]" ((f0 :: 47 :: f2 :: s) ++ [0]) 2) with (Ok f2). cbn [obind].
  inversion Hs2 as [|? ? H2 Hs3]; subst. specialize (Hv f2 H2) as V2.
  destruct (Z.leb_spec (char_val signed f2) 57) as [L2|L2]; cbn [andb];
    [destruct (Z.leb_spec (char_val signed f0) (char_val signed f2)) as [L3|L3]|].
  2: { right. split; [|reflexivity]. intros m n (G1 & G2 & H).
       assert (f0 = 48 + m) by congruence. assert (f2 = 48 + n) by congruence. lia. }
  2: { right. split; [|reflexivity]. intros m n (G1 & G2 & H).
       assert (f2 = 48 + n) by congruence. lia. }
  destruct s as [|f3 s].
  - left. exists (f0 - 48), (f2 - 48).
    change (rd "fraction[i]" ([f0; 47; f2] ++ [0]) 3) with (Ok 0). cbn [obind]. rewrite Hv0. cbn [Z.eqb].
    split; [|do 3 f_equal; lia]. split; [lia|]. split; [lia|].
    replace (48 + (f0 - 48)) with f0 by lia. replace (48 + (f2 - 48)) with f2 by lia. reflexivity.
  - right. split; [intros m n (_ & _ & H); discriminate H|].
    change (rd "fraction[i]" ((f0 :: 47 :: f2 :: f3 :: s) ++ [0]) 3) with (Ok f3). cbn [obind].
    inversion Hs3 as [|? ? H3 _]; subst. specialize (Hv f3 H3) as V3.
    destruct (Z.eqb_spec (char_val signed f3) 0); [lia|reflexivity].
Qed.
Print Assumptions C49_fraction.

Lemma fraction_fun s m n m' n' : fraction s m n -> fraction s m' n' -> m = m' /\ n = n'.
Proof.
  intros (_ & _ & E1) (_ & _ & E2). rewrite E1 in E2.
  pose proof (f_equal (fun l => hd 0 l) E2) as A. pose proof (f_equal (fun l => hd 0 (tl (tl l))) E2) as B.
  cbv beta delta [hd tl] iota in A, B. lia.
Qed.

Lemma fraction_valid signed s m n : fraction s m n -> valid_fraction signed s = Ok (Some (m, n)).
Proof.
  intros H. destruct (C49_fraction signed s) as [(m' & n' & H' & E)|(Hn & _)].
  - destruct H as (H1 & H2 & ->). repeat constructor; lia.
  - destruct (fraction_fun _ _ _ _ _ H H') as [-> ->]. exact E.
  - exfalso. eapply Hn; eauto.
Qed.

(** C49: -w m/n gives marked characters the weight m and unmarked ones (and ends) n; both are
    1 without it.  -s m/n sets the threshold to the whole part of voters * n' * m / n, n' being
    the weight of unmarked characters; it is 0 without it.  Other values are errors. *)
Theorem C49_options : forall (signed : bool) (voters : Z) (s w : option (list Z)),
  2 <= voters <= 16 ->
  (forall str, s = Some str \/ w = Some str -> Forall (fun b => 0 < b < 256) str) ->
  match w with
  | Some str => forall m n, ~ fraction str m n
  | None => False
  end /\ set_options signed voters false s w = Fail "invalid weight" \/
  exists sw uw,
    match w with Some str => fraction str sw uw | None => sw = 1 /\ uw = 1 end /\
    (match s with Some str => forall m n, ~ fraction str m n | None => False end /\
     set_options signed voters false s w = Fail "invalid threshold" \/
     exists thr,
       match s with
       | Some str => exists m n, fraction str m n /\ n * thr <= voters * uw * m < n * (thr + 1)
       | None => thr = 0
       end /\
       set_options signed voters false s w = Ok (mkset sw uw thr voters)).
Proof.
  intros signed voters s w Hv Hb. unfold set_options. cbn [negb orb].
  assert (forall uw sw, 1 <= uw ->
    match s with Some str => forall m n, ~ fraction str m n | None => False end /\
    match s with
     | None => Ok (mkset sw uw 0 voters)
     | Some s0 => let! r := valid_fraction signed s0 in
         match r with Some (m, n) => Ok (mkset sw uw (Z.quot (voters * uw * m) n) voters)
         | None => Fail "invalid threshold" end
     end = Fail "invalid threshold" \/
    exists thr, match s with
       | Some str => exists m n, fraction str m n /\ n * thr <= voters * uw * m < n * (thr + 1)
       | None => thr = 0
       end /\
    match s with
     | None => Ok (mkset sw uw 0 voters)
     | Some s0 => let! r := valid_fraction signed s0 in
         match r with Some (m, n) => Ok (mkset sw uw (Z.quot (voters * uw * m) n) voters)
         | None => Fail "invalid threshold" end
     end = Ok (mkset sw uw thr voters)) as Hs.
  { intros uw sw Huw. destruct s as [str|].
    - destruct (C49_fraction signed str) as [(m & n & Hf & E)|(Hn & E)]; [apply Hb; auto| |].
      + right. rewrite E. cbn [obind]. eexists. split; [|reflexivity]. exists m, n. split; [exact Hf|].
        destruct Hf as (F1 & F2 & _).
        rewrite Z.quot_div_nonneg by nia.
        pose proof (Z.mul_div_le (voters * uw * m) n). pose proof (Z.mul_succ_div_gt (voters * uw * m) n).
        unfold Z.succ in *. lia.
      + left. split; [exact Hn|]. now rewrite E.
    - right. exists 0. auto. }
  destruct w as [str|].
  - destruct (C49_fraction signed str) as [(m & n & Hf & E)|(Hn & E)]; [apply Hb; auto| |].
    + right. exists m, n. split; [exact Hf|]. rewrite E. cbn [obind]. apply Hs. destruct Hf as (F1 & _). lia.
    + left. split; [exact Hn|]. now rewrite E.
  - right. exists 1, 1. split; [auto|]. cbn [obind]. apply Hs. lia.
Qed.
Print Assumptions C49_options.

(** C49: there must be 2 to 16 files. *)
Theorem C49_voters : forall uc junk junk4 signed s w files,
  ~ (2 <= zlen files <= 16) ->
  vote uc junk junk4 signed s w files = Fail "invalid number of voters".
Proof.
  intros uc junk junk4 signed s w files H. unfold vote, MIN_VOTERS, MAX_VOTERS.
  destruct (Z.ltb_spec (zlen files) 2); [reflexivity|]. destruct (Z.ltb_spec 16 (zlen files)); [reflexivity|]. lia.
Qed.
Print Assumptions C49_voters.

Lemma read_all uc junk junk4 files texts :
  Forall2 (fun f t => exists h, read_text uc junk junk4 (mkopt true true 0 true false) [] f = Ok (t, h)) files texts ->
  forall acc, ofold (fun acc f => let! (text, _) := read_text uc junk junk4 (mkopt true true 0 true false) [] f in
                                  Ok (acc ++ [text])) files acc = Ok (acc ++ texts).
Proof.
  induction 1 as [|f t files texts (h & E) HF IH]; intros acc; [cbn; now rewrite app_nil_r|].
  cbn [ofold]. rewrite E. cbn [obind]. rewrite IH, <- app_assoc. reflexivity.
Qed.

(** C47: the program reads its 2 to 16 files, votes with the weights and the threshold given,
    and writes what was elected. *)
Theorem C47_program : forall uc junk junk4 signed s w files texts st,
  2 <= zlen files <= 16 ->
  Forall2 (fun f t => exists h, read_text uc junk junk4 (mkopt true true 0 true false) [] f = Ok (t, h)) files texts ->
  set_options signed (zlen files) false s w = Ok st ->
  exists items outs,
    synchronize (map (map value) texts) = Ok items /\
    Forall2 (fun it out => rounds (suspect_weight st) (unmarked_weight st) (suspect_threshold st)
                             (parts_of texts it) out) items outs /\
    vote uc junk junk4 signed s w files = write_text uc (concat outs) None.
Proof.
  intros uc junk junk4 signed s w files texts st H2 HF Hst.
  assert (zlen texts = zlen files) as Hz by (symmetry; eapply Forall2_zlen; eauto).
  assert (actual_voters st = zlen files) as Ha.
  { unfold set_options in Hst. cbn [negb orb] in Hst.
    destruct (match w with None => Ok (1, 1) | Some _ => _ end) as [[sw uw]| | |]; cbn [obind] in Hst; try discriminate Hst.
    destruct s as [str|]; [|injection Hst as <-; reflexivity].
    destruct (valid_fraction signed str) as [[[m n]|]| | |]; cbn [obind] in Hst; try discriminate Hst.
    injection Hst as <-. reflexivity. }
  destruct (C47_vote st texts) as (items & outs & E & _ & Ev & R); [lia|lia|].
  exists items, outs. split; [exact E|]. split; [exact R|].
  unfold vote, MIN_VOTERS, MAX_VOTERS. destruct (Z.ltb_spec (zlen files) 2); [lia|].
  destruct (Z.ltb_spec 16 (zlen files)); [lia|]. cbn [orb].
  rewrite (read_all _ _ _ _ _ HF). cbn [obind app]. rewrite Hst. cbn [obind]. rewrite Ev. reflexivity.
Qed.
Print Assumptions C47_program.

(** Non-vacuity: three readings of a word, one with a mark; "cat", "cot^", "c~at". *)
Example C47_run :
  vote_texts (mkset 1 2 3 3)
    [map (mkchar false) [99; 97; 116]; [mkchar false 99; mkchar true 111; mkchar false 116];
     map (mkchar false) [99; 126; 97; 116]]
  = Ok [mkchar false 99; mkchar true 97; mkchar false 116].
Proof. vm_compute. reflexivity. Qed.

(** A tie goes to the earlier voter, and is marked by the threshold of 1/2. *)
Example C47_tie :
  set_options true 2 false (Some [49; 47; 50]) None = Ok (mkset 1 1 1 2) /\
  vote_texts (mkset 1 1 1 2) [[mkchar false 97]; [mkchar false 98]] = Ok [mkchar true 97].
Proof. split; vm_compute; reflexivity. Qed.

Example C48_run :
  vote_texts (mkset 1 1 0 3) (repeat (map (mkchar false) [97; 126; 97; 98; 97; 98]) 3)
  = Ok (map (mkchar false) [97; 126; 97; 98; 97; 98]).
Proof. vm_compute. reflexivity. Qed.

Example C49_run : fraction [51; 47; 52] 3 4 /\ valid_fraction false [51; 47; 52] = Ok (Some (3, 4)) /\
  valid_fraction true [52; 47; 51] = Ok None.
Proof. repeat split; lia. Qed.
