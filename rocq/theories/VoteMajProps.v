(** C90: voters that agree. *)
From Coq Require Import String.
From Verif Require Import Base TextModel SyncModel SyncSpec EditProof SyncProof LongestProof HeurProof VoteModel VoteSpec VoteProof VoteSame VoteProps VoteMajProof.
Local Open Scope Z_scope.
Local Open Scope list_scope.

(** ** Specification *)

(** The weights are those of no option -w, or of one (the weight of a marked character is not above that of
    an unmarked one). *)
Definition weights_ok (st : settings) : Prop :=
  0 <= suspect_weight st <= unmarked_weight st /\ 0 < unmarked_weight st.

(** The voter has the characters [w], and its votes have the full weight. *)
Definition reads (st : settings) (w : list Z) (t : list char) : Prop :=
  map value t = w /\ (suspect_weight st = unmarked_weight st \/ Forall (fun c => suspect c = false) t).

(** ** Proof *)
Fixpoint ones (mask : list bool) : Z := match mask with [] => 0 | b :: m => (if b then 1 else 0) + ones m end.

Lemma ones_app m m' : ones (m ++ m') = ones m + ones m'.
Proof. induction m as [|b m IH]; cbn [app ones]; [lia|rewrite IH; lia]. Qed.
Lemma ones_repeat b n : ones (repeat b n) = if b then Z.of_nat n else 0.
Proof. induction n as [|n IH]; cbn [repeat ones]; [now destruct b|]. rewrite IH. destruct b; lia. Qed.

Section Rounds.
Variables sw uw thr : Z.
Hypothesis W : 0 <= sw <= uw.
Hypothesis W0 : 0 < uw.

Definition sure (x : list Z) (b : bool) (p : list char) : Prop :=
  b = true -> map value p = x /\ (sw = uw \/ Forall (fun c => suspect c = false) p).

Lemma weight_le b : 0 <= weight sw uw b <= uw.
Proof. unfold weight. destruct b as [c|]; [destruct (suspect c)|]; lia. Qed.

Lemma heads_weight parts : all_weight sw uw (map (@hd_error char) parts) <= zlen parts * uw.
Proof.
  unfold all_weight. induction parts as [|p parts IH]; [reflexivity|]. cbn [map fold_right]. rewrite zlen_cons.
  pose proof (weight_le (hd_error p)). lia.
Qed.

Lemma heads_tally x mask parts : ~ In 126 x -> Forall2 (sure x) mask parts ->
  ones mask * uw <= tally sw uw (map (@hd_error char) parts) (hd_error x).
Proof.
  intros N. induction 1 as [|b p mask parts H F IH]; [reflexivity|]. cbn [map ones]. rewrite tally_cons.
  destruct b.
  - destruct (H eq_refl) as [Hv Hm].
    assert (abstainsb (hd_error p) = false /\ choice (hd_error p) = hd_error x /\ weight sw uw (hd_error p) = uw) as (A & B & C).
    { destruct p as [|c p]; cbn in Hv; subst x; cbn [hd_error abstainsb choice option_map weight]; [auto|]. split; [|split; [reflexivity|]].
      - apply Z.eqb_neq. intros E. apply N. left. exact E.
      - destruct Hm as [Hm|Hm]; [destruct (suspect c); congruence|]. inversion Hm as [|? ? Hc _]; subst. now rewrite Hc. }
    rewrite A, B, C. assert (opt_eqb (hd_error x) (hd_error x) = true) as -> by (apply opt_eqb_iff; reflexivity). cbn [negb andb]. lia.
  - pose proof (weight_le (hd_error p)). destruct (negb _ && _); lia.
Qed.

Lemma rounds_majority : forall parts out, rounds sw uw thr parts out -> forall mask x, ~ In 126 x ->
  Forall2 (sure x) mask parts -> zlen parts < 2 * ones mask -> map value out = x.
Proof.
  assert (M : forall parts r mask x, elects sw uw thr (map (@hd_error char) parts) r -> ~ In 126 x -> Forall2 (sure x) mask parts ->
    zlen parts < 2 * ones mask -> option_map value r = hd_error x).
  { intros parts r mask x He N F L. apply (C47_majority sw uw thr (map (@hd_error char) parts)); [lia|lia|exact He|].
    pose proof (heads_weight parts). pose proof (heads_tally x mask parts N F). nia. }
  induction 1 as [parts He|parts c out He Hr IH]; intros mask x N F L; pose proof (M _ _ _ _ He N F L) as E; cbn [option_map] in E.
  - destruct x; [reflexivity|discriminate E].
  - destruct x as [|v x]; [discriminate E|]. cbn in E. injection E as <-. cbn [map]. f_equal. apply (IH mask).
    + intros Hi. apply N. now right.
    + clear - F. induction F as [|b p mask parts H F IH]; cbn [map]; constructor; [|exact IH].
      intros Hb. destruct (H Hb) as [H1 H2]. destruct p as [|d p]; [discriminate H1|]. cbn in H1. injection H1 as _ H1. cbn [tl]. split; [exact H1|].
      destruct H2 as [H2|H2]; [now left|right]. inversion H2; assumption.
    + unfold zlen in *. rewrite map_length. exact L.
Qed.
End Rounds.

Lemma firstn_In_ {A} (x : A) n l : In x (firstn n l) -> In x l.
Proof. intros H. rewrite <- (firstn_skipn n l). apply in_or_app. now left. Qed.
Lemma skipn_In_ {A} (x : A) n l : In x (skipn n l) -> In x l.
Proof. intros H. rewrite <- (firstn_skipn n l). apply in_or_app. now right. Qed.
Lemma Forall_choose {A B} (R : A -> B -> Prop) l : Forall (fun x => exists y, R x y) l -> exists ys, Forall2 R l ys.
Proof. induction 1 as [|x l (y & H) F (ys & IH)]; [exists []; constructor|exists (y :: ys); constructor; assumption]. Qed.

Lemma majority st w mask texts : 2 <= zlen texts <= 16 -> actual_voters st = zlen texts -> weights_ok st -> ~ In 126 w ->
  Forall2 (fun (b : bool) t => b = true -> reads st w t) mask texts -> shape mask -> zlen texts < 2 * ones mask ->
  exists out, vote_texts st texts = Ok out /\ map value out = w.
Proof.
  intros H2 Ha [W W0] N F S L.
  destruct (C47_vote st texts H2 Ha) as (items & outs & E & P & Ev & R).
  set (bts := combine mask (map (map value) texts)).
  assert (Hlen : List.length mask = List.length texts) by (eapply Forall2_len; exact F).
  assert (Efst : map fst bts = mask).
  { unfold bts. clear - Hlen. revert texts Hlen. induction mask as [|b m IH]; intros [|t texts] H; try discriminate H; [reflexivity|].
    cbn [map combine fst]. f_equal. apply IH. now injection H. }
  assert (Esnd : map snd bts = map (map value) texts).
  { unfold bts. clear - Hlen. revert texts Hlen. induction mask as [|b m IH]; intros [|t texts] H; try discriminate H; [reflexivity|].
    cbn [map combine snd]. f_equal. apply IH. now injection H. }
  assert (Ag : forall b t, In (b, t) bts -> b = true -> t = w).
  { unfold bts. clear - F. induction F as [|b t mask texts H F IH]; intros b' t' Hi Hb; cbn [combine map] in Hi; [destruct Hi|].
    destruct Hi as [Hi|Hi]; [injection Hi as -> <-; now destruct (H Hb)|now apply (IH b')]. }
  rewrite <- Esnd in E. pose proof (synchronize_even w N bts Ag ltac:(rewrite Efst; exact S) items E) as HE.
  apply Forall_choose in HE as (us & HU).
  exists (concat outs). split; [exact Ev|].
  (* the parts of the agreed text *)
  assert (Hc : consecutive 0 us (zlen w)).
  { assert (exists i, znth bts i = Some (true, w)) as (i & Hi).
    { assert (exists t, In (true, t) bts) as (t & Ht).
      { unfold bts. pose proof (zlen_nonneg texts) as Hz. assert (0 < ones mask) as Ho by lia. clear - Ho Hlen. revert texts Hlen.
        induction mask as [|b m IH]; intros [|t texts] H; try discriminate H; [cbn in Ho; lia|]. cbn [map combine].
        destruct b; [exists (map value t); now left|]. destruct (IH ltac:(cbn in Ho; lia) texts) as (t' & Ht'); [now injection H|]. exists t'. now right. }
      rewrite (Ag true t Ht eq_refl) in Ht. apply In_nth_error in Ht as (j & Hj). exists (Z.of_nat j). unfold znth. rewrite Nat2Z.id.
      destruct (Z.ltb_spec (Z.of_nat j) 0); [lia|exact Hj]. }
    destruct P as (_ & P & _). rewrite <- Esnd in P. specialize (P i w).
    rewrite znth_map, Hi in P. specialize (P eq_refl).
    assert (column i items = us) as <-; [|exact P].
    clear - HU Hi. induction HU as [|it u items us H HU IH]; [reflexivity|]. cbn [column map]. f_equal; [|exact IH].
    assert (G : forall (B : list (bool * list Z)) subs k, Forall2 (part_ok u) B subs -> znth B k = Some (true, w) -> znth subs k = Some u).
    { intros B subs k FB. revert k. induction FB as [|x v B subs Hx FB IHB]; intros k Hk.
      - pose proof (znth_Some_lt _ _ _ Hk) as Hlt. unfold zlen in Hlt. cbn in Hlt. lia.
      - pose proof (znth_Some_lt _ _ _ Hk) as Hlt. destruct (Z.eq_dec k 0) as [->|Hne].
        + cbn in Hk. injection Hk as ->. cbn. f_equal. now apply Hx.
        + rewrite znth_cons_S in Hk by lia. rewrite znth_cons_S by lia. now apply IHB. }
    now rewrite (G bts (isubs it) i H Hi). }
  assert (map (map value) outs = map (fun u => firstn (Z.to_nat (slen u)) (skipn (Z.to_nat (start u)) w)) us) as Eo.
  { clear - R HU W W0 N F L. revert us HU. induction R as [|it out items outs Hr R IH]; intros us HU; inversion HU as [|? u ? us' Hi HU']; subst; [reflexivity|].
    cbn [map]. f_equal; [|now apply IH]. eapply rounds_majority; [exact W|exact W0|exact Hr| | |].
    - intros Hin. apply N. apply firstn_In_ in Hin. eapply skipn_In_; exact Hin.
    - unfold parts_of. instantiate (1 := mask). clear - F Hi. unfold bts in Hi. revert Hi. generalize (isubs it) as subs.
      induction F as [|b t mask texts H F IH]; intros subs Hi; cbn [combine map] in Hi; inversion Hi as [|? v ? subs' [V1 V2] Hi']; subst; [constructor|].
      cbn [combine map fst snd] in *. constructor; [|apply IH; exact Hi']. intros Hb. destruct (H Hb) as [H1 H3]. rewrite (V2 Hb). split.
      + now rewrite <- firstn_map, <- skipn_map, H1.
      + destruct H3 as [H3|H3]; [now left|right]. rewrite Forall_forall in H3 |- *. intros c Hin. apply H3. apply firstn_In_ in Hin. eapply skipn_In_; exact Hin.
    - assert (zlen (parts_of texts it) = zlen texts); [|lia].
      apply Forall2_len in Hi. unfold bts in Hi. rewrite combine_length, map_length in Hi. apply Forall2_len in F.
      unfold parts_of, zlen. rewrite map_length, combine_length. lia. }
  rewrite concat_map, Eo. apply (pieces w us 0); [lia|exact Hc].
Qed.

Lemma reads_mask st w b l : Forall (reads st w) l -> Forall2 (fun (b : bool) t => b = true -> reads st w t) (repeat b (List.length l)) l.
Proof. induction 1 as [|t l H F IH]; cbn [List.length repeat]; constructor; auto. Qed.
Lemma others_mask st w l : Forall2 (fun (b : bool) t => b = true -> reads st w t) (repeat false (List.length l)) l.
Proof. induction l as [|t l IH]; cbn [List.length repeat]; constructor; [discriminate|exact IH]. Qed.

(** ** Theorems *)

(** C90: more than half of the voters, given one after the other, have the same characters: these are
    elected, whatever the others have. *)
Theorem C90_together : forall st w before agreeing after,
  let texts := before ++ agreeing ++ after in
  2 <= zlen texts <= 16 -> actual_voters st = zlen texts -> weights_ok st -> ~ In tilde w ->
  Forall (reads st w) agreeing -> zlen texts < 2 * zlen agreeing ->
  exists out, vote_texts st texts = Ok out /\ map value out = w.
Proof.
  intros st w l1 l2 l3 texts H2 Ha W N F L.
  apply (majority st w (repeat false (List.length l1) ++ repeat true (List.length l2) ++ repeat false (List.length l3))); auto.
  - unfold texts. apply Forall2_app; [apply others_mask|]. apply Forall2_app; [now apply reads_mask|apply others_mask].
  - left. now exists (List.length l1), (List.length l2), (List.length l3).
  - rewrite !ones_app, !ones_repeat. fold (zlen l2). lia.
Qed.
Print Assumptions C90_together.

(** C90: all voters but one, wherever that one stands, have the same characters: these are elected. *)
Theorem C90_all_but_one : forall st w before other after,
  let texts := before ++ other :: after in
  3 <= zlen texts <= 16 -> actual_voters st = zlen texts -> weights_ok st -> ~ In tilde w ->
  Forall (reads st w) before -> Forall (reads st w) after ->
  exists out, vote_texts st texts = Ok out /\ map value out = w.
Proof.
  intros st w l1 x l2 texts H3 Ha W N F1 F2.
  assert (Hz : zlen texts = zlen l1 + zlen l2 + 1) by (unfold texts; rewrite zlen_app, zlen_cons; lia).
  apply (majority st w (repeat true (List.length l1) ++ false :: repeat true (List.length l2))); auto; [lia|..].
  - unfold texts. apply Forall2_app; [now apply reads_mask|]. constructor; [discriminate|now apply reads_mask].
  - right. now exists (List.length l1), (List.length l2).
  - rewrite ones_app. cbn [ones]. rewrite !ones_repeat. unfold zlen in *. lia.
Qed.
Print Assumptions C90_all_but_one.

(** C90: three of five voters that are not given one after the other may have the same text, and another
    text is elected: "c" for three times "cdabc", with "abc" and "c". *)
Theorem C90_scattered_refuted :
  let t := map (mkchar false) in
  let w := [99; 100; 97; 98; 99] in
  vote_texts (mkset 1 1 0 5) [t w; t [97; 98; 99]; t [99]; t w; t w] = Ok (t [99]) /\ w <> [99].
Proof. split; [vm_compute; reflexivity|discriminate]. Qed.
Print Assumptions C90_scattered_refuted.

(** Elected characters are unmarked without a threshold. *)
Lemma rounds_unmarked sw uw thr parts out : 1 <= sw -> 1 <= uw -> thr <= 0 -> rounds sw uw thr parts out -> Forall (fun c => suspect c = false) out.
Proof.
  intros S U T. induction 1 as [parts He|parts c out He Hr IH]; constructor; [|exact IH].
  inversion He as [Ha E|bf b af E Hb F1 F2 E']; [reflexivity|]. destruct b as [d|]; [|discriminate E']. cbn in E'. injection E' as <-. cbn [suspect].
  apply Z.leb_gt. assert (Hw : 1 <= weight sw uw (Some d)) by (unfold weight; destruct (suspect d); lia).
  assert (Hab : abstainsb (Some d) = false) by (destruct (abstainsb (Some d)) eqn:X; [|reflexivity]; exfalso; apply Hb; apply abstainsb_iff; exact X).
  rewrite E. clear - Hw T Hab S U. induction bf as [|x bf IH]; cbn [app]; rewrite tally_cons.
  - rewrite Hab. replace (opt_eqb _ _) with true by (symmetry; apply opt_eqb_iff; reflexivity). cbn [negb andb].
    match goal with |- context [tally sw uw af ?k] => pose proof (tally_nonneg sw uw af k) end. lia.
  - assert (0 <= weight sw uw x) by (unfold weight; destruct x as [c|]; [destruct (suspect c)|]; lia). destruct (negb _ && _); lia.
Qed.

(** C90: the program on three files without options: when the characters of two of them are the same, these
    are written, without marks. *)
Theorem C90_two_of_three : forall uc junk junk4 signed f0 f1 f2 t0 t1 t2 w,
  Forall2 (fun f t => exists h, read_text uc junk junk4 (mkopt true true 0 true false) [] f = Ok (t, h)) [f0; f1; f2] [t0; t1; t2] ->
  ~ In tilde w ->
  (map value t0 = w /\ map value t1 = w \/ map value t0 = w /\ map value t2 = w \/ map value t1 = w /\ map value t2 = w) ->
  vote uc junk junk4 signed None None [f0; f1; f2] = write_text uc (map (mkchar false) w) None.
Proof.
  intros uc junk junk4 signed f0 f1 f2 t0 t1 t2 w F N H.
  set (st := mkset 1 1 0 3).
  assert (Hst : set_options signed (zlen [f0; f1; f2]) false None None = Ok st) by reflexivity.
  destruct (C47_vote st [t0; t1; t2] ltac:(cbn; lia) eq_refl) as (items & outs & _ & _ & Ev & R).
  assert (W : weights_ok st) by (split; cbn; lia).
  assert (Rd : forall t, map value t = w -> reads st w t) by (intros t Ht; split; [exact Ht|now left]).
  assert (exists out, vote_texts st [t0; t1; t2] = Ok out /\ map value out = w) as (out & E & Ew).
  { destruct H as [[H1 H2]|[[H1 H2]|[H1 H2]]].
    - apply (C90_all_but_one st w [t0; t1] t2 []); auto; cbn; lia.
    - apply (C90_all_but_one st w [t0] t1 [t2]); auto; cbn; lia.
    - apply (C90_all_but_one st w [] t0 [t1; t2]); auto; cbn; lia. }
  rewrite Ev in E. injection E as Eo.
  assert (Forall (fun c => suspect c = false) out) as U.
  { rewrite <- Eo. clear - R. induction R as [|it o items outs Hr R IH]; [constructor|]. cbn [concat]. apply Forall_app. split; [|exact IH].
    cbn in Hr. eapply rounds_unmarked; [| | |exact Hr]; lia. }
  assert (out = map (mkchar false) w) as Eout.
  { rewrite <- Ew. clear - U. induction U as [|[m v] l Hc U IH]; [reflexivity|]. cbn [map value]. cbn in Hc. rewrite Hc. f_equal. exact IH. }
  unfold vote. cbn [zlen List.length]. change (zlen [f0; f1; f2]) with 3. cbn [Z.ltb MIN_VOTERS MAX_VOTERS]. cbn [Z.compare orb Pos.compare Pos.compare_cont].
  unfold vote_opt. rewrite (read_all _ _ _ _ _ F). cbn [obind app]. change (set_options signed 3 false None None) with (Ok st). cbn [obind].
  rewrite Ev. cbn [obind]. rewrite Eo, Eout. reflexivity.
Qed.
Print Assumptions C90_two_of_three.

(** A case: "cat", "c~t" with "cat" after it; and three of five together. *)
Example C90_ex :
  let t := map (mkchar false) in
  reads (mkset 1 1 0 3) [99; 97; 116] (t [99; 97; 116]) /\ weights_ok (mkset 1 1 0 3) /\
  vote_texts (mkset 1 1 0 3) [t [99; 97; 116]; t [99; 126; 116; 97]; t [99; 97; 116]] = Ok (t [99; 97; 116]) /\
  vote_texts (mkset 1 1 0 5) [t [97; 98; 99]; t [99; 100; 97; 98; 99]; t [99; 100; 97; 98; 99]; t [99; 100; 97; 98; 99]; t [99]] = Ok (t [99; 100; 97; 98; 99]).
Proof. cbv zeta. split; [split; [reflexivity|now left]|]. split; [split; cbn; lia|]. split; vm_compute; reflexivity. Qed.
