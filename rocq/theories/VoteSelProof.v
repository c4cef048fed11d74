(** Facts about the selection of voters. *)
From Coq Require Import String Sorted Permutation.
From Verif Require Import Base CLib CLibProof Utf8Model TextModel TextSpec SortModel SortSpec SortProof SortProps CompareModel CompareProof
  AccModel AccSpec AccProof AccrptSpec SumProof WacSpec WacProof FreqProps NgramSpec NgramKeys NgramProps SynctextProof VoteModel VoteSelModel VoteSelSpec.
Local Open Scope Z_scope.
Local Open Scope list_scope.

Lemma Forall2_map_r {A B} (P : A -> B -> Prop) (f : A -> B) l : (forall x, In x l -> P x (f x)) -> Forall2 P l (map f l).
Proof. induction l as [|x l IH]; intros H; constructor; [apply H; now left|]. apply IH. intros y Hy. apply H. now right. Qed.
Lemma znth_neg {A} (l : list A) i : i < 0 -> znth l i = None.
Proof. intros H. unfold znth. now destruct (Z.ltb_spec i 0); [|lia]. Qed.

Section Table.
Variable uc : unicode_data.
Hypothesis Hwide : marks_wide uc.
Hypothesis Hnul : nul_hidden uc.

Notation shown_as := (shown_as uc).
Definition rejects (vs : list Z) : bool := existsb (Z.eqb 126) vs.

(** The occurrences so far: the number of the voter, and the pair. *)
Notation occ := (Z * list Z)%type.
Definition cnt (i : Z) (vs : list Z) (os : list occ) : Z := count_if (fun o : occ => (fst o =? i) && word_eqb vs (snd o)) os.
Definition entry (os : list occ) (vs : list Z) : vseq :=
  mkvseq (shown_as vs) (map (fun i => cnt i vs os) (zrange 0 16)) (rejects vs).

Lemma cnt_snoc i vs os j ws : cnt i vs (os ++ [(j, ws)]) = cnt i vs os + if (j =? i) && word_eqb vs ws then 1 else 0.
Proof. unfold cnt. rewrite count_if_app, count_if_cons. cbn [fst snd]. change (count_if _ []) with 0. lia. Qed.

Lemma entry_other os vs j ws : vs <> ws -> entry (os ++ [(j, ws)]) vs = entry os vs.
Proof.
  intros H. unfold entry. f_equal. apply map_ext. intros i. rewrite cnt_snoc.
  destruct (word_eqb vs ws) eqn:E; [apply word_eqb_spec in E; contradiction|]. rewrite andb_false_r. lia.
Qed.

Lemma znth_zrange16 i : 0 <= i < 16 -> znth (zrange 0 16) i = Some i.
Proof. intros H. rewrite znth_zrange by lia. reflexivity. Qed.

Lemma bump_entry os vs j : 0 <= j < 16 -> bump j (entry os vs) = Ok (entry (os ++ [(j, vs)]) vs).
Proof.
  intros Hj. unfold bump, entry. cbn [vcount vkey vreject].
  assert (rd "count[index]" (map (fun i => cnt i vs os) (zrange 0 16)) j = Ok (cnt j vs os)) as ->
    by (unfold rd; rewrite znth_map, znth_zrange16 by exact Hj; reflexivity). cbn [obind].
  set (l := map _ _).
  assert (zlen l = 16) as L by reflexivity.
  destruct (wr_in "count[index]" l j (cnt j vs os + 1)) as (l' & E & Hl & Hn); [lia|].
  rewrite E. cbn [obind]. do 2 f_equal.
  apply znth_ext; [now rewrite Hl, L|]. rewrite Hl, L. intros i Hi. rewrite Hn. subst l.
  rewrite !znth_map, !znth_zrange16 by exact Hi. cbn [option_map]. rewrite cnt_snoc, word_eqb_refl, andb_true_r, (Z.eqb_sym j i).
  destruct (Z.eqb_spec i j) as [->|]; f_equal; lia.
Qed.

Definition good (vs : list Z) : Prop := List.length vs = 2%nat /\ Forall scalar vs.
Definition add_pair (ps : list (list Z)) (vs : list Z) : list (list Z) := if existsb (word_eqb vs) ps then ps else ps ++ [vs].

Lemma shown_inj a b : good a -> good b -> shown_as a = shown_as b -> a = b.
Proof. intros [La Fa] [Lb Fb]. apply (C50_keys uc Hwide); [congruence|lia|auto|auto]. Qed.

Lemma entry_new vs : mkvseq (shown_as vs) (repeat 0 (Z.to_nat MAX_VOTERS)) (rejects vs) = entry [] vs.
Proof. reflexivity. Qed.

Lemma entry_absent os vs : (forall i, ~ In (i, vs) os) -> entry os vs = entry [] vs.
Proof.
  intros H. unfold entry. f_equal. apply map_ext. intros i. unfold cnt. change (count_if _ []) with 0.
  apply count_if_zero. intros [k ws] Hk. cbn [fst snd].
  destruct (word_eqb vs ws) eqn:E; [|apply andb_false_r]. apply word_eqb_spec in E as ->. now apply H in Hk.
Qed.

Lemma entry_absent_snoc os vs j : (forall i, ~ In (i, vs) os) -> entry [(j, vs)] vs = entry (os ++ [(j, vs)]) vs.
Proof.
  intros H. change [(j, vs)] with ([] ++ [(j, vs)]) at 1. unfold entry. f_equal. apply map_ext. intros i. rewrite !cnt_snoc. f_equal.
  change (cnt i vs []) with 0. symmetry. apply count_if_zero. intros [k ws] Hk. cbn [fst snd].
  destruct (word_eqb vs ws) eqn:E; [|apply andb_false_r]. apply word_eqb_spec in E as ->. now apply H in Hk.
Qed.

Lemma add_sequence_ok os vs j : good vs -> 0 <= j < 16 -> forall ps, NoDup ps -> Forall good ps ->
  (~ In vs ps -> forall i, ~ In (i, vs) os) ->
  add_sequence (map (entry os) ps) (shown_as vs) (rejects vs) j = Ok (map (entry (os ++ [(j, vs)])) (add_pair ps vs)).
Proof.
  intros Gv Hj. induction ps as [|p ps IH]; intros N G A; cbn [map add_sequence].
  - rewrite entry_new, bump_entry by exact Hj. cbn [obind].
    unfold add_pair. cbn [existsb app map]. rewrite (entry_absent_snoc os) by (apply A; auto). reflexivity.
  - apply NoDup_cons_iff in N as [N1 N]. apply Forall_cons_iff in G as [G1 G]. cbn [vkey entry].
    unfold add_pair. cbn [existsb]. destruct (list_eq_dec Z.eq_dec (shown_as vs) (shown_as p)) as [E|E].
    + apply shown_inj in E; [|exact Gv|exact G1]. subst p. fold (entry os vs). rewrite bump_entry by exact Hj. cbn [obind].
      rewrite word_eqb_refl. cbn [orb map]. do 2 f_equal. apply map_ext_in. intros q Hq. symmetry. apply entry_other. congruence.
    + assert (vs <> p) as Ne by congruence.
      destruct (word_eqb vs p) eqn:E2; [apply word_eqb_spec in E2; contradiction|]. cbn [orb].
      rewrite IH; [|exact N|exact G|intros H; apply A; intros [H'|H']; [congruence|auto]]. cbn [obind].
      unfold add_pair. destruct (existsb (word_eqb vs) ps); cbn [app map]; rewrite (entry_other os p j vs) by congruence; reflexivity.
Qed.

Lemma In_add_pair ps vs w : In w (add_pair ps vs) <-> In w ps \/ w = vs.
Proof.
  unfold add_pair. destruct (existsb (word_eqb vs) ps) eqn:E.
  - apply existsb_exists in E as (q & Hq & E). apply word_eqb_spec in E as ->. split; [auto|intros [H| ->]; auto].
  - rewrite in_app_iff. cbn. intuition.
Qed.
Lemma NoDup_add_pair ps vs : NoDup ps -> NoDup (add_pair ps vs).
Proof.
  intros N. unfold add_pair. destruct (existsb (word_eqb vs) ps) eqn:E; [exact N|].
  assert (~ In vs ps) as H.
  { intros H. assert (existsb (word_eqb vs) ps = true); [|congruence]. apply existsb_exists. exists vs. split; [exact H|apply word_eqb_refl]. }
  clear E. induction N as [|x l Hx N IH]; cbn; constructor; auto; [constructor|..].
  - rewrite in_app_iff. cbn. intros [K|[K|[]]]; [auto|]. apply H. left. auto.
  - apply IH. intros K. apply H. right. auto.
Qed.

(** The table after the occurrences [os]. *)
Record inv (os : list occ) (ps : list (list Z)) : Prop := {
  inv_nodup : NoDup ps;
  inv_good : Forall good ps;
  inv_in : forall vs, In vs ps <-> exists i, In (i, vs) os }.

Lemma inv_step os ps j vs : inv os ps -> good vs -> inv (os ++ [(j, vs)]) (add_pair ps vs).
Proof.
  intros [N G I] Gv. constructor.
  - now apply NoDup_add_pair.
  - apply Forall_forall. intros w Hw. apply In_add_pair in Hw as [Hw| ->]; [|exact Gv]. rewrite Forall_forall in G. auto.
  - intros w. rewrite In_add_pair, I. split.
    + intros [[i Hi]| ->]; [exists i|exists j]; rewrite in_app_iff; cbn; auto.
    + intros [i Hi]. apply in_app_iff in Hi as [Hi|[Hi|[]]]; [left; eauto|]. right. congruence.
Qed.

Lemma pair_at_ok n : forall l key rej, text_ok l -> zlen key + 8 * Z.of_nat n + 1 <= 18 ->
  pair_at uc n l key rej =
  Ok (if (n <=? List.length l)%nat
      then Some (key ++ shown_as (map value (firstn n l)), rej || rejects (map value (firstn n l)))
      else None).
Proof.
  induction n as [|n IH]; intros l key rej T B.
  { cbn. now rewrite !app_nil_r, orb_false_r. }
  destruct l as [|c l]; [reflexivity|]. cbn [pair_at]. apply Forall_cons_iff in T as [S T].
  rewrite char_string_ok by auto. cbn [obind]. destruct (display_ok uc (value c) S) as [[_ L] _].
  change (N * STRING_SIZE) with 18. replace (_ <=? 18) with true by lia.
  rewrite IH; [|exact T|rewrite zlen_app; lia]. cbn [List.length Nat.leb firstn map].
  destruct (n <=? List.length l)%nat; [|reflexivity].
  unfold rejects, NgramProps.shown_as. cbn [existsb flat_map]. rewrite <- !app_assoc, orb_assoc, (Z.eqb_sym 126). reflexivity.
Qed.

Definition occs_of (i : Z) (t : list char) : list occ := map (fun w => (i, map value w)) (sequences 2 t).

Lemma text_good w : List.length w = 2%nat -> text_ok w -> good (map value w).
Proof. intros L T. split; [now rewrite map_length|]. apply Forall_map. exact T. Qed.

Lemma count_sequences_ok i t : 0 <= i < 16 -> text_ok t -> forall os ps, inv os ps ->
  exists ps', inv (os ++ occs_of i t) ps' /\
    count_sequences uc (map (entry os) ps) i t = Ok (map (entry (os ++ occs_of i t)) ps').
Proof.
  intros Hi. induction t as [|c l IH]; intros T os ps I.
  { exists ps. unfold occs_of. rewrite sequences_short by (cbn; lia). cbn [map]. rewrite app_nil_r. auto. }
  cbn [count_sequences]. rewrite pair_at_ok; [|exact T|change (zlen []) with 0; change (Z.of_nat (Z.to_nat N)) with 2; lia].
  change (Z.to_nat N) with 2%nat. cbn [obind]. unfold occs_of.
  destruct (Nat.leb_spec 2 (List.length (c :: l))) as [H|H].
  - rewrite sequences_cons by lia. set (w := firstn 2 (c :: l)). cbn [app orb].
    assert (good (map value w)) as Gw.
    { destruct (In_sequences 2 w (c :: l)) as [L2 Tw]; [rewrite sequences_cons by lia; now left|exact T|]. now apply text_good. }
    pose proof I as [N G J].
    rewrite add_sequence_ok by (auto; intros K i' Hi'; apply K, J; eauto). cbn [obind].
    destruct (IH ltac:(now apply Forall_cons_iff in T) _ _ (inv_step _ _ i _ I Gw)) as (ps' & I' & E).
    exists ps'. rewrite E. unfold occs_of in *. cbn [map]. rewrite <- app_assoc in I' |- *. cbn [app] in *. auto.
  - rewrite sequences_short by lia. cbn [map]. rewrite app_nil_r. eauto.
Qed.

Fixpoint occs_from (k : Z) (texts : list (list char)) : list occ :=
  match texts with [] => [] | t :: ts => occs_of k t ++ occs_from (k + 1) ts end.

Lemma count_all_ok msg post : forall pre os ps, zlen pre + zlen post <= 16 ->
  Forall (fun v => text_ok (vtext v)) post -> inv os ps ->
  exists ps', inv (os ++ occs_from (zlen pre) (map vtext post)) ps' /\
    ofold (fun t i => let! v := rd msg (pre ++ post) i in count_sequences uc t i (vtext v))
      (zrange (zlen pre) (List.length post)) (map (entry os) ps) =
    Ok (map (entry (os ++ occs_from (zlen pre) (map vtext post))) ps').
Proof.
  induction post as [|v post IH]; intros pre os ps L T I; cbn [map occs_from List.length zrange ofold].
  { exists ps. rewrite app_nil_r. auto. }
  apply Forall_cons_iff in T as [T1 T]. rewrite zlen_cons in L. pose proof (zlen_nonneg pre). pose proof (zlen_nonneg post).
  assert (rd msg (pre ++ v :: post) (zlen pre) = Ok v) as ->.
  { apply rd_Ok. rewrite znth_app2, Z.sub_diag by lia. reflexivity. }
  cbn [obind]. destruct (count_sequences_ok (zlen pre) (vtext v) ltac:(lia) T1 os ps I) as (ps1 & I1 & E1).
  rewrite E1. cbn [obind].
  destruct (IH (pre ++ [v]) _ _ ltac:(rewrite zlen_app; cbn; lia) T I1) as (ps' & I' & E').
  rewrite zlen_app in I', E'. change (zlen [v]) with 1 in I', E'. rewrite <- !app_assoc in I', E'. cbn [app] in E'.
  exists ps'. split; [exact I'|]. rewrite E', <- app_assoc. reflexivity.
Qed.

Lemma cnt_app i vs a b : cnt i vs (a ++ b) = cnt i vs a + cnt i vs b.
Proof. apply count_if_app. Qed.
Lemma cnt_of i vs k t : cnt i vs (occs_of k t) = if k =? i then occurrences vs t else 0.
Proof.
  unfold cnt, occs_of. rewrite count_if_map. cbn [fst snd]. destruct (k =? i); cbn [andb]; [reflexivity|].
  apply count_if_zero. auto.
Qed.
Lemma cnt_from vs texts : forall k i, cnt i vs (occs_from k texts) =
  match znth texts (i - k) with Some t => occurrences vs t | None => 0 end.
Proof.
  induction texts as [|t texts IH]; intros k i; cbn [occs_from].
  - unfold znth. destruct (_ <? 0); [reflexivity|]. now destruct (Z.to_nat (i - k)).
  - rewrite cnt_app, cnt_of, IH. destruct (Z.eqb_spec k i) as [->|Ne].
    + rewrite Z.sub_diag, znth_cons_0. rewrite znth_neg by lia. lia.
    + destruct (Z_lt_ge_dec (i - k) 0) as [C|C].
      * rewrite !znth_neg by lia. reflexivity.
      * rewrite znth_cons_S by lia. replace (i - k - 1) with (i - (k + 1)) by lia. reflexivity.
Qed.

Lemma occs_from_in vs texts : forall k, (exists i, In (i, vs) (occs_from k texts)) <-> exists t, In t texts /\ 0 < occurrences vs t.
Proof.
  induction texts as [|t texts IH]; intros k; cbn [occs_from].
  - split; [intros (i & [])|intros (t & [] & _)].
  - assert ((exists i, In (i, vs) (occs_of k t)) <-> 0 < occurrences vs t) as H.
    { unfold occs_of, occurrences, count_of. split.
      - intros (i & Hi). apply in_map_iff in Hi as (w & E & Hw). assert (map value w = vs) as Ev by congruence.
        apply in_split in Hw as (a & b & ->). rewrite count_if_app, count_if_cons. unfold occurs_as at 2. rewrite Ev, word_eqb_refl.
        pose proof (count_if_nonneg (occurs_as vs) a). pose proof (count_if_nonneg (occurs_as vs) b). lia.
      - intros P. exists k. unfold count_if in P. destruct (filter (occurs_as vs) (sequences 2 t)) as [|w l] eqn:E; [cbn in P; lia|].
        assert (In w (filter (occurs_as vs) (sequences 2 t))) as Hw by (rewrite E; now left).
        apply filter_In in Hw as [Hw Ew]. apply word_eqb_spec in Ew. apply in_map_iff. exists w. rewrite Ew. auto. }
    split.
    + intros (i & Hi). apply in_app_iff in Hi as [Hi|Hi].
      * exists t. split; [now left|]. apply H. eauto.
      * destruct (proj1 (IH (k + 1)) (ex_intro _ i Hi)) as (u & Hu & P). exists u. split; [now right|exact P].
    + intros (u & [->|Hu] & P).
      * apply H in P as (i & Hi). exists i. apply in_app_iff. now left.
      * destruct (proj2 (IH (k + 1)) (ex_intro _ u (conj Hu P))) as (i & Hi). exists i. apply in_app_iff. now right.
Qed.

(** *** The median *)
Lemma counts_preorder : preorder_on (fun c => 0 <= c < 2147483648) compare_counts.
Proof. unfold compare_counts. constructor; intros; rewrite ?to_int_small in * by lia; lia. Qed.

Lemma ofold_append {A B} (g : list B -> A -> outcome (list B)) l : forall ys acc,
  Forall2 (fun x y => forall acc, g acc x = Ok (acc ++ [y])) l ys -> ofold g l acc = Ok (acc ++ ys).
Proof.
  induction l as [|x l IH]; intros ys acc H; inversion H as [|? y ? ys' E F]; subst; cbn [ofold].
  - now rewrite app_nil_r.
  - rewrite E. cbn [obind]. rewrite (IH ys') by exact F. now rewrite <- app_assoc.
Qed.

Lemma Forall2_zrange {A} (P : Z -> A -> Prop) l : forall k, (forall i x, znth l i = Some x -> P (k + i) x) ->
  Forall2 P (zrange k (List.length l)) l.
Proof.
  induction l as [|x l IH]; intros k H; cbn [List.length zrange]; constructor.
  - specialize (H 0 x eq_refl). now rewrite Z.add_0_r in H.
  - apply IH. intros i y Hy. replace (k + 1 + i) with (k + (i + 1)) by lia. apply H.
    pose proof (znth_Some_lt _ _ _ Hy). rewrite znth_cons_S by lia. now replace (i + 1 - 1) with i by lia.
Qed.

Lemma median_ok texts os vs : zlen texts <= 16 -> texts <> [] ->
  (forall i, 0 <= i < zlen texts -> exists t, znth texts i = Some t /\ cnt i vs os = occurrences vs t) ->
  (forall t, In t texts -> occurrences vs t < 2147483648) ->
  exists m2, compute_median (zlen texts) (entry os vs) = Ok m2 /\ twice_expected texts vs m2.
Proof.
  intros L16 Ne Hc Hb. unfold compute_median, entry. cbn [vreject vcount].
  destruct (rejects vs) eqn:R.
  { exists 0. split; [reflexivity|]. left. unfold rejects in R. apply existsb_exists in R as (x & Hx & E).
    apply Z.eqb_eq in E as <-. auto. }
  assert (~ In 126 vs) as Hn.
  { intros H. assert (rejects vs = true); [|congruence]. apply existsb_exists. exists 126. auto. }
  assert (0 < zlen texts) as Lp by (destruct texts; [contradiction|rewrite zlen_cons; pose proof (zlen_nonneg texts); lia]).
  rewrite (ofold_append _ _ (map (occurrences vs) texts)).
  2: { replace (Z.to_nat (zlen texts)) with (List.length (map (occurrences vs) texts)) by (rewrite map_length; unfold zlen; lia).
    apply Forall2_zrange. intros i c Hi acc. rewrite Z.add_0_l. rewrite znth_map in Hi.
    destruct (znth texts i) as [t|] eqn:Et; [|discriminate Hi]. injection Hi as <-.
    pose proof (znth_Some_lt _ _ _ Et). destruct (Hc i ltac:(lia)) as (t' & Et' & E). rewrite Et in Et'. injection Et' as <-.
    rewrite <- E. unfold rd. rewrite znth_map, znth_zrange16 by lia. reflexivity. }
  cbn [obind app].
  set (cs := map (occurrences vs) texts). assert (zlen cs = zlen texts) as Lc by apply zlen_map.
  destruct (C06_sort _ compare_counts cs) as (l & El & Pl & Sl). rewrite Lc in El. rewrite El. cbn [obind].
  assert (zlen l = zlen texts) as Ll by (rewrite <- Lc; unfold zlen; now rewrite (Permutation_length Pl)).
  assert (forall c, In c cs -> 0 <= c < 2147483648) as Bc.
  { intros c H. apply in_map_iff in H as (t & <- & Ht). split; [apply count_if_nonneg|auto]. }
  assert (StronglySorted Z.le l) as SS.
  { assert (forall c, In c l -> 0 <= c < 2147483648) as Bl by (intros c H; apply Bc; eapply Permutation_in; [symmetry; exact Pl|exact H]).
    specialize (Sl _ counts_preorder Bc). clear -Sl Bl. induction l as [|x l IH]; [constructor|]. constructor.
    - apply IH; [now apply sorted_tail in Sl|]. intros c H. apply Bl. now right.
    - apply Forall_forall. intros y Hy. pose proof (sorted_head _ _ _ _ Sl Hy) as H. unfold compare_counts in H.
      pose proof (Bl x (or_introl eq_refl)). pose proof (Bl y (or_intror Hy)). rewrite to_int_small in H by lia. lia. }
  set (n := zlen texts) in *.
  destruct (znth_lt_Some l (n / 2)) as [b Eb]; [rewrite Ll; split; [apply Z.div_pos; lia|apply Z.div_lt_upper_bound; lia]|].
  assert (rd "count[i / 2]" l (n / 2) = Ok b) as Rb by (now apply rd_Ok).
  destruct (Z.odd n) eqn:O.
  - rewrite Rb. cbn [obind]. exists (2 * b). split; [reflexivity|]. right. split; [exact Hn|].
    exists l, b, b. rewrite Ll. apply Z.odd_spec in O as [q Eq]. split; [exact Pl|]. split; [exact SS|].
    replace ((n - 1) / 2) with (n / 2) by (rewrite Eq; Z.to_euclidean_division_equations; lia). split; [exact Eb|]. split; [exact Eb|]. lia.
  - assert (Z.even n = true) as Ev by (rewrite <- Z.negb_odd, O; reflexivity). apply Z.even_spec in Ev as [q Eq].
    destruct (znth_lt_Some l (n / 2 - 1)) as [a Ea]; [rewrite Ll, Eq; Z.to_euclidean_division_equations; lia|].
    assert (rd "count[i / 2 - 1]" l (n / 2 - 1) = Ok a) as -> by (now apply rd_Ok). cbn [obind]. rewrite Rb. cbn [obind].
    exists (a + b). split; [reflexivity|]. right. split; [exact Hn|]. exists l, a, b. rewrite Ll.
    replace ((n - 1) / 2) with (n / 2 - 1) by (rewrite Eq; Z.to_euclidean_division_equations; lia). auto 6.
Qed.

Lemma distance_sum (array : list (list Z * Z)) os i : 0 <= i < 16 -> forall d,
  ofold (fun d sm =>
           let! c := rd "count[index]" (vcount (fst sm)) i in
           let difference := 2 * c - snd sm in
           Ok (d + if difference <? 0 then - difference else difference))
    (map (fun r => (entry os (fst r), snd r)) array) d =
  Ok (d + zsum (map (fun r => Z.abs (2 * cnt i (fst r) os - snd r)) array)).
Proof.
  intros Hi. induction array as [|r array IH]; intros d; cbn [map ofold].
  - cbn. f_equal. lia.
  - cbn [fst snd]. assert (rd "count[index]" (vcount (entry os (fst r))) i = Ok (cnt i (fst r) os)) as ->.
    { apply rd_Ok. cbn [vcount entry]. rewrite znth_map, znth_zrange16 by lia. reflexivity. }
    cbn [obind]. cbv zeta. rewrite IH, zsum_cons. f_equal. destruct (Z.ltb_spec (2 * cnt i (fst r) os - snd r) 0); lia.
Qed.

(** *** The ranking *)
Definition numbered (texts : list (list char)) (voters : list voter) : Prop :=
  map vtext voters = texts /\ map argnum voters = zrange 0 (List.length texts).

Lemma voters_preorder : preorder_on (fun _ => True) compare_distances.
Proof.
  unfold compare_distances. constructor.
  - intros x y _ _. destruct (Z.eqb_spec (distance x) (distance y)), (Z.eqb_spec (distance y) (distance x)); cbn [negb]; try lia.
    destruct (Z.ltb_spec (distance x) (distance y)), (Z.ltb_spec (distance y) (distance x)); lia.
  - intros x y z _ _ _. destruct (Z.eqb_spec (distance x) (distance y)), (Z.eqb_spec (distance y) (distance z)), (Z.eqb_spec (distance x) (distance z)); cbn [negb]; try lia;
    repeat match goal with |- context [Z.ltb ?a ?b] => destruct (Z.ltb_spec a b) end; lia.
Qed.

Variable order : list vseq -> list vseq.
Hypothesis Horder : forall l, Permutation l (order l).

Lemma order_map os ps : exists qs, Permutation ps qs /\ order (map (entry os) ps) = map (entry os) qs.
Proof.
  assert (Permutation (map (entry os) ps) (order (map (entry os) ps))) as P by apply Horder.
  apply Permutation_sym, Permutation_map_inv in P as (qs & E & P). exists qs. auto.
Qed.

Definition set_distance (vd : voter * Z) : voter := mkvoter (argnum (fst vd)) (filename (fst vd)) (vtext (fst vd)) (snd vd).

Lemma rank_ok texts voters : 1 <= zlen texts <= 16 -> Forall text_ok texts -> numbered texts voters ->
  (forall t, In t texts -> zlen t < 2147483648) ->
  exists ds voters', rank_voters uc order voters = Ok voters' /\
    Forall2 (twice_distance texts) texts ds /\
    Permutation (map set_distance (combine voters ds)) voters' /\
    ranking texts ds (map argnum voters') /\
    texts_of texts (map argnum voters') (map vtext voters').
Proof.
  intros Hl Ht [Et En] Hb.
  assert (zlen voters = zlen texts) as Lv by (rewrite <- Et, zlen_map; reflexivity).
  assert (List.length voters = List.length texts) as Lv' by (unfold zlen in Lv; lia).
  unfold rank_voters. rewrite Lv.
  replace (Z.to_nat (zlen texts)) with (List.length voters) by (unfold zlen; lia).
  destruct (count_all_ok "voter[index]" voters [] [] []) as (ps & I & E).
  { change (zlen []) with 0. lia. }
  { apply Forall_forall. intros v Hv. rewrite Forall_forall in Ht. apply Ht. rewrite <- Et. now apply in_map. }
  { constructor; [constructor|constructor|]. intros vs. split; [intros []|intros (i & [])]. }
  cbn [app map] in E, I. change (zlen []) with 0 in E, I. rewrite E. cbn [obind]. rewrite Et in I |- *. clear E.
  set (os := occs_from 0 texts) in *.
  assert (forall vs i t, znth texts i = Some t -> cnt i vs os = occurrences vs t) as Hc.
  { intros vs i t H. unfold os. rewrite cnt_from, Z.sub_0_r, H. reflexivity. }
  destruct (order_map os ps) as (qs & Pq & ->).
  assert (forall vs, In vs qs -> exists m2, compute_median (zlen texts) (entry os vs) = Ok m2 /\ twice_expected texts vs m2) as Hm.
  { intros vs _. apply median_ok.
    - lia.
    - intros ->. cbn in Hl. lia.
    - intros i Hi. destruct (znth_lt_Some texts i Hi) as [t H]. exists t. split; [exact H|]. now apply Hc.
    - intros t H. eapply Z.le_lt_trans; [|apply (Hb t H)]. unfold occurrences, count_of, count_if, zlen.
      pose proof (C50_sequences 2 t [] ltac:(lia)) as [_ S]. unfold zlen in S.
      assert (List.length (filter (occurs_as vs) (sequences 2 t)) <= List.length (sequences 2 t))%nat by (generalize (sequences 2 t); intros l; induction l as [|w l IH]; cbn; [lia|destruct (occurs_as vs w); cbn; lia]).
      lia. }
  assert (exists rows : list (list Z * Z), map fst rows = qs /\
            (forall vs m2, In (vs, m2) rows -> twice_expected texts vs m2) /\
            Forall2 (fun s sm => compute_median (zlen texts) s = Ok (snd sm) /\ fst sm = s) (map (entry os) qs)
              (map (fun r => (entry os (fst r), snd r)) rows)) as (rows & Er & Hr & Fr).
  { clear -Hm. induction qs as [|vs qs IH].
    - exists []. split; [reflexivity|]. split; [intros ? ? []|constructor].
    - destruct IH as (rows & Er & Hr & Fr); [intros; apply Hm; now right|].
      destruct (Hm vs) as (m2 & Em & Hx); [now left|]. exists ((vs, m2) :: rows). split; [cbn; now f_equal|]. split.
      + intros ws m [H|H]; [|auto]. assert (ws = vs) as -> by congruence. assert (m = m2) as -> by congruence. exact Hx.
      + cbn [map fst snd]. constructor; [split; [exact Em|reflexivity]|exact Fr]. }
  rewrite (ofold_append _ _ (map (fun r => (entry os (fst r), snd r)) rows)).
  2: { clear -Fr. induction Fr as [|s sm l l' [H1 H2] Fr IH]; constructor; [|exact IH]. intros acc. rewrite H1. cbn [obind].
       destruct sm as [s' m]. cbn [fst snd] in *. subst. reflexivity. }
  cbn [obind app].
  set (dist := fun t : list char => zsum (map (fun r => Z.abs (2 * occurrences (fst r) t - snd r)) rows)).
  set (ds := map dist texts).
  assert (Forall2 (twice_distance texts) texts ds) as HD.
  { subst ds. apply Forall2_map_r. intros t _.
    exists rows. rewrite Er. split; [eapply Permutation_NoDup; [exact Pq|apply I]|]. split; [|split; [exact Hr|reflexivity]].
    intros vs. rewrite <- (occs_from_in vs texts 0). fold os. rewrite <- (inv_in _ _ I). 
    split; intros H; (eapply Permutation_in; [|exact H]); [now apply Permutation_sym|exact Pq]. }
  assert (zlen ds = zlen texts) as Ld by apply zlen_map.
  assert (List.length ds = List.length voters) as Ld' by (unfold zlen in Ld; lia).
  rewrite (ofold_append _ _ (map set_distance (combine voters ds))).
  2: { replace (List.length voters) with (List.length (map set_distance (combine voters ds))) by (rewrite map_length, combine_length; lia).
    apply Forall2_zrange. intros i v' Hi acc. rewrite Z.add_0_l. rewrite znth_map, znth_combine in Hi.
    destruct (znth voters i) as [v|] eqn:Ev; [|discriminate Hi].
    assert (znth texts i = Some (vtext v)) as Ei by (rewrite <- Et, znth_map, Ev; reflexivity).
    subst ds. rewrite znth_map, Ei in Hi. cbn [option_map] in Hi. injection Hi as <-.
    unfold rd at 1. rewrite Ev. cbn [obind]. pose proof (znth_Some_lt _ _ _ Ei).
    unfold compute_distance. rewrite distance_sum by lia. cbn [obind]. unfold set_distance. cbn [fst snd].
    do 4 f_equal. rewrite Z.add_0_l. unfold dist. apply zsum_map_ext. intros r _. now rewrite (Hc _ _ _ Ei). }
  cbn [obind app]. set (vs1 := map set_distance (combine voters ds)).
  assert (zlen vs1 = zlen texts) as L1 by (subst vs1; rewrite zlen_map, zlen_combine; lia).
  destruct (C06_sort _ compare_distances vs1) as (voters' & Es & Pv & Sv). rewrite L1 in Es.
  exists ds, voters'. split; [exact Es|]. split; [exact HD|]. split; [exact Pv|].
  assert (map argnum vs1 = zrange 0 (List.length texts)) as A1.
  { rewrite <- En. subst vs1. rewrite map_map. cbn [argnum set_distance]. clear -Ld'. clearbody ds. revert ds Ld'.
    induction voters as [|v l IH]; intros [|d ds] L; cbn in *; try lia; [reflexivity|]. f_equal. apply IH. lia. }
  assert (forall v, In v voters' -> znth texts (argnum v) = Some (vtext v) /\ znth ds (argnum v) = Some (distance v)) as HV.
  { intros v Hv. apply (Permutation_in v (Permutation_sym Pv)) in Hv. apply In_znth in Hv as (i & Hi & Ei).
    assert (znth (map argnum vs1) i = Some (argnum v)) as Ea by (rewrite znth_map, Ei; reflexivity).
    rewrite A1, znth_zrange in Ea by (unfold zlen in L1, Hi; lia). rewrite Z.add_0_l in Ea. assert (argnum v = i) as -> by congruence.
    subst vs1. rewrite znth_map, znth_combine in Ei.
    destruct (znth voters i) as [v0|] eqn:Ev; [|discriminate Ei]. destruct (znth ds i) as [d|] eqn:Edi; [|discriminate Ei].
    injection Ei as <-. cbn [vtext distance set_distance fst snd]. split; [|reflexivity]. rewrite <- Et, znth_map, Ev. reflexivity. }
  assert (Permutation (zrange 0 (List.length texts)) (map argnum voters')) as PA by (rewrite <- A1; now apply Permutation_map).
  split; [split; [exact HD|split; [exact PA|]]|].
  - apply (sorted_strong compare_distances argnum (nearer ds) (fun v => [argnum v])).
    + rewrite <- (map_map argnum (fun x => [x])). apply FinFun.Injective_map_NoDup; [intros a b H; congruence|].
      eapply Permutation_NoDup; [exact PA|]. clear. generalize 0. induction (List.length texts) as [|n IH]; intros k; cbn [zrange]; constructor.
      * rewrite In_zrange. lia.
      * apply IH.
    + apply (Sv (fun _ => True)); [apply voters_preorder|auto].
    + intros x y Hx Hy Nk C. destruct (HV x Hx) as [_ Dx], (HV y Hy) as [_ Dy]. exists (distance x), (distance y).
      split; [exact Dx|]. split; [exact Dy|]. assert (argnum x <> argnum y) as Ne by (intros H; apply Nk; now rewrite H).
      unfold compare_distances in C. destruct (Z.eqb_spec (distance x) (distance y)); cbn [negb] in C; [lia|].
      destruct (Z.ltb_spec (distance x) (distance y)); lia.
  - unfold texts_of. clear -HV. induction voters' as [|v l IH]; cbn [map]; constructor.
    + apply HV. now left.
    + apply IH. intros; apply HV. now right.
Qed.
End Table.
