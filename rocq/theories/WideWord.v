(** The checked counters of wordacc, wordfreq and ngram. *)
From Coq Require Import String Permutation.
From Verif Require Import Base CLib Utf8Model TextModel CharclassModel CompareModel SortModel SyncModel
  AccSpec SumProof WacModel FreqModel NgramModel WideModel WideProof.
Local Open Scope Z_scope.
Local Open Scope list_scope.

Definition cnt (t : term) : Z := wcount (twac t).
Definition term_good (t : term) : Prop := 0 <= wmissed (twac t) <= wcount (twac t) /\ 1 <= wcount (twac t).
(** A table made by counting [n] words. *)
Definition counts (n : Z) (l : list term) : Prop := Forall term_good l /\ zsum (map cnt l) = n.

Lemma counts_nonneg n l : counts n l -> 0 <= n.
Proof. intros [F <-]. apply zsum_nonneg, Forall_map. eapply Forall_impl; [|exact F]. unfold term_good, cnt. lia. Qed.
Lemma wac_long_true n w : upto n (wcount w) -> upto n (wmissed w) -> n <= TOP -> wac_long w = true.
Proof. intros ? ? ?. unfold wac_long, upto, TOP in *. rewrite !is_long_true by lia. reflexivity. Qed.

Lemma add_term_agree key m : 0 <= m <= 1 -> forall l n, counts n l -> n + 1 <= TOP ->
  add_term64 l key 1 m = Ok (add_term l key 1 m) /\ counts (n + 1) (add_term l key 1 m).
Proof.
  intros Hm. induction l as [|t l IH]; intros n C L; cbn [add_term64 add_term].
  - destruct C as [_ <-]. split.
    + unfold increment_wac64. rewrite (wac_long_true 1); [reflexivity| | |unfold TOP; lia];
        cbn; unfold upto; lia.
    + split; [constructor; [unfold term_good; cbn; lia|constructor]|reflexivity].
  - destruct C as [F <-]. apply Forall_cons_iff in F as [[T1 T2] F]. cbn [map] in *. rewrite zsum_cons in *.
    assert (C : counts (zsum (map cnt l)) l) by (split; auto). pose proof (counts_nonneg _ _ C) as N.
    destruct (streq (tkey t) key).
    + split.
      * unfold increment_wac64. rewrite (wac_long_true TOP); [reflexivity| | |lia];
          cbn; unfold upto, cnt in *; lia.
      * split; [constructor; [unfold term_good; cbn; lia|exact F]|]. cbn [map]. rewrite zsum_cons. unfold cnt at 1 3.
        cbn. lia.
    + unfold cnt at 1 in L. destruct (IH _ C ltac:(lia)) as [E G]. rewrite E. cbn [obind]. split; [reflexivity|].
      destruct G as [G1 G2]. split; [constructor; [split; assumption|exact G1]|]. cbn [map]. rewrite zsum_cons, G2. lia.
Qed.

(** wordfreq *)
Lemma count_words_agree ws : forall l n, counts n l -> n + zlen ws <= TOP ->
  count_words64 l ws = Ok (count_words l ws) /\ counts (n + zlen ws) (count_words l ws).
Proof.
  unfold count_words64, count_words. induction ws as [|w ws IH]; intros l n C L.
  - change (zlen (@nil (list Z))) with 0. rewrite Z.add_0_r. split; [reflexivity|exact C].
  - rewrite zlen_cons in *. pose proof (zlen_nonneg ws). cbn [ofold fold_left].
    destruct (add_term_agree w 0 ltac:(lia) l n C ltac:(lia)) as [E C']. rewrite E. cbn [obind].
    destruct (IH _ (n + 1) C' ltac:(lia)) as [E2 C2]. split; [exact E2|].
    replace (n + (zlen ws + 1)) with (n + 1 + zlen ws) by lia. exact C2.
Qed.
Lemma total_agree l n : counts n l -> n <= TOP ->
  total64 l = Ok (fold_left (fun total t => total + wcount (twac t)) l 0).
Proof.
  unfold total64. intros C L.
  assert (G : forall l a, 0 <= a -> Forall term_good l -> a + zsum (map cnt l) <= TOP ->
    ofold (fun total t => long (is_long (total + wcount (twac t))) (total + wcount (twac t))) l a
    = Ok (fold_left (fun total t => total + wcount (twac t)) l a)).
  { clear. induction l as [|t l IH]; intros a A F L; [reflexivity|]. apply Forall_cons_iff in F as [[T1 T2] F].
    cbn [map] in L. rewrite zsum_cons in L. unfold cnt at 1 in L.
    pose proof (counts_nonneg _ l (conj F eq_refl)). cbn [ofold fold_left].
    rewrite is_long_true by (unfold TOP in L; lia). cbn [long obind]. apply IH; [lia|exact F|lia]. }
  destruct C as [F <-]. apply G; [lia|exact F|lia].
Qed.

(** wordacc: the two tables *)
Lemma tabulate_agree stop wms : forall st ns n m, counts n st -> counts m ns -> n + m + zlen wms <= TOP ->
  exists st' ns' n' m', ofold (tabulate64 stop) wms (st, ns) = Ok (st', ns') /\
    fold_left (tabulate stop) wms (st, ns) = (st', ns') /\
    counts n' st' /\ counts m' ns' /\ n' + m' = n + m + zlen wms.
Proof.
  induction wms as [|[w r] wms IH]; intros st ns n m C1 C2 L.
  - exists st, ns, n, m. change (zlen (@nil (list Z * bool))) with 0. cbn. repeat split; try apply C1; try apply C2; lia.
  - rewrite zlen_cons in *. pose proof (zlen_nonneg wms). cbn [ofold fold_left].
    pose proof (counts_nonneg _ _ C1). pose proof (counts_nonneg _ _ C2).
    cbn [tabulate64 tabulate fst snd]. set (mi := if r then 0 else 1).
    assert (0 <= mi <= 1) as Hmi by (unfold mi; destruct r; lia).
    destruct (stop w).
    + destruct (add_term_agree w mi Hmi st n C1 ltac:(lia)) as [E C]. rewrite E. cbn [obind].
      destruct (IH _ ns (n + 1) m C C2 ltac:(lia)) as (s' & n' & a & b & X1 & X2 & X3 & X4 & X5).
      exists s', n', a, b. repeat split; try assumption; try apply X3; try apply X4; lia.
    + destruct (add_term_agree w mi Hmi ns m C2 ltac:(lia)) as [E C]. rewrite E. cbn [obind].
      destruct (IH st _ n (m + 1) C1 C ltac:(lia)) as (s' & n' & a & b & X1 & X2 & X3 & X4 & X5).
      exists s', n', a, b. repeat split; try assumption; try apply X3; try apply X4; lia.
Qed.

Definition wacs_upto n (ws : list wac) : Prop := Forall (fun w => upto n (wcount w) /\ upto n (wmissed w)) ws.
Lemma wacs_more n k ws : wacs_upto n ws -> 0 <= k -> wacs_upto (n + k) ws.
Proof. intros F K. eapply Forall_impl; [|exact F]. cbn. unfold upto. lia. Qed.

Lemma zset_Forall {A} (P : A -> Prop) l i x l' : zset l i x = Some l' -> P x -> Forall P l -> Forall P l'.
Proof.
  intros E Px F. apply Forall_forall. intros y Hy. apply In_znth in Hy as (j & _ & Hj).
  rewrite (zset_znth _ _ _ _ E) in Hj. destruct (j =? i).
  - injection Hj as <-. exact Px.
  - rewrite Forall_forall in F. apply F. eapply znth_In. exact Hj.
Qed.

Lemma increment_at_agree n k ws i c m : wacs_upto n ws -> upto k c -> upto k m -> n + k <= TOP ->
  agree (wacs_upto (n + k)) (increment_at64 ws i c m) (increment_at ws i c m).
Proof.
  intros F C M L. unfold increment_at64, increment_at, rd.
  destruct (znth ws i) as [w|] eqn:E; cbn [obind]; [|apply agree_refl; intros r X; discriminate X].
  assert (W : upto n (wcount w) /\ upto n (wmissed w)).
  { unfold wacs_upto in F. rewrite Forall_forall in F. apply F. eapply znth_In. exact E. }
  unfold increment_wac64. rewrite (wac_long_true (n + k)); [|cbn; unfold upto in *; lia..|exact L].
  cbn [long obind]. apply agree_refl. intros r Er. unfold wr in Er.
  destruct (zset ws i _) as [l'|] eqn:Ez; [|discriminate Er]. injection Er as <-.
  eapply zset_Forall; [exact Ez| |].
  - cbn. unfold upto in *. lia.
  - apply wacs_more; [exact F|]. unfold upto in C. lia.
Qed.

(** wordacc: the terms of a table *)
Definition state_upto n (st : wac * list wac * option (list wac)) : Prop :=
  let '(total, length, occurs) := st in
  wacs_upto n [total] /\ wacs_upto n length /\ match occurs with Some o => wacs_upto n o | None => True end.

Lemma process_term_agree n st t : state_upto n st -> term_good t -> 0 <= n -> n + 2 * cnt t <= TOP ->
  agree (state_upto (n + 2 * cnt t)) (process_term64 st t) (process_term st t).
Proof.
  intros S [T1 T2] Hn L. destruct st as [[total length] occurs]. destruct S as (S1 & S2 & S3).
  unfold process_term64, process_term, cnt in *. set (c := wcount (twac t)) in *. set (m := wmissed (twac t)) in *.
  apply Forall_cons_iff in S1 as [S1 _]. cbv beta in S1.
  assert (W : wac_long (increment_wac total c m) = true).
  { apply (wac_long_true (n + c)); cbn [increment_wac wcount wmissed]; unfold upto in *; fold c in T1, T2 |- *; fold m in T1 |- *; lia. }
  unfold increment_wac64 at 1. rewrite W. cbn [long obind].
  assert (Tt : wacs_upto (n + 2 * c) [increment_wac total c m]).
  { constructor; [cbn [increment_wac wcount wmissed]; unfold upto in *; lia|constructor]. }
  eapply agree_bind; [apply (increment_at_agree n c); [exact S2|unfold upto; lia..]|]. intros l1 L1.
  eapply agree_bind; [apply (increment_at_agree (n + c) c); [exact L1|unfold upto; lia..]|]. intros l2 L2.
  replace (n + c + c) with (n + 2 * c) in L2 by lia.
  assert (0 <= (if c =? m then 1 else 0) <= 1) as Hm by (destruct (c =? m); lia).
  destruct occurs as [o|]; [|apply agree_ok; split; [exact Tt|split; [exact L2|exact I]]].
  eapply agree_bind; [apply (increment_at_agree n 1); [exact S3|unfold upto; lia..]|]. intros o1 O1.
  eapply agree_bind; [apply (increment_at_agree (n + 1) 1); [exact O1|unfold upto; lia..]|]. intros o2 O2.
  apply agree_ok. split; [exact Tt|]. split; [exact L2|].
  replace (n + 2 * c) with (n + 1 + 1 + (2 * c - 2)) by lia. apply wacs_more; [exact O2|lia].
Qed.

Lemma process_terms_agree l : Forall term_good l -> forall n st, state_upto n st -> 0 <= n ->
  n + 2 * zsum (map cnt l) <= TOP ->
  agree (state_upto (n + 2 * zsum (map cnt l))) (ofold process_term64 l st) (ofold process_term l st).
Proof.
  induction 1 as [|t l T F IH]; intros n st S Hn L.
  - cbn. rewrite Z.add_0_r. now apply agree_ok.
  - cbn [map] in *. rewrite zsum_cons in *. pose proof (counts_nonneg _ l (conj F eq_refl)).
    assert (1 <= cnt t) by apply T. cbn [ofold].
    eapply agree_bind; [apply (process_term_agree n); [exact S|exact T|exact Hn|lia]|]. intros st' S'.
    replace (n + 2 * (cnt t + zsum (map cnt l))) with (n + 2 * cnt t + 2 * zsum (map cnt l)) by lia.
    apply IH; [exact S'|lia|lia].
Qed.

(** wordacc: phrases *)
Lemma phrases_from_agree marks k : forall r i j n ps, wacs_upto n ps -> n + Z.of_nat k <= TOP ->
  agree (wacs_upto (n + Z.of_nat k)) (phrases_from64 r marks i j k ps) (phrases_from r marks i j k ps).
Proof.
  induction k as [|k IH]; intros r i j n ps P L; cbn [phrases_from64 phrases_from].
  - apply agree_ok. now rewrite Z.add_0_r.
  - destruct (i + j <? zlen marks); [|apply agree_ok; apply wacs_more; [exact P|lia]].
    eapply agree_bind; [apply (agree_refl (fun _ => True)); auto|]. intros x _.
    eapply agree_bind; [apply (increment_at_agree n 1); [exact P|unfold upto; lia|unfold upto; destruct (r && x); lia|lia]|].
    intros ps' P'. replace (n + Z.of_nat (Datatypes.S k)) with (n + 1 + Z.of_nat k) by lia. apply IH; [exact P'|lia].
Qed.
Lemma process_phrases_agree marks ps : wacs_upto 0 ps -> 8 * zlen marks <= TOP ->
  process_phrases64 marks ps = process_phrases marks ps.
Proof.
  intros P L. unfold process_phrases64, process_phrases.
  assert (G : forall is n ps, wacs_upto n ps -> n + 8 * zlen is <= TOP ->
    ofold (fun ps i => phrases_from64 true marks i 0 (Z.to_nat MAX_PHRASELENGTH) ps) is ps
    = ofold (fun ps i => phrases_from true marks i 0 (Z.to_nat MAX_PHRASELENGTH) ps) is ps).
  { clear. induction is as [|i is IH]; intros n ps P L; cbn [ofold]; [reflexivity|].
    rewrite zlen_cons in L. pose proof (zlen_nonneg is).
    destruct (phrases_from_agree marks (Z.to_nat MAX_PHRASELENGTH) true i 0 n ps P) as [E H'].
    { change (Z.of_nat (Z.to_nat MAX_PHRASELENGTH)) with 8. lia. }
    change (Z.of_nat (Z.to_nat MAX_PHRASELENGTH)) with 8 in H'. rewrite E.
    destruct (phrases_from true marks i 0 (Z.to_nat MAX_PHRASELENGTH) ps) as [ps'|e|e|]; cbn [obind]; [|reflexivity..].
    apply (IH (n + 8)); [now apply H'|lia]. }
  apply (G _ 0); [exact P|]. unfold zlen in *. rewrite zrange_length. lia.
Qed.

Lemma no_wacs n k : 0 <= n -> wacs_upto n (repeat no_wac k).
Proof. intros Hn. apply Forall_forall. intros w Hw. apply repeat_spec in Hw as ->. cbn. unfold upto. lia. Qed.

Lemma counts_order n l l' : counts n l -> Permutation l' l -> counts n l'.
Proof.
  intros [F <-] P. split.
  - eapply Permutation_Forall; [apply Permutation_sym, P|exact F].
  - clear F. induction P; cbn [map]; rewrite ?zsum_cons; try lia.
Qed.

Lemma determine_agree stop order words marks :
  (forall l, Permutation (order l) l) -> 8 * zlen marks <= TOP ->
  determine_wacdata64 stop order words marks = determine_wacdata stop order words marks.
Proof.
  intros O L. unfold determine_wacdata64, determine_wacdata.
  assert (C0 : counts 0 []) by (split; [constructor|reflexivity]).
  assert (Lc : zlen (combine words marks) <= zlen marks) by (unfold zlen; rewrite combine_length; lia).
  pose proof (zlen_nonneg marks) as Nm. pose proof (zlen_nonneg (combine words marks)) as Nc.
  destruct (tabulate_agree stop (combine words marks) [] [] 0 0 C0 C0) as (st & ns & n & m & E1 & E2 & C1 & C2 & Es); [lia|].
  rewrite E1, E2. cbn [obind].
  pose proof (counts_order n st (order st) C1 (O st)) as [G1 G2].
  pose proof (counts_order m ns (order ns) C2 (O ns)) as [H1 H2].
  pose proof (counts_nonneg _ _ C1) as N1. pose proof (counts_nonneg _ _ C2) as N2.
  assert (S0 : state_upto 0 (wtotal wac_empty, stopword wac_empty, None)).
  { split; [|split; [|exact I]]; [constructor; [cbn; unfold upto; lia|constructor]|]. apply no_wacs. lia. }
  destruct (process_terms_agree (order st) G1 0 _ S0 ltac:(lia) ltac:(rewrite G2; lia)) as [A1 A2].
  rewrite A1. rewrite G2 in A2. destruct (ofold process_term (order st) _) as [[[total sw] x]| | |]; cbn [obind]; [|reflexivity..].
  specialize (A2 _ eq_refl). destruct A2 as (T & _ & _).
  assert (S1 : state_upto (0 + 2 * n) (total, non_stopword wac_empty, Some (distinct wac_empty))).
  { split; [exact T|]. split; apply no_wacs; lia. }
  destruct (process_terms_agree (order ns) H1 _ _ S1 ltac:(lia) ltac:(rewrite H2; lia)) as [B1 _].
  rewrite B1. destruct (ofold process_term (order ns) _) as [[[total2 nsw] occ]| | |]; cbn [obind]; [|reflexivity..].
  rewrite (process_phrases_agree marks); [reflexivity| |exact L]. apply no_wacs. lia.
Qed.

(** ngram *)
Definition seqs_upto n (t : seqtable) : Prop :=
  Forall (fun e => upto n (scount (snd e)) /\ upto n (ssuspect (snd e))) (entries t) /\
  upto n (total_count t) /\ upto n (total_suspect t).
Lemma add_sequence_agree n t key v s : seqs_upto n t -> 0 <= n -> n + 1 <= TOP ->
  add_sequence64 t key v s = Ok (add_sequence t key v s) /\ seqs_upto (n + 1) (add_sequence t key v s).
Proof.
  intros (F & T1 & T2) Hn L.
  assert (S : seqs_upto (n + 1) (add_sequence t key v s)).
  { unfold seqs_upto, add_sequence. cbn [entries total_count total_suspect]. split.
    - destruct (existsb _ _).
      + apply Forall_map. eapply Forall_impl; [|exact F]. intros e [H1 H2].
        destruct (has_key key e); cbn; unfold upto in *; destruct s; lia.
      + apply Forall_app. split; [eapply Forall_impl; [|exact F]; cbn; unfold upto; lia|].
        constructor; [cbn; unfold upto; destruct s; lia|constructor].
    - unfold upto in *. destruct s; lia. }
  split; [|exact S]. unfold add_sequence64. destruct S as (S1 & S2 & S3).
  replace (forallb _ _) with true.
  - unfold upto, TOP in *. rewrite !is_long_true by lia. reflexivity.
  - symmetry. apply forallb_forall. intros e He. rewrite Forall_forall in S1. destruct (S1 e He).
    unfold upto, TOP in *. rewrite !is_long_true by lia. reflexivity.
Qed.
Lemma process_text_agree uc k text : forall n t, seqs_upto n t -> 0 <= n -> n + zlen text <= TOP ->
  agree (seqs_upto (n + zlen text)) (process_text64 uc k t text) (process_text uc k t text).
Proof.
  induction text as [|c text IH]; intros n t S Hn L.
  - change (zlen (@nil char)) with 0 in *. rewrite Z.add_0_r. now apply agree_ok.
  - rewrite zlen_cons in *. pose proof (zlen_nonneg text). cbn [process_text64 process_text].
    eapply agree_bind; [apply (agree_refl (fun _ => True)); auto|]. intros [[[key v] s]|] _.
    + destruct (add_sequence_agree n t key v s S Hn ltac:(lia)) as [E S']. rewrite E. cbn [obind].
      replace (n + (zlen text + 1)) with (n + 1 + zlen text) by lia. apply IH; [exact S'|lia|lia].
    + apply agree_ok. destruct S as (F & T1 & T2). split; [eapply Forall_impl; [|exact F]; cbn; unfold upto; lia|].
      unfold upto in *. lia.
Qed.
