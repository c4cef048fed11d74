(** C42: what the choice of the stopwords changes in the figures of wordacc, and what it does not. *)
From Coq Require Import String Permutation.
From Verif Require Import Base CLib LcsModel LcsSpec LcsTop WacModel WacSpec WacProof.
Local Open Scope Z_scope.
Local Open Scope list_scope.

Definition wplus (a b : wac) : wac := mkwac (wcount a + wcount b) (wmissed a + wmissed b).

(** A stopword table, and the other, at one length: together every word of that length. *)
Lemma tally_both P Q words marks :
  wplus (tally (fun w => P w && Q w) words marks) (tally (fun w => negb (P w) && Q w) words marks) = tally Q words marks.
Proof.
  unfold wplus, tally. cbn [wcount wmissed]. f_equal.
  - induction (combine words marks) as [|x l IH]; [reflexivity|]. rewrite !count_if_cons. destruct (P (fst x)), (Q (fst x)); cbn [andb negb]; lia.
  - induction (combine words marks) as [|x l IH]; [reflexivity|]. rewrite !count_if_cons.
    destruct (P (fst x)), (Q (fst x)), (snd x); cbn [andb negb]; lia.
Qed.

Lemma tally_ext P Q words marks : (forall w, P w = Q w) -> tally P words marks = tally Q words marks.
Proof. intros H. unfold tally. f_equal; apply count_if_ext; intros x _; now rewrite H. Qed.

(** The figures of one length, or of all (length 0). *)
Definition at_length (len : Z) (w : list Z) : bool := (len =? 0) || (zlen w =? len).

Lemma by_length P words marks rows terms len : class_figures P words marks rows terms -> 0 <= len <= MAX_WORDLENGTH ->
  znth rows len = Some (tally (fun w => P w && at_length len w) words marks).
Proof.
  intros F L. unfold at_length. destruct (Z.eqb_spec len 0) as [->|N].
  - rewrite (cf_total _ _ _ _ _ F). f_equal. apply tally_ext. intros w. now rewrite andb_true_r.
  - rewrite (cf_length _ _ _ _ _ F) by lia. reflexivity.
Qed.

(** The two tables of words together. *)
Lemma both_terms stop words marks d t : figures stop words marks d ->
  (In t (stop_terms d ++ non_terms d) <-> In (tkey t) words /\ twac t = of_word (tkey t) words marks).
Proof.
  intros F. pose proof (fg_stop _ _ _ _ F) as S. pose proof (fg_non _ _ _ _ F) as N. rewrite in_app_iff. split.
  - intros [H|H].
    + pose proof (cf_terms _ _ _ _ _ S _ H). apply (in_map tkey), (cf_words _ _ _ _ _ S) in H. tauto.
    + pose proof (cf_terms _ _ _ _ _ N _ H). apply (in_map tkey), (cf_words _ _ _ _ _ N) in H. tauto.
  - assert (G : forall P rows terms, class_figures P words marks rows terms -> P (tkey t) = true ->
              In (tkey t) words /\ twac t = of_word (tkey t) words marks -> In t terms).
    { intros P rows terms C Pt [I E]. assert (K : In (tkey t) (map tkey terms)) by (apply (cf_words _ _ _ _ _ C); auto).
      apply in_map_iff in K as (u & Eu & Hu). replace t with u; [exact Hu|]. pose proof (cf_terms _ _ _ _ _ C _ Hu) as Eq.
      destruct t as [k1 a1], u as [k2 a2]; cbn [tkey twac] in *. congruence. }
    intros H. destruct (stop (tkey t)) eqn:Q; [left; now apply (G _ _ _ S)|right; apply (G _ _ _ N); [now rewrite Q|exact H]].
Qed.

Lemma both_nodup stop words marks d : figures stop words marks d -> NoDup (stop_terms d ++ non_terms d).
Proof.
  intros F. pose proof (fg_stop _ _ _ _ F) as S. pose proof (fg_non _ _ _ _ F) as N. apply (NoDup_map_inv tkey). rewrite map_app.
  assert (D : forall w, In w (map tkey (stop_terms d)) -> ~ In w (map tkey (non_terms d))).
  { intros w H H'. apply (cf_words _ _ _ _ _ S) in H as [_ H]. apply (cf_words _ _ _ _ _ N) in H' as [_ H']. rewrite H in H'. discriminate H'. }
  pose proof (cf_keys _ _ _ _ _ S) as KS. pose proof (cf_keys _ _ _ _ _ N) as KN. clear - D KS KN.
  induction (map tkey (stop_terms d)) as [|k l IH]; [exact KN|]. inversion KS as [|? ? K1 K2]; subst. cbn [app]. constructor.
  - rewrite in_app_iff. intros [H|H]; [contradiction|]. exact (D k (or_introl eq_refl) H).
  - apply IH; [intros w H; apply D; now right|exact K2].
Qed.

Lemma same_entries {A} : forall l l' : list A, (forall i, nth_error l i = nth_error l' i) -> l = l'.
Proof.
  induction l as [|x l IH]; intros [|y l'] H; [reflexivity|specialize (H 0%nat); discriminate H|specialize (H 0%nat); discriminate H|].
  f_equal; [specialize (H 0%nat); now injection H|]. apply IH. intros i. exact (H (S i)).
Qed.

Lemma phrases_unique marks ps ps' : phrases marks ps -> phrases marks ps' -> ps = ps'.
Proof.
  intros H H'. assert (L : List.length ps = List.length ps') by (pose proof (ph_size _ _ H); pose proof (ph_size _ _ H'); unfold zlen in *; lia).
  apply same_entries. intros i.
  destruct (Nat.lt_ge_cases i (List.length ps)) as [B|B].
  - assert (E : forall l : list wac, znth l (Z.of_nat i) = nth_error l i).
    { intros l. unfold znth. destruct (Z.ltb_spec (Z.of_nat i) 0); [lia|]. now rewrite Nat2Z.id. }
    rewrite <- !E. pose proof (ph_size _ _ H) as Sz. unfold zlen in Sz. destruct i as [|i].
    + change (Z.of_nat 0) with 0. now rewrite (ph_unused _ _ H), (ph_unused _ _ H').
    + rewrite (ph_len _ _ H), (ph_len _ _ H') by lia. reflexivity.
  - rewrite (proj2 (nth_error_None ps i)) by lia. symmetry. apply nth_error_None. lia.
Qed.

(** C42: which words are stopwords (the option -S) does not change the total, the phrases, the
    figures of all words of a length, nor the figures of any word: it only decides in which of the
    two tables a word is counted. *)
Theorem C42_choice : forall stop stop' order order' words0 words1,
  (forall l, Permutation (order l) l) -> (forall l, Permutation (order' l) l) ->
  zlen (shared words0 words1) <= 65535 -> (forall w, In w words0 -> 1 <= zlen w <= MAX_WORDLENGTH) ->
  exists d d', wordacc stop order words0 words1 = Ok d /\ wordacc stop' order' words0 words1 = Ok d' /\
    wtotal d = wtotal d' /\ phrase d = phrase d' /\
    (forall len, 0 <= len <= MAX_WORDLENGTH -> exists s n s' n',
       znth (stopword d) len = Some s /\ znth (non_stopword d) len = Some n /\
       znth (stopword d') len = Some s' /\ znth (non_stopword d') len = Some n' /\
       wcount s + wcount n = wcount s' + wcount n' /\ wmissed s + wmissed n = wmissed s' + wmissed n') /\
    Permutation (stop_terms d ++ non_terms d) (stop_terms d' ++ non_terms d') /\
    (forall t, In t (stop_terms d) -> stop (tkey t) = true) /\ (forall t, In t (non_terms d) -> stop (tkey t) = false).
Proof.
  intros stop stop' order order' w0 w1 P P' Sh W. pose proof Sh as Sh'. rewrite <- common_shared in Sh'.
  destruct (proj2 (recognize_ok w0 w1) Sh') as (marks & E & L).
  destruct (determine_ok stop order w0 marks P (proj1 L) W) as (d & Ed & F & Ph).
  destruct (determine_ok stop' order' w0 marks P' (proj1 L) W) as (d' & Ed' & F' & Ph').
  exists d, d'. unfold wordacc. rewrite E. cbn [obind]. split; [exact Ed|]. split; [exact Ed'|]. split.
  { pose proof (fg_words _ _ _ _ F). pose proof (fg_words _ _ _ _ F'). pose proof (fg_missed _ _ _ _ F). pose proof (fg_missed _ _ _ _ F').
    destruct (wtotal d) as [k1 a1], (wtotal d') as [k2 a2]; cbn [wcount wmissed] in *. f_equal; congruence. }
  split; [now apply (phrases_unique marks)|]. split.
  { intros len Hl. pose proof (by_length _ _ _ _ _ len (fg_stop _ _ _ _ F) Hl) as A. pose proof (by_length _ _ _ _ _ len (fg_non _ _ _ _ F) Hl) as B.
    pose proof (by_length _ _ _ _ _ len (fg_stop _ _ _ _ F') Hl) as A'. pose proof (by_length _ _ _ _ _ len (fg_non _ _ _ _ F') Hl) as B'.
    pose proof (tally_both stop (at_length len) w0 marks) as T. pose proof (tally_both stop' (at_length len) w0 marks) as T'.
    rewrite <- T' in T. unfold wplus in T. injection T as T1 T2.
    eexists _, _, _, _. split; [exact A|]. split; [exact B|]. split; [exact A'|]. split; [exact B'|]. split; [exact T1|exact T2]. }
  split.
  { apply NoDup_Permutation; [now apply (both_nodup stop w0 marks)|now apply (both_nodup stop' w0 marks)|].
    intros t. rewrite (both_terms _ _ _ _ t F), (both_terms _ _ _ _ t F'). reflexivity. }
  split; intros t H; apply (in_map tkey) in H.
  - now apply (cf_words _ _ _ _ _ (fg_stop _ _ _ _ F)) in H.
  - apply (cf_words _ _ _ _ _ (fg_non _ _ _ _ F)) in H as [_ H]. now apply negb_true_iff.
Qed.
Print Assumptions C42_choice.

Lemma tally_le P Q words marks : (forall w, P w = true -> Q w = true) ->
  wcount (tally P words marks) <= wcount (tally Q words marks) /\ wmissed (tally P words marks) <= wmissed (tally Q words marks).
Proof.
  intros H. assert (G : forall (p q : list Z * bool -> bool) l, (forall x, p x = true -> q x = true) -> count_if p l <= count_if q l).
  { intros p q l Hl. induction l as [|x l IH]; [apply Z.le_refl|]. rewrite !count_if_cons. specialize (Hl x).
    destruct (p x); [rewrite Hl by reflexivity; lia|destruct (q x); lia]. }
  unfold tally. cbn [wcount wmissed]. split; apply G; intros x; [apply H|]. rewrite !andb_true_iff. intros [A B]. auto.
Qed.

(** C42: with more stopwords no figure of the stopwords falls and none of the others rises; the
    words that were in the table of stopwords stay there, with the same figures. *)
Theorem C42_more : forall stop stop' order order' words0 words1,
  (forall w, stop w = true -> stop' w = true) ->
  (forall l, Permutation (order l) l) -> (forall l, Permutation (order' l) l) ->
  zlen (shared words0 words1) <= 65535 -> (forall w, In w words0 -> 1 <= zlen w <= MAX_WORDLENGTH) ->
  exists d d', wordacc stop order words0 words1 = Ok d /\ wordacc stop' order' words0 words1 = Ok d' /\
    (forall len, 0 <= len <= MAX_WORDLENGTH -> exists s n s' n',
       znth (stopword d) len = Some s /\ znth (non_stopword d) len = Some n /\
       znth (stopword d') len = Some s' /\ znth (non_stopword d') len = Some n' /\
       wcount s <= wcount s' /\ wmissed s <= wmissed s' /\ wcount n' <= wcount n /\ wmissed n' <= wmissed n) /\
    incl (stop_terms d) (stop_terms d') /\ incl (non_terms d') (non_terms d).
Proof.
  intros stop stop' order order' w0 w1 M P P' Sh W. pose proof Sh as Sh'. rewrite <- common_shared in Sh'.
  destruct (proj2 (recognize_ok w0 w1) Sh') as (marks & E & L).
  destruct (determine_ok stop order w0 marks P (proj1 L) W) as (d & Ed & F & Ph).
  destruct (determine_ok stop' order' w0 marks P' (proj1 L) W) as (d' & Ed' & F' & Ph').
  exists d, d'. unfold wordacc. rewrite E. cbn [obind]. split; [exact Ed|]. split; [exact Ed'|].
  assert (M' : forall w, negb (stop' w) = true -> negb (stop w) = true).
  { intros w. specialize (M w). destruct (stop w); [rewrite M by reflexivity; intros H; discriminate H|reflexivity]. }
  split.
  { intros len Hl. pose proof (by_length _ _ _ _ _ len (fg_stop _ _ _ _ F) Hl) as A. pose proof (by_length _ _ _ _ _ len (fg_non _ _ _ _ F) Hl) as B.
    pose proof (by_length _ _ _ _ _ len (fg_stop _ _ _ _ F') Hl) as A'. pose proof (by_length _ _ _ _ _ len (fg_non _ _ _ _ F') Hl) as B'.
    eexists _, _, _, _. split; [exact A|]. split; [exact B|]. split; [exact A'|]. split; [exact B'|].
    assert (X1 : forall w, stop w && at_length len w = true -> stop' w && at_length len w = true) by (intros w; rewrite !andb_true_iff; intros [X Y]; auto).
    assert (X2 : forall w, negb (stop' w) && at_length len w = true -> negb (stop w) && at_length len w = true) by (intros w; rewrite !andb_true_iff; intros [X Y]; auto).
    destruct (tally_le _ _ w0 marks X1). destruct (tally_le _ _ w0 marks X2). auto. }
  assert (T : forall t, In t (stop_terms d ++ non_terms d) <-> In t (stop_terms d' ++ non_terms d')).
  { intros t. rewrite (both_terms _ _ _ _ t F), (both_terms _ _ _ _ t F'). reflexivity. }
  split; intros t H.
  - assert (K : In t (stop_terms d' ++ non_terms d')) by (apply T, in_or_app; now left). apply in_app_or in K as [K|K]; [exact K|exfalso].
    apply (in_map tkey) in H, K. apply (cf_words _ _ _ _ _ (fg_stop _ _ _ _ F)) in H as [_ H].
    apply (cf_words _ _ _ _ _ (fg_non _ _ _ _ F')) in K as [_ K]. rewrite (M _ H) in K. discriminate K.
  - assert (K : In t (stop_terms d ++ non_terms d)) by (apply T, in_or_app; now right). apply in_app_or in K as [K|K]; [exfalso|exact K].
    apply (in_map tkey) in H, K. apply (cf_words _ _ _ _ _ (fg_stop _ _ _ _ F)) in K as [_ K].
    apply (cf_words _ _ _ _ _ (fg_non _ _ _ _ F')) in H as [_ H]. rewrite (M _ K) in H. discriminate H.
Qed.
Print Assumptions C42_more.

(** For example: the words a bc a, of which the first is not found.  Without stopwords, and with
    the stopword a. *)
Example C42_choice_ex :
  let a := [97] in let bc := [98; 99] in let words0 := [a; bc; a] in let words1 := [bc; a] in
  let none := fun _ : list Z => false in let only := word_eqb a in
  (forall w, none w = true -> only w = true) /\ zlen (shared words0 words1) <= 65535 /\
  (forall w, In w words0 -> 1 <= zlen w <= MAX_WORDLENGTH) /\
  (let! d := wordacc none (fun l => l) words0 words1 in Ok (wtotal d, stop_terms d, List.length (non_terms d))) = Ok (mkwac 3 1, [], 2%nat) /\
  (let! d := wordacc only (fun l => l) words0 words1 in Ok (wtotal d, map tkey (stop_terms d), map twac (stop_terms d), map tkey (non_terms d))) =
    Ok (mkwac 3 1, [a], [mkwac 2 1], [bc]).
Proof.
  cbv zeta. split; [intros w H; discriminate H|]. split; [now vm_compute|]. split; [|split; reflexivity].
  intros w [<-|[<-|[<-|[]]]]; unfold MAX_WORDLENGTH, zlen; cbn; lia.
Qed.
