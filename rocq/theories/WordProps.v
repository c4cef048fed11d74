(** C33-C36: splitting a text into words. *)
From Coq Require Import String.
From Verif Require Import Base Utf8Model TextSpec WordTable WordSpec WordModel WordProof.
Local Open Scope Z_scope.
Local Open Scope list_scope.

(** C33: the binary search terminates inside the table and finds the property of the unique
    range that contains the code point, Other when there is none. *)
Theorem C33_lookup : forall c,
  exists p, property c = Ok p /\ has_property c p /\ forall q, has_property c q -> q = p.
Proof.
  intros c. destruct (property_ok c) as (p & E & H). exists p. split; [assumption|].
  split; [exact H|]. intros q Hq.
  assert (p = prop c) by (unfold prop; rewrite E; reflexivity).
  apply has_property_prop in Hq. congruence.
Qed.
Print Assumptions C33_lookup.

Theorem C33_unique_range : forall c r1 r2,
  In r1 WORD_BREAK_PROPERTY -> In r2 WORD_BREAK_PROPERTY -> in_range c r1 -> in_range c r2 ->
  r1 = r2.
Proof. intros c r1 r2. apply sorted_unique. apply table_sorted. Qed.
Print Assumptions C33_unique_range.

(** The same search on any table of ranges in ascending order. *)
Theorem C33_any_table : forall table c,
  (forall i j ri rj, znth table i = Some ri -> znth table j = Some rj -> i < j ->
     stop ri < start rj) ->
  (forall r, In r table -> 0 < start r <= stop r) ->
  exists p, search_for_property (List.length table) table c 0 (zlen table - 1) = Ok p /\
  ((exists r, In r table /\ in_range c r /\ wb_value r = p) \/
   (forall r, In r table -> ~ in_range c r) /\ p = Other).
Proof.
  intros table c Hs Hr. apply search_ok; try (unfold zlen; lia).
  - assert (G : forall l low, (forall i j ri rj, znth l i = Some ri -> znth l j = Some rj -> i < j ->
       stop ri < start rj) -> (forall r, In r l -> low < start r <= stop r) ->
       sorted_ranges low l = true).
    { induction l as [|r l IH]; intros low A B; [reflexivity|]. cbn [sorted_ranges].
      pose proof (B r (or_introl eq_refl)).
      rewrite IH.
      - lia.
      - intros i j ri rj Hi Hj Hij.
        pose proof (znth_Some_lt _ _ _ Hi). pose proof (znth_Some_lt _ _ _ Hj).
        apply (A (i + 1) (j + 1)); try lia; rewrite znth_cons_S by lia;
        rewrite Z.add_simpl_r; assumption.
      - intros r' Hr'. split; [|apply (B r' (or_intror Hr'))].
        apply In_znth in Hr' as (j & Bj & Hj).
        apply (A 0 (j + 1)); [apply znth_cons_0| |lia].
        rewrite znth_cons_S by lia. rewrite Z.add_simpl_r. assumption. }
    apply G; assumption.
  - intros i r Hi _. apply znth_Some_lt in Hi. lia.
Qed.
Print Assumptions C33_any_table.

Example C33_ex : property 97 = Ok ALetter /\ property 10 = Ok LF /\ property 917800 = Ok Extend /\
  property 9 = Ok Other /\ property 4294967295 = Ok Other.
Proof. repeat split; vm_compute; reflexivity. Qed.

(** The texts all of whose characters are Extend or Format. *)
Definition only_extends (text : list Z) : Prop := of_properties (Forall extend_or_format) text.

Lemma only_extends_F text : only_extends text <-> F text = [].
Proof.
  unfold only_extends, of_properties. split.
  - intros (p & H & A). apply has_properties in H. subst p. apply F_exts.
    rewrite Forall_map in A. eapply Forall_impl; [|exact A]. cbv beta. intros c Hc.
    apply ExtendOrFormat_spec. assumption.
  - intros H. apply F_nil in H. exists (map prop text). rewrite has_properties.
    split; [reflexivity|]. rewrite Forall_map. eapply Forall_impl; [|exact H]. cbv beta.
    intros c Hc. apply ExtendOrFormat_spec. assumption.
Qed.

Lemma scalars text : Forall scalar text -> Forall (fun c => 0 <= c <= 1114111) text.
Proof. intros H. eapply Forall_impl; [|exact H]. unfold scalar. intros. lia. Qed.

(** C34: words are found by cutting the whole text into consecutive non-empty segments
    (whatever the categories and the normalisation are); a text of Extend and Format
    characters only has none.  Finding words always ends normally. *)
Theorem C34_partition : forall text, Forall scalar text ->
  exists segments,
    ((~ only_extends text /\ cuts text segments) \/ (only_extends text /\ segments = [])) /\
    forall uc NFC wordlist,
    find_words uc NFC wordlist text = Ok (wordlist ++ words_of uc NFC segments).
Proof.
  intros text Ht. apply scalars in Ht.
  destruct (F text) as [|p q] eqn:E.
  - exists []. split; [right; split; [apply only_extends_F; assumption|reflexivity]|].
    intros. cbn [words_of filter map]. rewrite app_nil_r. apply find_words_empty. assumption.
  - destruct (find_words_ok text Ht) as (segs & C & _ & W); [congruence|].
    exists segs. split; [|assumption]. left. split; [|assumption].
    rewrite only_extends_F. congruence.
Qed.
Print Assumptions C34_partition.

(** Each of those segments is delivered when every character may start a word. *)
Theorem C34_all_delivered : forall text uc, Forall scalar text -> ~ In 0 text ->
  ~ only_extends text -> (forall c, wordy (cat uc c) = true) ->
  exists segments, cuts text segments /\
  find_words uc (fun s => s) [] text = Ok (map utf8s segments) /\
  concat (map utf8s segments) = utf8s text.
Proof.
  intros text uc Ht H0 Hne Hw. apply scalars in Ht. rewrite only_extends_F in Hne.
  destruct (find_words_ok text Ht Hne) as (segs & C & _ & W).
  exists segs. split; [assumption|]. rewrite W. cbn [app]. destruct C as (C & N). split.
  - f_equal. unfold words_of. rewrite <- C in H0. clear - H0 N Hw.
    induction N as [|s segs Hs N IH]; [reflexivity|].
    cbn [concat] in H0. rewrite in_app_iff in H0.
    cbn [filter]. replace (starts_word uc s) with true
      by (destruct s; [contradiction|]; symmetry; apply Hw).
    cbn [map]. rewrite before_nul_id by tauto. rewrite IH by tauto. reflexivity.
  - rewrite <- C. clear. induction segs as [|s segs IH]; [reflexivity|].
    cbn [map concat]. rewrite IH. unfold utf8s. rewrite flat_map_app. reflexivity.
Qed.
Print Assumptions C34_all_delivered.

(** C35: the segments end exactly at the word boundaries of UAX #29, and these determine
    them. *)
Theorem C35_boundaries : forall text, Forall scalar text -> of_properties extends_follow text ->
  exists segments, cuts text segments /\ ends_at word_boundary text segments /\
  (forall segments', cuts text segments' -> ends_at word_boundary text segments' ->
     segments' = segments) /\
  forall uc NFC wordlist,
  find_words uc NFC wordlist text = Ok (wordlist ++ words_of uc NFC segments).
Proof.
  intros text Ht (p & Hp & Hx). apply has_properties in Hp. subst p. apply scalars in Ht.
  assert (X : exists segs, cuts text segs /\ ends_at word_boundary text segs /\
    forall uc NFC wl, find_words uc NFC wl text = Ok (wl ++ words_of uc NFC segs)).
  { destruct text as [|c t].
    - exists []. split; [split; [reflexivity|constructor]|]. split.
      + intros l1 l2 E. apply app_eq_nil in E as [-> ->]. split; [|intros _; exists [], []; auto].
        intros _. exists [], []. split; [constructor|]. split; [constructor|]. left. reflexivity.
      + intros. cbn. rewrite app_nil_r. reflexivity.
    - destruct (find_words_ok (c :: t) Ht) as (segs & C & E & W).
      { apply extends_follow_F; [assumption|discriminate]. }
      exists segs. split; [assumption|]. split; [|assumption].
      eapply ends_at_iff; [|exact E]. intros l1 l2 Hl. rewrite word_boundary_prop.
      apply boundary_cut. rewrite Hl. assumption. }
  destruct X as (segs & C & E & W). exists segs. split; [assumption|]. split; [assumption|].
  split; [|assumption]. intros segs' C' E'. apply (cuts_unique word_boundary text); assumption.
Qed.
Print Assumptions C35_boundaries.

(** For other texts the exception of WB4 is not honoured: the segments end where the annex
    would put the boundaries if Extend and Format were ignored everywhere. *)
Theorem C35_any_text : forall text, Forall scalar text -> ~ only_extends text ->
  exists segments, cuts text segments /\ ends_at loose_word_boundary text segments /\
  forall uc NFC wordlist,
  find_words uc NFC wordlist text = Ok (wordlist ++ words_of uc NFC segments).
Proof.
  intros text Ht Hne. apply scalars in Ht. rewrite only_extends_F in Hne.
  destruct (find_words_ok text Ht Hne) as (segs & C & E & W).
  exists segs. split; [assumption|]. split; [|assumption].
  eapply ends_at_iff; [|exact E]. intros l1 l2 _. symmetry. apply loose_cut.
Qed.
Print Assumptions C35_any_text.

(** C36: the words are the segments that start with a letter, mark, number, connector
    punctuation or private use character, encoded and normalised, in text order. *)
Theorem C36_words : forall uc NFC wordlist text segments,
  Forall scalar text -> of_properties extends_follow text ->
  cuts text segments -> ends_at word_boundary text segments ->
  find_words uc NFC wordlist text = Ok (wordlist ++ words_of uc NFC segments).
Proof.
  intros uc NFC wl text segs Ht Hx C E.
  destruct (C35_boundaries text Ht Hx) as (segs' & _ & _ & U & W).
  rewrite (U _ C E). apply W.
Qed.
Print Assumptions C36_words.

(** No word is cut short at a NUL character, as long as NUL itself does not start words. *)
Theorem C36_no_nul : forall uc NFC text segments,
  of_properties extends_follow text -> cuts text segments ->
  ends_at word_boundary text segments -> wordy (cat uc 0) = false ->
  words_of uc NFC segments = map (fun s => NFC (utf8s s)) (filter (starts_word uc) segments).
Proof.
  intros uc NFC text segs (p & Hp & Hx) C E H0. apply has_properties in Hp. subst p.
  unfold words_of. apply map_ext_in. intros s Hs. apply filter_In in Hs as [Hs Hw].
  do 2 f_equal. apply before_nul_id. intros Z0.
  destruct s as [|c s]; [contradiction|]. destruct Z0 as [->|Z0].
  - cbn [starts_word] in Hw. congruence.
  - apply (no_nul_inside text segs (c :: s)); auto.
    + eapply ends_at_iff; [|exact E]. intros l1 l2 Hl. rewrite word_boundary_prop.
      symmetry. apply boundary_cut. rewrite Hl. assumption.
    + destruct text as [|d t]; [constructor|]. cbn [main_first].
      destruct (ext d) eqn:Ed; [|reflexivity]. apply ExtendOrFormat_spec in Ed. cbn [map] in Hx.
      destruct (Hx [] (prop d) (map prop t) eq_refl Ed) as (m & q & N & _).
      destruct m; discriminate N.
Qed.
Print Assumptions C36_no_nul.

(** The words of a text come after the words already in the list, which do not change. *)
Theorem C36_appends : forall uc NFC text, Forall scalar text ->
  exists words, forall wordlist, find_words uc NFC wordlist text = Ok (wordlist ++ words).
Proof.
  intros uc NFC text Ht. destruct (C34_partition text Ht) as (segs & _ & W).
  exists (words_of uc NFC segs). intros. apply W.
Qed.
Print Assumptions C36_appends.

(** Unicode data for the examples: ASCII letters and digits, and one combining accent. *)
Definition word_uc : unicode_data :=
  mkuc (fun c => if ((97 <=? c) && (c <=? 122)) || ((65 <=? c) && (c <=? 90)) then LL
                 else if (48 <=? c) && (c <=? 57) then ND
                 else if c =? 769 then MN else if c =? 95 then PC
                 else if c <? 32 then CC else PO)
       (fun c => c).

Example C36_ex :
  find_words word_uc (fun s => s) [bytes "was"] (bytes "(can't) 3.14, e.g. x_1 " ++ [97; 769; 98]) =
  Ok ([bytes "was"; bytes "can't"; bytes "3.14"; bytes "e.g"; bytes "x_1"] ++
      [[97; 204; 129; 98]]).
Proof. vm_compute. reflexivity. Qed.

(** A text to which C35 and C36 apply: an accent after a letter. *)
Example C35_ex : of_properties extends_follow [97; 769; 98] /\ Forall scalar [97; 769; 98].
Proof.
  split.
  - exists [ALetter; Extend; ALetter]. split.
    + assert (P : forall c p, property c = Ok p -> has_property c p).
      { intros c p H. apply has_property_prop. unfold prop. rewrite H. reflexivity. }
      repeat apply Forall2_cons; try apply Forall2_nil; apply P; vm_compute; reflexivity.
    + intros l1 p l2 E Hp.
      destruct l1 as [|a [|b [|c l1]]]; cbn [app] in E.
      * injection E as <- _. destruct Hp; discriminate.
      * injection E as <- _ _. exists [], ALetter. split; [reflexivity|].
        intros [|[|]]; discriminate.
      * injection E as _ _ <- _. destruct Hp; discriminate.
      * injection E as _ _ _ E. destruct l1; discriminate E.
  - repeat constructor; unfold scalar; lia.
Qed.

(** The exception of WB4 matters: after a newline the annex takes an accent for a segment
    of its own, the program attaches it to the newline, and so loses a word. *)
Theorem C35_newline_refuted : exists text uc segments,
  Forall scalar text /\ cuts text segments /\ ends_at word_boundary text segments /\
  find_words uc (fun s => s) [] text <> Ok (words_of uc (fun s => s) segments).
Proof.
  exists [10; 769; 97], word_uc, [[10]; [769]; [97]].
  assert (P : map prop [10; 769; 97] = [LF; Extend; ALetter]) by (vm_compute; reflexivity).
  split; [repeat constructor; unfold scalar; lia|].
  split; [split; [reflexivity|repeat constructor; discriminate]|]. split.
  - cbn [map] in P.
    assert (P1 : prop 10 = LF) by (apply (f_equal (hd eot)) in P; exact P).
    assert (P2 : prop 769 = Extend)
      by (apply (f_equal (fun l => hd eot (tl l))) in P; exact P).
    assert (P3 : prop 97 = ALetter)
      by (apply (f_equal (fun l => hd eot (tl (tl l)))) in P; exact P).
    assert (I2 : ~ ignored (Some LF) Extend).
    { intros (_ & q & E & N). injection E as <-. apply N. right. left. reflexivity. }
    assert (I1 : forall q, ~ ignored q LF) by (intros q ([|] & _); discriminate).
    assert (I3 : forall q, ~ ignored q ALetter) by (intros q ([|] & _); discriminate).
    intros l1 l2 E. rewrite word_boundary_prop.
    destruct l1 as [|a [|b [|c [|d l1]]]]; cbn [app] in E.
    + split; [intros _; left; reflexivity|]. intros _. exists [], [[10]; [769]; [97]]. auto.
    + injection E as -> ->. split; [intros _|intros _; exists [[10]], [[769]; [97]]; auto].
      cbn [map]. rewrite P1, P2, P3. right. right. exists Extend, [ALetter].
      split; [reflexivity|]. split; [exact I2|].
      exists [LF], [Extend; ALetter].
      split; [apply remaining_keep; [apply I1|constructor]|].
      split; [apply remaining_keep; [exact I2|]; apply remaining_keep; [apply I3|constructor]|].
      cbn [rev app hd tl]. intros J. apply rules_joined in J. discriminate J.
    + injection E as -> -> ->. split; [intros _|intros _; exists [[10]; [769]], [[97]]; auto].
      cbn [map]. rewrite P1, P2, P3. right. right. exists ALetter, [].
      split; [reflexivity|]. split; [apply I3|].
      exists [LF; Extend], [ALetter].
      split; [apply remaining_keep; [apply I1|]; apply remaining_keep; [exact I2|constructor]|].
      split; [apply remaining_keep; [apply I3|constructor]|].
      cbn [rev app hd tl]. intros J. apply rules_joined in J. discriminate J.
    + injection E as -> -> -> ->. split; [intros _; right; left; reflexivity|].
      intros _. exists [[10]; [769]; [97]], []. auto.
    + injection E as _ _ _ E. discriminate E.
  - assert (W : find_words word_uc (fun s => s) [] [10; 769; 97] = Ok [[97]])
      by (vm_compute; reflexivity).
    rewrite W. vm_compute. discriminate.
Qed.
Print Assumptions C35_newline_refuted.
