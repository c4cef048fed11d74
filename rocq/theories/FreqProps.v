(** C51: word frequencies. *)
From Coq Require Import String Sorted Permutation.
From Verif Require Import Base CLib Utf8Model TextModel TextSpec SortModel SortSpec SortProps
  CompareModel CompareProof WordModel WordSpec WordProof WordProps StopModel WacSpec WacModel WacProof
  FreqSpec FreqModel.
Local Open Scope Z_scope.
Local Open Scope list_scope.

Lemma count_words_put words : forall tab,
  count_words tab words = fold_left put (map (fun w => (w, true)) words) tab.
Proof.
  unfold count_words. induction words as [|w words IH]; intros tab; [reflexivity|].
  cbn [fold_left map]. rewrite IH. reflexivity.
Qed.

Lemma ustrcmp_lex a : forall b, bytes_ok a -> bytes_ok b -> ustrcmp a b < 0 -> lex a b.
Proof.
  induction a as [|x a IH]; intros [|y b] Ha Hb; cbn [ustrcmp hd0].
  - lia.
  - constructor.
  - inversion Ha; subst. destruct (Z.ltb_spec x 0); lia.
  - inversion Ha; subst. inversion Hb; subst. destruct (Z.eqb_spec x y) as [->|N].
    + intros H. apply lex_next. auto.
    + destruct (Z.ltb_spec x y); [|lia]. intros _. apply lex_first. assumption.
Qed.

(** The rows of a listing. *)
Definition row (t : term) : list Z * Z := (tkey t, wcount (twac t)).

Lemma write_array_listing a :
  write_array a = listing (map row a) (fold_left (fun s t => s + wcount (twac t)) a 0).
Proof.
  unfold write_array, listing. do 3 f_equal.
  induction a as [|t a IH]; [reflexivity|]. cbn [flat_map map]. rewrite IH. reflexivity.
Qed.

Lemma fold_total a : forall s,
  fold_left (fun s t => s + wcount (twac t)) a s = s + wcount (wsum (fun _ => true) a).
Proof.
  induction a as [|t a IH]; intros s; cbn [fold_left].
  - cbn. lia.
  - rewrite IH, wsum_cons. cbn [wadd wcount]. lia.
Qed.

Lemma sorted_strong {A B} (cmp : A -> A -> Z) (f : A -> B) (R : B -> B -> Prop) (key : A -> list Z) l :
  NoDup (map key l) -> sorted cmp l ->
  (forall x y, In x l -> In y l -> key x <> key y -> cmp x y <= 0 -> R (f x) (f y)) ->
  StronglySorted R (map f l).
Proof.
  induction l as [|x l IH]; intros N S H; [constructor|]. cbn [map] in *.
  inversion N as [|? ? N1 N2]; subst. constructor.
  - apply IH; [assumption| |].
    + intros p q a b Hpq Ha Hb. apply (S (Datatypes.S p) (Datatypes.S q)); [lia|assumption|assumption].
    + intros a b Ha Hb. apply H; right; assumption.
  - rewrite Forall_forall. intros z Hz. apply in_map_iff in Hz as (y & <- & Hy).
    apply H; [left; reflexivity|right; assumption| |].
    + intros E. apply N1. rewrite E. apply in_map. assumption.
    + apply In_nth_error in Hy as (q & Hq). apply (S O (Datatypes.S q)); [lia|reflexivity|assumption].
Qed.

Lemma report_ok order words : (forall l, Permutation l (order l)) ->
  Forall bytes_ok words -> zlen words < 2147483648 ->
  exists out, write_report order (count_words [] words) = Ok out /\ frequency_report words out.
Proof.
  intros Ho Hb Hlen. rewrite count_words_put.
  destruct (table_ok (map (fun w => (w, true)) words) [] (NoDup_nil _)) as (N & K & S).
  set (T := fold_left put (map (fun w => (w, true)) words) []) in *.
  rewrite map_map in K. cbn [fst] in K. rewrite map_id in K.
  assert (C : forall t, In t T -> wcount (twac t) = occurrences (tkey t) words).
  { intros t Ht. rewrite <- (wsum_key T t N Ht), S. cbn [wadd wcount ptally].
    change (wcount (wsum (fun t0 => word_eqb (tkey t) (tkey t0)) [])) with 0.
    rewrite count_if_map. unfold occurrences. rewrite Z.add_0_l. reflexivity. }
  assert (Tot : wcount (wsum (fun _ => true) T) = zlen words).
  { pose proof (S (fun _ => true)) as E. rewrite E. cbn [wadd wcount ptally].
    change (wcount (wsum (fun _ => true) [])) with 0.
    rewrite count_if_map, count_if_true. lia. }
  assert (Occ : forall w, 0 <= occurrences w words < 2147483648).
  { intros w. unfold occurrences. pose proof (count_if_nonneg (word_eqb w) words).
    assert (count_if (word_eqb w) words <= zlen words).
    { clear. induction words as [|v l IH]; [reflexivity|]. rewrite count_if_cons, zlen_cons.
      destruct (word_eqb w v); lia. }
    lia. }
  assert (HT : forall t, In t T -> bytes_ok (tkey t) /\ figure (wcount (twac t))).
  { intros t Ht. split.
    - rewrite Forall_forall in Hb. apply Hb.
      destruct (proj1 (K (tkey t)) (in_map tkey T t Ht)) as [[]|H]. assumption.
    - rewrite (C t Ht). apply Occ. }
  set (P := fun t : term => bytes_ok (tkey t) /\ figure (wcount (twac t))).
  assert (P1 : preorder_on P order_by_key).
  { apply (key_preorder P tkey). intros x Hx. apply Hx. }
  assert (P2 : preorder_on P order_by_count).
  { apply (lex_preorder P (fun t => wcount (twac t)) order_by_key); [intros x Hx; apply Hx|assumption]. }
  destruct (C06_sort _ order_by_key (order T)) as (a1 & E1 & Q1 & S1).
  destruct (C06_sort _ order_by_count a1) as (a2 & E2 & Q2 & S2).
  assert (R1 : Permutation T a1) by (eapply perm_trans; [apply Ho|exact Q1]).
  assert (R2 : Permutation T a2) by (eapply perm_trans; eassumption).
  assert (L : forall a, Permutation T a -> lists_words words (map row a)).
  { intros a Ha. constructor.
    - rewrite map_map. cbn [row fst]. eapply Permutation_NoDup; [|exact N].
      apply (Permutation_map tkey). assumption.
    - intros w. rewrite map_map. cbn [row fst].
      split; intros H.
      + eapply Permutation_in in H; [|apply Permutation_sym, (Permutation_map tkey), Ha].
        apply K in H. destruct H as [[]|H]. assumption.
      + eapply Permutation_in; [apply (Permutation_map tkey), Ha|]. apply K. auto.
    - intros w c H. apply in_map_iff in H as (t & E & H). unfold row in E. injection E as <- <-.
      apply C. eapply Permutation_in; [apply Permutation_sym|]; eassumption. }
  assert (Tt : forall a, Permutation T a ->
    fold_left (fun s t => s + wcount (twac t)) a 0 = zlen words).
  { intros a Ha. rewrite fold_total, <- (wsum_perm _ _ _ Ha). lia. }
  assert (In1 : forall a x, Permutation T a -> In x a -> P x).
  { intros a x Ha Hx. apply HT. eapply Permutation_in; [apply Permutation_sym|]; eassumption. }
  assert (Nk : forall a, Permutation T a -> NoDup (map tkey a)).
  { intros a Ha. eapply Permutation_NoDup; [|exact N]. apply Permutation_map. assumption. }
  unfold write_report. rewrite E1. cbn [obind]. rewrite E2. cbn [obind].
  eexists. split; [reflexivity|]. exists (map row a1), (map row a2).
  split; [auto|]. split; [|split; [auto|split]].
  - apply (sorted_strong order_by_key row by_word tkey); [auto| |].
    + apply (S1 P); [assumption|]. intros x Hx. apply HT.
      eapply Permutation_in; [apply Permutation_sym, Ho|assumption].
    + intros x y Hx Hy Hk Hc. unfold by_word, row. cbn [fst].
      destruct (In1 a1 x R1 Hx) as [Bx _]. destruct (In1 a1 y R1 Hy) as [By _].
      apply ustrcmp_lex; auto. unfold order_by_key in Hc.
      pose proof (ustrcmp_eq _ _ Bx By) as Q.
      destruct (Z.eq_dec (ustrcmp (tkey x) (tkey y)) 0); [|lia]. exfalso. tauto.
  - apply (sorted_strong order_by_count row by_frequency tkey); [auto| |].
    + apply (S2 P); [assumption|]. intros x Hx. apply (In1 a1); auto.
    + intros x y Hx Hy Hk Hc. unfold by_frequency, row. cbn [fst snd].
      destruct (In1 a2 x R2 Hx) as [Bx Fx]. destruct (In1 a2 y R2 Hy) as [By Fy].
      unfold figure in *. unfold order_by_count in Hc.
      destruct (Z.eqb_spec (wcount (twac x)) (wcount (twac y))) as [E|E]; cbn [negb] in Hc.
      * right. split; [assumption|]. apply ustrcmp_lex; auto. unfold order_by_key in Hc.
        pose proof (ustrcmp_eq _ _ Bx By) as Q.
        destruct (Z.eq_dec (ustrcmp (tkey x) (tkey y)) 0); [|lia]. exfalso. tauto.
      * left. rewrite to_int_small in Hc by lia. lia.
  - rewrite !write_array_listing, !Tt by assumption. reflexivity.
Qed.

Lemma count_words_app tab w1 w2 :
  count_words tab (w1 ++ w2) = count_words (count_words tab w1) w2.
Proof. unfold count_words. apply fold_left_app. Qed.

(** C51: the report lists the words of all the files with their frequencies, in
    alphabetical order and by decreasing frequency. *)
Theorem C51_report : forall order uc NFC j j4 files lists,
  (forall l, Permutation l (order l)) -> files <> [] ->
  Forall2 (fun f ws => words_in uc NFC j j4 (mkopt true true 0 true true) f = Ok ws) files lists ->
  Forall (Forall bytes_ok) lists -> zlen (concat lists) < 2147483648 ->
  exists out, wordfreq order uc NFC j j4 files = Ok out /\ frequency_report (concat lists) out.
Proof.
  intros order uc NFC j j4 files lists Ho Hne Hf Hb Hlen.
  destruct (report_ok order (concat lists) Ho) as (out & E & R); [|assumption|].
  { apply Forall_concat. assumption. }
  exists out. split; [|assumption]. unfold wordfreq.
  destruct (Z.eqb_spec (zlen files) 0) as [Z0|_].
  { destruct files; [contradiction|]. rewrite zlen_cons in Z0. pose proof (zlen_nonneg files). lia. }
  assert (G : forall tab,
    ofold (fun tab f => let! words := words_in uc NFC j j4 (mkopt true true 0 true true) f in
                        Ok (count_words tab words)) files tab = Ok (count_words tab (concat lists))).
  { clear - Hf. induction Hf as [|f ws files lists H _ IH]; intros tab; [reflexivity|].
    cbn [ofold concat]. rewrite H. cbn [obind]. rewrite IH, count_words_app. reflexivity. }
  rewrite G. cbn [obind]. assumption.
Qed.
Print Assumptions C51_report.

(** The listings are determined by the words. *)
Theorem C51_unique : forall words rows rows' (R : list Z * Z -> list Z * Z -> Prop),
  R = by_word \/ R = by_frequency ->
  lists_words words rows -> lists_words words rows' ->
  StronglySorted R rows -> StronglySorted R rows' -> rows = rows'.
Proof.
  intros words rows rows' R HR L L' S S'.
  assert (Lx : forall a b, lex a b -> ~ lex b a).
  { induction 1; intros H'; inversion H'; subst; try lia; auto. }
  assert (As : forall x y, R x y -> ~ R y x).
  { intros x y H H'. destruct HR; subst R.
    - unfold by_word in *. eapply Lx; eassumption.
    - unfold by_frequency in *. destruct H as [H|[H H1]], H' as [H'|[H' H1']]; try lia.
      eapply Lx; eassumption. }
  assert (M : forall r, In r rows <-> In r rows').
  { assert (X : forall l l', lists_words words l -> lists_words words l' -> forall r, In r l -> In r l').
    { intros l l' A B [w c] H. pose proof (lw_counts _ _ A _ _ H) as Hc.
      assert (W : In w (map fst l')).
      { apply (lw_words _ _ B). apply (lw_words _ _ A). apply (in_map fst) in H. exact H. }
      apply in_map_iff in W as ([w' c'] & E & H'). cbn [fst] in E. subst w'.
      rewrite (lw_counts _ _ B _ _ H') in H'. rewrite Hc. exact H'. }
    intros r. split; apply X; assumption. }
  assert (N : NoDup rows) by (apply (NoDup_map_inv fst), L).
  assert (N' : NoDup rows') by (apply (NoDup_map_inv fst), L').
  clear L L' HR. revert rows' S' M N'.
  induction S as [|x l S IH F]; intros rows' S' M N'.
  - destruct rows' as [|y l']; [reflexivity|]. exfalso. apply (M y). left. reflexivity.
  - destruct rows' as [|y l']; [exfalso; apply (M x); left; reflexivity|].
    inversion S' as [|? ? S'' F']; subst. inversion N as [|? ? N1 N2]; subst.
    inversion N' as [|? ? N1' N2']; subst. rewrite Forall_forall in F, F'.
    assert (x = y).
    { destruct (proj1 (M x) (or_introl eq_refl)) as [E|Hx]; [auto|].
      destruct (proj2 (M y) (or_introl eq_refl)) as [E|Hy]; [auto|].
      exfalso. apply (As x y); [apply F; assumption|apply F'; assumption]. }
    subst y. f_equal. apply IH; auto. intros r. split; intros H.
    + destruct (proj1 (M r) (or_intror H)) as [->|]; [contradiction|assumption].
    + destruct (proj2 (M r) (or_intror H)) as [->|]; [contradiction|assumption].
Qed.
Print Assumptions C51_unique.

(** No file, or an unusable one, is an error. *)
Theorem C51_no_files : forall order uc NFC j j4,
  wordfreq order uc NFC j j4 [] = Fail "no text files specified".
Proof. reflexivity. Qed.
Print Assumptions C51_no_files.

Theorem C51_bad_file : forall order uc NFC j j4 files1 f files2 lists m,
  Forall2 (fun f ws => words_in uc NFC j j4 (mkopt true true 0 true true) f = Ok ws) files1 lists ->
  words_in uc NFC j j4 (mkopt true true 0 true true) f = Fail m ->
  wordfreq order uc NFC j j4 (files1 ++ f :: files2) = Fail m.
Proof.
  intros order uc NFC j j4 files1 f files2 lists m Hf Hm. unfold wordfreq.
  destruct (Z.eqb_spec (zlen (files1 ++ f :: files2)) 0) as [Z0|_].
  { rewrite zlen_app, zlen_cons in Z0. pose proof (zlen_nonneg files1).
    pose proof (zlen_nonneg files2). lia. }
  assert (G : forall tab, ofold (fun tab f => let! words := words_in uc NFC j j4 (mkopt true true 0 true true) f in
     Ok (count_words tab words)) (files1 ++ f :: files2) tab = Fail m).
  { clear - Hf Hm. induction Hf as [|g ws files lists H _ IH]; intros tab; cbn [app ofold].
    - rewrite Hm. reflexivity.
    - rewrite H. cbn [obind]. apply IH. }
  rewrite G. reflexivity.
Qed.
Print Assumptions C51_bad_file.

(** The words found in a text are strings without NUL, when normalisation yields such. *)
Theorem C36_strings : forall uc NFC text words, Forall scalar text ->
  (forall s, bytes_ok s -> bytes_ok (NFC s)) ->
  find_words uc NFC [] text = Ok words -> Forall bytes_ok words.
Proof.
  intros uc NFC text words Ht Hn E.
  destruct (C34_partition text Ht) as (segs & Hs & W). rewrite W in E. injection E as <-.
  cbn [app]. unfold words_of. rewrite Forall_map. apply Forall_forall. intros s Hi.
  apply filter_In in Hi as [Hi _]. apply Hn.
  assert (Hv : Forall scalar s).
  { destruct Hs as [(_ & C & _)|(_ & ->)]; [|contradiction].
    rewrite <- C in Ht. rewrite Forall_forall in *. intros c Hc. apply Ht.
    apply in_concat. exists s. auto. }
  clear - Hv. unfold bytes_ok, utf8s. induction Hv as [|c s Hc Hs IH]; [constructor|].
  cbn [before_nul]. destruct (Z.eqb_spec c 0); [constructor|].
  cbn [flat_map]. apply Forall_app. split; [|assumption].
  unfold scalar in Hc. unfold utf8.
  destruct (Z.ltb_spec c 128); [repeat constructor; lia|].
  destruct (Z.ltb_spec c 2048); [|destruct (Z.ltb_spec c 65536)];
  repeat constructor; Z.to_euclidean_division_equations; lia.
Qed.
Print Assumptions C36_strings.

Example C51_ex :
  let uc := mkuc (fun c => if c =? 32 then ZS else LL) (fun c => if (65 <=? c) && (c <=? 90) then c + 32 else c) in
  wordfreq (fun l => rev l) uc (fun s => s) (repeat 0 100) [0; 0; 0; 0]
    [bytes "The cat"; bytes "the hat"] =
  Ok (bytes "   Count" ++ [10] ++ bytes "       1   cat" ++ [10] ++ bytes "       1   hat" ++ [10] ++
      bytes "       2   the" ++ [10] ++ bytes "       4   Total" ++ [10] ++ [10; 10] ++
      bytes "   Count" ++ [10] ++ bytes "       2   the" ++ [10] ++ bytes "       1   cat" ++ [10] ++
      bytes "       1   hat" ++ [10] ++ bytes "       4   Total" ++ [10]).
Proof. vm_compute. reflexivity. Qed.
