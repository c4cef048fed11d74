(** C50: the frequencies of sequences of characters. *)
From Coq Require Import String Sorted Permutation.
From Verif Require Import Base CLib CLibProof Utf8Model TextModel TextSpec SortModel SortSpec SortProps CompareModel CompareProof
  AccModel AccSpec AccProof AccrptSpec WacSpec WacProof FreqSpec FreqProps NgramSpec NgramModel NgramKeys.
Local Open Scope Z_scope.
Local Open Scope list_scope.

(** C50: two sequences of the same number of characters, at most three, are shown alike only
    if they are equal. *)
Theorem C50_keys : forall uc, marks_wide uc -> forall a b, List.length a = List.length b -> (List.length a <= 3)%nat ->
  Forall scalar a -> Forall scalar b ->
  flat_map (display uc) a = flat_map (display uc) b -> a = b.
Proof. intros uc W a b E L Fa Fb. now apply (keys_inj uc W). Qed.
Print Assumptions C50_keys.

(** Why MAX_N cannot simply be raised: for five characters this is false. *)
Theorem C50_keys_five_refuted :
  exists uc a b, marks_wide uc /\ List.length a = 5%nat /\ List.length b = 5%nat /\ Forall scalar a /\ Forall scalar b /\
    flat_map (display uc) a = flat_map (display uc) b /\ a <> b.
Proof.
  exists (mkuc (fun v => if v <? 32 then CC else LL) (fun v => v)), [9; 60; 48; 66; 62], [60; 48; 57; 62; 11].
  split.
  { intros v _. unfold is_combining. cbn [cat]. now destruct (v <? 32). }
  split; [reflexivity|]. split; [reflexivity|].
  split; [unfold scalar; repeat constructor; lia|]. split; [unfold scalar; repeat constructor; lia|].
  split; [reflexivity|]. intros H. discriminate H.
Qed.
Print Assumptions C50_keys_five_refuted.

Section Windows.
Variable uc : unicode_data.
Hypothesis Hwide : marks_wide uc.
Hypothesis Hnul : nul_hidden uc.

Definition shown_as (vs : list Z) : list Z := flat_map (display uc) vs.
Definition marked (w : list char) : bool := existsb suspect w.

Lemma sequence_at_ok n : forall l key vals susp, text_ok l -> zlen key + 8 * Z.of_nat n + 1 <= 27 ->
  sequence_at uc n l key vals susp =
  Ok (if (n <=? List.length l)%nat
      then Some (key ++ shown_as (map value (firstn n l)), vals ++ map value (firstn n l), susp || marked (firstn n l))
      else None).
Proof.
  induction n as [|n IH]; intros l key vals susp T B.
  { cbn. now rewrite !app_nil_r, orb_false_r. }
  destruct l as [|c l]; [reflexivity|]. cbn [sequence_at]. apply Forall_cons_iff in T as [S T].
  rewrite char_string_ok by auto. cbn [obind]. destruct (display_ok uc (value c) S) as [[_ L] _].
  change (MAX_N * STRING_SIZE) with 27. replace (_ <=? 27) with true by lia.
  rewrite IH; [|exact T|rewrite zlen_app; lia]. cbn [List.length Nat.leb firstn map].
  destruct (n <=? List.length l)%nat; [|reflexivity].
  unfold marked, shown_as. cbn [existsb flat_map]. now rewrite <- !app_assoc, orb_assoc.
Qed.

Definition add_window (t : seqtable) (w : list char) : seqtable :=
  add_sequence t (shown_as (map value w)) (map value w) (marked w).

Lemma sequences_cons n c l : (n <= List.length (c :: l))%nat -> sequences n (c :: l) = firstn n (c :: l) :: sequences n l.
Proof.
  intros H. unfold sequences. cbn [List.length] in *.
  replace (Datatypes.S (List.length l) + 1 - n)%nat with (Datatypes.S (List.length l + 1 - n)) by lia.
  cbn [seq map skipn]. f_equal. rewrite <- seq_shift, map_map. reflexivity.
Qed.
Lemma sequences_short n l : (List.length l < n)%nat -> sequences n l = [].
Proof. intros H. unfold sequences. now replace (List.length l + 1 - n)%nat with O by lia. Qed.

Lemma process_text_ok n : (1 <= n <= 3)%nat -> forall l t, text_ok l ->
  process_text uc n t l = Ok (fold_left add_window (sequences n l) t).
Proof.
  intros Hn. induction l as [|c l IH]; intros t T.
  { rewrite sequences_short by (cbn; lia). reflexivity. }
  cbn [process_text]. rewrite sequence_at_ok; [|exact T|change (zlen []) with 0; lia]. cbn [obind].
  destruct (Nat.leb_spec n (List.length (c :: l))) as [H|H].
  - rewrite sequences_cons by lia. cbn [fold_left]. rewrite IH by (now apply Forall_cons_iff in T). reflexivity.
  - rewrite sequences_short by lia. reflexivity.
Qed.

Lemma In_sequences n w l : In w (sequences n l) -> text_ok l -> List.length w = n /\ text_ok w.
Proof.
  unfold sequences. intros H T. apply in_map_iff in H as (i & <- & H). apply in_seq in H. split.
  - rewrite firstn_length, skipn_length. lia.
  - unfold text_ok in *. rewrite Forall_forall in *. intros x Hx. apply T.
    rewrite <- (firstn_skipn i l). apply in_or_app. right. rewrite <- (firstn_skipn n (skipn i l)).
    apply in_or_app. now left.
Qed.

(** The table after the windows [ws]. *)
Record tallied (ws : list (list char)) (t : seqtable) : Prop := {
  ta_once : NoDup (map (fun e : entry => svalue (snd e)) (entries t));
  ta_values : forall vs, In vs (map (fun e : entry => svalue (snd e)) (entries t)) <-> exists w, In w ws /\ map value w = vs;
  ta_entry : forall e, In e (entries t) -> fst e = shown_as (svalue (snd e)) /\
    scount (snd e) = count_of (svalue (snd e)) ws /\ ssuspect (snd e) = suspects_of (svalue (snd e)) ws;
  ta_count : total_count t = zlen ws;
  ta_suspect : total_suspect t = count_if marked ws }.

Lemma count_of_snoc vs ws w : count_of vs (ws ++ [w]) = count_of vs ws + if word_eqb vs (map value w) then 1 else 0.
Proof. unfold count_of. rewrite count_if_app, count_if_cons. unfold occurs_as at 2. change (count_if (occurs_as vs) []) with 0. lia. Qed.
Lemma suspects_of_snoc vs ws w :
  suspects_of vs (ws ++ [w]) = suspects_of vs ws + if word_eqb vs (map value w) && marked w then 1 else 0.
Proof.
  unfold suspects_of. rewrite count_if_app, count_if_cons. unfold occurs_as at 2. unfold marked.
  match goal with |- _ + (_ + count_if ?p []) = _ => change (count_if p []) with 0 end. lia.
Qed.
Lemma count_zero vs ws : ~ (exists w, In w ws /\ map value w = vs) -> count_of vs ws = 0 /\ suspects_of vs ws = 0.
Proof.
  intros N. split; apply count_if_zero; intros w Hw; unfold occurs_as.
  - destruct (word_eqb vs (map value w)) eqn:E; [|reflexivity]. apply word_eqb_spec in E. exfalso. eauto.
  - destruct (word_eqb vs (map value w)) eqn:E; [|reflexivity]. apply word_eqb_spec in E. exfalso. eauto.
Qed.

Lemma add_window_ok n ws w t : (n <= 3)%nat -> (forall v, In v ws -> List.length v = n /\ text_ok v) ->
  List.length w = n -> text_ok w -> tallied ws t -> tallied (ws ++ [w]) (add_window t w).
Proof.
  intros Hn Hws Lw Tw [N V E C U].
  assert (Sc : forall x, text_ok x -> Forall scalar (map value x)).
  { intros x Hx. unfold text_ok in Hx. rewrite Forall_map. exact Hx. }
  assert (K : forall e, In e (entries t) -> has_key (shown_as (map value w)) e = word_eqb (map value w) (svalue (snd e))).
  { intros e He. destruct (E e He) as (Ek & _). unfold has_key, word_eqb. rewrite Ek.
    destruct (proj1 (V (svalue (snd e)))) as (v & Hv & Ev); [now apply (in_map (fun e : entry => svalue (snd e)))|].
    destruct (Hws v Hv) as [Lv Tv].
    destruct (list_eq_dec Z.eq_dec (shown_as (map value w)) _) as [Q|Q];
    destruct (list_eq_dec Z.eq_dec (map value w) (svalue (snd e))) as [R|R]; auto.
    - exfalso. apply R. rewrite <- Ev in *. apply (keys_inj uc Hwide); auto; rewrite ?map_length; lia.
    - exfalso. apply Q. now rewrite R. }
  assert (Sym : forall a b, word_eqb a b = word_eqb b a).
  { intros a b. unfold word_eqb. destruct (list_eq_dec _ a b), (list_eq_dec _ b a); congruence. }
  set (upd := fun e : entry => if has_key (shown_as (map value w)) e then (fst e, bump (marked w) (snd e)) else e).
  assert (Uv : forall l, map (fun e : entry => svalue (snd e)) (map upd l) = map (fun e : entry => svalue (snd e)) l).
  { intros l. rewrite map_map. apply map_ext. intros e. unfold upd. now destruct (has_key _ e). }
  unfold add_window, add_sequence.
  destruct (existsb (has_key (shown_as (map value w))) (entries t)) eqn:X.
  - (* changed *)
    apply existsb_exists in X as (e0 & He0 & X). rewrite (K e0 He0) in X. apply word_eqb_spec in X.
    fold upd. constructor; cbn [entries total_count total_suspect].
    + now rewrite Uv.
    + intros vs. rewrite Uv, V. split.
      * intros (v & Hv & Ev). exists v. rewrite in_app_iff. auto.
      * intros (v & Hv & Ev). apply in_app_or in Hv as [Hv|[<-|[]]]; [eauto|].
        apply V. rewrite <- Ev, X. now apply (in_map (fun e : entry => svalue (snd e))).
    + intros e He. apply in_map_iff in He as (e1 & <- & He). destruct (E e1 He) as (E1 & E2 & E3).
      assert (fst (upd e1) = fst e1 /\ svalue (snd (upd e1)) = svalue (snd e1)) as [-> ->].
      { unfold upd. now destruct (has_key _ e1). }
      split; [exact E1|]. rewrite count_of_snoc, suspects_of_snoc, Sym, <- (K e1 He). unfold upd.
      destruct (has_key _ e1); cbn [fst snd bump scount ssuspect andb]; destruct (marked w); lia.
    + rewrite C, zlen_app. reflexivity.
    + rewrite U, count_if_app, count_if_cons. change (count_if marked []) with 0. lia.
  - (* new *)
    assert (New : ~ (exists v, In v ws /\ map value v = map value w)).
    { intros Hv. apply V in Hv. apply in_map_iff in Hv as (e & Ee & He). apply Bool.not_true_iff_false in X. apply X.
      apply existsb_exists. exists e. split; [exact He|]. rewrite (K e He). now apply word_eqb_spec. }
    constructor; cbn [entries total_count total_suspect].
    + rewrite map_app. cbn [map snd bump svalue]. apply (Permutation_NoDup (Permutation_cons_append _ _)).
      constructor; [|exact N]. intros Hv. apply New. now apply V.
    + intros vs. rewrite map_app, in_app_iff, V. cbn [map snd bump svalue In]. split.
      * intros [(v & Hv & Ev)|[<-|[]]]; [exists v|exists w]; rewrite in_app_iff; cbn [In]; auto.
      * intros (v & Hv & Ev). apply in_app_or in Hv as [Hv|[<-|[]]]; eauto.
    + intros e He. rewrite count_of_snoc, suspects_of_snoc. apply in_app_or in He as [He|[<-|[]]].
      * destruct (E e He) as (E1 & E2 & E3). split; [exact E1|].
        destruct (word_eqb (svalue (snd e)) (map value w)) eqn:Q; [|cbn [andb]; lia].
        exfalso. apply word_eqb_spec in Q. apply New. rewrite <- Q. apply V.
        now apply (in_map (fun e : entry => svalue (snd e))).
      * cbn [fst snd bump svalue scount ssuspect]. split; [reflexivity|]. rewrite word_eqb_refl.
        destruct (count_zero _ _ New) as [-> ->]. cbn [andb]. destruct (marked w); lia.
    + rewrite C, zlen_app. reflexivity.
    + rewrite U, count_if_app, count_if_cons. change (count_if marked []) with 0. lia.
Qed.

Lemma add_windows_ok n ws : (n <= 3)%nat -> (forall v, In v ws -> List.length v = n /\ text_ok v) ->
  tallied ws (fold_left add_window ws (mktable [] 0 0)).
Proof.
  intros Hn. induction ws as [|w ws IH] using rev_ind; intros H.
  { constructor; cbn; [constructor| |intros e []|reflexivity|reflexivity].
    intros vs. split; [intros []|intros (w & [] & _)]. }
  rewrite fold_left_app. cbn [fold_left]. destruct (H w) as [L T]; [apply in_or_app; right; now left|].
  apply (add_window_ok n); auto.
  - intros v Hv. apply H. apply in_or_app. now left.
  - apply IH. intros v Hv. apply H. apply in_or_app. now left.
Qed.

Lemma values_order_lex a : forall b, List.length a = List.length b -> values_order a b <= 0 -> a <> b -> lex a b.
Proof.
  induction a as [|x a IH]; intros [|y b] L H N; try discriminate L; [congruence|].
  cbn [values_order] in H. destruct (Z.eqb_spec x y) as [->|D].
  - apply lex_next. apply IH; auto; congruence.
  - apply lex_first. destruct (Z.ltb_spec x y); lia.
Qed.

Definition seq_row (e : entry) : seqrow := (svalue (snd e), (scount (snd e), ssuspect (snd e))).

Lemma preorder_snd (P : sequence -> Prop) cmp : preorder_on P cmp ->
  preorder_on (fun e : entry => P (snd e)) (fun e1 e2 => cmp (snd e1) (snd e2)).
Proof. intros [A B]. constructor; intros; eauto. Qed.

Lemma write_report_ok n order ws t : (forall l, Permutation l (order l)) ->
  (forall v, In v ws -> List.length v = n /\ text_ok v) -> zlen ws < 2147483648 ->
  tallied ws t -> exists out, write_report order t = Ok out /\ ngram_report uc ws out.
Proof.
  intros Ho Hws Hlen [N V E C U]. set (T := entries t) in *.
  assert (Bnd : forall P : list char -> bool, 0 <= count_if P ws <= zlen ws).
  { intros P. split; [apply count_if_nonneg|]. clear. induction ws as [|v l IH]; [reflexivity|].
    rewrite count_if_cons, zlen_cons. destruct (P v); lia. }
  set (P := fun e : entry => seq_ok n (snd e)).
  assert (HT : forall e, In e T -> P e).
  { intros e He. destruct (E e He) as (_ & E2 & E3). unfold P, seq_ok, CompareProof.figure. rewrite E2, E3.
    destruct (proj1 (V (svalue (snd e)))) as (v & Hv & Ev); [now apply (in_map (fun e : entry => svalue (snd e)))|].
    rewrite <- Ev at 1. rewrite map_length. destruct (Hws v Hv) as [L _]. split; [exact L|].
    unfold count_of, suspects_of. pose proof (Bnd (occurs_as (svalue (snd e)))).
    pose proof (Bnd (fun w => occurs_as (svalue (snd e)) w && existsb suspect w)). lia. }
  set (cmp1 := fun e1 e2 : entry => order_by_value (snd e1) (snd e2)).
  set (cmp2 := fun e1 e2 : entry => seq_by_count (snd e1) (snd e2)).
  assert (P1 : preorder_on P cmp1) by apply preorder_snd, order_by_value_preorder.
  assert (P2 : preorder_on P cmp2) by apply preorder_snd, seq_by_count_preorder.
  destruct (C06_sort _ cmp1 (order T)) as (a1 & E1 & Q1 & S1).
  destruct (C06_sort _ cmp2 a1) as (a2 & E2 & Q2 & S2).
  assert (R1 : Permutation T a1) by (eapply perm_trans; [apply Ho|exact Q1]).
  assert (R2 : Permutation T a2) by (eapply perm_trans; eassumption).
  assert (In1 : forall a x, Permutation T a -> In x a -> In x T).
  { intros a x Ha Hx. eapply Permutation_in; [apply Permutation_sym|]; eassumption. }
  assert (L : forall a, Permutation T a -> lists_sequences ws (map seq_row a)).
  { intros a Ha. constructor.
    - rewrite map_map. cbn [seq_row fst]. eapply Permutation_NoDup; [|exact N].
      apply (Permutation_map (fun e : entry => svalue (snd e))). assumption.
    - intros vs. rewrite map_map. cbn [seq_row fst]. rewrite <- V.
      split; intros H; (eapply Permutation_in; [|exact H]); [apply Permutation_sym|];
      apply (Permutation_map (fun e : entry => svalue (snd e))); assumption.
    - intros vs c s H. apply in_map_iff in H as (e & Ee & H). unfold seq_row in Ee. injection Ee as <- <- <-.
      destruct (E e (In1 a e Ha H)) as (_ & F1 & F2). auto. }
  assert (Nk : forall a, Permutation T a -> NoDup (map (fun e : entry => svalue (snd e)) a)).
  { intros a Ha. eapply Permutation_NoDup; [|exact N]. apply Permutation_map. assumption. }
  assert (Wr : forall a, Permutation T a -> write_array t a = seq_listing uc ws (map seq_row a)).
  { intros a Ha. unfold write_array, seq_listing. rewrite C, U. do 2 f_equal. f_equal.
    assert (H : forall e, In e a -> fst e = flat_map (display uc) (svalue (snd e))).
    { intros e He. destruct (E e (In1 a e Ha He)) as (F & _). exact F. }
    clear - H. induction a as [|e a IH]; [reflexivity|]. cbn [flat_map map]. rewrite IH by (intros; apply H; now right).
    rewrite (H e) by (now left). reflexivity. }
  assert (Hw : write_report order t = Ok (write_array t a1 ++ [10; 10] ++ write_array t a2)).
  { change (obind (sort cmp1 (zlen (order T)) (order T)) (fun array => obind (sort cmp2 (zlen array) array)
      (fun array2 => Ok (write_array t array ++ [10; 10] ++ write_array t array2))) = Ok (write_array t a1 ++ [10; 10] ++ write_array t a2)).
    rewrite E1. cbn [obind]. rewrite E2. reflexivity. }
  rewrite Hw.
  eexists. split; [reflexivity|]. exists (map seq_row a1), (map seq_row a2).
  split; [auto|]. split; [|split; [auto|split]].
  - apply (sorted_strong cmp1 seq_row by_values (fun e => svalue (snd e))); [auto| |].
    + apply (S1 P); [assumption|]. intros x Hx. apply HT.
      eapply Permutation_in; [apply Permutation_sym, Ho|assumption].
    + intros x y Hx Hy Hk Hc. unfold by_values, seq_row. cbn [fst].
      destruct (HT x (In1 _ _ R1 Hx)) as [Lx _]. destruct (HT y (In1 _ _ R1 Hy)) as [Ly _].
      apply values_order_lex; auto. congruence.
  - apply (sorted_strong cmp2 seq_row by_counts (fun e => svalue (snd e))); [auto| |].
    + apply (S2 P); [assumption|]. intros x Hx. apply HT. eauto.
    + intros x y Hx Hy Hk Hc. unfold by_counts, seq_row. cbn [fst snd].
      destruct (HT x (In1 _ _ R2 Hx)) as (Lx & Cx & Mx). destruct (HT y (In1 _ _ R2 Hy)) as (Ly & Cy & My).
      unfold CompareProof.figure in *. unfold cmp2, seq_by_count in Hc.
      destruct (Z.eqb_spec (scount (snd x)) (scount (snd y))) as [F|F]; cbn [negb] in Hc.
      * right. split; [assumption|].
        destruct (Z.eqb_spec (ssuspect (snd x)) (ssuspect (snd y))) as [G|G]; cbn [negb] in Hc.
        -- right. split; [assumption|]. apply values_order_lex; auto. congruence.
        -- left. rewrite to_int_small in Hc by lia. lia.
      * left. rewrite to_int_small in Hc by lia. lia.
  - rewrite !Wr by assumption. reflexivity.
Qed.
End Windows.

(** C50: -n takes "1", "2" or "3"; without it n is 1. *)
Theorem C50_option :
  get_n None = Ok 1 /\
  forall s, ~ In 0 s ->
    (forall n, get_n (Some s) = Ok n <-> s = dec n /\ 1 <= n <= 3) /\
    ((exists n, get_n (Some s) = Ok n) \/ get_n (Some s) = Fail "invalid value").
Proof.
  split; [reflexivity|]. intros s Hs.
  assert (D : forall n, 1 <= n <= 3 -> dec n = [48 + n]).
  { intros n Hn. assert (n = 1 \/ n = 2 \/ n = 3) as [->|[->| ->]] by lia; reflexivity. }
  destruct s as [|c s].
  { cbn. split; [|auto]. intros n. split; [intros Q; discriminate Q|].
    intros [Q Hn]. rewrite D in Q by lia. discriminate Q. }
  unfold get_n, rd. cbn [app]. rewrite znth_cons_0. cbn [obind]. change (48 + MAX_N) with 51.
  destruct (Z.leb_spec 49 c); cbn [andb].
  2:{ split; [|auto]. intros n. split; [intros Q; discriminate Q|].
      intros [Q Hn]. rewrite D in Q by lia. assert (c = 48 + n) by congruence. lia. }
  destruct (Z.leb_spec c 51).
  2:{ split; [|auto]. intros n. split; [intros Q; discriminate Q|].
      intros [Q Hn]. rewrite D in Q by lia. assert (c = 48 + n) by congruence. lia. }
  destruct s as [|d s]; cbn [app].
  - assert (znth [c; 0] 1 = Some 0) as -> by reflexivity. cbn [obind]. change (0 =? 0) with true. cbv iota. split; [|eauto]. intros n. split.
    + intros [= <-]. rewrite D by lia. split; [f_equal|]; lia.
    + intros [Q Hn]. rewrite D in Q by lia. assert (c = 48 + n) by congruence. f_equal. lia.
  - assert (znth (c :: d :: s ++ [0]) 1 = Some d) as -> by reflexivity. cbn [obind].
    destruct (Z.eqb_spec d 0) as [->|_]; [exfalso; apply Hs; right; now left|].
    split; [|auto]. intros n. split; [intros Q; discriminate Q|].
    intros [Q Hn]. rewrite D in Q by lia. discriminate Q.
Qed.
Print Assumptions C50_option.

(** C50: the report of the program on its files.  The sequences do not run across files. *)
Theorem C50_report : forall uc order j j4 nstring n files texts,
  marks_wide uc -> nul_hidden uc -> (forall l, Permutation l (order l)) ->
  get_n nstring = Ok n -> files <> [] ->
  Forall2 (fun f t => (exists b, read_text uc j j4 (mkopt true true 0 true false) [] f = Ok (t, b)) /\ text_ok t) files texts ->
  zlen (flat_map (sequences (Z.to_nat n)) texts) < 2147483648 ->
  exists out, ngram uc order j j4 nstring files = Ok out /\
    ngram_report uc (flat_map (sequences (Z.to_nat n)) texts) out.
Proof.
  intros uc order j j4 nstring n files texts W0 N0 Ho Hn Hne Hf Hlen.
  assert (1 <= n <= 3) as Bn.
  { destruct nstring as [s|]; [|injection Hn as <-; lia]. unfold get_n in Hn.
    destruct (rd _ (s ++ [0]) 0) as [c|?|?|]; cbn [obind] in Hn; try discriminate Hn. change (48 + MAX_N) with 51 in Hn.
    destruct (Z.leb_spec 49 c); cbn [andb] in Hn; [|discriminate Hn]. destruct (Z.leb_spec c 51); [|discriminate Hn].
    destruct (rd _ (s ++ [0]) 1) as [d|?|?|]; cbn [obind] in Hn; try discriminate Hn.
    destruct (d =? 0); [injection Hn as <-; lia|discriminate Hn]. }
  set (m := Z.to_nat n) in *. assert (1 <= m <= 3)%nat as Bm by (subst m; lia).
  assert (Ft : Forall text_ok texts).
  { clear - Hf. induction Hf as [|f t fs ts [_ H] _ IH]; constructor; auto. }
  assert (Fw : forall v, In v (flat_map (sequences m) texts) -> List.length v = m /\ text_ok v).
  { intros v Hv. apply in_flat_map in Hv as (t & Ht & Hv). rewrite Forall_forall in Ft.
    apply (In_sequences m v t Hv). auto. }
  unfold ngram. destruct (Z.eqb_spec (zlen files) 0) as [Z0|_].
  { destruct files; [contradiction|]. rewrite zlen_cons in Z0. pose proof (zlen_nonneg files). lia. }
  rewrite Hn. cbn [obind]. fold m.
  assert (G : forall tab,
    ofold (fun t f => let! (text, _) := read_text uc j j4 (mkopt true true 0 true false) [] f in process_text uc m t text) files tab =
    Ok (fold_left (add_window uc) (flat_map (sequences m) texts) tab)).
  { clear - Hf N0 Bm. induction Hf as [|f t fs ts [(b & R) T] _ IH]; intros tab; [reflexivity|].
    cbn [ofold flat_map]. rewrite R. cbn [obind]. rewrite process_text_ok by auto. cbn [obind].
    rewrite IH, fold_left_app. reflexivity. }
  rewrite G. cbn [obind].
  destruct (write_report_ok uc m order _ _ Ho Fw Hlen (add_windows_ok uc W0 m _ ltac:(lia) Fw)) as (out & E & R).
  exists out. auto.
Qed.
Print Assumptions C50_report.

(** The report is determined by the sequences. *)
Theorem C50_unique : forall uc ws out out', ngram_report uc ws out -> ngram_report uc ws out' -> out = out'.
Proof.
  intros uc ws out out' (r1 & r2 & L1 & S1 & L2 & S2 & ->) (q1 & q2 & M1 & T1 & M2 & T2 & ->).
  assert (Lx : forall a b, lex a b -> ~ lex b a).
  { induction 1; intros H'; inversion H'; subst; try lia; auto. }
  assert (Un : forall R : seqrow -> seqrow -> Prop, (forall x y, R x y -> ~ R y x) -> forall rows rows',
    lists_sequences ws rows -> lists_sequences ws rows' -> StronglySorted R rows -> StronglySorted R rows' -> rows = rows').
  { clear. intros R As rows rows' L L' S S'.
    assert (M : forall r, In r rows <-> In r rows').
    { assert (X : forall l l', lists_sequences ws l -> lists_sequences ws l' -> forall r, In r l -> In r l').
      { intros l l' A B [w [c s]] H. destruct (ls_figures _ _ A _ _ _ H) as [Hc Hs].
        assert (W : In w (map fst l')).
        { apply (ls_values _ _ B). apply (ls_values _ _ A). apply (in_map fst) in H. exact H. }
        apply in_map_iff in W as ([w' [c' s']] & E & H'). cbn [fst] in E. subst w'.
        destruct (ls_figures _ _ B _ _ _ H') as [-> ->]. rewrite Hc, Hs. exact H'. }
      intros r. split; apply X; assumption. }
    assert (N : NoDup rows) by (apply (NoDup_map_inv fst), L).
    assert (N' : NoDup rows') by (apply (NoDup_map_inv fst), L').
    clear L L'. revert rows' S' M N'.
    induction S as [|x l S IH F]; intros rows' S' M N'.
    - destruct rows' as [|y l']; [reflexivity|]. exfalso. apply (M y). left. reflexivity.
    - destruct rows' as [|y l']; [exfalso; apply (M x); left; reflexivity|].
      inversion S' as [|? ? S'' F']; subst. inversion N as [|? ? N1 N2]; subst.
      inversion N' as [|? ? N1' N2']; subst. rewrite Forall_forall in F, F'.
      assert (x = y).
      { destruct (proj1 (M x) (or_introl eq_refl)) as [E|Hx]; [auto|].
        destruct (proj2 (M y) (or_introl eq_refl)) as [E|Hy]; [auto|].
        exfalso. apply (As x y); [apply F; assumption|apply F'; assumption]. }
      subst y. f_equal. apply IH; auto. intros r. split; intros H.
      + destruct (proj1 (M r) (or_intror H)) as [->|]; [contradiction|assumption].
      + destruct (proj2 (M r) (or_intror H)) as [->|]; [contradiction|assumption]. }
  rewrite (Un by_values) with (rows := r1) (rows' := q1); auto.
  - rewrite (Un by_counts) with (rows := r2) (rows' := q2); auto. unfold by_counts. intros x y H H'.
    destruct H as [H|(H & [G|(G & I)])], H' as [H'|(H' & [G'|(G' & I')])]; try lia. eapply Lx; eassumption.
  - unfold by_values. intros x y H H'. eapply Lx; eassumption.
Qed.
Print Assumptions C50_unique.

(** No file, a bad value of -n, or an unusable file is an error. *)
Theorem C50_no_files : forall uc order j j4 nstring, ngram uc order j j4 nstring [] = Fail "no text files specified".
Proof. reflexivity. Qed.
Print Assumptions C50_no_files.

Theorem C50_bad_file : forall uc order j j4 nstring n files1 f files2 texts m,
  nul_hidden uc -> get_n nstring = Ok n -> 1 <= n <= 3 ->
  Forall2 (fun f t => (exists b, read_text uc j j4 (mkopt true true 0 true false) [] f = Ok (t, b)) /\ text_ok t) files1 texts ->
  read_text uc j j4 (mkopt true true 0 true false) [] f = Fail m ->
  ngram uc order j j4 nstring (files1 ++ f :: files2) = Fail m.
Proof.
  intros uc order j j4 nstring n files1 f files2 texts m N0 Hn Bn Hf Hm. unfold ngram.
  destruct (Z.eqb_spec (zlen (files1 ++ f :: files2)) 0) as [Z0|_].
  { rewrite zlen_app, zlen_cons in Z0. pose proof (zlen_nonneg files1).
    pose proof (zlen_nonneg files2). lia. }
  rewrite Hn. cbn [obind].
  assert (G : forall tab, ofold (fun t f => let! (text, _) := read_text uc j j4 (mkopt true true 0 true false) [] f in
     process_text uc (Z.to_nat n) t text) (files1 ++ f :: files2) tab = Fail m).
  { clear - Hf Hm N0 Bn. induction Hf as [|g t files lists [(b & R) T] _ IH]; intros tab; cbn [app ofold].
    - rewrite Hm. reflexivity.
    - rewrite R. cbn [obind]. rewrite process_text_ok by (auto; lia). cbn [obind]. apply IH. }
  rewrite G. reflexivity.
Qed.
Print Assumptions C50_bad_file.

(** The totals of the report are the sums of its columns, and the number of sequences of a
    text is its length less n - 1. *)
Theorem C50_totals : forall ws rows, lists_sequences ws rows ->
  fold_right (fun r s => fst (snd r) + s) 0 rows = zlen ws /\
  fold_right (fun r s => snd (snd r) + s) 0 rows = count_if (existsb suspect) ws.
Proof.
  assert (G : forall (P : list char -> bool) ws rows, NoDup (map (@fst (list Z) (Z * Z)) rows) ->
    (forall w, In w ws -> In (map value w) (map fst rows)) ->
    fold_right (fun r s => count_if (fun w => occurs_as (fst r) w && P w) ws + s) 0 rows = count_if P ws).
  { intros P. induction ws as [|w ws IH]; intros rows N H.
    { clear. induction rows as [|r rows IH]; [reflexivity|]. cbn [fold_right]. rewrite IH. reflexivity. }
    rewrite count_if_cons, <- (IH rows N) by (intros; apply H; now right).
    specialize (H w (or_introl eq_refl)). clear IH. induction rows as [|r rows IH]; [destruct H|].
    cbn [fold_right map] in *. inversion N as [|? ? N1 N2]; subst. rewrite count_if_cons.
    destruct (occurs_as (fst r) w) eqn:O.
    - assert (forall r', In r' rows -> occurs_as (fst r') w = false) as Q.
      { intros r' Hr. destruct (occurs_as (fst r') w) eqn:O'; [|reflexivity]. exfalso. apply N1.
        unfold occurs_as in *. apply word_eqb_spec in O, O'. rewrite O, <- O'. now apply in_map. }
      assert (fold_right (fun r0 s => count_if (fun w0 => occurs_as (fst r0) w0 && P w0) (w :: ws) + s) 0 rows =
              fold_right (fun r0 s => count_if (fun w0 => occurs_as (fst r0) w0 && P w0) ws + s) 0 rows) as E.
      { clear - Q. induction rows as [|r rows IH]; [reflexivity|]. cbn [fold_right].
        rewrite IH by (intros; apply Q; now right). rewrite count_if_cons, (Q r) by (now left). reflexivity. }
      rewrite E. cbn [andb]. lia.
    - destruct H as [H|H].
      { exfalso. unfold occurs_as in O. rewrite H, word_eqb_refl in O. discriminate O. }
      rewrite (IH N2 H). cbn [andb]. lia. }
  intros ws rows L. destruct L as [N V F].
  assert (H : forall w, In w ws -> In (map value w) (map fst rows)).
  { intros w Hw. apply V. eauto. }
  split.
  - rewrite <- (count_if_true ws), <- (G (fun _ => true) ws rows N H).
    assert (Q : forall r, In r rows -> fst (snd r) = count_if (fun w => occurs_as (fst r) w && true) ws).
    { intros [vs [c s]] Hr. destruct (F _ _ _ Hr) as [-> _]. unfold count_of. cbn [fst snd]. apply count_if_ext. intros w _.
      now rewrite andb_true_r. }
    clear - Q. induction rows as [|r rows IH]; [reflexivity|]. cbn [fold_right].
    rewrite (Q r) by (now left). now rewrite IH by (intros; apply Q; now right).
  - rewrite <- (G (existsb suspect) ws rows N H).
    assert (Q : forall r, In r rows -> snd (snd r) = count_if (fun w => occurs_as (fst r) w && existsb suspect w) ws).
    { intros [vs [c s]] Hr. destruct (F _ _ _ Hr) as [_ ->]. reflexivity. }
    clear - Q. induction rows as [|r rows IH]; [reflexivity|]. cbn [fold_right].
    rewrite (Q r) by (now left). now rewrite IH by (intros; apply Q; now right).
Qed.
Print Assumptions C50_totals.

Theorem C50_sequences : forall n t w, (1 <= n)%nat ->
  (In w (sequences n t) <-> List.length w = n /\ exists before after, t = before ++ w ++ after) /\
  zlen (sequences n t) = Z.max 0 (zlen t - Z.of_nat n + 1).
Proof.
  intros n t w Hn. unfold sequences. split.
  - rewrite in_map_iff. split.
    + intros (i & <- & H). apply in_seq in H. split.
      * rewrite firstn_length, skipn_length. lia.
      * exists (firstn i t), (skipn n (skipn i t)). now rewrite firstn_skipn, firstn_skipn.
    + intros (L & before & after & ->). exists (List.length before). split.
      * rewrite skipn_app, skipn_all, Nat.sub_diag. cbn [app skipn]. rewrite <- L.
        rewrite firstn_app, Nat.sub_diag, firstn_all. cbn [firstn]. now rewrite app_nil_r.
      * apply in_seq. rewrite !app_length. lia.
  - unfold zlen. rewrite map_length, seq_length. lia.
Qed.
Print Assumptions C50_sequences.

Example C50_ex :
  let uc := mkuc (fun c => if c <? 32 then CC else LL) (fun c => c) in
  marks_wide uc /\ nul_hidden uc /\
  ngram uc (fun l => rev l) (repeat 0 100) [0; 0; 0; 0] (Some (bytes "2")) [bytes "abab" ; bytes "ab^b"] =
  Ok (bytes "   Count  Suspect" ++ [10] ++
      bytes "       3        0   {ab}" ++ [10] ++ bytes "       1        0   {ba}" ++ [10] ++ bytes "       1        1   {bb}" ++ [10] ++ bytes "       5        1   Total" ++ [10] ++ [10; 10] ++
      bytes "   Count  Suspect" ++ [10] ++
      bytes "       3        0   {ab}" ++ [10] ++ bytes "       1        1   {bb}" ++ [10] ++ bytes "       1        0   {ba}" ++ [10] ++ bytes "       5        1   Total" ++ [10]).
Proof. cbv zeta. split. { intros v _. unfold is_combining. cbn [cat]. now destruct (v <? 32). }
  split; [reflexivity|]. vm_compute. reflexivity. Qed.
