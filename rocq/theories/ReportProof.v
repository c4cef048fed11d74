(** Reading back formatted lines. *)
From Coq Require Import String.
From Verif Require Import Base CLib CLibProof TextIO ReportModel ReportSpec.
Local Open Scope Z_scope.
Local Open Scope list_scope.

Definition holds (b l : list Z) : Prop := line_buffer b /\ exists tl, b = l ++ 0 :: tl.

Definition no_digit (rest : list Z) : Prop :=
  match rest with [] => True | c :: _ => is_digit c = false end.

Lemma skip_space_repeat k s : skip_space (repeat 32 k ++ s) = skip_space s.
Proof. induction k; cbn; auto. Qed.

Lemma span_all p a b : Forall (fun c => p c = true) a ->
  match b with [] => True | c :: _ => p c = false end -> span p (a ++ b) = (a, b).
Proof.
  intros F B. induction F as [|x a E F IH]; cbn.
  - destruct b; cbn; [reflexivity|]. now rewrite B.
  - now rewrite E, IH.
Qed.

Lemma dec_digits n : 0 <= n -> Forall (fun c => is_digit c = true) (map dec_digit (digits 10 n)).
Proof.
  intros H. apply Forall_map. eapply Forall_impl; [|apply (digits_range 10 n); lia].
  intros d D. cbn in D. unfold is_digit, dec_digit. lia.
Qed.

Lemma dec_value n : 0 <= n ->
  of_digits 10 (map (fun c => c - 48) (map dec_digit (digits 10 n))) = n.
Proof.
  intros H. rewrite map_map. rewrite (map_ext _ (fun x => x)) by (intros; unfold dec_digit; lia).
  rewrite map_id. apply digits_value; lia.
Qed.

Lemma scan_long_dec8 n rest : 0 <= n <= LONG_MAX -> no_digit rest ->
  scan_long (dec8 n ++ rest) = Some (n, rest).
Proof.
  intros H R. unfold scan_long, dec8, pad, dec. destruct (Z.ltb_spec n 0); [lia|].
  rewrite <- app_assoc, skip_space_repeat.
  pose proof (dec_digits n ltac:(lia)) as D. pose proof (dec_value n ltac:(lia)) as V.
  assert (map dec_digit (digits 10 n) <> []) as E.
  { pose proof (digits_nonempty 10 n). destruct (digits 10 n); [congruence|discriminate]. }
  destruct (map dec_digit (digits 10 n)) as [|c ds] eqn:Q; [congruence|].
  pose proof D as D'. apply Forall_cons_iff in D' as [C _]. unfold is_digit in C.
  cbn [app skip_space]. replace (is_space c) with false by (unfold is_space; lia).
  cbn [scan_sign]. replace (c =? 45) with false by lia. replace (c =? 43) with false by lia.
  change (c :: ds ++ rest) with ((c :: ds) ++ rest). rewrite (span_all is_digit _ rest D R).
  rewrite V. f_equal. f_equal. lia.
Qed.

Lemma scan_long_sp s : scan_long (32 :: s) = scan_long s.
Proof. reflexivity. Qed.

Lemma dec8_len n : 0 <= n < 100000000 -> zlen (dec8 n) = 8.
Proof.
  intros H. unfold dec8, pad, dec. destruct (Z.ltb_spec n 0); [lia|].
  pose proof (digits_len 10 n 7 ltac:(lia) ltac:(change (10 ^ Z.of_nat 8) with 100000000; lia)).
  unfold zlen. rewrite app_length, repeat_length, !map_length. lia.
Qed.

Lemma dec8_chars n : 0 <= n -> Forall (fun c => c = 32 \/ is_digit c = true) (dec8 n).
Proof.
  intros H. unfold dec8, pad, dec. destruct (Z.ltb_spec n 0); [lia|]. apply Forall_app. split.
  - apply Forall_forall. intros c Hc. apply repeat_spec in Hc. auto.
  - eapply Forall_impl; [|now apply dec_digits]. auto.
Qed.

Lemma scan_one_dec8 n rest : 0 <= n <= LONG_MAX -> no_digit rest ->
  scan_one (dec8 n ++ rest) = Some n.
Proof. intros. unfold scan_one. now rewrite scan_long_dec8. Qed.

Lemma scan_two_dec8 a b rest : 0 <= a <= LONG_MAX -> 0 <= b <= LONG_MAX -> no_digit rest ->
  scan_two (dec8 a ++ bytes " " ++ dec8 b ++ rest) = Some (a, b).
Proof.
  intros Ha Hb R. unfold scan_two. rewrite scan_long_dec8; [|exact Ha|reflexivity].
  change (bytes " " ++ dec8 b ++ rest) with (32 :: dec8 b ++ rest).
  now rewrite scan_long_sp, scan_long_dec8.
Qed.

Lemma scan_four_dec8 a b c d rest : 0 <= a <= LONG_MAX -> 0 <= b <= LONG_MAX ->
  0 <= c <= LONG_MAX -> 0 <= d <= LONG_MAX -> no_digit rest ->
  scan_four (dec8 a ++ bytes " " ++ dec8 b ++ bytes " " ++ dec8 c ++ bytes " " ++ dec8 d ++ rest)
  = Some (a, b, c, d).
Proof.
  intros Ha Hb Hc Hd R. unfold scan_four. rewrite scan_long_dec8; [|exact Ha|reflexivity].
  change (bytes " " ++ dec8 b ++ bytes " " ++ dec8 c ++ bytes " " ++ dec8 d ++ rest)
    with (32 :: dec8 b ++ bytes " " ++ dec8 c ++ bytes " " ++ dec8 d ++ rest).
  rewrite scan_long_sp, scan_long_dec8; [|exact Hb|reflexivity].
  change (bytes " " ++ dec8 c ++ bytes " " ++ dec8 d ++ rest)
    with (32 :: dec8 c ++ bytes " " ++ dec8 d ++ rest).
  rewrite scan_long_sp, scan_long_dec8; [|exact Hc|reflexivity].
  change (bytes " " ++ dec8 d ++ rest) with (32 :: dec8 d ++ rest).
  now rewrite scan_long_sp, scan_long_dec8.
Qed.

(** ** Lines *)
Lemma store_buffer b s : line_buffer b -> zlen s <= 98 ->
  exists b', store_string b s = Ok b' /\ holds b' s.
Proof.
  intros [L Z99] H. unfold store_string. replace (zlen s <? zlen b) with true by lia.
  eexists. split; [reflexivity|].
  assert (zlen s = Z.of_nat (List.length s)) as E by reflexivity.
  assert (zlen b = Z.of_nat (List.length b)) as Eb by reflexivity.
  split; [split|eauto].
  - unfold zlen. rewrite app_length. cbn [List.length]. rewrite skipn_length. lia.
  - change (s ++ 0 :: skipn (S (List.length s)) b) with (s ++ [0] ++ skipn (S (List.length s)) b).
    rewrite app_assoc. unfold znth in *. cbn in Z99 |- *.
    destruct (Nat.lt_ge_cases 99 (List.length (s ++ [0]))) as [C|C].
    + rewrite app_length in C. cbn in C. lia.
    + rewrite nth_error_app2 by exact C. rewrite app_length in *. cbn [List.length] in *.
      assert (b = firstn (S (List.length s)) b ++ skipn (S (List.length s)) b) as Eq
        by (symmetry; apply firstn_skipn).
      rewrite Eq in Z99.
      rewrite nth_error_app2 in Z99 by (rewrite firstn_length; lia).
      rewrite firstn_length in Z99. rewrite <- Z99. f_equal. lia.
Qed.

Lemma read_line_ok b l rest : line_buffer b -> report_line l ->
  exists b', read_line (b, l ++ rest) = Ok (true, (b', rest)) /\ holds b' l.
Proof.
  intros B (body & -> & N10 & N0 & L). unfold read_line, fgets. cbn [fst snd].
  rewrite <- app_assoc. cbn [app].
  assert (exists c t, body ++ 10 :: rest = c :: t) as (c & t & E)
    by (destruct body; cbn; eauto).
  rewrite E. rewrite <- E. change (Z.to_nat (99 - 1)) with 98%nat.
  rewrite zlen_app in L. change (zlen [10]) with 1 in L. unfold zlen in L.
  rewrite fgets_line by (auto; lia).
  destruct (store_buffer b (body ++ [10])) as (b' & -> & H); auto.
  { rewrite zlen_app. change (zlen [10]) with 1. unfold zlen. lia. }
  exists b'. split; [reflexivity|exact H].
Qed.

Lemma read_line_eof b : read_line (b, []) = Ok (false, (b, [])).
Proof. reflexivity. Qed.

Lemma read_line_any b f : line_buffer b -> f <> [] ->
  exists s f', read_line (b, f) = let! b := store_string b s in Ok (true, (b, f')).
Proof. intros B F. unfold read_line, fgets. cbn [fst snd]. destruct f; [congruence|].
  destruct (fgets_bytes _ _) as [s f'] eqn:E. exists s, f'. reflexivity. Qed.

Lemma upto_nul_plain s r : ~ In 0 s -> upto_nul (s ++ 0 :: r) = Ok s.
Proof. intros H. rewrite upto_nul_spec. now rewrite cutnul_id. Qed.

Lemma report_line_no_nul l : report_line l -> ~ In 0 l.
Proof.
  intros (body & -> & _ & N0 & _) H. apply in_app_iff in H as [H|[H|[]]]; [auto|discriminate H].
Qed.

Lemma cstr_holds b pre s : holds b (pre ++ s) -> ~ In 0 s -> cstr b (zlen pre) = Ok s.
Proof.
  intros [[L _] (tl & ->)] N. unfold cstr. pose proof (zlen_nonneg pre).
  rewrite <- app_assoc in *. rewrite zlen_app. pose proof (zlen_nonneg (s ++ 0 :: tl)).
  replace ((0 <=? zlen pre) && (zlen pre <=? zlen pre + zlen (s ++ 0 :: tl))) with true by lia.
  unfold zlen. rewrite Nat2Z.id. rewrite skipn_app, skipn_all, Nat.sub_diag. cbn [app skipn].
  now apply upto_nul_plain.
Qed.

Lemma cstr0_holds b l : holds b l -> ~ In 0 l -> cstr b 0 = Ok l.
Proof. intros H N. apply (cstr_holds b [] l); auto. Qed.

Lemma read_scan_ok {A} (scan : list Z -> option A) b l rest : line_buffer b -> report_line l ->
  exists b', read_scan scan (b, l ++ rest) = Ok (scan l, (b', rest)) /\ holds b' l.
Proof.
  intros B R. destruct (read_line_ok b l rest B R) as (b' & E & H). exists b'. split; [|exact H].
  unfold read_scan. rewrite E. cbn [obind fst].
  rewrite (cstr0_holds b' l H) by now apply report_line_no_nul. reflexivity.
Qed.

Lemma read_scan_eof {A} (scan : list Z -> option A) b : read_scan scan (b, []) = Ok (None, (b, [])).
Proof. reflexivity. Qed.

Lemma need_line_ok b l rest : line_buffer b -> report_line l ->
  exists b', need_line (b, l ++ rest) = Ok (b', rest) /\ line_buffer b'.
Proof.
  intros B R. destruct (read_line_ok b l rest B R) as (b' & E & H). exists b'.
  unfold need_line. rewrite E. split; [reflexivity|apply H].
Qed.

Lemma need_scan_ok {A} (scan : list Z -> option A) x b l rest :
  line_buffer b -> report_line l -> scan l = Some x ->
  exists b', need_scan scan (b, l ++ rest) = Ok (x, (b', rest)) /\ line_buffer b'.
Proof.
  intros B R S. destruct (read_scan_ok scan b l rest B R) as (b' & E & H). exists b'.
  unfold need_scan. rewrite E. cbn [obind]. rewrite S. split; [reflexivity|apply H].
Qed.

Lemma strneq_refl a n : strneq a a n = true.
Proof. revert a; induction n; intros [|x a]; cbn; auto. now rewrite Z.eqb_refl, IHn. Qed.

Lemma need_title_ok b l rest : line_buffer b -> report_line l ->
  exists b', need_title l (b, l ++ rest) = Ok (b', rest) /\ line_buffer b'.
Proof.
  intros B R. destruct (read_line_ok b l rest B R) as (b' & E & H). exists b'.
  unfold need_title. rewrite E. cbn [obind fst].
  rewrite (cstr0_holds b' l H) by now apply report_line_no_nul. cbn [obind].
  rewrite strneq_refl. split; [reflexivity|apply H].
Qed.

Lemma need_divider_ok b l rest : line_buffer b -> report_line l ->
  exists b', need_divider l (b, l ++ rest) = Ok (b', rest) /\ line_buffer b'.
Proof.
  intros B R. destruct (read_line_ok b l rest B R) as (b' & E & H). exists b'.
  unfold need_divider. rewrite E. cbn [obind fst].
  rewrite (cstr0_holds b' l H) by now apply report_line_no_nul. cbn [obind].
  rewrite (proj2 (streq_spec l l) eq_refl). split; [reflexivity|apply H].
Qed.

(** Building lines. *)
Definition clean (s : list Z) : Prop := ~ In 10 s /\ ~ In 0 s.
Lemma clean_app a b : clean a -> clean b -> clean (a ++ b).
Proof. intros [A1 A2] [B1 B2]. split; rewrite in_app_iff; tauto. Qed.
Lemma clean_dec8 n : 0 <= n -> clean (dec8 n).
Proof.
  intros H. pose proof (dec8_chars n H) as F. rewrite Forall_forall in F.
  split; intros I; destruct (F _ I) as [E|E]; discriminate E.
Qed.
Lemma clean_check s : forallb (fun c => negb (c =? 10) && negb (c =? 0)) s = true -> clean s.
Proof.
  rewrite forallb_forall. intros F. split; intros I; specialize (F _ I); discriminate F.
Qed.
Lemma line_intro s : clean s -> zlen s <= 97 -> report_line (s ++ [10]).
Proof.
  intros [A B] L. exists s. repeat split; auto. rewrite zlen_app. change (zlen [10]) with 1. lia.
Qed.
Lemma clean_line_len l : report_line l -> zlen l <= 98.
Proof. now intros (? & ? & ? & ? & ?). Qed.

(** Output of loops. *)
Lemma oconcat_ok {A} (f : A -> outcome (list Z)) g l :
  (forall x, In x l -> f x = Ok (g x)) -> oconcat f l = Ok (flat_map g l).
Proof.
  intros H. unfold oconcat.
  assert (forall acc, ofold (fun acc x => let! s := f x in Ok (acc ++ s)) l acc
                      = Ok (acc ++ flat_map g l)) as G; [|apply G].
  induction l as [|x l IH]; intros acc; cbn [ofold flat_map]; [now rewrite app_nil_r|].
  rewrite (H x) by now left. cbn [obind]. rewrite IH by (intros; apply H; now right).
  now rewrite app_assoc.
Qed.
