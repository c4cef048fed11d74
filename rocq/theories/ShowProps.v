(** Property C75: how a character is shown in reports and in written texts. *)
From Coq Require Import String.
From Verif Require Import Base CLib CLibProof Utf8Model Utf8Proof TextModel TextSpec TextProof TextIO AccModel AccSpec
  AccProof AccrptSpec AccrptChar NgramKeys ShowSpec.
Local Open Scope Z_scope.
Local Open Scope list_scope.

Lemma graphic_visible uc v : is_graphic uc v = true <-> visible uc v.
Proof.
  unfold is_graphic, visible. destruct (Z.eqb_spec v 32) as [E|N].
  - split; [now left|reflexivity].
  - split.
    + intros H. right. destruct (cat uc v); try discriminate H; try (right; split; intros X; discriminate X). now left.
    + intros [H|[H|[H1 H2]]]; [congruence| |]; destruct (cat uc v); try discriminate H; try reflexivity; now (contradiction H1 || contradiction H2).
Qed.
Lemma combining_mark uc v : is_combining uc v = true <-> combining uc v.
Proof.
  unfold is_combining, combining. destruct (cat uc v); cbn; split; intros H; first [reflexivity|discriminate H].
Qed.

Lemma to_digits_first fuel b n : 1 < b -> 0 < n -> (Z.to_nat (Z.log2 n) < fuel)%nat ->
  exists d r, to_digits fuel b n = d :: r /\ d <> 0.
Proof.
  intros Hb. revert n; induction fuel as [|f IH]; intros n Hn Hf; [lia|]. cbn [to_digits].
  destruct (Z.ltb_spec n b).
  - exists n, []. split; [reflexivity|lia].
  - assert (0 < n / b) by (apply Z.div_str_pos; lia).
    destruct (IH (n / b)) as (d & r & E & Nd); [assumption| |].
    + assert (n / b <= n / 2) by (apply Z.div_le_compat_l; lia).
      assert (Z.log2 (n / b) < Z.log2 n); [|pose proof (Z.log2_nonneg (n / b)); lia].
      apply Z.le_lt_trans with (Z.log2 (n / 2)); [now apply Z.log2_le_mono|].
      rewrite <- Z.div2_div. 
      assert (0 < Z.div2 n) by (rewrite Z.div2_div; lia).
      assert (2 * Z.div2 n <= n) by (rewrite Z.div2_div; apply Z.mul_div_le; lia).
      apply Z.lt_le_trans with (Z.log2 (2 * Z.div2 n)); [rewrite Z.log2_double by lia; lia|now apply Z.log2_le_mono].
    + rewrite E. exists d, (r ++ [n mod b]). split; [reflexivity|exact Nd].
Qed.

Lemma of_digits_16 ds : fold_left (fun a d => 16 * a + d) ds 0 = of_digits 16 ds.
Proof.
  unfold of_digits. generalize 0. induction ds as [|d ds IH]; intros a; [reflexivity|]. cbn [fold_left].
  rewrite <- IH. f_equal. lia.
Qed.

Lemma hexpad_text w v : 0 <= v -> (1 <= w)%nat -> hex_text w v (hexpad w v).
Proof.
  intros V W. unfold hexpad, pad. rewrite map_length. set (k := (w - List.length (digits 16 v))%nat).
  exists (repeat 0 k ++ digits 16 v). split; [|split; [|split]].
  - apply Forall2_app.
    + clearbody k. induction k; cbn; constructor; auto. left. lia.
    + pose proof (digits_range 16 v ltac:(lia) V) as R. induction R as [|d l D R IH]; cbn; constructor; auto.
      unfold hex_digit, upper_hex. destruct (Z.ltb_spec d 10); [left|right]; lia.
  - rewrite of_digits_16. unfold of_digits. rewrite fold_left_app.
    replace (fold_left (fun a d => a * 16 + d) (repeat 0 k) 0) with 0; [now apply digits_value|].
    clearbody k. induction k; cbn [repeat fold_left]; [reflexivity|]. exact IHk.
  - rewrite app_length, repeat_length, map_length. lia.
  - rewrite app_length, repeat_length, map_length. intros L. assert (k = 0%nat) as K by lia. rewrite K. cbn [repeat app].
    destruct (Z.eq_dec v 0) as [Z0|N].
    + exfalso. subst v. change (List.length (digits 16 0)) with 1%nat in *. lia.
    + apply to_digits_first; lia.
Qed.

(** C75: every value of the Unicode range is shown, in the form its category calls for. *)
Theorem C75_shown : forall uc (suspect named : bool) v, 0 <= v <= 1114111 ->
  exists s, char_to_string uc suspect v named = Ok ((if suspect then bytes "^" else []) ++ s) /\
    shows_value uc named v s.
Proof.
  intros uc suspect named v V. unfold char_to_string.
  assert ((if suspect then encode_or_die SUSPECT_MARKER else Ok []) =
    Ok (if suspect then bytes "^" else [])) as -> by now destruct suspect.
  cbn [obind]. unfold NEWLINE. destruct (Z.eqb_spec v 10) as [E|N].
  { destruct named; eexists; (split; [reflexivity|]); [apply shows_named|apply shows_newline]; auto. }
  destruct (is_graphic uc v) eqn:G.
  - apply graphic_visible in G. destruct (is_combining uc v) eqn:C.
    + unfold DOTTED_CIRCLE. rewrite !encode_or_die_ok by lia. cbn [obind]. exists (utf8 9676 ++ utf8 v).
      split; [reflexivity|]. apply shows_mark; auto. now apply combining_mark.
    + rewrite encode_or_die_ok by lia. cbn [obind app]. exists (utf8 v). split; [reflexivity|].
      apply shows_itself; auto. rewrite <- combining_mark. congruence.
  - assert (~ visible uc v) as NV by (rewrite <- graphic_visible; congruence).
    destruct (Z.ltb_spec v 256); eexists; (split; [reflexivity|]).
    + apply shows_escape2; auto. apply hexpad_text; lia.
    + apply shows_escape4; auto. apply hexpad_text; lia.
Qed.
Print Assumptions C75_shown.

(** The form is determined by the value. *)
Lemma upper_hex_fun d c e : upper_hex d c -> upper_hex e c -> d = e.
Proof. unfold upper_hex. lia. Qed.
Lemma upper_hex_range d c : upper_hex d c -> 0 <= d < 16.
Proof. unfold upper_hex. lia. Qed.

Lemma hex_fold_bounds ds : forall a, 0 <= a -> Forall (fun d => 0 <= d < 16) ds ->
  a * 16 ^ zlen ds <= fold_left (fun a d => 16 * a + d) ds a < (a + 1) * 16 ^ zlen ds.
Proof.
  induction ds as [|d ds IH]; intros a A F.
  - cbn. lia.
  - apply Forall_cons_iff in F as [D F]. cbn [fold_left]. specialize (IH (16 * a + d) ltac:(lia) F).
    rewrite zlen_cons, Z.pow_add_r by (pose proof (zlen_nonneg ds); lia). change (16 ^ 1) with 16.
    assert (0 < 16 ^ zlen ds) by (apply Z.pow_pos_nonneg; pose proof (zlen_nonneg ds); lia). nia.
Qed.

Lemma hex_fold_inj ds : forall es a b, 0 <= a -> 0 <= b -> Forall (fun d => 0 <= d < 16) ds -> Forall (fun d => 0 <= d < 16) es ->
  List.length ds = List.length es ->
  fold_left (fun a d => 16 * a + d) ds a = fold_left (fun a d => 16 * a + d) es b -> a = b /\ ds = es.
Proof.
  induction ds as [|d ds IH]; intros [|e es] a b A B F1 F2 L E; try discriminate L.
  - now split.
  - apply Forall_cons_iff in F1 as [D F1]. apply Forall_cons_iff in F2 as [D' F2]. injection L as L. cbn [fold_left] in E.
    destruct (IH es (16 * a + d) (16 * b + e)) as [X ->]; auto; try lia. split; [lia|f_equal; lia].
Qed.

Lemma upper_hex_char ds : forall h k, Forall2 upper_hex ds h -> Forall2 upper_hex ds k -> h = k.
Proof.
  induction ds as [|d ds IH]; intros h k H K; inversion H; inversion K; subst; [reflexivity|]. f_equal; [|now apply IH].
  unfold upper_hex in *. lia.
Qed.

Lemma hex_text_unique w v h k : hex_text w v h -> hex_text w v k -> h = k.
Proof.
  assert (forall ds h, Forall2 upper_hex ds h -> Forall (fun d => 0 <= d < 16) ds /\ List.length ds = List.length h) as R.
  { intros ds x F. induction F as [|d c ds l D F [I1 I2]]; [now split|]. split; [constructor; [now apply upper_hex_range in D|exact I1]|cbn; lia]. }
  assert (forall ds es, Forall (fun d => 0 <= d < 16) ds -> Forall (fun d => 0 <= d < 16) es ->
    (List.length ds < List.length es)%nat -> (exists d r, es = d :: r /\ d <> 0) ->
    fold_left (fun a d => 16 * a + d) ds 0 <> fold_left (fun a d => 16 * a + d) es 0) as B.
  { intros ds es F1 F2 L (d & r & -> & Nd). apply Forall_cons_iff in F2 as [D F2].
    pose proof (hex_fold_bounds ds 0 ltac:(lia) F1) as B1. cbn [fold_left].
    pose proof (hex_fold_bounds r (16 * 0 + d) ltac:(lia) F2) as B2.
    assert (16 ^ zlen ds <= 16 ^ zlen r) by (apply Z.pow_le_mono_r; [lia|unfold zlen; cbn in L; lia]).
    assert (0 < 16 ^ zlen ds) by (apply Z.pow_pos_nonneg; pose proof (zlen_nonneg ds); lia). nia. }
  intros (ds & F1 & E1 & L1 & M1) (es & F2 & E2 & L2 & M2).
  destruct (R _ _ F1) as [R1 Q1], (R _ _ F2) as [R2 Q2].
  destruct (lt_eq_lt_dec (List.length ds) (List.length es)) as [[L|L]|L].
  - exfalso. apply (B ds es R1 R2 L); [apply M2; lia|congruence].
  - destruct (hex_fold_inj ds es 0 0) as [_ ->]; auto; try lia; try congruence. now apply (upper_hex_char es).
  - exfalso. apply (B es ds R2 R1 L); [apply M1; lia|congruence].
Qed.

Theorem C75_one_form : forall uc named v s t, shows_value uc named v s -> shows_value uc named v t -> s = t.
Proof.
  intros uc named v s t [E N|E N|E V M|E V M|h E V L H|h E V L H] [E' N'|E' N'|E' V' M'|E' V' M'|h' E' V' L' H'|h' E' V' L' H'];
    try contradiction; try congruence; try lia.
  - now rewrite (hex_text_unique _ _ _ _ H H').
  - now rewrite (hex_text_unique _ _ _ _ H H').
Qed.
Print Assumptions C75_one_form.

(** A value above the Unicode range that the data base calls visible stops the program. *)
Theorem C75_unencodable : forall uc (suspect named : bool) v, 1114111 < v -> visible uc v ->
  char_to_string uc suspect v named = Fail "could not encode UTF-8".
Proof.
  intros uc suspect named v V G. apply graphic_visible in G. unfold char_to_string.
  assert ((if suspect then encode_or_die SUSPECT_MARKER else Ok []) =
    Ok (if suspect then bytes "^" else [])) as -> by now destruct suspect.
  cbn [obind]. unfold NEWLINE. replace (v =? 10) with false by lia. rewrite G.
  assert ((if is_combining uc v then encode_or_die DOTTED_CIRCLE else Ok []) =
    Ok (if is_combining uc v then utf8 9676 else [])) as -> by now destruct (is_combining uc v).
  cbn [obind]. unfold encode_or_die, encode_char.
  repeat match goal with |- context [?a <? ?b] => replace (a <? b) with false by lia end. reflexivity.
Qed.
Print Assumptions C75_unencodable.

(** Two characters that differ, in their value or in being suspect, are shown differently. *)
Theorem C75_distinct : forall uc (named : bool) su u sv v s,
  marks_wide uc -> scalar u -> scalar v ->
  char_to_string uc su u named = Ok s -> char_to_string uc sv v named = Ok s -> su = sv /\ u = v.
Proof.
  intros uc named su u sv v s W Su Sv E1 E2.
  assert (forall (sus : bool) x, scalar x -> exists e, char_to_string uc sus x named = Ok ((if sus then bytes "^" else []) ++ e) /\
    (e = display uc x \/ named = false /\ x = 10 /\ e = [10])) as D.
  { intros sus x [Sx _]. unfold char_to_string, display.
    assert ((if sus then encode_or_die SUSPECT_MARKER else Ok []) =
      Ok (if sus then bytes "^" else [])) as -> by now destruct sus.
    cbn [obind]. unfold NEWLINE. destruct (Z.eqb_spec x 10) as [E|N].
    { destruct named; eexists; (split; [reflexivity|auto]). }
    destruct (is_graphic uc x).
    - assert ((if is_combining uc x then encode_or_die DOTTED_CIRCLE else Ok []) =
        Ok (if is_combining uc x then utf8 9676 else [])) as -> by now destruct (is_combining uc x).
      rewrite encode_or_die_ok by lia. cbn [obind]. eexists. split; [reflexivity|auto].
    - destruct (x <? 256); eexists; (split; [reflexivity|auto]). }
  assert (forall x r, scalar x -> x <> 10 -> display uc x ++ r = 10 :: r -> False) as N10.
  { intros x r S N H.
    destruct (display_cases uc W x S) as [(e & X & _)|[(_ & _ & X)|(_ & _ & X)]]; rewrite X in H.
    - discriminate H.
    - rewrite <- app_assoc in H. change (10 :: r) with ([10] ++ r) in H. rewrite <- (utf8_ascii 10) in H by lia.
      apply utf8_app_inv in H as [H _]; [lia|apply scalar_circle|apply scalar_ascii; lia].
    - change (10 :: r) with ([10] ++ r) in H. rewrite <- (utf8_ascii 10) in H by lia.
      apply utf8_app_inv in H as [H _]; [lia|exact S|apply scalar_ascii; lia]. }
  assert (forall x r, scalar x -> display uc x = 94 :: r -> r = []) as N94.
  { intros x r S H.
    destruct (display_cases uc W x S) as [(e & X & _)|[(_ & _ & X)|(_ & _ & X)]]; rewrite X in H.
    - discriminate H.
    - discriminate H.
    - rewrite <- (app_nil_r (utf8 x)) in H. change (94 :: r) with ([94] ++ r) in H. rewrite <- (utf8_ascii 94) in H by lia.
      apply utf8_app_inv in H as [_ H]; [now rewrite H|exact S|apply scalar_ascii; lia]. }
  assert (forall x, scalar x -> display uc x <> []) as NN.
  { intros x S H. destruct (display_cases uc W x S) as [(e & X & _)|[(_ & _ & X)|(_ & _ & X)]]; rewrite X in H.
    - discriminate H.
    - discriminate H.
    - now apply utf8_nonempty in H. }
  destruct (D su u Su) as (e1 & X1 & Y1), (D sv v Sv) as (e2 & X2 & Y2).
  rewrite X1 in E1. rewrite X2 in E2. clear X1 X2.
  assert ((if su then bytes "^" else []) ++ e1 = (if sv then bytes "^" else []) ++ e2) as E by congruence. clear E1 E2.
  assert (e1 <> [] /\ e2 <> []) as [Ne1 Ne2].
  { split; [destruct Y1 as [->|(_ & _ & ->)]|destruct Y2 as [->|(_ & _ & ->)]]; auto; intros H; discriminate H. }
  assert (su = sv) as ->.
  { destruct su, sv; auto; cbn in E; exfalso.
    - destruct Y2 as [->|(_ & _ & ->)]; [|discriminate E]. symmetry in E. apply N94 in E; auto.
    - destruct Y1 as [->|(_ & _ & ->)]; [|discriminate E]. apply N94 in E; auto. }
  apply app_inv_head in E. subst e2. split; [reflexivity|].
  destruct Y1 as [->|(N1 & -> & ->)], Y2 as [E|(N2 & -> & E)].
  - assert ([u] = [v]) as X; [|now injection X].
    apply (keys_inj uc W); [cbn; lia|reflexivity|now constructor|now constructor|]. cbn [flat_map]. now rewrite !app_nil_r.
  - destruct (Z.eq_dec u 10); auto. exfalso. apply (N10 u []); auto. now rewrite app_nil_r.
  - destruct (Z.eq_dec v 10); auto. exfalso. apply (N10 v []); auto. now rewrite app_nil_r.
  - reflexivity.
Qed.
Print Assumptions C75_distinct.

(** The reports use the same forms. *)
Theorem C75_reports : forall uc v, 0 <= v <= 1114111 -> shows_value uc true v (display uc v).
Proof.
  intros uc v V. destruct (C75_shown uc false true v V) as (s & E & Sh). replace (display uc v) with s; [exact Sh|].
  unfold char_to_string in E. cbn [obind] in E. unfold display. unfold NEWLINE in E.
  destruct (v =? 10); [injection E as <-; reflexivity|].
  destruct (is_graphic uc v).
  - destruct (is_combining uc v); [unfold DOTTED_CIRCLE in E; rewrite !encode_or_die_ok in E by lia|rewrite encode_or_die_ok in E by lia];
      cbn [obind app] in E; cbn [app]; congruence.
  - destruct (v <? 256); cbn [app] in E; injection E as <-; reflexivity.
Qed.
Print Assumptions C75_reports.

(** A data base where capital letters are letters, U+0301 is a mark and the rest unassigned. *)
Definition show_uc : unicode_data :=
  mkuc (fun v => if (65 <=? v) && (v <=? 90) then LU else if v =? 769 then MN else if v =? 8203 then CF else CN) (fun v => v).
Example C75_ex :
  char_to_string show_uc true 65 true = Ok (bytes "^A") /\
  char_to_string show_uc false 10 true = Ok (bytes "<\n>") /\
  char_to_string show_uc false 769 true = Ok [226; 151; 140; 204; 129] /\
  char_to_string show_uc false 7 true = Ok (bytes "<07>") /\
  char_to_string show_uc false 8203 true = Ok (bytes "<200B>") /\
  char_to_string show_uc false 1114111 true = Ok (bytes "<10FFFF>") /\ marks_wide show_uc /\ visible show_uc 32.
Proof.
  repeat (split; [vm_compute; reflexivity|]). split; [|now left].
  intros v V. unfold is_combining, show_uc. cbn [cat]. destruct ((65 <=? v) && (v <=? 90)); [reflexivity|].
  replace (v =? 769) with false by lia. now replace (v =? 8203) with false by lia.
Qed.
