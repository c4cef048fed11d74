(** read_accrpt on arbitrary files. *)
From Coq Require Import String.
From Verif Require Import Base CLib CLibProof Utf8Model Utf8Proof TextModel TextIO CharclassModel
  CharclassProof CompareModel AccModel AccSpec AccProof ReportModel ReportSpec ReportProof ReportSafe
  AccrptModel AccrptSpec.
Local Open Scope Z_scope.
Local Open Scope list_scope.

Definition safe {A} (r : outcome A) : Prop :=
  (exists x, r = Ok x) \/ r = Fail "invalid character in" \/ r = UB "class[value]".

Section Transp.
#[local] Transparent charclass.
Lemma charclass_out v : ~ (0 <= v < 1114111) -> charclass v = UB "class[value]".
Proof.
  intros H. unfold charclass. destruct charclass_ok as (t & -> & _). cbn [obind].
  unfold NUM_CHARVALUES. replace ((0 <=? v) && (v <? 1114111)) with false by lia. reflexivity.
Qed.
End Transp.

Lemma add_class_safe d v c m : safe (add_class d v c m).
Proof.
  assert (0 <= v < 1114111 \/ ~ (0 <= v < 1114111)) as [H|H] by lia.
  - left. eexists. apply (add_class_ok d v c m H).
  - right. right. unfold add_class. now rewrite (charclass_out v H).
Qed.

Lemma iterate_total4 str p : 0 <= p -> p + 4 <= zlen str ->
  exists st c, iterate (skipn (Z.to_nat p) str) 4 = Ok (st, c) /\ st <= 4.
Proof.
  intros P L. assert (4 <= List.length (skipn (Z.to_nat p) str))%nat as H.
  { rewrite skipn_length. unfold zlen in L. lia. }
  destruct (skipn (Z.to_nat p) str) as [|b0 [|b1 [|b2 [|b3 r]]]]; cbn [List.length] in H; try lia.
  unfold iterate. cbn [Z.eqb].
  change (rd "str" (b0 :: b1 :: b2 :: b3 :: r) 0) with (Ok b0).
  change (rd "str" (b0 :: b1 :: b2 :: b3 :: r) 1) with (Ok b1).
  change (rd "str" (b0 :: b1 :: b2 :: b3 :: r) 2) with (Ok b2).
  change (rd "str" (b0 :: b1 :: b2 :: b3 :: r) 3) with (Ok b3).
  cbn [obind].
  repeat match goal with
         | |- exists st c, Ok _ = _ /\ _ => eexists _, _; split; [reflexivity|unfold INVALIDUTF8; lia]
         | |- exists st c, (if ?b then _ else _) = _ /\ _ => destruct b
         end.
Qed.

Lemma rd_total (b : list Z) p : line_buffer b -> 0 <= p <= 99 -> exists c, rd "line" b p = Ok c.
Proof.
  intros [L _] H. destruct (znth_lt_Some b p ltac:(lia)) as [c E]. exists c. now apply rd_Ok.
Qed.

Lemma scan_hex_shorter s v rest : scan_hex s = Some (v, rest) -> exists pre, s = pre ++ rest.
Proof.
  unfold scan_hex. destruct (skip_space_split s) as (sp & Es & _).
  assert (exists sign, skip_space s = sign ++ snd (scan_sign (skip_space s))) as (sign & Eg).
  { destruct (skip_space s) as [|c t]; cbn [scan_sign]; [now exists []|].
    destruct (c =? 45); [now exists [c]|]. destruct (c =? 43); [now exists [c]|]. now exists []. }
  destruct (scan_sign (skip_space s)) as [neg s2]. cbn [snd] in Eg.
  cbv zeta. match goal with |- context [span is_hex ?X] => assert (exists p, s2 = p ++ X) as (px & Ep) end.
  { destruct s2 as [|c0 s2]; [now exists []|]. destruct s2 as [|x s2]; [exists []; now destruct c0 as [|q|q]; try reflexivity; repeat (destruct q as [q|q|]; try reflexivity)|].
    destruct s2 as [|c s2]; [exists []; now destruct c0 as [|q|q]; try reflexivity; repeat (destruct q as [q|q|]; try reflexivity)|].
    destruct (Z.eq_dec c0 48) as [->|N].
    - destruct (((x =? 120) || (x =? 88)) && is_hex c); [now exists [48; x]|now exists []].
    - exists []. destruct c0 as [|q|q]; try reflexivity. repeat (destruct q as [q|q|]; try reflexivity). congruence. }
  match goal with |- context [span is_hex ?X] => set (s3 := X) in * end.
  pose proof (span_split is_hex s3) as Sp. destruct (span is_hex s3) as [ds r].
  destruct Sp as (E3 & _). destruct ds as [|d ds]; [discriminate|]. intros [= _ <-].
  exists (sp ++ sign ++ px ++ (d :: ds)). rewrite Es, Eg, Ep, E3. now rewrite <- !app_assoc.
Qed.

Lemma char_end_total b p v : line_buffer b -> 0 <= p <= 99 -> exists w, char_end b p v = Ok w.
Proof.
  intros B P. unfold char_end. destruct (rd_total b p B P) as [c ->]. cbn [obind].
  destruct (c =? 125); eauto.
Qed.

(** The string at [off] ends with the NUL. *)
Lemma cstr_end b off s : cstr b off = Ok s -> 0 <= off -> rd "line" b (off + zlen s) = Ok 0.
Proof.
  unfold cstr. destruct (Z.leb_spec 0 off), (Z.leb_spec off (zlen b)); try discriminate. intros E O. cbn [andb] in E.
  assert (exists tl, skipn (Z.to_nat off) b = s ++ 0 :: tl) as (tl & Es).
  { revert E. generalize (skipn (Z.to_nat off) b). clear. intros l. revert s.
    induction l as [|x l IH]; intros s; cbn [upto_nul]; [discriminate|].
    destruct (Z.eqb_spec x 0) as [->|]; [intros [= <-]; now exists l|].
    destruct (upto_nul l) as [t| | |]; cbn [obind]; try discriminate. intros [= <-].
    destruct (IH t eq_refl) as (tl & ->). now exists tl. }
  apply rd_Ok. rewrite <- (firstn_skipn (Z.to_nat off) b), Es, app_assoc.
  assert (zlen (firstn (Z.to_nat off) b ++ s) = off + zlen s) as L.
  { rewrite zlen_app. unfold zlen. rewrite firstn_length. unfold zlen in *. lia. }
  rewrite znth_app2 by lia. rewrite L. replace (off + zlen s - (off + zlen s)) with 0 by lia. reflexivity.
Qed.

Lemma read_char_total b : line_buffer b -> exists v, read_char b CLASS_OFFSET = Ok v.
Proof.
  intros B. unfold read_char, CLASS_OFFSET. pose proof (proj1 B) as BL.
  destruct (rd_total b 29 B ltac:(lia)) as [c0 ->]. cbn [obind].
  destruct (c0 =? 123); cbn [negb]; [|eauto].
  change (29 + 1) with 30. destruct (rd_total b 30 B ltac:(lia)) as [c ->]. cbn [obind].
  destruct (c =? 60).
  - change (30 + 1) with 31. destruct (rd_total b 31 B ltac:(lia)) as [c1 ->]. cbn [obind].
    destruct (c1 =? 125); [apply char_end_total; [exact B|lia]|].
    change (30 + 2) with 32. change (30 + 3) with 33.
    assert (exists nl, (if c1 =? 92 then let! c2 := rd "line" b 32 in Ok (c2 =? 110) else Ok false) = Ok nl) as (nl & ->).
    { destruct (c1 =? 92); [|eauto]. destruct (rd_total b 32 B ltac:(lia)) as [c2 ->]. cbn [obind]. eauto. }
    cbn [obind]. destruct nl.
    + cbn [obind]. destruct (rd_total b 33 B ltac:(lia)) as [c2 ->]. cbn [obind].
      destruct (c2 =? 62); [apply char_end_total; [exact B|lia]|eauto].
    + destruct (cstr_total b 31 B ltac:(lia)) as (s & Es & Ls). rewrite Es. cbn [obind].
      destruct (scan_hex s) as [[v rest]|] eqn:Eh; cbn [obind]; [|eauto].
      destruct (scan_hex_shorter s v rest Eh) as (pre & ->). rewrite !zlen_app in *.
      pose proof (zlen_nonneg pre). pose proof (zlen_nonneg rest).
      destruct (rd_total b (31 + (zlen pre + zlen rest - zlen rest)) B ltac:(lia)) as [c2 Ec]. rewrite Ec. cbn [obind].
      destruct (Z.eqb_spec c2 62) as [->|]; [|eauto]. apply char_end_total; [exact B|].
      pose proof (cstr_end b 31 _ Es ltac:(lia)) as Ez. rewrite zlen_app in Ez.
      destruct (Z.eq_dec (zlen rest) 0) as [Z0|]; [|lia]. exfalso.
      replace (31 + (zlen pre + zlen rest - zlen rest)) with (31 + (zlen pre + zlen rest)) in Ec by lia.
      rewrite Ez in Ec. discriminate Ec.
  - destruct (iterate_total4 b 30 ltac:(lia) ltac:(lia)) as (n & v & -> & N). cbn [obind].
    destruct (Z.ltb_spec n 1); [eauto|].
    match goal with |- context [obind (if ?c then ?X else ?Y) _] =>
      assert (exists fo, (if c then X else Y) = Ok fo) as (fo & ->) end.
    { destruct (v =? DOTTED_CIRCLE); [|eauto]. destruct (rd_total b (30 + n) B ltac:(lia)) as [c2 ->]. cbn [obind]. eauto. }
    cbn [obind]. destruct fo; [|apply char_end_total; [exact B|lia]].
    destruct (iterate_total4 b (30 + n) ltac:(lia) ltac:(lia)) as (n2 & v2 & -> & N2). cbn [obind].
    destruct (Z.ltb_spec n2 2); [eauto|]. apply char_end_total; [exact B|lia].
Qed.

Lemma read_scan_total {A} (scan : list Z -> option A) b f : line_buffer b ->
  exists r b' rest, read_scan scan (b, f) = Ok (r, (b', rest)) /\ line_buffer b' /\
    (List.length rest <= List.length f)%nat /\ (r = None \/ (List.length rest < List.length f)%nat).
Proof.
  intros B. unfold read_scan.
  destruct (read_line_takes b f B) as [[-> ->]|(l & rest & b' & T & -> & H & C)]; cbn [obind].
  - exists None, b, []. auto 6.
  - cbn [fst]. rewrite C. cbn [obind]. eexists _, b', rest. split; [reflexivity|]. split; [apply H|].
    pose proof (takes_shorter _ _ _ T). split; [lia|now right].
Qed.

Lemma skip_to_blank_total fuel : forall b f, line_buffer b -> (List.length f <= fuel)%nat ->
  exists b' rest, skip_to_blank fuel (b, f) = Ok (b', rest) /\ line_buffer b' /\
    (List.length rest <= List.length f)%nat.
Proof.
  induction fuel as [|fu IH]; intros b f B L; cbn [skip_to_blank];
    (destruct (read_line_takes b f B) as [[-> ->]|(l & rest & b' & T & -> & H & C)]; cbn [obind];
     [exists b, []; auto|]); pose proof (takes_shorter _ _ _ T) as Sh.
  - lia.
  - cbn [fst]. destruct (rd_total b' 0 (proj1 H) ltac:(lia)) as [c ->]. cbn [obind].
    destruct (c =? NEWLINE); [exists b', rest; split; [reflexivity|]; split; [apply H|lia]|].
    destruct (IH b' rest (proj1 H) ltac:(lia)) as (b2 & r2 & -> & B2 & L2). exists b2, r2. split; [reflexivity|]. split; [exact B2|lia].
Qed.

Lemma conf_rows_total fuel : forall D b f, line_buffer b -> (List.length f <= fuel)%nat ->
  exists D' b' rest, conf_rows fuel D (b, f) = Ok (D', (b', rest)) /\ line_buffer b' /\
    (List.length rest <= List.length f)%nat.
Proof.
  induction fuel as [|fu IH]; intros D b f B L; cbn [conf_rows];
    destruct (read_scan_total scan_two b f B) as (r & b' & rest & -> & B' & Lr & Hr); cbn [obind];
    (destruct r as [[v1 v2]|]; [|exists D, b', rest; auto]); (destruct Hr as [Hr|Hr]; [discriminate|]);
    cbn [fst]; destruct (cstr_total b' CONF_OFFSET B' ltac:(unfold CONF_OFFSET; lia)) as (s & -> & _); cbn [obind].
  - lia.
  - destruct (IH (add_conf D s v1 v2) b' rest B' ltac:(lia)) as (D2 & b2 & r2 & -> & B2 & L2).
    exists D2, b2, r2. split; [reflexivity|]. split; [exact B2|lia].
Qed.

Lemma class_rows_safe fuel : forall D b f, line_buffer b -> (List.length f <= fuel)%nat ->
  safe (class_rows fuel D (b, f)).
Proof.
  induction fuel as [|fu IH]; intros D b f B L; cbn [class_rows];
    destruct (read_scan_total scan_two b f B) as (r & b' & rest & -> & B' & Lr & Hr); cbn [obind];
    (destruct r as [[v1 v2]|]; [|left; eauto]); (destruct Hr as [Hr|Hr]; [discriminate|]); cbn [fst];
    destruct (read_char_total b' B') as [v3 ->]; cbn [obind];
    (destruct (v3 =? INVALID_CHARVALUE); [right; left; reflexivity|]);
    destruct (add_class_safe D v3 v1 v2) as [[D' ->]|[-> | ->]]; cbn [obind]; try (right; auto; fail).
  - lia.
  - apply IH; [exact B'|lia].
Qed.

(** One step of the conjunction. *)
Definition verdict {A} (ws : list want) (f : list Z) (r : outcome A) : Prop :=
  (~ shaped ws f /\ r = invalid) \/ (shaped ws f /\ safe r).

Lemma verdict_step {A B} w ws f (r : outcome A) (k : A -> outcome B) (K : list Z -> list Z -> A -> Prop) :
  step_ok w f r K ->
  (forall l rest x, (List.length rest <= List.length f)%nat -> K l rest x -> verdict ws rest (k x)) ->
  verdict (w :: ws) f (obind r k).
Proof.
  intros [[-> N]|(l & rest & x & T & M & -> & H)] V.
  - left. split; [apply N|reflexivity].
  - cbn [obind]. pose proof (takes_shorter _ _ _ T) as S.
    destruct (V l rest x ltac:(lia) H) as [[N E]|[Sh E]].
    + left. split; [|exact E]. rewrite (shaped_cons _ _ _ _ _ T). tauto.
    + right. split; [|exact E]. rewrite (shaped_cons _ _ _ _ _ T). tauto.
Qed.

Lemma accuracy_title : ACC_TITLE = bytes "ocreval Accuracy Report Version 7." ++ [48; 10].
Proof. reflexivity. Qed.

Lemma verdict_scan {A B} scan k ws b f (g : A * rstate -> outcome B) : line_buffer b ->
  (forall s, scan s <> None <-> numbers k s) ->
  (forall x b' rest, (List.length rest <= List.length f)%nat -> line_buffer b' -> verdict ws rest (g (x, (b', rest)))) ->
  verdict (Numbers k :: ws) f (obind (need_scan scan (b, f)) g).
Proof.
  intros Bb S H. eapply verdict_step; [apply (need_scan_any scan k b f Bb S)|].
  intros l rest x L (y & b' & -> & Hb & _). apply H; [exact L|apply Hb].
Qed.

Lemma verdict_line {B} ws b f (g : rstate -> outcome B) : line_buffer b ->
  (forall b' rest, (List.length rest <= List.length f)%nat -> line_buffer b' -> verdict ws rest (g (b', rest))) ->
  verdict (Any :: ws) f (obind (need_line (b, f)) g).
Proof.
  intros Bb H. eapply verdict_step; [apply (need_line_any b f Bb)|].
  intros l rest x L (b' & -> & Hb). apply H; [exact L|apply Hb].
Qed.

Lemma verdict_title {B} p q ws b f (g : rstate -> outcome B) : line_buffer b -> List.length q = 2%nat ->
  (forall b' rest, (List.length rest <= List.length f)%nat -> line_buffer b' -> verdict ws rest (g (b', rest))) ->
  verdict (Starts p :: ws) f (obind (need_title (p ++ q) (b, f)) g).
Proof.
  intros Bb Q H. eapply verdict_step; [apply (need_title_any p q b f Bb Q)|].
  intros l rest x L (b' & -> & Hb). apply H; [exact L|apply Hb].
Qed.

Lemma verdict_divider {B} d ws b f (g : rstate -> outcome B) : line_buffer b ->
  (forall b' rest, (List.length rest <= List.length f)%nat -> line_buffer b' -> verdict ws rest (g (b', rest))) ->
  verdict (Is d :: ws) f (obind (need_divider d (b, f)) g).
Proof.
  intros Bb H. eapply verdict_step; [apply (need_divider_any d b f Bb)|].
  intros l rest x L (b' & -> & Hb). apply H; [exact L|apply Hb].
Qed.

Lemma verdict_body {A} f (r : outcome A) : safe r -> verdict [] f r.
Proof. intros H. right. split; [apply shaped_nil|exact H]. Qed.

Lemma safe_bind {A B} (r : outcome A) (k : A -> outcome B) : safe r -> (forall x, r = Ok x -> safe (k x)) -> safe (obind r k).
Proof. intros [[x E]|[-> | ->]] H; [rewrite E; cbn [obind]; auto|right; now left|right; now right]. Qed.

Lemma read_accrpt_any b D f : line_buffer b -> verdict accuracy_header f (read_accrpt b D f).
Proof.
  intros B. unfold read_accrpt, accuracy_header. rewrite accuracy_title.
  remember (List.length f) as fuel eqn:Ef. assert (List.length f <= fuel)%nat as L by lia. clear Ef.
  change ACC_DIVIDER with (bytes "-----------------------------------" ++ [10]).
  apply verdict_title; [exact B|reflexivity|]. clear B b. intros b rest L1 B.
  apply verdict_divider; [exact B|]. clear B b. intros b rest2 L2 B.
  apply (verdict_scan _ _ _ _ _ _ B scan_one_numbers). clear B b. intros ch b rest3 L3 B.
  apply (verdict_scan _ _ _ _ _ _ B scan_one_numbers). clear B b. intros er b rest4 L4 B.
  apply verdict_line; [exact B|]. clear B b. intros b rest5 L5 B.
  apply verdict_line; [exact B|]. clear B b. intros b rest6 L6 B.
  apply (verdict_scan _ _ _ _ _ _ B scan_one_numbers). clear B b. intros re b rest7 L7 B.
  apply (verdict_scan _ _ _ _ _ _ B scan_one_numbers). clear B b. intros su b rest8 L8 B.
  apply (verdict_scan _ _ _ _ _ _ B scan_one_numbers). clear B b. intros fm b rest9 L9 B.
  apply verdict_line; [exact B|]. clear B b. intros b rest10 L10 B.
  apply verdict_line; [exact B|]. clear B b. intros b rest11 L11 B.
  apply verdict_line; [exact B|]. clear B b. intros b rest12 L12 B.
  apply verdict_line; [exact B|]. clear B b. intros b rest13 L13 B.
  apply (verdict_scan _ _ _ _ _ _ B scan_four_numbers). clear B b. intros mo b rest14 L14 B.
  apply (verdict_scan _ _ _ _ _ _ B scan_four_numbers). clear B b. intros uo b rest15 L15 B.
  apply (verdict_scan _ _ _ _ _ _ B scan_four_numbers). clear B b. intros to b rest16 L16 B.
  apply verdict_line; [exact B|]. clear B b. intros b rest17 L17 B.
  apply verdict_body. cbv beta iota zeta.
  destruct (skip_to_blank_total fuel b rest17 B ltac:(lia)) as (b18 & rest18 & -> & B18 & L18). cbn [obind].
  match goal with |- safe (obind (if ?c then ?X else ?Y) _) =>
    assert (exists D' b' rest', (if c then X else Y) = Ok (D', (b', rest')) /\ line_buffer b' /\
              (List.length rest' <= fuel)%nat) as (D' & b' & rest' & -> & B' & L') end.
  { destruct (0 <? er); [|eexists _, b18, rest18; split; [reflexivity|]; split; [exact B18|lia]].
    destruct (read_line_takes b18 rest18 B18) as [[-> ->]|(l & r19 & b19 & T & -> & H & _)]; cbn [obind].
    - eexists _, b18, []. split; [reflexivity|]. split; [exact B18|cbn; lia].
    - pose proof (takes_shorter _ _ _ T).
      destruct (conf_rows_total fuel (with_ops (add_counts D ch er re su fm) (four_ops mo) (four_ops uo) (four_ops to))
                  b19 r19 (proj1 H) ltac:(lia)) as (D' & b' & rest' & -> & B' & L').
      exists D', b', rest'. split; [reflexivity|]. split; [exact B'|lia]. }
  cbn [obind]. apply safe_bind; [|intros [x st] _; left; eauto].
  destruct (0 <? ch); [|left; eauto].
  destruct (read_line_takes b' rest' B') as [[-> ->]|(l & r19 & b19 & T & -> & H & _)]; cbn [obind]; [left; eauto|].
  pose proof (takes_shorter _ _ _ T). apply class_rows_safe; [apply H|lia].
Qed.
