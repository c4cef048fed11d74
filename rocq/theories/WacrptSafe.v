(** read_wacrpt on arbitrary files. *)
From Coq Require Import String.
From Verif Require Import Base CLib CLibProof TextIO ReportModel ReportSpec ReportProof ReportSafe VerdictProof
  AccrptSafe WacModel WacProof WacrptModel WacrptSpec.
Local Open Scope Z_scope.
Local Open Scope list_scope.

(** Success, or an access outside the arrays. *)
Definition wsafe {A} (ok : A -> Prop) (r : outcome A) : Prop := (exists x, r = Ok x /\ ok x) \/ r = UB "wac[index]".

Lemma increment_any ws i c m : wsafe (fun _ => True) (increment_at ws i c m).
Proof.
  assert (0 <= i < zlen ws \/ ~ (0 <= i < zlen ws)) as [H|H] by lia.
  - destruct (increment_at_ok ws i c m H) as (ws' & E & _). left. eauto.
  - right. unfold increment_at, rd. destruct (znth ws i) eqn:E; [apply znth_Some_lt in E; lia|]. reflexivity.
Qed.

(** The state after reading from a file of at most [n] bytes. *)
Definition good_state (n : nat) (st : rstate) : Prop := line_buffer (fst st) /\ (List.length (snd st) <= n)%nat.

Lemma number_rows_any fuel : forall ws t b f, line_buffer b -> (List.length f <= fuel)%nat ->
  wsafe (fun r : list wac * Z * rstate => good_state (List.length f) (snd r)) (number_rows fuel ws t (b, f)).
Proof.
  induction fuel as [|fu IH]; intros ws t b f B L; cbn [number_rows];
    destruct (read_scan_total scan_two b f B) as (r & b' & rest & -> & B' & Lr & Hr); cbn [obind];
    (destruct r as [[v1 v2]|]; [|left; eexists; split; [reflexivity|split; [exact B'|exact Lr]]]);
    (destruct Hr as [Hr|Hr]; [discriminate|]); cbn [fst];
    destruct (cstr_total b' WAC_OFFSET B' ltac:(unfold WAC_OFFSET; lia)) as (s & -> & _); cbn [obind].
  - lia.
  - destruct (increment_any ws (row_index s) v1 v2) as [(ws' & -> & _)| ->]; cbn [obind]; [|now right].
    destruct (IH ws' (if is_total s then v1 else t) b' rest B' ltac:(lia)) as [(x & -> & G1 & G2)| ->]; [|now right].
    left. eexists. split; [reflexivity|]. split; [exact G1|lia].
Qed.

Lemma two_lines_any b f : line_buffer b -> exists ok st, two_lines (b, f) = Ok (ok, st) /\ good_state (List.length f) st.
Proof.
  intros B. unfold two_lines.
  destruct (read_line_takes b f B) as [[-> ->]|(l & rest & b' & T & -> & H & _)]; cbn [obind].
  - exists false, (b, []). split; [reflexivity|]. split; [exact B|cbn; lia].
  - pose proof (takes_shorter _ _ _ T).
    destruct (read_line_takes b' rest (proj1 H)) as [[-> ->]|(l2 & rest2 & b2 & T2 & -> & H2 & _)].
    + exists false, (b', []). split; [reflexivity|]. split; [apply H|cbn; lia].
    + pose proof (takes_shorter _ _ _ T2). exists true, (b2, rest2). split; [reflexivity|]. split; [apply H2|cbn; lia].
Qed.

Lemma read_numbers_any fuel ws st n : good_state n st -> (n <= fuel)%nat ->
  wsafe (fun r : list wac * Z * rstate => good_state n (snd r)) (read_numbers fuel ws st).
Proof.
  destruct st as [b f]. intros [B L] N. cbn [fst snd] in *. unfold read_numbers.
  destruct (two_lines_any b f B) as (ok & [b' f'] & -> & B' & L'). cbn [obind fst snd] in *. destruct ok.
  - destruct (number_rows_any fuel ws 0 b' f' B' ltac:(lia)) as [(x & -> & G1 & G2)| ->]; [|now right].
    left. eexists. split; [reflexivity|]. split; [exact G1|lia].
  - left. eexists. split; [reflexivity|]. split; [exact B'|cbn; lia].
Qed.

Lemma chop_any b s c : line_buffer b -> cstr b 0 = Ok (c :: s) ->
  exists b', wr "line" b (zlen (c :: s) - 1) 0 = Ok b' /\ line_buffer b'.
Proof.
  intros [L Z99] E. pose proof (cstr_total b 0 (conj L Z99) ltac:(lia)) as (s' & E' & Ls).
  assert (s' = c :: s) as -> by congruence. rewrite zlen_cons in *. pose proof (zlen_nonneg s).
  destruct (zset_lt_Some b (zlen s + 1 - 1) 0 ltac:(lia)) as (b' & Es). exists b'. unfold wr. rewrite Es. split; [reflexivity|].
  split; [now rewrite (zset_zlen _ _ _ _ Es)|]. rewrite (zset_znth _ _ _ _ Es). destruct (Z.eqb_spec 99 (zlen s + 1 - 1)); [lia|exact Z99].
Qed.

Lemma scan_two_nil : scan_two [] = None.
Proof. reflexivity. Qed.

Lemma term_rows_any fuel : forall T b f, line_buffer b -> (List.length f <= fuel)%nat ->
  exists T' st, term_rows fuel T (b, f) = Ok (T', st) /\ good_state (List.length f) st.
Proof.
  induction fuel as [|fu IH]; intros T b f B L; cbn [term_rows]; unfold read_scan;
    (destruct (read_line_takes b f B) as [[-> ->]|(l & rest & b' & Tk & -> & H & C)]; cbn [obind];
     [exists T, (b, []); split; [reflexivity|split; [exact B|cbn; lia]]|]); pose proof (takes_shorter _ _ _ Tk) as Sh;
    cbn [fst]; rewrite C; cbn [obind];
    (destruct (scan_two (cutnul l)) as [[v1 v2]|] eqn:Sc;
     [|exists T, (b', rest); split; [reflexivity|split; [apply H|cbn; lia]]]).
  - lia.
  - cbn [fst]. rewrite C. cbn [obind]. destruct (cutnul l) as [|c s] eqn:El; [discriminate Sc|].
    destruct (chop_any b' s c (proj1 H) C) as (b2 & -> & B2). cbn [obind].
    destruct (cstr_total b2 WAC_OFFSET B2 ltac:(unfold WAC_OFFSET; lia)) as (k & -> & _). cbn [obind snd].
    destruct (IH (add_term T k v1 v2) b2 rest B2 ltac:(lia)) as (T' & st & -> & G1 & G2).
    exists T', st. split; [reflexivity|]. split; [exact G1|lia].
Qed.

Lemma read_terms_any fuel T st n : good_state n st -> (n <= fuel)%nat ->
  exists T' st', read_terms fuel T st = Ok (T', st') /\ good_state n st'.
Proof.
  destruct st as [b f]. intros [B L] N. cbn [fst snd] in *. unfold read_terms.
  destruct (two_lines_any b f B) as (ok & [b' f'] & -> & B' & L'). cbn [obind fst snd] in *. destruct ok.
  - destruct (term_rows_any fuel T b' f' B' ltac:(lia)) as (T' & st & -> & G1 & G2).
    exists T', st. split; [reflexivity|]. split; [exact G1|lia].
  - exists T, (b', f'). split; [reflexivity|]. split; [exact B'|cbn; lia].
Qed.

Lemma read_tables_any fuel words missed d st n : good_state n st -> (n <= fuel)%nat ->
  wsafe (fun _ => True) (read_tables fuel words missed d st).
Proof.
  intros G N. unfold read_tables.
  destruct (read_numbers_any fuel (stopword d) st n G N) as [([[a1 c1] s1] & -> & G1)| ->]; cbn [obind]; [|now right].
  destruct (read_numbers_any fuel (non_stopword d) s1 n G1 N) as [([[a2 c2] s2] & -> & G2)| ->]; cbn [obind]; [|now right].
  destruct (read_numbers_any fuel (distinct d) s2 n G2 N) as [([[a3 c3] s3] & -> & G3)| ->]; cbn [obind]; [|now right].
  cbn [snd] in *. unfold read_words. destruct (0 <? words); [|left; eauto].
  cbn [phrase stop_terms non_terms].
  destruct (read_numbers_any fuel (phrase d) s3 n G3 N) as [([[a4 c4] s4] & -> & G4)| ->]; cbn [obind]; [|now right].
  cbn [snd] in *.
  assert (exists T st', (if 0 <? c1 then read_terms fuel (stop_terms d) s4 else Ok (stop_terms d, s4)) = Ok (T, st') /\ good_state n st')
    as (T1 & s5 & -> & G5) by (destruct (0 <? c1); [now apply read_terms_any|eauto]).
  cbn [obind].
  assert (exists T st', (if 0 <? c2 then read_terms fuel (non_terms d) s5 else Ok (non_terms d, s5)) = Ok (T, st') /\ good_state n st')
    as (T2 & s6 & -> & G6) by (destruct (0 <? c2); [now apply read_terms_any|eauto]).
  cbn [obind]. left. eauto.
Qed.

Lemma read_wacrpt_any b D f : line_buffer b ->
  judged (wacdata * list Z) (wsafe (fun _ => True)) word_header f (read_wacrpt b D f).
Proof.
  intros B. unfold read_wacrpt, word_header.
  change WAC_TITLE with (bytes "ocreval Word Accuracy Report Version 7." ++ [48; 10]).
  change WAC_DIVIDER with (bytes "----------------------------------------" ++ [10]).
  remember (List.length f) as fuel eqn:Ef. assert (List.length f <= fuel)%nat as L by lia. clear Ef.
  apply judged_title; [exact B|reflexivity|]. clear B b. intros b rest L1 B.
  apply judged_divider; [exact B|]. clear B b. intros b rest2 L2 B.
  apply (judged_scan _ _ _ _ _ _ _ _ B scan_one_numbers). clear B b. intros words b rest3 L3 B.
  apply (judged_scan _ _ _ _ _ _ _ _ B scan_one_numbers). clear B b. intros missed b rest4 L4 B.
  apply judged_line; [exact B|]. clear B b. intros b rest5 L5 B.
  apply judged_line; [exact B|]. clear B b. intros b rest6 L6 B.
  apply judged_body. cbv beta iota zeta.
  destruct (read_tables_any fuel words missed D (b, rest6) fuel) as [([d' st'] & -> & _)| ->]; cbn [obind].
  - split; [exact B|cbn; lia].
  - lia.
  - left. eauto.
  - now right.
Qed.
