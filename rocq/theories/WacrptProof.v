(** Writing a word accuracy report and reading it back. *)
From Coq Require Import String Permutation.
From Verif Require Import Base CLib CLibProof CompareModel CompareProof SortModel SortProps TextIO AccSpec SumProof
  ReportModel ReportSpec ReportProof AccrptModel AccrptSpec AccrptProof WacModel LcsProof WacSpec WacProof
  WacrptModel WacrptSpec.
Local Open Scope Z_scope.
Local Open Scope list_scope.

Local Ltac zl := repeat rewrite zlen_app; repeat rewrite zlen_cons; rewrite ?zlen_nil.
Local Ltac cb := apply clean_bytes; reflexivity.

(** ** Rows of tables *)
Lemma row_Some ws i w : znth ws i = Some w -> row ws i = w.
Proof. intros E. unfold row. now rewrite E. Qed.
Lemma row_znth ws i : 0 <= i < zlen ws -> znth ws i = Some (row ws i).
Proof. intros H. destruct (znth_lt_Some ws i H) as [w E]. now rewrite (row_Some _ _ _ E). Qed.
Lemma row_out ws i : ~ (0 <= i < zlen ws) -> row ws i = no_wac.
Proof.
  intros H. unfold row. destruct (znth ws i) as [w|] eqn:E; [|reflexivity].
  apply znth_Some_lt in E. lia.
Qed.
Lemma row_sane ws i : Forall sane ws -> sane (row ws i).
Proof.
  intros F. unfold row. destruct (znth ws i) as [w|] eqn:E.
  - rewrite Forall_forall in F. apply F. eapply znth_In. exact E.
  - unfold sane. cbn. lia.
Qed.
Lemma sane_zero w : sane w -> wcount w <= 0 -> w = no_wac.
Proof. intros S C. unfold sane in S. apply wac_eq; cbn; lia. Qed.

Lemma increment_row ws i c m : 0 <= i < zlen ws ->
  exists ws', increment_at ws i c m = Ok ws' /\ zlen ws' = zlen ws /\
    forall j, row ws' j = if j =? i then wadd (row ws j) (mkwac c m) else row ws j.
Proof.
  intros H. destruct (increment_at_ok ws i c m H) as (ws' & E & L & P). exists ws'. split; [exact E|].
  split; [exact L|]. intros j. assert (0 <= j < zlen ws \/ ~ (0 <= j < zlen ws)) as [J|J] by lia.
  - apply row_Some. apply P. now apply row_znth.
  - rewrite !row_out by lia. destruct (Z.eqb_spec j i); [lia|reflexivity].
Qed.

Lemma nodup_app {A} (a b : list A) : NoDup a -> NoDup b -> (forall x, In x a -> In x b -> False) -> NoDup (a ++ b).
Proof.
  intros Na Nb D. induction Na as [|x a X Na IH]; [exact Nb|]. cbn. constructor.
  - rewrite in_app_iff. intros [H|H]; [easy|]. apply (D x); [now left|exact H].
  - apply IH. intros y Y. apply D. now right.
Qed.

Lemma wac_eta w : mkwac (wcount w) (wmissed w) = w.
Proof. now destruct w. Qed.

Section Report.
Variable fmt : Z -> Z -> list Z.
Hypothesis FMT : pct_ok fmt.

(** ** One row *)
Definition small_wac (w : wac) : Prop := sane w /\ wcount w < 100000000.

Lemma wac_line w s : small_wac w -> clean s -> zlen s <= 68 ->
  report_line (write_wac fmt w ++ s ++ [10]) /\
  scan_two (write_wac fmt w ++ s ++ [10]) = Some (wcount w, wmissed w) /\
  zlen (write_wac fmt w) = 29 /\ clean (write_wac fmt w).
Proof.
  intros [[M1 M2] C] Cl L. destruct (pct_clean fmt FMT (wcount w - wmissed w) (wcount w)) as (P1 & P2 & P3); try lia.
  assert (clean (write_wac fmt w)) as Cw.
  { unfold write_wac, wac_pct. repeat (first [assumption | apply clean_dec8; lia | cb | apply clean_app]). }
  assert (zlen (write_wac fmt w) = 29) as Lw.
  { unfold write_wac, wac_pct. zl. rewrite !dec8_len, P3 by lia. reflexivity. }
  split; [|split; [|auto]].
  - rewrite app_assoc. apply line_intro; [now apply clean_app|]. zl. lia.
  - unfold write_wac. rewrite <- !app_assoc.
    apply scan_two_dec8; try (unfold LONG_MAX; lia). reflexivity.
Qed.

(** ** Tables of figures *)

(** The last column of row [i]. *)
Definition suffix (limit i : Z) : list Z :=
  if i =? 0 then bytes " Total" else
  if i =? limit + 1 then bytes "   >" ++ dec2 limit else bytes "    " ++ dec2 i.
(** The indices of the rows. *)
Definition indices (limit : Z) (excess total : bool) : list Z :=
  zrange 1 (Z.to_nat limit) ++ (if excess then [limit + 1] else []) ++ (if total then [0] else []).
Definition row_text (v : list wac) (limit i : Z) : list Z :=
  if (i =? 0) || (0 <? wcount (row v i)) then write_wac fmt (row v i) ++ suffix limit i ++ [10] else [].

(** What the reader finds in the last column. *)
Definition index_ok (limit i : Z) : bool :=
  forallb (fun c => negb (c =? 10) && negb (c =? 0)) (suffix limit i) && (zlen (suffix limit i) <=? 68) &&
  (row_index (suffix limit i ++ [10]) =? i) && Bool.eqb (is_total (suffix limit i ++ [10])) (i =? 0).

Lemma indices_ok :
  forallb (index_ok 50) (indices 50 false true) = true /\
  forallb (index_ok 10) (indices 10 true true) = true /\
  forallb (index_ok 8) (indices 8 false false) = true.
Proof. repeat split; vm_compute; reflexivity. Qed.

Definition tail_ok (tail : list Z) : Prop := tail = [] \/ exists t, tail = [10] ++ t.

Lemma number_rows_end fuel b ws t tail : line_buffer b -> tail_ok tail ->
  exists b', line_buffer b' /\ number_rows fuel ws t (b, tail) = Ok (ws, t, (b', tl tail)).
Proof.
  intros B [->|(r & ->)].
  - exists b. split; [exact B|]. now destruct fuel.
  - destruct (read_scan_ok scan_two b [10] r B blank_line) as (b' & E & Hb).
    exists b'. split; [apply Hb|]. destruct fuel; cbn [number_rows]; rewrite E; reflexivity.
Qed.

Lemma number_rows_ok v limit tail is : (forall i, In i is -> index_ok limit i = true /\ 0 <= i < zlen v) ->
  (forall i, small_wac (row v i)) -> NoDup is -> tail_ok tail ->
  forall fuel b ws t, line_buffer b -> zlen ws = zlen v ->
  (List.length (flat_map (row_text v limit) is ++ tail) <= fuel)%nat ->
  exists b' ws', line_buffer b' /\ zlen ws' = zlen ws /\
    number_rows fuel ws t (b, flat_map (row_text v limit) is ++ tail) =
      Ok (ws', (if in_dec Z.eq_dec 0 is then wcount (row v 0) else t), (b', tl tail)) /\
    forall j, row ws' j = if in_dec Z.eq_dec j is then wadd (row ws j) (row v j) else row ws j.
Proof.
  intros I S ND T. induction is as [|i is IH]; intros fuel b ws t B Lw L.
  - destruct (number_rows_end fuel b ws t tail B T) as (b' & B' & E). exists b', ws.
    split; [exact B'|]. split; [reflexivity|]. split; [exact E|reflexivity].
  - inversion ND as [|? ? N1 N2]; subst. specialize (IH (fun j J => I j (or_intror J)) N2).
    cbn [flat_map] in L |- *. unfold row_text at 1 in L. unfold row_text at 1.
    destruct (Z.eqb_spec i 0) as [I0|I0]; [|destruct (Z.ltb_spec 0 (wcount (row v i))) as [C|C]]; cbn [orb] in *.
    3:{ (* not written *)
        destruct (IH fuel b ws t B Lw L) as (b' & ws' & B' & L' & E & P). exists b', ws'.
        split; [exact B'|]. split; [exact L'|]. pose proof (sane_zero _ (proj1 (S i)) C) as Z0. split.
        - cbn [app]. rewrite E. f_equal. f_equal. f_equal.
          destruct (in_dec Z.eq_dec 0 is) as [H|H], (in_dec Z.eq_dec 0 (i :: is)) as [H'|H']; try reflexivity.
          + exfalso. apply H'. now right.
          + destruct H' as [H'|H']; [congruence|easy].
        - intros j. rewrite P.
          destruct (in_dec Z.eq_dec j is) as [H|H], (in_dec Z.eq_dec j (i :: is)) as [H'|H']; try reflexivity.
          + exfalso. apply H'. now right.
          + destruct H' as [->|H']; [|easy]. now rewrite Z0, wadd_0_r. }
    all: (assert (index_ok limit i = true /\ 0 <= i < zlen v) as [Ok1 Ri] by (apply I; now left);
      unfold index_ok in Ok1; apply andb_true_iff in Ok1 as [Ok1 Ot]; apply andb_true_iff in Ok1 as [Ok1 Oi];
      apply andb_true_iff in Ok1 as [Oc Ol]; apply clean_check in Oc; apply Bool.eqb_prop in Ot;
      destruct (wac_line (row v i) (suffix limit i) (S i) Oc ltac:(lia)) as (Rl & Sc & Lp & Cp);
      pose proof (line_pos _ Rl) as Pos;
      destruct (increment_row ws i (wcount (row v i)) (wmissed (row v i)) ltac:(lia)) as (ws1 & E1 & L1 & P1);
      rewrite <- app_assoc in *; rewrite app_length in L; destruct fuel as [|fuel]; [lia|];
      destruct (read_scan_ok scan_two b _ (flat_map (row_text v limit) is ++ tail) B Rl) as (b1 & Er & Hb);
      destruct (IH fuel b1 ws1 (if i =? 0 then wcount (row v i) else t) (proj1 Hb) ltac:(lia) ltac:(lia))
        as (b' & ws' & B' & L' & E & P);
      exists b', ws'; split; [exact B'|]; split; [lia|]; split;
      [ cbn [number_rows]; rewrite Er; cbn [obind]; rewrite Sc; cbn [fst];
        assert (cstr b1 WAC_OFFSET = Ok (suffix limit i ++ [10])) as ->;
        [ unfold WAC_OFFSET; rewrite <- Lp; apply cstr_holds; [exact Hb|];
          intros H; apply in_app_iff in H as [H|[H|[]]]; [now apply (proj2 Oc)|discriminate H] |];
        cbn [obind]; rewrite Ot; replace (row_index (suffix limit i ++ [10])) with i by lia;
        rewrite E1; cbn [obind]; rewrite E; f_equal; f_equal; f_equal;
        destruct (in_dec Z.eq_dec 0 is) as [H|H], (in_dec Z.eq_dec 0 (i :: is)) as [H'|H']; try reflexivity;
        [ exfalso; apply H'; now right
        | destruct H' as [H'|H']; [rewrite H'; reflexivity|easy]
        | destruct (Z.eqb_spec i 0) as [E0|]; [exfalso; apply H'; now left|reflexivity] ]
      | intros j; rewrite P, P1; rewrite wac_eta;
        destruct (in_dec Z.eq_dec j is) as [H|H], (in_dec Z.eq_dec j (i :: is)) as [H'|H'];
        [ destruct (Z.eqb_spec j i); [congruence|reflexivity]
        | exfalso; apply H'; now right
        | destruct H' as [H'|H']; [|easy]; subst j; now rewrite Z.eqb_refl
        | destruct (Z.eqb_spec j i) as [E0|]; [exfalso; apply H'; now left|reflexivity] ] ]).
Qed.

Definition numbers_text (v : list wac) (limit : Z) (title : list Z) (excess total : bool) : list Z :=
  [10] ++ (title ++ [10]) ++ ((wac_heading ++ if excess then bytes "Occurs" else bytes "Length") ++ [10]) ++
  flat_map (row_text v limit) (indices limit excess total).

Lemma write_numbers_text v limit title (excess total : bool) : 0 <= limit ->
  zlen v = limit + 1 + (if excess then 1 else 0) ->
  write_numbers fmt v limit title excess total = Ok (numbers_text v limit title excess total).
Proof.
  intros L0 L. unfold write_numbers.
  rewrite (oconcat_ok (write_number fmt v) (row_text v limit)).
  2:{ intros i I. apply In_zrange in I.
      assert (0 <= i < zlen v) as Ri by (destruct excess; lia).
      unfold write_number, row_text, suffix. rewrite (proj2 (rd_Ok "wac[i]" v i (row v i)) (row_znth v i Ri)). cbn [obind].
      replace (i =? 0) with false by lia. replace (i =? limit + 1) with false by lia. cbn [orb].
      destruct (0 <? wcount (row v i)); [|reflexivity]. now rewrite <- !app_assoc. }
  cbn [obind].
  assert ((if excess then
      obind (rd "wac[limit + 1]" v (limit + 1)) (fun w =>
      if 0 <? wcount w then Ok (write_wac fmt w ++ bytes "   >" ++ dec2 limit ++ [10]) else Ok [])
    else Ok []) = Ok (flat_map (row_text v limit) (if excess then [limit + 1] else []))) as ->.
  { destruct excess; [|reflexivity]. cbn [flat_map]. rewrite app_nil_r.
    rewrite (proj2 (rd_Ok "wac[limit + 1]" v (limit + 1) (row v (limit + 1))) (row_znth v (limit + 1) ltac:(lia))).
    cbn [obind]. unfold row_text, suffix. replace (limit + 1 =? 0) with false by lia. rewrite Z.eqb_refl. cbn [orb].
    destruct (0 <? wcount (row v (limit + 1))); [|reflexivity]. now rewrite <- !app_assoc. }
  cbn [obind].
  assert ((if total then obind (rd "wac[0]" v 0) (fun w => Ok (write_wac fmt w ++ WAC_TOTAL)) else Ok [])
     = Ok (flat_map (row_text v limit) (if total then [0] else []))) as ->.
  { destruct total; [|reflexivity]. cbn [flat_map]. rewrite app_nil_r.
    rewrite (proj2 (rd_Ok "wac[0]" v 0 (row v 0)) (row_znth v 0 ltac:(destruct excess; lia))). reflexivity. }
  cbn [obind]. unfold numbers_text, indices. rewrite !flat_map_app. f_equal. now rewrite <- !app_assoc.
Qed.

Lemma two_lines_ok b l1 l2 rest : line_buffer b -> report_line l1 -> report_line l2 ->
  exists b', line_buffer b' /\ two_lines (b, l1 ++ l2 ++ rest) = Ok (true, (b', rest)).
Proof.
  intros B R1 R2. destruct (read_line_ok b l1 (l2 ++ rest) B R1) as (b1 & E1 & H1).
  destruct (read_line_ok b1 l2 rest (proj1 H1) R2) as (b2 & E2 & H2).
  exists b2. split; [apply H2|]. unfold two_lines. rewrite E1. cbn [obind]. exact E2.
Qed.

Lemma read_numbers_ok v limit title (excess total : bool) tail :
  (forall i, In i (indices limit excess total) -> index_ok limit i = true /\ 0 <= i < zlen v) ->
  (forall i, small_wac (row v i)) -> tail_ok tail -> 0 <= limit ->
  zlen v = limit + 1 + (if excess then 1 else 0) -> (total = false -> row v 0 = no_wac) ->
  clean title -> zlen title <= 40 ->
  forall fuel b ws, line_buffer b -> zlen ws = zlen v ->
  (List.length (numbers_text v limit title excess total ++ tail) <= fuel)%nat ->
  exists b' ws', line_buffer b' /\ zlen ws' = zlen ws /\
    read_numbers fuel ws (b, tl (numbers_text v limit title excess total ++ tail)) =
      Ok (ws', (if total then wcount (row v 0) else 0), (b', tl tail)) /\
    forall j, row ws' j = wadd (row ws j) (row v j).
Proof.
  intros I S T L0 Lv R0 Ct Lt fuel b ws B Lw Lf.
  assert (NoDup (indices limit excess total)) as ND.
  { unfold indices. apply nodup_app; [apply NoDup_zrange| |].
    - apply nodup_app; [destruct excess; repeat constructor; easy|destruct total; repeat constructor; easy|].
      intros x X Y. destruct excess; [|easy]. destruct total; [|easy]. destruct X as [X|[]], Y as [Y|[]]. lia.
    - intros x X Y. apply In_zrange in X. apply in_app_iff in Y as [Y|Y].
      + destruct excess; [|easy]. destruct Y as [Y|[]]. lia.
      + destruct total; [|easy]. destruct Y as [Y|[]]. lia. }
  assert (forall j, 0 <= j < zlen v -> In j (indices limit excess total) \/ row v j = no_wac) as Cov.
  { intros j J. unfold indices. rewrite !in_app_iff, In_zrange.
    assert (j = 0 \/ 1 <= j <= limit \/ j = limit + 1) as [->|[H|H]] by (destruct excess; lia).
    - destruct total; [left; right; right; now left|right; now apply R0].
    - left. left. lia.
    - destruct excess; [|lia]. left. right. left. now left. }
  unfold numbers_text in *. cbn [app tl] in *. rewrite <- !app_assoc. rewrite (app_assoc title).
  rewrite (app_assoc wac_heading). rewrite (app_assoc (_ ++ _) [10]).
  rewrite <- !app_assoc in Lf.
  unfold read_numbers.
  match goal with |- context [two_lines (b, ?l1 ++ ?l2 ++ ?r)] =>
    destruct (two_lines_ok b l1 l2 r B) as (b1 & B1 & E1) end.
  - apply line_intro; [exact Ct|lia].
  - apply line_intro; [apply clean_app; [cb|destruct excess; cb]|destruct excess; cbn; lia].
  - rewrite E1. cbn [obind].
    destruct (number_rows_ok v limit tail (indices limit excess total) I S ND T fuel b1 ws 0 B1 Lw) as (b' & ws' & B' & L' & E & P).
    { cbn [List.length] in Lf. rewrite !app_length in *. lia. }
    exists b', ws'. split; [exact B'|]. split; [exact L'|]. split.
    + rewrite E. f_equal. f_equal. f_equal. destruct (in_dec Z.eq_dec 0 (indices limit excess total)) as [H|H].
      * destruct total; [reflexivity|]. exfalso. unfold indices in H. rewrite !in_app_iff, In_zrange in H.
        destruct H as [H|[H|[]]]; [lia|]. destruct excess; [|easy]. destruct H as [H|[]]. lia.
      * destruct total; [|reflexivity]. exfalso. apply H. unfold indices. rewrite !in_app_iff. right. right. now left.
    + intros j. rewrite P. destruct (in_dec Z.eq_dec j (indices limit excess total)) as [H|H]; [reflexivity|].
      assert (row v j = no_wac) as ->; [|now rewrite wadd_0_r].
      assert (0 <= j < zlen v \/ ~ (0 <= j < zlen v)) as [J|J] by lia; [|now apply row_out].
      destruct (Cov j J) as [H'|H']; [easy|exact H'].
Qed.

(** ** Tables of words *)
Definition term_row_ok (t : term) : Prop := report_word (tkey t) /\ small_wac (twac t).
Definition put_term (T : list term) (t : term) : list term :=
  add_term T (tkey t) (wcount (twac t)) (wmissed (twac t)).
Definition put_terms (a T : list term) : list term := fold_left put_term a T.

Lemma word_clean k : report_word k -> clean k /\ zlen k <= 68.
Proof.
  intros (N & F & L). split; [|exact L]. split; [exact N|]. intros I. rewrite Forall_forall in F.
  specialize (F 0 I). lia.
Qed.

Lemma term_rows_end fuel b T tail : line_buffer b -> tail_ok tail ->
  exists b', line_buffer b' /\ term_rows fuel T (b, tail) = Ok (T, (b', tl tail)).
Proof.
  intros B [->|(r & ->)].
  - exists b. split; [exact B|]. now destruct fuel.
  - destruct (read_scan_ok scan_two b [10] r B blank_line) as (b' & E & Hb).
    exists b'. split; [apply Hb|]. destruct fuel; cbn [term_rows]; rewrite E; reflexivity.
Qed.

(** line[strlen(line) - 1] = 0 *)
Lemma chop b l c : holds b (l ++ [c]) -> exists b', wr "line" b (zlen (l ++ [c]) - 1) 0 = Ok b' /\ holds b' l.
Proof.
  intros [[Lb Z99] (tl & E)]. assert (zlen (l ++ [c]) - 1 = zlen l) as -> by (zl; lia).
  pose proof (zlen_nonneg l) as L0. pose proof (zlen_nonneg tl) as Lt.
  assert (zlen l + 2 + zlen tl = 100) as Len by (rewrite E in Lb; revert Lb; zl; lia).
  rewrite <- app_assoc in E. cbn [app] in E. exists (l ++ 0 :: 0 :: tl).
  assert (wr "line" b (zlen l) 0 = Ok (l ++ 0 :: 0 :: tl)) as Ew.
  { destruct (zset_lt_Some b (zlen l) 0 ltac:(lia)) as (b' & Es). unfold wr. rewrite Es. f_equal.
    apply znth_ext.
    - rewrite (zset_zlen _ _ _ _ Es), Lb. zl. lia.
    - intros i Hi. rewrite (zset_znth _ _ _ _ Es). destruct (Z.eqb_spec i (zlen l)) as [->|N].
      + rewrite znth_app2 by lia. now rewrite Z.sub_diag.
      + rewrite E. assert (i < zlen l \/ zlen l < i) as [H|H] by lia.
        * rewrite !znth_app1 by lia. reflexivity.
        * rewrite !znth_app2 by lia. rewrite (znth_cons_S c), (znth_cons_S 0 (0 :: tl)) by lia. reflexivity. }
  split; [exact Ew|]. split; [split|].
  - zl. lia.
  - rewrite E in Z99. revert Z99. rewrite !znth_app2 by lia. destruct (Z.eq_dec (zlen l) 99) as [E0|N0]; [lia|].
    rewrite (znth_cons_S c), (znth_cons_S 0 (0 :: tl)) by lia. auto.
  - eauto.
Qed.

Lemma term_rows_ok tail a : Forall term_row_ok a -> tail_ok tail ->
  forall fuel b T, line_buffer b -> (List.length (flat_map (write_term fmt) a ++ tail) <= fuel)%nat ->
  exists b', line_buffer b' /\
    term_rows fuel T (b, flat_map (write_term fmt) a ++ tail) = Ok (put_terms a T, (b', tl tail)).
Proof.
  intros F Tl. induction F as [|t a [Rw Sm] F IH]; intros fuel b T B L.
  - now apply term_rows_end.
  - change (put_terms (t :: a) T) with (put_terms a (put_term T t)).
    cbn [flat_map] in L |- *. rewrite <- app_assoc in *.
    destruct (word_clean _ Rw) as [Cl Lk].
    destruct (wac_line (twac t) (tkey t) Sm Cl Lk) as (R & S & Lp & Cp).
    pose proof (line_pos _ R) as P. rewrite app_length in L. unfold write_term at 1 in L. destruct fuel as [|fuel]; [lia|].
    destruct (read_scan_ok scan_two b _ (flat_map (write_term fmt) a ++ tail) B R) as (b1 & E & Hb).
    pose proof Hb as Hb'. rewrite app_assoc in Hb'. destruct (chop b1 _ _ Hb') as (b2 & Ew & H2).
    rewrite <- app_assoc in Ew.
    destruct (IH fuel b2 (put_term T t) (proj1 H2) ltac:(lia)) as (b3 & B3 & E3).
    exists b3. split; [exact B3|]. unfold write_term at 1. cbn [term_rows]. rewrite E. cbn [obind]. rewrite S. cbn [fst snd].
    rewrite (cstr0_holds b1 _ Hb) by now apply report_line_no_nul. cbn [obind].
    rewrite Ew. cbn [obind]. unfold WAC_OFFSET. rewrite <- Lp.
    rewrite (cstr_holds b2 _ _ H2 (proj2 Cl)). cbn [obind]. exact E3.
Qed.

Definition terms_text (a : list term) (title : list Z) : list Z :=
  [10] ++ (title ++ [10]) ++ (wac_heading ++ [10]) ++ flat_map (write_term fmt) a.

Lemma read_terms_ok tail a title : Forall term_row_ok a -> tail_ok tail -> clean title -> zlen title <= 40 ->
  forall fuel b T, line_buffer b -> (List.length (terms_text a title ++ tail) <= fuel)%nat ->
  exists b', line_buffer b' /\
    read_terms fuel T (b, tl (terms_text a title ++ tail)) = Ok (put_terms a T, (b', tl tail)).
Proof.
  intros F Tl Ct Lt fuel b T B L. unfold read_terms, terms_text in *. cbn [app tl] in *.
  rewrite <- !app_assoc. rewrite (app_assoc title), (app_assoc wac_heading).
  match goal with |- context [two_lines (b, ?l1 ++ ?l2 ++ ?r)] =>
    destruct (two_lines_ok b l1 l2 r B) as (b1 & B1 & E1) end.
  - apply line_intro; [exact Ct|lia].
  - apply line_intro; [cb|cbn; lia].
  - rewrite E1. cbn [obind]. apply term_rows_ok; auto.
    rewrite <- !app_assoc in L. cbn [List.length] in L. rewrite !app_length in *. lia.
Qed.

(** ** The whole report *)
Definition words_text (d : wacdata) (sa na : list term) : list Z :=
  if 0 <? wcount (wtotal d) then
    numbers_text (phrase d) 8 (bytes "Phrases") false false ++
    (if 0 <? wcount (row (stopword d) 0) then terms_text sa (bytes "Stopwords") else []) ++
    (if 0 <? wcount (row (non_stopword d) 0) then terms_text na (bytes "Non-stopwords") else [])
  else [].
Definition report_wtext (d : wacdata) (sa na : list term) : list Z :=
  WAC_TITLE ++ WAC_DIVIDER ++
  write_value (wcount (wtotal d)) (bytes "Words") ++
  write_value (wmissed (wtotal d)) (bytes "Misrecognized") ++
  ((wac_pct fmt (wtotal d) ++ bytes "%  Accuracy") ++ [10]) ++
  numbers_text (stopword d) 50 (bytes "Stopwords") false true ++
  numbers_text (non_stopword d) 50 (bytes "Non-stopwords") false true ++
  numbers_text (distinct d) 10 (bytes "Distinct Non-stopwords") true true ++
  words_text d sa na.

Lemma write_terms_text order l title : exists a,
  (forall l, Permutation (order l) l) -> Permutation a l /\
  write_terms fmt order l title = Ok (terms_text a title) /\
  sort compare_words (zlen (order l)) (order l) = Ok a.
Proof.
  destruct (C06_sort _ compare_words (order l)) as (a & Es & Pm & _). exists a. intros O.
  split; [|split; [|exact Es]].
  - eapply Permutation_trans; [apply Permutation_sym; exact Pm|apply O].
  - unfold write_terms. rewrite Es. cbn [obind]. unfold terms_text. now rewrite <- !app_assoc.
Qed.

Definition permutes_terms (order : list term -> list term) : Prop := forall l, Permutation (order l) l.

Lemma write_wacrpt_text order d : wreportable d -> permutes_terms order ->
  exists sa na, Permutation sa (stop_terms d) /\ Permutation na (non_terms d) /\
    write_wacrpt fmt order d = Ok (report_wtext d sa na) /\
    sort compare_words (zlen (order (stop_terms d))) (order (stop_terms d)) = Ok sa /\
    sort compare_words (zlen (order (non_terms d))) (order (non_terms d)) = Ok na.
Proof.
  intros R O. destruct (write_terms_text order (stop_terms d) (bytes "Stopwords")) as (sa & Hs).
  destruct (write_terms_text order (non_terms d) (bytes "Non-stopwords")) as (na & Hn).
  destruct (Hs O) as (Ps & Es & Ss). destruct (Hn O) as (Pn & En & Sn).
  exists sa, na. split; [exact Ps|]. split; [exact Pn|]. split; [|auto].
  unfold write_wacrpt.
  rewrite (write_numbers_text (stopword d)) by (try exact (wr_stop d R); unfold MAX_WORDLENGTH; lia). cbn [obind].
  rewrite (write_numbers_text (non_stopword d)) by (try exact (wr_non d R); unfold MAX_WORDLENGTH; lia). cbn [obind].
  rewrite (write_numbers_text (distinct d)) by (try exact (wr_distinct d R); unfold MAX_OCCURRENCES; lia). cbn [obind].
  assert (write_words fmt order d = Ok (words_text d sa na)) as ->.
  { unfold write_words, words_text. destruct (0 <? wcount (wtotal d)); [|reflexivity].
    rewrite (write_numbers_text (phrase d)) by (try exact (wr_phrase d R); unfold MAX_PHRASELENGTH; lia). cbn [obind].
    pose proof (wr_stop d R) as L1. pose proof (wr_non d R) as L2. unfold MAX_WORDLENGTH in *.
    rewrite (proj2 (rd_Ok "stopword[0]" (stopword d) 0 _) (row_znth (stopword d) 0 ltac:(lia))). cbn [obind].
    rewrite (proj2 (rd_Ok "non_stopword[0]" (non_stopword d) 0 _) (row_znth (non_stopword d) 0 ltac:(lia))).
    rewrite Es, En.
    destruct (0 <? wcount (row (stopword d) 0)); cbn [obind];
      destruct (0 <? wcount (row (non_stopword d) 0)); reflexivity. }
  cbn [obind]. unfold report_wtext. f_equal. now rewrite <- !app_assoc.
Qed.

Definition wmerged (D d : wacdata) (sa na : list term) (D' : wacdata) : Prop :=
  wtotal D' = wadd (wtotal D) (wtotal d) /\
  (zlen (stopword D') = zlen (stopword D) /\ forall j, row (stopword D') j = wadd (row (stopword D) j) (row (stopword d) j)) /\
  (zlen (non_stopword D') = zlen (non_stopword D) /\ forall j, row (non_stopword D') j = wadd (row (non_stopword D) j) (row (non_stopword d) j)) /\
  (zlen (distinct D') = zlen (distinct D) /\ forall j, row (distinct D') j = wadd (row (distinct D) j) (row (distinct d) j)) /\
  (zlen (phrase D') = zlen (phrase D) /\ forall j, row (phrase D') j = wadd (row (phrase D) j) (row (phrase d) j)) /\
  stop_terms D' = put_terms sa (stop_terms D) /\ non_terms D' = put_terms na (non_terms D).

Lemma rows_small d : wreportable d -> wbelow 100000000 d ->
  small_wac (wtotal d) /\ (forall i, small_wac (row (stopword d) i)) /\ (forall i, small_wac (row (non_stopword d) i)) /\
  (forall i, small_wac (row (distinct d) i)) /\ (forall i, small_wac (row (phrase d) i)).
Proof.
  intros R B. destruct (wr_sane d R) as (S1 & S2 & S3 & S4).
  split; [split; [exact (wr_total d R)|exact (B (WWords false))]|].
  split; [intros i; split; [now apply row_sane|exact (B (WStop false i))]|].
  split; [intros i; split; [now apply row_sane|exact (B (WNon false i))]|].
  split; [intros i; split; [now apply row_sane|exact (B (WDistinct false i))]|].
  intros i; split; [now apply row_sane|exact (B (WPhrase false i))].
Qed.

Lemma word_fig_in m l t : NoDup (map tkey l) -> In t l -> word_fig m l (tkey t) = wcell m (twac t).
Proof.
  induction l as [|u l IH]; intros N I; [easy|]. inversion N as [|? ? N1 N2]; subst. unfold word_fig in *. cbn [map]. rewrite zsum_cons.
  destruct I as [->|I].
  - destruct (list_eq_dec Z.eq_dec (tkey t) (tkey t)); [|congruence].
    assert (zsum (map (fun t0 => if list_eq_dec Z.eq_dec (tkey t0) (tkey t) then wcell m (twac t0) else 0) l) = 0) as ->; [|lia].
    clear IH N N2. induction l as [|v l IHl]; [reflexivity|]. cbn [map]. rewrite zsum_cons, IHl.
    + destruct (list_eq_dec Z.eq_dec (tkey v) (tkey t)) as [E|]; [|reflexivity]. exfalso. apply N1. left. exact E.
    + intros H. apply N1. now right.
  - rewrite (IH N2 I). destruct (list_eq_dec Z.eq_dec (tkey u) (tkey t)) as [E|]; [|lia].
    exfalso. apply N1. rewrite E. now apply in_map.
Qed.

Lemma terms_small l a c : words_ok l c -> (forall k, word_fig false l k < 100000000) -> Permutation a l ->
  Forall term_row_ok a.
Proof.
  intros W B P. apply Forall_forall. intros t T. eapply Permutation_in in T; [|exact P].
  pose proof (wo_words _ _ W) as F. pose proof (wo_sane _ _ W) as S. rewrite Forall_forall in F, S.
  split; [now apply F|]. split; [now apply (S t T)|].
  pose proof (B (tkey t)) as Bt. rewrite (word_fig_in false l t (wo_keys _ _ W) T) in Bt. exact Bt.
Qed.

Lemma terms_none l a c : words_ok l c -> c <= 0 -> Permutation a l -> a = [].
Proof.
  intros W C P. assert (l = []) as ->; [|now apply Permutation_sym, Permutation_nil in P].
  pose proof (wo_count _ _ W) as E. pose proof (wo_sane _ _ W) as F. destruct l as [|t l]; [reflexivity|].
  apply Forall_cons_iff in F as [[_ F1] F]. cbn [map] in E. rewrite zsum_cons in E.
  assert (0 <= zsum (map (fun t => wcount (twac t)) l)); [|lia].
  apply zsum_nonneg, Forall_map. eapply Forall_impl; [|exact F]. cbn. lia.
Qed.

Lemma tail_numbers v l t e tot r : tail_ok (numbers_text v l t e tot ++ r).
Proof. right. unfold numbers_text. eexists. cbn [app]. reflexivity. Qed.

Lemma wac_title_line : report_line WAC_TITLE.
Proof. apply line_intro; [cb|]. cbn. lia. Qed.
Lemma wac_divider_line : report_line WAC_DIVIDER.
Proof. apply line_intro; [cb|]. cbn. lia. Qed.

Lemma index_in limit e t i n : forallb (index_ok limit) (indices limit e t) = true ->
  n = limit + 1 + (if e : bool then 1 else 0) -> 0 <= limit ->
  In i (indices limit e t) -> index_ok limit i = true /\ 0 <= i < n.
Proof.
  intros H -> L I. rewrite forallb_forall in H. split; [now apply H|].
  unfold indices in I. rewrite !in_app_iff, In_zrange in I.
  destruct I as [I|[I|I]]; [destruct e; lia| |].
  - destruct e; [|easy]. destruct I as [I|[]]. lia.
  - destruct t; [|easy]. destruct I as [I|[]]. destruct e; lia.
Qed.

Lemma read_wreport b D d sa na : line_buffer b -> wreportable D -> wreportable d -> wbelow 100000000 d ->
  Permutation sa (stop_terms d) -> Permutation na (non_terms d) ->
  exists b' D', line_buffer b' /\ read_wacrpt b D (report_wtext d sa na) = Ok (D', b') /\ wmerged D d sa na D'.
Proof.
  intros B0 RD R Bl Ps Pn.
  destruct (rows_small d R Bl) as (Bt & B1' & B2' & B3' & B4').
  destruct indices_ok as (I1 & I2 & I3).
  pose proof (wr_stop d R) as L1. pose proof (wr_non d R) as L2. pose proof (wr_distinct d R) as L3. pose proof (wr_phrase d R) as L4.
  pose proof (wr_stop D RD) as M1. pose proof (wr_non D RD) as M2. pose proof (wr_distinct D RD) as M3. pose proof (wr_phrase D RD) as M4.
  unfold MAX_WORDLENGTH, MAX_OCCURRENCES, MAX_PHRASELENGTH in *.
  set (f := report_wtext d sa na). set (fuel := List.length f).
  destruct Bt as [[Bt1 Bt2] Bt3].
  destruct (pct_clean fmt FMT (wcount (wtotal d) - wmissed (wtotal d)) (wcount (wtotal d))) as (P1 & P2 & _); try lia.
  unfold read_wacrpt. fold fuel.
  assert (List.length f <= fuel)%nat as Lf by (unfold fuel; lia). clearbody fuel.
  unfold f in *. clear f. unfold report_wtext in *.
  match goal with |- context [need_title WAC_TITLE (b, WAC_TITLE ++ ?r)] =>
    destruct (need_title_ok b WAC_TITLE r B0 wac_title_line) as (b1 & E1 & B1) end.
  rewrite E1. cbn [obind]. clear E1.
  match goal with |- context [need_divider WAC_DIVIDER (b1, WAC_DIVIDER ++ ?r)] =>
    destruct (need_divider_ok b1 WAC_DIVIDER r B1 wac_divider_line) as (b2 & E2 & B2) end.
  rewrite E2. cbn [obind]. clear E2.
  destruct (value_line (wcount (wtotal d)) (bytes "Words")) as (R3 & T3); [lia|cb|cbn; lia|].
  match goal with |- context [need_scan scan_one (b2, ?l ++ ?r)] =>
    destruct (need_scan_ok scan_one (wcount (wtotal d)) b2 l r B2 R3 T3) as (b3 & E3 & B3) end.
  rewrite E3. cbn [obind]. clear E3.
  destruct (value_line (wmissed (wtotal d)) (bytes "Misrecognized")) as (R4 & T4); [lia|cb|cbn; lia|].
  match goal with |- context [need_scan scan_one (b3, ?l ++ ?r)] =>
    destruct (need_scan_ok scan_one (wmissed (wtotal d)) b3 l r B3 R4 T4) as (b4 & E4 & B4) end.
  rewrite E4. cbn [obind]. clear E4.
  match goal with |- context [need_line (b4, ?l ++ ?r)] =>
    destruct (need_line_ok b4 l r B4) as (b5 & E5 & B5);
    [apply line_intro; [apply clean_app; [exact P1|cb]|rewrite zlen_app; unfold wac_pct; cbn [zlen]; change (zlen (bytes "%  Accuracy")) with 11; lia]|] end.
  rewrite E5. cbn [obind]. clear E5.
  match goal with |- context [need_line (b5, ?t)] => set (rest := t) in *; assert (rest = [10] ++ tl rest) as Er by reflexivity end.
  assert (exists b6, need_line (b5, rest) = Ok (b6, tl rest) /\ line_buffer b6) as (b6 & E6 & B6).
  { pose proof (need_line_ok b5 [10] (tl rest) B5 blank_line) as H. rewrite <- Er in H. exact H. }
  rewrite E6. cbn [obind]. clear E6 Er.
  repeat rewrite app_length in Lf.
  assert (List.length rest <= fuel)%nat as Lr by lia.
  unfold rest in *. clear rest Lf. unfold read_tables.
  (* stopwords *)
  match goal with |- context [read_numbers fuel (stopword D) (b6, tl (?x ++ ?t))] => set (t1 := t) in * end.
  destruct (read_numbers_ok (stopword d) 50 (bytes "Stopwords") false true t1) with (fuel := fuel) (b := b6) (ws := stopword D)
    as (b7 & sw & B7 & Lsw & -> & Psw); try assumption; try lia; try discriminate; try cb.
  { intros i. apply index_in; [exact I1|lia|lia]. }
  { unfold t1. apply tail_numbers. }
  cbn [obind].
  assert (List.length t1 <= fuel)%nat as Lt1 by (rewrite app_length in Lr; lia). clear Lr. unfold t1 in *. clear t1.
  match goal with |- context [read_numbers fuel (non_stopword D) (b7, tl (?x ++ ?t))] => set (t1 := t) in * end.
  destruct (read_numbers_ok (non_stopword d) 50 (bytes "Non-stopwords") false true t1) with (fuel := fuel) (b := b7) (ws := non_stopword D)
    as (b8 & nsw & B8 & Lnsw & -> & Pnsw); try assumption; try lia; try discriminate; try cb.
  { intros i. apply index_in; [exact I1|lia|lia]. }
  { unfold t1. apply tail_numbers. }
  cbn [obind].
  assert (List.length t1 <= fuel)%nat as Lt2 by (rewrite app_length in Lt1; lia). clear Lt1. unfold t1 in *. clear t1.
  assert (tail_ok (words_text d sa na)) as Tw.
  { unfold words_text. destruct (0 <? wcount (wtotal d)); [apply tail_numbers|now left]. }
  destruct (read_numbers_ok (distinct d) 10 (bytes "Distinct Non-stopwords") true true (words_text d sa na)) with (fuel := fuel) (b := b8) (ws := distinct D)
    as (b9 & dn & B9 & Ldn & -> & Pdn); try assumption; try lia; try discriminate; try cb.
  { intros i. apply index_in; [exact I2|lia|lia]. }
  cbn [obind].
  assert (List.length (words_text d sa na) <= fuel)%nat as Lt3 by (rewrite app_length in Lt2; lia). clear Lt2.
  pose proof (wr_stop_terms d R) as Ws. pose proof (wr_non_terms d R) as Wn.
  unfold read_words. unfold words_text in *. destruct (Z.ltb_spec 0 (wcount (wtotal d))) as [C|C].
  - match goal with |- context [read_numbers fuel _ (b9, tl (?x ++ ?t))] => set (t1 := t) in * end.
    cbn [phrase stop_terms non_terms wtotal stopword non_stopword distinct].
    assert (tail_ok t1) as Tt1.
    { unfold t1. destruct (0 <? wcount (row (stopword d) 0)); [right; eexists; reflexivity|].
      destruct (0 <? wcount (row (non_stopword d) 0)); [right; eexists; reflexivity|now left]. }
    assert (forall i, In i (indices 8 false false) -> index_ok 8 i = true /\ 0 <= i < zlen (phrase d)) as Ip
      by (intros i; apply index_in; [exact I3|lia|lia]).
    destruct (read_numbers_ok (phrase d) 8 (bytes "Phrases") false false t1 Ip B4' Tt1 ltac:(lia) ltac:(lia)
      (fun _ => wr_phrase0 d R) ltac:(cb) ltac:(cbn; lia) fuel b9 (phrase D) B9 ltac:(lia) Lt3)
      as (b10 & ps & B10 & Lps & Eps & Pps).
    rewrite Eps. clear Eps.
    cbn [obind].
    assert (List.length t1 <= fuel)%nat as Lt4 by (rewrite app_length in Lt3; lia). clear Lt3. unfold t1 in *. clear t1.
    match goal with |- context [(b10, tl (?x ++ ?t))] => set (t1 := t) in * end.
    assert (tail_ok t1) as Tt2.
    { unfold t1. destruct (0 <? wcount (row (non_stopword d) 0)); [right; eexists; reflexivity|now left]. }
    match goal with |- context [obind (if 0 <? wcount (row (stopword d) 0) then ?X else ?Y) _] =>
      assert (exists b11, line_buffer b11 /\
        (if 0 <? wcount (row (stopword d) 0) then X else Y) = Ok (put_terms sa (stop_terms D), (b11, tl t1)))
        as (b11 & B11 & ->) end.
    { destruct (Z.ltb_spec 0 (wcount (row (stopword d) 0))) as [C1|C1].
      - apply read_terms_ok; auto; try cb; try (cbn; lia).
        apply (terms_small (stop_terms d) _ _ Ws); [|exact Ps]. intros k. exact (Bl (WStopword false k)).
      - rewrite (terms_none _ _ _ Ws ltac:(lia) Ps). exists b10. split; [exact B10|reflexivity]. }
    cbn [obind].
    assert (List.length t1 <= fuel)%nat as Lt5 by (rewrite app_length in Lt4; lia). clear Lt4.
    match goal with |- context [obind (if 0 <? wcount (row (non_stopword d) 0) then ?X else ?Y) _] =>
      assert (exists b12 r, line_buffer b12 /\
        (if 0 <? wcount (row (non_stopword d) 0) then X else Y) = Ok (put_terms na (non_terms D), (b12, r)))
        as (b12 & r & B12 & ->) end.
    { unfold t1 in *. destruct (Z.ltb_spec 0 (wcount (row (non_stopword d) 0))) as [C1|C1].
      - destruct (read_terms_ok [] na (bytes "Non-stopwords")) with (fuel := fuel) (b := b11) (T := non_terms D)
          as (b12 & B12 & E12); auto; try cb; try (cbn; lia).
        + apply (terms_small (non_terms d) _ _ Wn); [|exact Pn]. intros k. exact (Bl (WNonStopword false k)).
        + now left.
        + now rewrite app_nil_r.
        + rewrite app_nil_r in E12. eauto.
      - rewrite (terms_none _ _ _ Wn ltac:(lia) Pn). exists b11, []. split; [exact B11|reflexivity]. }
    cbn [obind fst]. eexists b12, _. split; [exact B12|]. split; [reflexivity|].
    unfold wmerged. cbn [phrase stop_terms non_terms wtotal stopword non_stopword distinct].
    split; [rewrite increment_wadd, wac_eta; reflexivity|]. auto 10.
  - cbn [obind fst]. eexists b9, _. split; [exact B9|]. split; [reflexivity|].
    unfold wmerged. cbn [phrase stop_terms non_terms wtotal stopword non_stopword distinct].
    split; [rewrite increment_wadd, wac_eta; reflexivity|].
    split; [auto|]. split; [auto|]. split; [auto|].
    pose proof (wr_sum d R) as Sum. destruct (B1' 0) as [[? ?] _], (B2' 0) as [[? ?] _].
    split; [split; [reflexivity|]|].
    { intros j. rewrite (wr_phrases d R) by lia. now rewrite wadd_0_r. }
    rewrite (terms_none _ _ _ Ws ltac:(lia) Ps), (terms_none _ _ _ Wn ltac:(lia) Pn). split; reflexivity.
Qed.
End Report.
