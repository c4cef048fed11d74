(** Writing, reading and summing edit operation reports; their costs. *)
From Coq Require Import String Permutation.
From Verif Require Import Base CLib CLibProof AccSpec SumProof ReportModel ReportSpec ReportProof ReportSafe VerdictProof
  AccrptModel AccrptProof AccrptSafe LcsProof EdoModel EdoSpec.
Local Open Scope Z_scope.
Local Open Scope list_scope.

Local Ltac zl := repeat rewrite zlen_app; repeat rewrite zlen_cons; rewrite ?zlen_nil.
Local Ltac cb := apply clean_bytes; reflexivity.

(** ** Tables *)
Lemma entry_Some ms i n : znth ms i = Some n -> entry ms i = n.
Proof. intros E. unfold entry. now rewrite E. Qed.
Lemma entry_znth ms i : 0 <= i < zlen ms -> znth ms i = Some (entry ms i).
Proof. intros H. destruct (znth_lt_Some ms i H) as [n E]. now rewrite (entry_Some _ _ _ E). Qed.
Lemma entry_out ms i : ~ (0 <= i < zlen ms) -> entry ms i = 0.
Proof. intros H. unfold entry. destruct (znth ms i) eqn:E; [apply znth_Some_lt in E; lia|reflexivity]. Qed.
Lemma entry_ext a b : zlen a = zlen b -> (forall i, entry a i = entry b i) -> a = b.
Proof.
  intros L H. apply znth_ext; [exact L|]. intros i I. rewrite !entry_znth by lia. now rewrite H.
Qed.

Lemma wr_entry msg ms i n : 0 <= i < zlen ms ->
  exists ms', wr msg ms i n = Ok ms' /\ zlen ms' = zlen ms /\
    forall j, entry ms' j = if j =? i then n else entry ms j.
Proof.
  intros H. destruct (zset_lt_Some ms i n H) as [ms' E]. exists ms'. unfold wr. rewrite E.
  split; [reflexivity|]. split; [now apply zset_zlen in E|]. intros j. unfold entry. rewrite (zset_znth _ _ _ _ E).
  now destruct (Z.eqb_spec j i).
Qed.

Lemma add_at_ok ms i n : 0 <= i < zlen ms ->
  exists ms', add_at ms i n = Ok ms' /\ zlen ms' = zlen ms /\
    forall j, entry ms' j = if j =? i then entry ms j + n else entry ms j.
Proof.
  intros H. unfold add_at. rewrite (proj2 (rd_Ok _ ms i (entry ms i)) (entry_znth ms i H)). cbn [obind].
  destruct (wr_entry "moves[value2]" ms i (entry ms i + n) H) as (ms' & E & L & P). exists ms'. split; [exact E|].
  split; [exact L|]. intros j. rewrite P. destruct (Z.eqb_spec j i); [now subst|reflexivity].
Qed.

(** The sum of a table. *)
Lemma znth_zrange n : forall lo k, 0 <= k < Z.of_nat n -> znth (zrange lo n) k = Some (lo + k).
Proof.
  induction n as [|n IH]; intros lo k K; [lia|]. cbn [zrange].
  destruct (Z.eq_dec k 0) as [->|N]; [rewrite znth_cons_0; f_equal; lia|].
  rewrite znth_cons_S by lia. rewrite IH by lia. f_equal. lia.
Qed.
Lemma entries ms : ms = map (entry ms) (zrange 0 (List.length ms)).
Proof.
  apply znth_ext; [unfold zlen; now rewrite map_length, zrange_length|]. intros i I. unfold zlen in I.
  rewrite znth_map, znth_zrange by lia. cbn [option_map]. now apply entry_znth.
Qed.
Lemma zsum_entries ms : zlen ms = 101 -> zsum ms = entry ms 0 + zsum (map (entry ms) (zrange 1 100)).
Proof.
  intros L. transitivity (zsum (map (entry ms) (zrange 0 (List.length ms)))); [now rewrite <- entries|].
  assert (List.length ms = 101%nat) as -> by (unfold zlen in L; lia).
  change (zrange 0 101) with (0 :: zrange 1 100). cbn [map]. now rewrite zsum_cons.
Qed.

(** ** Lines *)
Definition fits (n : Z) : Prop := 0 <= n < 9223372036854775808.
Lemma dec8_fits n : fits n -> zlen (dec8 n) <= 19.
Proof.
  intros H. unfold fits in H. unfold dec8, pad, dec. destruct (Z.ltb_spec n 0); [lia|].
  pose proof (digits_len 10 n 18 ltac:(lia) ltac:(change (10 ^ Z.of_nat 19) with 10000000000000000000; lia)).
  unfold zlen. rewrite app_length, repeat_length, !map_length. lia.
Qed.

Lemma edo_value_line v s : fits v -> clean s -> zlen s <= 40 ->
  report_line (write_value v s) /\ scan_one (write_value v s) = Some v.
Proof.
  intros V C L. pose proof (dec8_fits v V). unfold fits in V. unfold write_value. split.
  - rewrite !app_assoc. apply line_intro.
    + repeat (first [assumption | apply clean_dec8; lia | cb | apply clean_app]).
    + zl. change (zlen (bytes "   ")) with 3. lia.
  - apply scan_one_dec8; [unfold LONG_MAX; lia|reflexivity].
Qed.

Lemma move_line n i : fits n -> fits i ->
  report_line (write_move n i) /\ scan_two (write_move n i) = Some (n, i).
Proof.
  intros N I. pose proof (dec8_fits n N). pose proof (dec8_fits i I). unfold fits in *. unfold write_move. split.
  - rewrite !app_assoc. apply line_intro.
    + repeat (first [assumption | apply clean_dec8; lia | cb | apply clean_app]).
    + zl. change (zlen (bytes " ")) with 1. lia.
  - apply scan_two_dec8; try (unfold LONG_MAX; lia). reflexivity.
Qed.

(** ** The table of moves *)
Definition move_text (v : list Z) (i : Z) : list Z := if 0 <? entry v i then write_move (entry v i) i else [].

Lemma move_rows_ok v is : (forall i, In i is -> 0 <= i <= 100) -> (forall i, fits (entry v i)) -> NoDup is ->
  forall fuel b ms, line_buffer b -> zlen ms = 101 -> (List.length (flat_map (move_text v) is) <= fuel)%nat ->
  exists b' ms', line_buffer b' /\ zlen ms' = 101 /\
    move_rows fuel ms (b, flat_map (move_text v) is) = Ok (ms', (b', [])) /\
    forall j, entry ms' j = if in_dec Z.eq_dec j is then entry ms j + entry v j else entry ms j.
Proof.
  intros I S ND. induction is as [|i is IH]; intros fuel b ms B Lm L.
  - exists b, ms. split; [exact B|]. split; [exact Lm|]. split; [now destruct fuel|reflexivity].
  - inversion ND as [|? ? N1 N2]; subst. specialize (IH (fun j J => I j (or_intror J)) N2).
    pose proof (S i) as Si. cbn [flat_map] in L |- *. unfold move_text at 1 in L. unfold move_text at 1.
    destruct (Z.ltb_spec 0 (entry v i)) as [C|C].
    + assert (0 <= i <= 100) as Ri by (apply I; now left).
      destruct (move_line (entry v i) i Si ltac:(unfold fits; lia)) as [Rl Sc].
      pose proof (line_pos _ Rl) as Pos. rewrite app_length in L. destruct fuel as [|fuel]; [lia|].
      destruct (read_scan_ok scan_two b _ (flat_map (move_text v) is) B Rl) as (b1 & Er & Hb).
      destruct (add_at_ok ms i (entry v i) ltac:(lia)) as (ms1 & E1 & L1 & P1).
      destruct (IH fuel b1 ms1 (proj1 Hb) ltac:(lia) ltac:(lia)) as (b' & ms' & B' & L' & E & P).
      exists b', ms'. split; [exact B'|]. split; [exact L'|]. split.
      * cbn [move_rows]. rewrite Er. cbn [obind]. rewrite Sc. rewrite E1. cbn [obind]. exact E.
      * intros j. rewrite P, P1.
        destruct (in_dec Z.eq_dec j is) as [H|H], (in_dec Z.eq_dec j (i :: is)) as [H'|H'].
        -- destruct (Z.eqb_spec j i); [congruence|reflexivity].
        -- exfalso. apply H'. now right.
        -- destruct H' as [H'|H']; [|easy]. subst j. now rewrite Z.eqb_refl.
        -- destruct (Z.eqb_spec j i) as [E0|]; [exfalso; apply H'; now left|reflexivity].
    + destruct (IH fuel b ms B Lm L) as (b' & ms' & B' & L' & E & P). exists b', ms'.
      split; [exact B'|]. split; [exact L'|]. split; [exact E|]. unfold fits in Si.
      intros j. rewrite P.
      destruct (in_dec Z.eq_dec j is) as [H|H], (in_dec Z.eq_dec j (i :: is)) as [H'|H']; try reflexivity.
      * exfalso. apply H'. now right.
      * destruct H' as [->|H']; [lia|easy].
Qed.

Definition edo_head (d : edodata) : list Z :=
  EDO_TITLE ++ EDO_DIVIDER ++ write_value (insertions d) (bytes "Insertions") ++
  write_value (deletions d) (bytes "Deletions") ++ write_value (total_moves d) (bytes "Moves").
Definition edo_text (d : edodata) : list Z :=
  edo_head d ++ (if 0 <? total_moves d then
    [10] ++ (bytes "Moves" ++ [10]) ++ (bytes "   Count   Length" ++ [10]) ++ flat_map (move_text (moves d)) (zrange 1 100)
  else []).

Lemma write_edorpt_text d : zlen (moves d) = 101 -> write_edorpt d = Ok (edo_text d).
Proof.
  intros L. unfold write_edorpt, edo_text. fold (edo_head d). destruct (0 <? total_moves d).
  - rewrite (oconcat_ok (write_row (moves d)) (move_text (moves d))).
    + cbn [obind]. reflexivity.
    + intros i I. apply In_zrange in I. change (Z.of_nat (Z.to_nat MAX_MOVE_LENGTH)) with 100 in I.
      unfold write_row, move_text. rewrite (proj2 (rd_Ok _ (moves d) i (entry (moves d) i))) by (apply entry_znth; lia).
      cbn [obind]. now destruct (0 <? entry (moves d) i).
  - now rewrite app_nil_r.
Qed.

Lemma three_lines_ok b l1 l2 l3 rest : line_buffer b -> report_line l1 -> report_line l2 -> report_line l3 ->
  exists b', line_buffer b' /\ three_lines (b, l1 ++ l2 ++ l3 ++ rest) = Ok (true, (b', rest)).
Proof.
  intros B R1 R2 R3. destruct (read_line_ok b l1 (l2 ++ l3 ++ rest) B R1) as (b1 & E1 & H1).
  destruct (read_line_ok b1 l2 (l3 ++ rest) (proj1 H1) R2) as (b2 & E2 & H2).
  destruct (read_line_ok b2 l3 rest (proj1 H2) R3) as (b3 & E3 & H3).
  exists b3. split; [apply H3|]. unfold three_lines. rewrite E1. cbn [obind]. rewrite E2. cbn [obind]. exact E3.
Qed.

(** [D'] is [D] with the figures of [d] added. *)
Definition emerged (D d D' : edodata) : Prop :=
  zlen (moves D') = 101 /\ forall x, efig x D' = efig x D + efig x d.

Lemma entries_zero d : ereportable d -> total_moves d = 0 -> forall i, entry (moves d) i = 0.
Proof.
  intros R E i. rewrite (er_sum d R), (zsum_entries _ (er_size d R)), (er_zero d R) in E.
  pose proof (fun i => er_nonneg d R (EMove i)) as N. cbn [efig] in N.
  assert (i = 0 \/ 1 <= i <= 100 \/ ~ (0 <= i < zlen (moves d))) as [->|[I|I]] by (rewrite (er_size d R); lia).
  - apply (er_zero d R).
  - pose proof (zsum_map_zero_inv (entry (moves d)) (zrange 1 100)) as H. apply H; [|lia|].
    + intros j _. apply N.
    + apply In_zrange. lia.
  - now apply entry_out.
Qed.

Lemma read_edo b D d : line_buffer b -> zlen (moves D) = 101 -> ereportable d -> ebelow 9223372036854775808 d ->
  exists D' b', read_edorpt b D (edo_text d) = Ok (D', b') /\ line_buffer b' /\ emerged D d D'.
Proof.
  intros B LD R Bl.
  assert (forall x, fits (efig x d)) as F by (intros x; pose proof (er_nonneg d R x); pose proof (Bl x); split; assumption).
  unfold read_edorpt. set (fuel := List.length (edo_text d)).
  assert ((List.length (flat_map (move_text (moves d)) (zrange 1 100)) <= fuel)%nat \/ (0 <? total_moves d) = false) as Lf.
  { unfold fuel, edo_text. destruct (0 <? total_moves d); [left|now right]. rewrite !app_length. lia. }
  clearbody fuel. unfold edo_text, edo_head.
  match goal with |- context [if 0 <? total_moves d then ?x else []] =>
    remember (if 0 <? total_moves d then x else []) as tail eqn:Et end. rewrite <- !app_assoc.
  match goal with |- context [need_title EDO_TITLE (b, _ ++ ?r)] =>
    destruct (need_title_ok b EDO_TITLE r B ltac:(apply line_intro; [cb|vm_compute; discriminate])) as (b1 & -> & B1) end.
  cbn [obind].
  match goal with |- context [need_divider EDO_DIVIDER (b1, _ ++ ?r)] =>
    destruct (need_divider_ok b1 EDO_DIVIDER r B1 ltac:(apply line_intro; [cb|vm_compute; discriminate])) as (b2 & -> & B2) end.
  cbn [obind].
  destruct (edo_value_line (insertions d) (bytes "Insertions") (F EInsertions) ltac:(cb) ltac:(vm_compute; discriminate)) as [V1 S1].
  destruct (edo_value_line (deletions d) (bytes "Deletions") (F EDeletions) ltac:(cb) ltac:(vm_compute; discriminate)) as [V2 S2].
  destruct (edo_value_line (total_moves d) (bytes "Moves") (F EMoves) ltac:(cb) ltac:(vm_compute; discriminate)) as [V3 S3].
  match goal with |- context [need_scan scan_one (b2, _ ++ ?r)] =>
    destruct (need_scan_ok scan_one _ b2 _ r B2 V1 S1) as (b3 & -> & B3) end. cbn [obind].
  match goal with |- context [need_scan scan_one (b3, _ ++ ?r)] =>
    destruct (need_scan_ok scan_one _ b3 _ r B3 V2 S2) as (b4 & -> & B4) end. cbn [obind].
  match goal with |- context [need_scan scan_one (b4, _ ++ ?r)] =>
    destruct (need_scan_ok scan_one _ b4 _ r B4 V3 S3) as (b5 & -> & B5) end. cbn [obind].
  subst tail. unfold read_moves. destruct (0 <? total_moves d) eqn:Em.
  - destruct (three_lines_ok b5 [10] (bytes "Moves" ++ [10]) (bytes "   Count   Length" ++ [10])
      (flat_map (move_text (moves d)) (zrange 1 100)) B5 blank_line
      ltac:(apply line_intro; [cb|vm_compute; discriminate]) ltac:(apply line_intro; [cb|vm_compute; discriminate])) as (b6 & B6 & E6).
    rewrite E6. cbn [obind].
    destruct (move_rows_ok (moves d) (zrange 1 100)) with (fuel := fuel) (b := b6) (ms := moves D)
      as (b7 & ms & B7 & L7 & E7 & P7).
    + intros i I. apply In_zrange in I. lia.
    + intros i. exact (F (EMove i)).
    + apply NoDup_zrange.
    + exact B6.
    + exact LD.
    + destruct Lf; [assumption|discriminate].
    + rewrite E7. cbn [obind]. eexists _, _. split; [reflexivity|]. cbn [fst]. split; [exact B7|].
      split; [exact L7|]. intros x. destruct x as [| | |i]; cbn [efig moves insertions deletions total_moves]; try reflexivity.
      rewrite P7. destruct (in_dec Z.eq_dec i (zrange 1 100)) as [I|I]; [reflexivity|].
      enough (entry (moves d) i = 0) by lia.
      assert (i = 0 \/ ~ (0 <= i < zlen (moves d))) as [->|J].
      { rewrite In_zrange in I. rewrite (er_size d R). lia. }
      * apply (er_zero d R).
      * now apply entry_out.
  - cbn [obind]. eexists _, _. split; [reflexivity|]. cbn [fst]. split; [exact B5|]. split; [exact LD|].
    intros x. destruct x as [| | |i]; cbn [efig moves insertions deletions total_moves]; try reflexivity.
    rewrite (entries_zero d R); [lia|]. pose proof (er_nonneg d R EMoves). cbn [efig] in *. lia.
Qed.

Lemma emerged_reportable D d D' : emerged D d D' -> ereportable D -> ereportable d -> ereportable D'.
Proof.
  intros [L F] RD R. pose proof (fun i => F (EMove i)) as Fm. cbn [efig] in Fm. constructor.
  - exact L.
  - rewrite Fm, (er_zero D RD), (er_zero d R). reflexivity.
  - intros x. rewrite F. pose proof (er_nonneg D RD x). pose proof (er_nonneg d R x). lia.
  - pose proof (F EMoves) as E. cbn [efig] in E. rewrite E, (er_sum D RD), (er_sum d R), (zsum_entries _ L),
      (zsum_entries _ (er_size D RD)), (zsum_entries _ (er_size d R)).
    rewrite Fm. rewrite (zsum_map_ext (entry (moves D')) (fun i => entry (moves D) i + entry (moves d) i))
      by (intros; apply Fm). rewrite zsum_map_add. lia.
Qed.

Lemma edo_empty_fig x : efig x edo_empty = 0.
Proof.
  destruct x as [| | |i]; try reflexivity. cbn [efig edo_empty moves].
  unfold entry. destruct (znth (repeat 0 101) i) eqn:E; [|reflexivity]. apply znth_In in E. now apply repeat_spec in E.
Qed.
Lemma edo_empty_reportable : ereportable edo_empty.
Proof.
  constructor; try reflexivity. intros x. rewrite edo_empty_fig. lia.
Qed.

Lemma esame_eq d d' : ereportable d -> ereportable d' -> esame d d' -> d = d'.
Proof.
  intros R R' S. pose proof (S EInsertions) as E1. pose proof (S EDeletions) as E2. pose proof (S EMoves) as E3.
  assert (moves d = moves d') as E4.
  { apply entry_ext; [rewrite (er_size d R), (er_size d' R'); reflexivity|]. intros i. exact (S (EMove i)). }
  destruct d, d'. cbn in *. congruence.
Qed.

(** ** Summing *)
Definition ereport_of (d : edodata) (f : list Z) : Prop :=
  ereportable d /\ ebelow 9223372036854775808 d /\ write_edorpt d = Ok f.

Lemma eread_one b D d f : line_buffer b -> ereport_of d f -> ereportable D ->
  exists D' b', read_edorpt b D f = Ok (D', b') /\ line_buffer b' /\ ereportable D' /\
    forall x, efig x D' = efig x D + efig x d.
Proof.
  intros B (R & Bl & W) RD. rewrite (write_edorpt_text d (er_size d R)) in W. injection W as <-.
  destruct (read_edo b D d B (er_size D RD) R Bl) as (D' & b' & E & B' & M). exists D', b'.
  split; [exact E|]. split; [exact B'|]. split; [now apply (emerged_reportable D d)|apply M].
Qed.

Lemma eread_all ds fs : Forall2 ereport_of ds fs -> forall b D, line_buffer b -> ereportable D ->
  exists D' b', ofold (fun (st : edodata * list Z) f => read_edorpt (snd st) (fst st) f) fs (D, b)
      = Ok (D', b') /\ line_buffer b' /\ ereportable D' /\
    forall x, efig x D' = efig x D + zsum (map (efig x) ds).
Proof.
  induction 1 as [|d f ds fs Hd F IH]; intros b D B RD.
  - exists D, b. split; [reflexivity|]. split; [exact B|]. split; [exact RD|]. intros x. cbn. lia.
  - destruct (eread_one b D d f B Hd RD) as (D1 & b1 & E1 & B1 & R1 & F1).
    destruct (IH b1 D1 B1 R1) as (D2 & b2 & E2 & B2 & R2 & F2).
    exists D2, b2. cbn [ofold fst snd]. rewrite E1. cbn [obind]. split; [exact E2|].
    split; [exact B2|]. split; [exact R2|]. intros x. cbn [map]. rewrite F2, F1, zsum_cons. lia.
Qed.

Lemma editopsum_total b ds fs : line_buffer b -> Forall2 ereport_of ds fs -> 2 <= zlen fs ->
  exists D, ereportable D /\ etotal_of ds D /\ editopsum b fs = write_edorpt D.
Proof.
  intros B F L. destruct (eread_all ds fs F b edo_empty B edo_empty_reportable) as (D & b' & E & _ & R & G).
  exists D. split; [exact R|]. split.
  - intros x. rewrite G, edo_empty_fig. lia.
  - unfold editopsum. replace (zlen fs <? 2) with false by lia. rewrite E. reflexivity.
Qed.

(** ** Costs *)

(** The cost from the entries [lo..hi-1] on, given the rest of the moves. *)
Definition costs (ms : list Z) (t : Z) (is : list Z) : Z := zsum (map (fun len => Z.min t len * entry ms len) is).

Lemma cost_above ms t is : (forall i, In i is -> t <= i) -> costs ms t is = t * zsum (map (entry ms) is).
Proof.
  intros H. unfold costs. induction is as [|i is IH]; cbn [map]; rewrite ?zsum_cons; [cbn; lia|].
  rewrite IH by (intros j J; apply H; now right). rewrite Z.min_l by (apply H; now left). lia.
Qed.

Lemma write_results_ok d : zlen (moves d) = 101 -> total_moves d = zsum (moves d) -> entry (moves d) 0 = 0 ->
  write_results d = Ok (flat_map (fun t => cost_line t (table_cost t d)) (zrange 0 101)).
Proof.
  intros L S Z0. unfold write_results. change (Datatypes.S (Z.to_nat MAX_MOVE_LENGTH)) with 101%nat.
  set (body := fun (st : list Z * Z * Z) i => _).
  assert (forall n lo out, 0 <= lo -> lo + Z.of_nat n = 101 ->
    ofold body (zrange lo n) (out, insertions d + zsum (map (fun len => len * entry (moves d) len) (zrange 0 (Z.to_nat lo))),
                              zsum (map (entry (moves d)) (zrange lo n)))
    = Ok (out ++ flat_map (fun t => cost_line t (table_cost t d)) (zrange lo n),
          insertions d + zsum (map (fun len => len * entry (moves d) len) (zrange 0 101)), 0)) as H.
  { induction n as [|n IH]; intros lo out Lo E.
    - assert (lo = 101) as -> by lia. cbn [zrange ofold flat_map map]. rewrite app_nil_r. reflexivity.
    - change (zrange lo (Datatypes.S n)) with (lo :: zrange (lo + 1) n). cbn [ofold map flat_map]. unfold body at 1.
      rewrite (proj2 (rd_Ok _ (moves d) lo (entry (moves d) lo))) by (apply entry_znth; lia). cbn [obind].
      rewrite zsum_cons.
      replace (entry (moves d) lo + zsum (map (entry (moves d)) (zrange (lo + 1) n)) - entry (moves d) lo)
        with (zsum (map (entry (moves d)) (zrange (lo + 1) n))) by lia.
      replace (insertions d + zsum (map (fun len => len * entry (moves d) len) (zrange 0 (Z.to_nat lo))) + lo * entry (moves d) lo)
        with (insertions d + zsum (map (fun len => len * entry (moves d) len) (zrange 0 (Z.to_nat (lo + 1))))).
      2:{ replace (Z.to_nat (lo + 1)) with (Z.to_nat lo + 1)%nat by lia. rewrite zrange_app, map_app, zsum_app.
          replace (0 + Z.of_nat (Z.to_nat lo)) with lo by lia. cbn [zrange map]. rewrite zsum_cons. change (zsum []) with 0. lia. }
      rewrite IH by lia. rewrite <- app_assoc. f_equal. f_equal. f_equal. f_equal. f_equal. f_equal.
      unfold table_cost.
      assert (zsum (map (fun len => Z.min lo len * entry (moves d) len) (zrange 1 100)) = costs (moves d) lo (zrange 0 101)) as ->.
      { change (zrange 0 101) with (0 :: zrange 1 100). unfold costs. cbn [map]. rewrite zsum_cons, Z0. lia. }
      replace 101%nat with (Z.to_nat lo + Datatypes.S n)%nat by lia. rewrite zrange_app. unfold costs. rewrite map_app, zsum_app.
      replace (0 + Z.of_nat (Z.to_nat lo)) with lo by lia.
      fold (costs (moves d) lo (zrange lo (Datatypes.S n))). rewrite cost_above by (intros i I; apply In_zrange in I; lia).
      change (zrange lo (Datatypes.S n)) with (lo :: zrange (lo + 1) n). cbn [map]. rewrite zsum_cons.
      rewrite (zsum_map_ext (fun len => Z.min lo len * entry (moves d) len) (fun len => len * entry (moves d) len)); [lia|].
      intros i I. apply In_zrange in I. rewrite Z.min_r by lia. reflexivity. }
  specialize (H 101%nat 0 [] ltac:(lia) ltac:(lia)).
  change (zrange 0 (Z.to_nat 0)) with (@nil Z) in H. change (map (fun len => len * entry (moves d) len) []) with (@nil Z) in H.
  change (zsum []) with 0 in H. rewrite Z.add_0_r in H.
  assert (total_moves d = zsum (map (entry (moves d)) (zrange 0 101))) as ->.
  { rewrite S, (entries (moves d)) at 1. assert (List.length (moves d) = 101%nat) as -> by (unfold zlen in L; lia). reflexivity. }
  rewrite H. reflexivity.
Qed.

Lemma decrement_ok d d2 : zlen (moves d) = 101 -> zlen (moves d2) = 101 ->
  entry (moves d2) 0 = 0 ->
  exists D, decrement_edodata d d2 = Ok D /\ zlen (moves D) = 101 /\
    forall x, efig x D = efig x d - efig x d2.
Proof.
  intros L L2 Z2. unfold decrement_edodata. change (Z.to_nat MAX_MOVE_LENGTH) with 100%nat.
  set (body := fun ms i => _).
  assert (forall n lo ms, 0 <= lo -> lo + Z.of_nat n <= 101 -> zlen ms = 101 ->
    exists ms', ofold body (zrange lo n) ms = Ok ms' /\ zlen ms' = 101 /\
      forall j, entry ms' j = if (lo <=? j) && (j <? lo + Z.of_nat n) then entry ms j - entry (moves d2) j else entry ms j) as H.
  { induction n as [|n IH]; intros lo ms Lo E Lm.
    - exists ms. split; [reflexivity|]. split; [exact Lm|]. intros j. destruct (Z.leb_spec lo j), (Z.ltb_spec j (lo + Z.of_nat 0)); try reflexivity. lia.
    - cbn [zrange ofold]. unfold body at 1.
      rewrite (proj2 (rd_Ok _ ms lo (entry ms lo))) by (apply entry_znth; lia). cbn [obind].
      rewrite (proj2 (rd_Ok _ (moves d2) lo (entry (moves d2) lo))) by (apply entry_znth; lia). cbn [obind].
      destruct (wr_entry "moves[i]" ms lo (entry ms lo - entry (moves d2) lo) ltac:(lia)) as (ms1 & -> & L1 & P1). cbn [obind].
      destruct (IH (lo + 1) ms1 ltac:(lia) ltac:(lia) ltac:(lia)) as (ms' & E' & L' & P'). exists ms'. split; [exact E'|].
      split; [exact L'|]. intros j. rewrite P', P1.
      destruct (Z.eqb_spec j lo) as [Ej|Ej], (Z.leb_spec (lo + 1) j), (Z.ltb_spec j (lo + 1 + Z.of_nat n)),
        (Z.leb_spec lo j), (Z.ltb_spec j (lo + Z.of_nat (Datatypes.S n))); cbn [andb]; try reflexivity; try lia.
      now rewrite Ej. }
  destruct (H 100%nat 1 (moves d) ltac:(lia) ltac:(lia) L) as (ms' & E & L' & P). rewrite E. cbn [obind].
  eexists. split; [reflexivity|]. split; [exact L'|]. intros x. destruct x as [| | |i]; cbn [efig moves insertions deletions total_moves]; try reflexivity.
  rewrite P. destruct (Z.leb_spec 1 i), (Z.ltb_spec i (1 + Z.of_nat 100)); cbn [andb]; try reflexivity.
  - rewrite !entry_out by lia. reflexivity.
  - assert (i = 0 \/ i < 0) as [->|] by lia; [lia|]. rewrite !entry_out by lia. reflexivity.
  - rewrite !entry_out by lia. reflexivity.
Qed.

Lemma table_cost_sub D d d2 t : (forall x, efig x D = efig x d - efig x d2) ->
  table_cost t D = table_cost t d - table_cost t d2.
Proof.
  intros H. unfold table_cost. pose proof (H EInsertions) as E. cbn [efig] in E.
  rewrite (zsum_map_ext (fun len => Z.min t len * entry (moves D) len)
    (fun len => Z.min t len * entry (moves d) len + - (Z.min t len * entry (moves d2) len))).
  - rewrite zsum_map_add, E.
    assert (forall l, zsum (map (fun len => - (Z.min t len * entry (moves d2) len)) l) =
      - zsum (map (fun len => Z.min t len * entry (moves d2) len) l)) as ->; [|lia].
    induction l as [|i l IH]; [reflexivity|]. cbn [map]. rewrite !zsum_cons, IH. lia.
  - intros i _. pose proof (H (EMove i)) as Ei. cbn [efig] in Ei. rewrite Ei. lia.
Qed.

(** The cost from the lengths of the moves. *)
Lemma recorded_cost t d ls : records ls d -> 0 <= t <= 100 -> table_cost t d = edit_cost t (insertions d) ls.
Proof.
  intros (P & _ & _ & E) T. unfold table_cost, edit_cost. f_equal.
  rewrite (zsum_map_ext _ (fun len => Z.min t len * zlen (filter (fun n => Z.min n 100 =? len) ls))).
  2:{ intros i I. apply In_zrange in I. rewrite E by lia. reflexivity. }
  clear E. induction P as [|n ls N P IH].
  - cbn [filter map]. apply zsum_map_zero. intros. rewrite zlen_nil. lia.
  - cbn [map]. rewrite zsum_cons, <- IH.
    rewrite (zsum_map_ext _ (fun len => (if Z.min n 100 =? len then Z.min t n else 0) +
       Z.min t len * zlen (filter (fun n => Z.min n 100 =? len) ls))).
    + rewrite zsum_map_add. f_equal.
      assert (forall l, NoDup l -> zsum (map (fun len => if Z.min n 100 =? len then Z.min t n else 0) l) =
        if in_dec Z.eq_dec (Z.min n 100) l then Z.min t n else 0) as ->.
      * clear. induction 1 as [|i l I N IH]; [reflexivity|]. cbn [map]. rewrite zsum_cons, IH.
        destruct (Z.eqb_spec (Z.min n 100) i) as [E|E].
        -- rewrite E. destruct (in_dec Z.eq_dec i l); [easy|]. destruct (in_dec Z.eq_dec i (i :: l)) as [|J]; [lia|].
           exfalso. apply J. now left.
        -- destruct (in_dec Z.eq_dec (Z.min n 100) l) as [J|J], (in_dec Z.eq_dec (Z.min n 100) (i :: l)) as [K|K]; try reflexivity.
           ++ exfalso. apply K. now right.
           ++ destruct K as [K|K]; [congruence|easy].
      * destruct (in_dec Z.eq_dec (Z.min n 100) (zrange 1 100)) as [|J]; [reflexivity|]. exfalso. apply J. apply In_zrange. lia.
      * apply NoDup_zrange.
    + intros i I. apply In_zrange in I. cbn [filter]. destruct (Z.eqb_spec (Z.min n 100) i) as [Ei|Ei]; [|lia].
      rewrite zlen_cons. replace (Z.min t n) with (Z.min t i) by lia. lia.
Qed.

(** ** Arbitrary files *)
Definition esafe (r : outcome (edodata * list Z)) : Prop := (exists x, r = Ok x) \/ r = UB "moves[value2]".

Lemma add_at_any ms i n : (exists ms', add_at ms i n = Ok ms') \/ add_at ms i n = UB "moves[value2]".
Proof.
  assert (0 <= i < zlen ms \/ ~ (0 <= i < zlen ms)) as [H|H] by lia.
  - destruct (add_at_ok ms i n H) as (ms' & E & _). left. eauto.
  - right. unfold add_at, rd. destruct (znth ms i) eqn:E; [apply znth_Some_lt in E; lia|]. reflexivity.
Qed.

Lemma move_rows_any fuel : forall ms b f, line_buffer b -> (List.length f <= fuel)%nat ->
  (exists x, move_rows fuel ms (b, f) = Ok x) \/ move_rows fuel ms (b, f) = UB "moves[value2]".
Proof.
  induction fuel as [|fu IH]; intros ms b f B L; cbn [move_rows];
    destruct (read_scan_total scan_two b f B) as (r & b' & rest & -> & B' & Lr & Hr); cbn [obind];
    (destruct r as [[v1 v2]|]; [|left; eauto]); (destruct Hr as [Hr|Hr]; [discriminate|]).
  - lia.
  - destruct (add_at_any ms v2 v1) as [(ms' & ->)| ->]; cbn [obind]; [|now right]. apply IH; [exact B'|lia].
Qed.

Lemma read_edorpt_any b D f : line_buffer b -> judged (edodata * list Z) esafe edit_header f (read_edorpt b D f).
Proof.
  intros B. unfold read_edorpt, edit_header.
  change EDO_TITLE with (bytes "ocreval Edit Operation Report Version 7." ++ [48; 10]).
  change EDO_DIVIDER with (bytes "-----------------------------------------" ++ [10]).
  remember (List.length f) as fuel eqn:Ef. assert (List.length f <= fuel)%nat as L by lia. clear Ef.
  apply judged_title; [exact B|reflexivity|]. clear B b. intros b rest L1 B.
  apply judged_divider; [exact B|]. clear B b. intros b rest2 L2 B.
  apply (judged_scan _ _ _ _ _ _ _ _ B scan_one_numbers). clear B b. intros i b rest3 L3 B.
  apply (judged_scan _ _ _ _ _ _ _ _ B scan_one_numbers). clear B b. intros de b rest4 L4 B.
  apply (judged_scan _ _ _ _ _ _ _ _ B scan_one_numbers). clear B b. intros m b rest5 L5 B.
  apply judged_body. cbv beta iota zeta.
  assert ((exists x, read_moves fuel m (moves D) (b, rest5) = Ok x) \/ read_moves fuel m (moves D) (b, rest5) = UB "moves[value2]")
    as [[[ms st] ->]| ->]; cbn [obind]; [|left; eauto|now right].
  unfold read_moves. destruct (0 <? m); [|left; eauto]. unfold three_lines.
  destruct (read_line_takes b rest5 B) as [[-> ->]|(l & r1 & b1 & T1 & -> & H1 & _)]; cbn [obind]; [left; eauto|].
  destruct (read_line_takes b1 r1 (proj1 H1)) as [[-> ->]|(l2 & r2 & b2 & T2 & -> & H2 & _)]; cbn [obind]; [left; eauto|].
  destruct (read_line_takes b2 r2 (proj1 H2)) as [[-> ->]|(l3 & r3 & b3 & T3 & -> & H3 & _)]; cbn [obind]; [left; eauto|].
  pose proof (takes_shorter _ _ _ T1). pose proof (takes_shorter _ _ _ T2). pose proof (takes_shorter _ _ _ T3).
  apply move_rows_any; [apply H3|lia].
Qed.
