(** The checked counters of editop, and of the programs that read its reports. *)
From Coq Require Import String Permutation.
From Verif Require Import Base CLib Utf8Model TextModel SyncModel SyncSpec AccModel AccSpec SumProof ReportModel ReportSpec
  ReportProof AccrptModel AccrptProof LcsProof EdoModel EdoSpec EdoProof EditopModel EditopSpec EditopProof EditopProps WideModel WideProof WideWord.
Local Open Scope Z_scope.
Local Open Scope list_scope.
Local Ltac cb := apply clean_bytes; reflexivity.

Lemma count_plain_agree text : forall fuel i stop total, 0 <= total -> total + (stop + 1 - i) <= TOP ->
  count_plain64 fuel text i stop total = count_plain fuel text i stop total.
Proof.
  induction fuel as [|fuel IH]; intros i stop total T L; cbn [count_plain64 count_plain]; [reflexivity|].
  destruct (Z.leb_spec i stop); [|reflexivity]. destruct (rd "text->array" text i) as [v|e|e|]; cbn [obind]; [|reflexivity..].
  destruct (v =? REJECT); cbn [obind]; [apply IH; lia|].
  rewrite is_long_true by (unfold TOP in L; lia). cbn [long obind]. apply IH; lia.
Qed.

Lemma insertions_agree t l : forall pos total, 0 <= pos -> chain t pos l -> 0 <= total <= pos -> zlen t <= TOP ->
  count_insertions64 l t total = count_insertions l t total.
Proof.
  unfold count_insertions64, count_insertions.
  induction l as [|it l IH]; intros pos total Hp H T L; cbn [chain ofold] in *; [reflexivity|].
  destruct H as (u & E & E1 & E2 & E3 & E4 & E5). destruct (inum it) as [k|].
  - cbn [obind]. apply (IH (pos + slen u)); auto; lia.
  - rewrite E. change (rd "substr" [u] 0) with (Ok u). cbn [obind]. rewrite count_plain_agree by lia.
    rewrite (count_plain_ok t (Z.to_nat (slen u))) by (try lia; unfold zlen in *; lia). cbn [obind].
    apply (IH (pos + slen u)); [lia|exact E5| |exact L].
    replace (SyncModel.stop u + 1 - SyncModel.start u) with (slen u) by lia.
    pose proof (zlen_nonneg (filter plain (slice t (SyncModel.start u) (slen u)))).
    assert (zlen (filter plain (slice t (SyncModel.start u) (slen u))) <= slen u); [|lia].
    rewrite <- (slice_len t (SyncModel.start u) (slen u)) at 2 by lia.
    generalize (slice t (SyncModel.start u) (slen u)). clear. intros l. unfold zlen.
    induction l as [|x l IH]; [reflexivity|]. cbn [filter]. destruct (plain x); cbn [List.length] in *; lia.
Qed.

Lemma deletions_agree t l : forall pos total, 0 <= pos -> chain t pos l -> 0 <= total <= pos -> zlen t <= TOP ->
  count_deletions64 l total = count_deletions l total.
Proof.
  induction l as [|it l IH]; intros pos total Hp H T L; cbn [chain count_deletions64 count_deletions] in *; [reflexivity|].
  destruct H as (u & E & E1 & E2 & E3 & E4 & E5). rewrite E. change (rd "substr" [u] 0) with (Ok u). cbn [obind].
  destruct (inum it) as [k|].
  - rewrite (IH (pos + slen u)) by (auto; lia). reflexivity.
  - rewrite is_long_true by (unfold TOP in L; lia). cbn [long obind]. apply (IH (pos + slen u)); auto; lia.
Qed.

Lemma blocks_sum t l : forall pos, chain t pos l -> zsum (map blen (blocks l)) <= zlen t - pos.
Proof.
  induction l as [|it l IH]; intros pos H; cbn [chain blocks flat_map] in *; [change (zsum (map blen [])) with 0; lia|].
  destruct H as (u & E & E1 & E2 & E3 & E4 & E5). specialize (IH _ E5). unfold blocks in IH. rewrite map_app, zsum_app.
  destruct (inum it); cbn [map]; rewrite ?E; cbn [map]; rewrite ?zsum_cons; change (zsum []) with 0; cbn [blen]; rewrite ?zsum_cons; change (zsum []) with 0; lia.
Qed.

Section Moves.
Context {A : Type}.
Variable wt : A -> Z.

Lemma rep_sum (G : Z -> list A) l s t : rep wt G l s t ->
  zsum (map blen l) = zsum (map wt t) /\ Forall (fun b => 1 <= blen b) l.
Proof.
  intros H. split; [|eapply Forall_impl; [|apply (r_len _ _ _ _ _ H)]; cbn; tauto].
  assert (P : zsum (map wt s) = zsum (map wt t)).
  { rewrite <- (r_s _ _ _ _ _ H), <- (r_tgt _ _ _ _ _ H).
    assert (E : flat_map (fun b => G (bmatch b)) l = flat_map G (map bmatch l)).
    { clear. induction l as [|b l IH]; [reflexivity|]. cbn. now rewrite IH. }
    rewrite E. generalize (r_perm _ _ _ _ _ H). generalize (map bmatch l) (zrange 1 (List.length l)). clear.
    intros a b P. induction P as [|x a b P IH|x y a|a b c P IH P' IH'].
    - reflexivity.
    - cbn [flat_map]. rewrite !map_app, !zsum_app. lia.
    - cbn [flat_map]. rewrite !map_app, !zsum_app. lia.
    - lia. }
  rewrite <- P, <- (r_s _ _ _ _ _ H). clear P. generalize (r_len _ _ _ _ _ H). clear.
  induction 1 as [|b l [E _] F IH]; [reflexivity|]. cbn [map flat_map]. rewrite zsum_cons, map_app, zsum_app. lia.
Qed.

Lemma combine_from_agree fuel : forall before x rest (G : Z -> list A) s t,
  rep wt G (before ++ x :: rest) s t -> zsum (map wt t) <= TOP ->
  combine_from64 fuel before x rest = combine_from fuel before x rest.
Proof.
  induction fuel as [|fuel IH]; intros before x rest G s t H L; [reflexivity|]. cbn [combine_from64 combine_from].
  destruct rest as [|y rest]; [reflexivity|].
  destruct (Z.eqb_spec (bmatch y) (bmatch x + 1)) as [E|E].
  - assert (is_long (blen x + blen y) = true) as ->.
    { destruct (rep_sum _ _ _ _ H) as [S F]. rewrite map_app, zsum_app in S. cbn [map] in S. rewrite !zsum_cons in S.
      apply Forall_app in F as [F1 F2]. apply Forall_cons_iff in F2 as [Fx F2]. apply Forall_cons_iff in F2 as [Fy F2].
      assert (N : forall l, Forall (fun b => 1 <= blen b) l -> 0 <= zsum (map blen l)).
      { intros l F. apply zsum_nonneg, Forall_map. eapply Forall_impl; [|exact F]. cbn. lia. }
      pose proof (N _ F1). pose proof (N _ F2). apply is_long_true. unfold TOP in L. lia. }
    cbn [long obind].
    cbn [decrement_match map bmatch blen]. rewrite Z.ltb_irrefl.
    destruct (rep_merge _ _ _ _ _ _ _ _ H E) as (G' & H').
    unfold decrement_match at 1 in H'. rewrite map_app in H'. cbn [map bmatch] in H'.
    rewrite Z.ltb_irrefl in H'. fold (decrement_match (bmatch x) before) (decrement_match (bmatch x) rest) in H'.
    exact (IH _ _ _ _ _ _ H' L).
  - apply (IH (before ++ [x]) y rest G s t); [|exact L]. rewrite <- app_assoc. exact H.
Qed.
Lemma combine_agree l (G : Z -> list A) s t : rep wt G l s t -> zsum (map wt t) <= TOP ->
  combine_adjacent64 l = combine_adjacent l.
Proof. intros H L. destruct l as [|x rest]; [reflexivity|]. exact (combine_from_agree _ [] x rest G s t H L). Qed.

Definition tally n (d : edodata) : Prop := upto n (total_moves d) /\ Forall (upto n) (moves d).

Lemma add_at_agree n a i : Forall (upto n) a -> n + 1 <= TOP ->
  agree (Forall (upto (n + 1))) (add_at64 a i 1) (add_at a i 1).
Proof.
  intros F L. unfold add_at64, add_at, rd. destruct (znth a i) as [x|] eqn:E; cbn [obind].
  - assert (upto n x) as X. { rewrite Forall_forall in F. apply F. eapply znth_In. exact E. }
    rewrite is_long_true by (unfold upto, TOP in *; lia). cbn [long obind]. apply agree_refl. intros r Er. unfold wr in Er.
    destruct (zset a i (x + 1)) as [l'|] eqn:Ez; [|discriminate Er]. injection Er as <-.
    eapply zset_Forall; [exact Ez|unfold upto in *; lia|]. eapply Forall_impl; [|exact F]. unfold upto. cbn. lia.
  - apply agree_refl. intros r X. discriminate X.
Qed.
Lemma perform_agree n l c x d : tally n d -> n + 1 <= TOP ->
  agree (fun r => tally (n + 1) (snd r)) (perform_move64 l c x d) (perform_move l c x d).
Proof.
  intros [T1 T2] L. unfold perform_move64, perform_move.
  eapply agree_bind; [apply (agree_refl (fun _ => True)); auto|]. intros l1 _.
  eapply agree_bind; [apply (agree_refl (fun _ => True)); auto|]. intros l2 _.
  apply agree_long; [apply is_long_true; unfold upto, TOP in *; lia|].
  eapply agree_bind; [apply (add_at_agree n); assumption|]. intros ms M. apply agree_ok.
  split; cbn [snd total_moves moves]; [unfold upto in *; lia|exact M].
Qed.

Lemma moves_loop_agree : forall fuel n (G : Z -> list A) l s t d, rep wt G l s t -> zlen (moves d) = 101 ->
  zsum (map wt t) <= TOP -> tally n d -> 0 <= n -> n + Z.of_nat fuel <= TOP ->
  moves_loop64 fuel l d = moves_loop fuel l d.
Proof.
  induction fuel as [|fuel IH]; intros n G l s t d H M L T Hn F; cbn [moves_loop64 moves_loop];
    (destruct (Z.ltb_spec 1 (zlen l)) as [L1|L1]; [|reflexivity]); [reflexivity|].
  destruct (find_move_ok _ _ _ _ _ H L1) as (c & x & E1 & E2 & Ix & C & _).
  rewrite E1. cbn [obind]. rewrite E2. cbn [obind].
  destruct (perform_ok _ _ _ _ _ c x d H L1 Ix M C) as (p & q & p' & q' & s' & d1 & El & Epq & E3 & R & H1 & Mv & P1 & Ap & _).
  destruct (perform_agree n l c x d T ltac:(lia)) as [E4 T4]. rewrite E4, E3. cbn [obind].
  specialize (T4 _ E3). cbn [snd] in T4.
  rewrite (combine_agree _ _ _ _ H1 L). destruct (combine_ok _ _ _ _ _ H1) as (l2 & G2 & E5 & H2 & _).
  rewrite E5. cbn [obind]. destruct R as (_ & _ & _ & R4 & _).
  apply (IH (n + 1) G2 l2 s' t d1); auto; try lia.
Qed.
End Moves.

Lemma edit_operations_agree t1 t2 : zlen t1 <= TOP -> zlen t2 <= TOP ->
  edit_operations64 t1 t2 = edit_operations t1 t2.
Proof.
  intros L1 L2. unfold edit_operations64, edit_operations.
  destruct (transpose_sync t1 t2) as [[l1 l2]|e|e|] eqn:E; cbn [obind]; [|reflexivity..].
  destruct (edit_operations_ok t1 t2 l1 l2 E) as (d & ls & _ & _ & _ & _ & _ & _ & _ & _ & C1 & C2 & Rp & _).
  rewrite (insertions_agree t1 l1 0) by (auto; lia). rewrite (deletions_agree t2 l2 0) by (auto; lia).
  rewrite (insertions_ok t1 l1 0) by (auto; lia). cbn [obind]. rewrite (deletions_ok t2 l2 0) by (auto; lia). cbn [obind].
  destruct (rep_sum _ _ _ _ _ Rp) as [S F]. pose proof (blocks_sum t2 l2 0 C2) as B.
  assert (Sw : zsum (map (length_of l2) (numbers l1)) <= TOP) by lia.
  rewrite (combine_agree _ _ _ _ _ Rp Sw). unfold count_moves.
  destruct (combine_ok _ _ _ _ _ Rp) as (l' & G' & Ec & H' & _). rewrite Ec. cbn [obind].
  rewrite (moves_loop_agree _ (List.length l') 0 G' l' _ _ _ H'); try assumption; try reflexivity; try lia.
  - split; [cbn; unfold upto; lia|]. apply Forall_forall. intros x Hx. cbn [moves] in Hx. apply repeat_spec in Hx as ->. unfold upto. lia.
  - destruct (rep_sum _ _ _ _ _ H') as [S' F'].
    assert (Z.of_nat (List.length l') <= zsum (map blen l')); [|unfold TOP in *; lia].
    clear - F'. induction F' as [|b l B F IH]; [reflexivity|]. cbn [map List.length]. rewrite zsum_cons. lia.
Qed.

(** Reading edit operation reports. *)
Lemma so_add_at a i n : same_or_overflow (add_at64 a i n) (add_at a i n).
Proof. unfold add_at64, add_at. apply so_bind; [apply so_refl|]. intros x. apply so_long_bind, so_refl. Qed.
Lemma so_move_rows fuel : forall ms st, same_or_overflow (move_rows64 fuel ms st) (move_rows fuel ms st).
Proof.
  induction fuel as [|fuel IH]; intros ms st; cbn [move_rows64 move_rows];
    (apply so_bind; [apply so_refl|]); intros [[[v1 v2]|] st']; try apply so_refl;
    (apply so_bind; [apply so_add_at|]); intros ms'; [apply so_refl|apply IH].
Qed.
Lemma so_read_edorpt b d f : same_or_overflow (read_edorpt64 b d f) (read_edorpt b d f).
Proof.
  unfold read_edorpt64, read_edorpt, read_moves.
  do 5 (apply so_bind; [apply so_refl|];
         let x := fresh in intros x; try (match type of x with (_ * _)%type => destruct x end)).
  apply so_long_bind, so_long_bind, so_long_bind. apply so_bind; [|intros [ms st']; apply so_refl].
  apply so_if; [|apply so_refl]. apply so_bind; [apply so_refl|]. intros [ok st']. apply so_if; [apply so_move_rows|apply so_refl].
Qed.

Lemma entry_upto ms n : (forall i, upto n (entry ms i)) -> forall i x, znth ms i = Some x -> upto n x.
Proof. intros H i x E. specialize (H i). unfold entry in H. rewrite E in H. exact H. Qed.

Lemma move_rows64_ok v is : (forall i, In i is -> 0 <= i <= 100) -> (forall i, fits (entry v i)) -> NoDup is ->
  forall fuel b ms, line_buffer b -> zlen ms = 101 -> (List.length (flat_map (move_text v) is) <= fuel)%nat ->
  (forall i, In i is -> upto TOP (entry ms i + entry v i)) ->
  move_rows64 fuel ms (b, flat_map (move_text v) is) = move_rows fuel ms (b, flat_map (move_text v) is).
Proof.
  intros I S ND. induction is as [|i is IH]; intros fuel b ms B Lm L U.
  - now destruct fuel.
  - inversion ND as [|? ? N1 N2]; subst. specialize (IH (fun j J => I j (or_intror J)) N2).
    pose proof (S i) as Si. cbn [flat_map] in L |- *. unfold move_text at 1 in L. unfold move_text at 1 3.
    destruct (Z.ltb_spec 0 (entry v i)) as [C|C].
    + assert (0 <= i <= 100) as Ri by (apply I; now left).
      destruct (move_line (entry v i) i Si ltac:(unfold fits; lia)) as [Rl Sc].
      pose proof (line_pos _ Rl) as Pos. rewrite app_length in L. destruct fuel as [|fuel]; [lia|].
      destruct (read_scan_ok scan_two b _ (flat_map (move_text v) is) B Rl) as (b1 & Er & Hb).
      destruct (add_at_ok ms i (entry v i) ltac:(lia)) as (ms1 & E1 & L1 & P1).
      cbn [move_rows64 move_rows]. rewrite Er. cbn [obind]. rewrite Sc.
      assert (add_at64 ms i (entry v i) = add_at ms i (entry v i)) as ->.
      { unfold add_at64, add_at. rewrite (proj2 (rd_Ok _ ms i (entry ms i))) by (apply entry_znth; lia). cbn [obind].
        rewrite is_long_true; [reflexivity|]. specialize (U i (in_eq _ _)). unfold upto, TOP in U. lia. }
      rewrite E1. cbn [obind]. apply IH; try lia; [apply Hb|]. intros j J. rewrite P1.
      destruct (Z.eqb_spec j i) as [->|]; [contradiction|]. apply U. now right.
    + apply IH; auto. intros j J. apply U. now right.
Qed.

Lemma read_edo64 b D d : line_buffer b -> zlen (moves D) = 101 -> ereportable d ->
  (forall x, upto TOP (efig x D + efig x d)) -> (forall x, 0 <= efig x D) ->
  read_edorpt64 b D (edo_text d) = read_edorpt b D (edo_text d).
Proof.
  intros B LD R U ND.
  assert (forall x, fits (efig x d)) as F.
  { intros x; pose proof (er_nonneg d R x). specialize (U x). specialize (ND x). unfold upto, TOP in U. unfold fits. lia. }
  unfold read_edorpt64, read_edorpt. set (fuel := List.length (edo_text d)).
  assert ((List.length (flat_map (move_text (moves d)) (zrange 1 100)) <= fuel)%nat \/ (0 <? total_moves d) = false) as Lf.
  { unfold fuel, edo_text. destruct (0 <? total_moves d); [left|now right]. rewrite !app_length. lia. }
  clearbody fuel. unfold edo_text, edo_head.
  match goal with |- context [if 0 <? total_moves d then ?x else []] =>
    remember (if 0 <? total_moves d then x else []) as tail eqn:Et end. rewrite <- !app_assoc.
  match goal with |- context [need_title EDO_TITLE (b, _ ++ ?r)] =>
    destruct (need_title_ok b EDO_TITLE r B ltac:(apply line_intro; [cb|vm_compute; discriminate])) as (b1 & -> & B1) end.
  cbn [obind].
  match goal with |- context [need_divider EDO_DIVIDER (b1, _ ++ ?r)] =>
    destruct (need_divider_ok b1 EDO_DIVIDER r B1 ltac:(apply line_intro; [cb|vm_compute; discriminate])) as (b2 & -> & B2) end.
  cbn [obind].
  destruct (edo_value_line (insertions d) (bytes "Insertions") (F EInsertions) ltac:(cb) ltac:(vm_compute; discriminate)) as [V1 S1].
  destruct (edo_value_line (deletions d) (bytes "Deletions") (F EDeletions) ltac:(cb) ltac:(vm_compute; discriminate)) as [V2 S2].
  destruct (edo_value_line (total_moves d) (bytes "Moves") (F EMoves) ltac:(cb) ltac:(vm_compute; discriminate)) as [V3 S3].
  match goal with |- context [need_scan scan_one (b2, _ ++ ?r)] =>
    destruct (need_scan_ok scan_one _ b2 _ r B2 V1 S1) as (b3 & -> & B3) end. cbn [obind].
  match goal with |- context [need_scan scan_one (b3, _ ++ ?r)] =>
    destruct (need_scan_ok scan_one _ b3 _ r B3 V2 S2) as (b4 & -> & B4) end. cbn [obind].
  match goal with |- context [need_scan scan_one (b4, _ ++ ?r)] =>
    destruct (need_scan_ok scan_one _ b4 _ r B4 V3 S3) as (b5 & -> & B5) end. cbn [obind].
  pose proof (U EInsertions) as U1. pose proof (U EDeletions) as U2. pose proof (U EMoves) as U3.
  cbn [efig] in U1, U2, U3. unfold upto, TOP in U1, U2, U3.
  rewrite !is_long_true by lia. cbn [long obind].
  subst tail. unfold read_moves. destruct (0 <? total_moves d) eqn:Em; [|reflexivity].
  destruct (three_lines_ok b5 [10] (bytes "Moves" ++ [10]) (bytes "   Count   Length" ++ [10])
      (flat_map (move_text (moves d)) (zrange 1 100)) B5 blank_line
      ltac:(apply line_intro; [cb|vm_compute; discriminate]) ltac:(apply line_intro; [cb|vm_compute; discriminate])) as (b6 & B6 & E6).
  rewrite E6. cbn [obind]. rewrite move_rows64_ok; [reflexivity|..].
  - intros i I. apply In_zrange in I. lia.
  - intros i. exact (F (EMove i)).
  - apply NoDup_zrange.
  - exact B6.
  - exact LD.
  - destruct Lf; [assumption|discriminate].
  - intros i _. exact (U (EMove i)).
Qed.

Lemma eread_all64 ds fs : Forall2 ereport_of ds fs -> forall b D, line_buffer b -> ereportable D ->
  (forall x, efig x D + zsum (map (efig x) ds) <= TOP) ->
  ofold (fun (st : edodata * list Z) f => read_edorpt64 (snd st) (fst st) f) fs (D, b) =
  ofold (fun (st : edodata * list Z) f => read_edorpt (snd st) (fst st) f) fs (D, b).
Proof.
  induction 1 as [|d f ds fs Hd F IH]; intros b D B RD U; [reflexivity|].
  assert (N : forall x, 0 <= zsum (map (efig x) ds)).
  { intros x. apply zsum_nonneg, Forall_map. clear - F. induction F as [|d f ds fs (R & _) F IH]; constructor; auto. apply (er_nonneg d R). }
  destruct (eread_one b D d f B Hd RD) as (D1 & b1 & E1 & B1 & R1 & F1). cbn [ofold fst snd].
  assert (read_edorpt64 b D f = read_edorpt b D f) as ->.
  { destruct Hd as (R & _ & W). rewrite (write_edorpt_text d (er_size d R)) in W.
    assert (f = edo_text d) as -> by congruence. apply read_edo64; auto; [apply (er_size D RD)| |apply (er_nonneg D RD)].
    intros x. specialize (U x). cbn [map] in U. rewrite zsum_cons in U. specialize (N x).
    pose proof (er_nonneg D RD x). pose proof (er_nonneg d R x). split; lia. }
  rewrite E1. cbn [obind]. apply IH; auto. intros x. specialize (U x). cbn [map] in U. rewrite zsum_cons in U. rewrite F1. lia.
Qed.

Lemma results_agree d (e1 e2 : Z -> Z) a1 a2 : zlen (moves d) = 101 -> (forall i, 0 <= e1 i) -> (forall i, 0 <= e2 i) ->
  0 <= a1 -> 0 <= a2 -> (forall i, entry (moves d) i = e1 i - e2 i) -> insertions d = a1 - a2 ->
  total_moves d = zsum (map e1 (zrange 0 101)) - zsum (map e2 (zrange 0 101)) ->
  a1 + 100 * zsum (map e1 (zrange 0 101)) <= TOP -> a2 + 100 * zsum (map e2 (zrange 0 101)) <= TOP ->
  write_results64 d = write_results d.
Proof.
  intros L P1 P2 A1 A2 E EI ET U1 U2. unfold write_results64, write_results.
  change (Datatypes.S (Z.to_nat MAX_MOVE_LENGTH)) with 101%nat.
  set (body64 := fun (st : list Z * Z * Z) i => _). set (body := fun (st : list Z * Z * Z) i => _).
  assert (N : forall e lo n, (forall i, 0 <= e i) -> 0 <= zsum (map e (zrange lo n))).
  { intros e lo n H. apply zsum_nonneg, Forall_map, Forall_forall. auto. }
  assert (forall n lo out p1 p2, 0 <= lo -> lo + Z.of_nat n = 101 -> 0 <= p1 -> 0 <= p2 ->
    p1 + 100 * zsum (map e1 (zrange lo n)) <= TOP -> p2 + 100 * zsum (map e2 (zrange lo n)) <= TOP ->
    ofold body64 (zrange lo n) (out, p1 - p2, zsum (map e1 (zrange lo n)) - zsum (map e2 (zrange lo n))) =
    ofold body (zrange lo n) (out, p1 - p2, zsum (map e1 (zrange lo n)) - zsum (map e2 (zrange lo n)))) as H.
  { induction n as [|n IH]; intros lo out p1 p2 Lo El Q1 Q2 V1 V2; [reflexivity|].
    change (zrange lo (Datatypes.S n)) with (lo :: zrange (lo + 1) n) in *. cbn [ofold map] in *.
    rewrite !zsum_cons in *. unfold body64 at 1, body at 1.
    rewrite !(proj2 (rd_Ok _ (moves d) lo (entry (moves d) lo))) by (apply entry_znth; lia). cbn [obind].
    rewrite E. pose proof (N e1 (lo + 1) n P1) as N1. pose proof (N e2 (lo + 1) n P2) as N2.
    pose proof (P1 lo) as M1. pose proof (P2 lo) as M2.
    set (s1 := zsum (map e1 (zrange (lo + 1) n))) in *. set (s2 := zsum (map e2 (zrange (lo + 1) n))) in *.
    unfold TOP in *. rewrite !is_long_true by nia. cbn [andb long obind].
    replace (p1 - p2 + lo * (e1 lo - e2 lo)) with ((p1 + lo * e1 lo) - (p2 + lo * e2 lo)) by lia.
    replace (e1 lo + s1 - (e2 lo + s2) - (e1 lo - e2 lo)) with (s1 - s2) by lia.
    apply IH; try lia; nia. }
  rewrite EI, ET. rewrite (H 101%nat 0 [] a1 a2) by lia. reflexivity.
Qed.

Lemma results_report d : ereportable d -> insertions d + 100 * total_moves d <= TOP -> write_results64 d = write_results d.
Proof.
  intros R L.
  assert (S : total_moves d = zsum (map (entry (moves d)) (zrange 0 101))).
  { rewrite (er_sum d R) at 1. rewrite (zsum_entries _ (er_size d R)).
    change (zrange 0 101) with (0 :: zrange 1 100). cbn [map]. rewrite zsum_cons. lia. }
  apply (results_agree d (entry (moves d)) (fun _ => 0) (insertions d) 0).
  - apply (er_size d R).
  - intros i. apply (er_nonneg d R (EMove i)).
  - intros _. lia.
  - apply (er_nonneg d R EInsertions).
  - lia.
  - intros i. lia.
  - lia.
  - rewrite S. change (zsum (map (fun _ : Z => 0) (zrange 0 101))) with 0. lia.
  - rewrite <- S. exact L.
  - change (zsum (map (fun _ : Z => 0) (zrange 0 101))) with 0. unfold TOP. lia.
Qed.

Lemma decrement_agree d d2 : zlen (moves d) = 101 -> zlen (moves d2) = 101 ->
  (forall x, upto TOP (efig x d)) -> (forall x, upto TOP (efig x d2)) ->
  decrement_edodata64 d d2 = decrement_edodata d d2.
Proof.
  intros L L2 U U2. unfold decrement_edodata64, decrement_edodata. change (Z.to_nat MAX_MOVE_LENGTH) with 100%nat.
  set (body64 := fun ms i => _). set (body := fun ms i => _).
  assert (forall n lo ms, 0 <= lo -> lo + Z.of_nat n <= 101 -> zlen ms = 101 ->
    (forall j, lo <= j -> upto TOP (entry ms j)) -> ofold body64 (zrange lo n) ms = ofold body (zrange lo n) ms) as H.
  { induction n as [|n IH]; intros lo ms Lo E Lm V; [reflexivity|].
    cbn [zrange ofold]. unfold body64 at 1, body at 1.
    rewrite !(proj2 (rd_Ok _ ms lo (entry ms lo))) by (apply entry_znth; lia).
    rewrite !(proj2 (rd_Ok _ (moves d2) lo (entry (moves d2) lo))) by (apply entry_znth; lia). cbn [obind].
    pose proof (V lo ltac:(lia)) as V1. pose proof (U2 (EMove lo)) as V2. cbn [efig] in V2. unfold upto, TOP in V1, V2.
    rewrite is_long_true by lia. cbn [long obind].
    destruct (wr "moves[i]" ms lo (entry ms lo - entry (moves d2) lo)) as [ms1|e|e|] eqn:Ew; cbn [obind]; [|reflexivity..].
    unfold wr in Ew. destruct (zset ms lo _) as [ms2|] eqn:Ez; [|discriminate Ew]. injection Ew as <-.
    apply IH; try lia.
    - rewrite (zset_zlen _ _ _ _ Ez). exact Lm.
    - intros j J. specialize (V j ltac:(lia)). unfold entry in *. rewrite (zset_znth _ _ _ _ Ez j).
      destruct (Z.eqb_spec j lo); [lia|exact V]. }
  rewrite (H 100%nat 1 (moves d)); [|lia|lia|exact L|intros j _; exact (U (EMove j))].
  destruct (ofold body (zrange 1 100) (moves d)) as [ms|e|e|]; cbn [obind]; [|reflexivity..].
  pose proof (U EInsertions) as A1. pose proof (U EDeletions) as A2. pose proof (U EMoves) as A3.
  pose proof (U2 EInsertions) as B1. pose proof (U2 EDeletions) as B2. pose proof (U2 EMoves) as B3.
  cbn [efig] in *. unfold upto, TOP in *. rewrite !is_long_true by lia. reflexivity.
Qed.
