(** Proofs for MessageProps: calls that do not fail, and what reading a report leaves behind. *)
From Coq Require Import String.
From Verif Require Import Base CLib CLibProof Utf8Model TextModel TextSpec TextIO CharclassModel SyncModel SortModel CompareModel WordModel AccModel AccrptModel AccSpec AccProof
  ReportModel ReportSpec ReportProof ReportSafe AccrptSafe AccrptSpec AccrptProps
  StopModel LcsModel LcsSpec WacModel WacProps WacrptModel WacrptProps EdoModel EdoProps EditopModel EditopDebugModel EditopProps TraceProps FreqModel NgramModel
  SynctextModel GroupModel NonstopModel DistModel CiModel VoteModel VoteSelModel FastukkProps HeurProps CrashSpec CrashProof CrashProps MessageSpec.
Local Open Scope Z_scope.
Local Open Scope list_scope.

(** ** The buffer *)
Definition in_buffer {A} (r : outcome (A * rstate)) : Prop := forall a st, r = Ok (a, st) -> line_buffer (fst st).
Lemma kept_line st : line_buffer (fst st) -> in_buffer (read_line st).
Proof.
  intros B ok st' E. destruct st as [b f]. destruct (read_line_takes b f B) as [[-> E']|(l & rest & b' & _ & E' & H & _)]; rewrite E' in E.
  - injection E as _ <-. exact B.
  - injection E as _ <-. apply H.
Qed.
Lemma kept_scan {A} (scan : list Z -> option A) st : line_buffer (fst st) -> in_buffer (read_scan scan st).
Proof.
  intros B r st' E. destruct st as [b f]. destruct (read_scan_total scan b f B) as (r0 & b' & rest & E' & B' & _). rewrite E' in E. injection E as _ <-. exact B'.
Qed.
Lemma kept_need_line st st' : line_buffer (fst st) -> need_line st = Ok st' -> line_buffer (fst st').
Proof.
  intros B E. unfold need_line in E. destruct (read_line st) as [[ok s]| | |] eqn:El; cbn [obind] in E; bad E. apply (kept_line _ B) in El.
  destruct ok; [congruence|discriminate E].
Qed.
Lemma kept_need_scan {A} (scan : list Z -> option A) st x st' : line_buffer (fst st) -> need_scan scan st = Ok (x, st') -> line_buffer (fst st').
Proof.
  intros B E. unfold need_scan in E. destruct (read_scan scan st) as [[r s]| | |] eqn:El; cbn [obind] in E; bad E. apply (kept_scan _ _ B) in El.
  destruct r; [congruence|discriminate E].
Qed.
Lemma kept_title t st st' : line_buffer (fst st) -> need_title t st = Ok st' -> line_buffer (fst st').
Proof.
  intros B E. unfold need_title in E. destruct (read_line st) as [[ok s]| | |] eqn:El; cbn [obind] in E; bad E. apply (kept_line _ B) in El.
  destruct ok; [|discriminate E]. destruct (cstr _ _) as [x| | |]; cbn [obind] in E; bad E. destruct (strneq _ _ _); [congruence|discriminate E].
Qed.
Lemma kept_divider t st st' : line_buffer (fst st) -> need_divider t st = Ok st' -> line_buffer (fst st').
Proof.
  intros B E. unfold need_divider in E. destruct (read_line st) as [[ok s]| | |] eqn:El; cbn [obind] in E; bad E. apply (kept_line _ B) in El.
  destruct ok; [|discriminate E]. destruct (cstr _ _) as [x| | |]; cbn [obind] in E; bad E. destruct (streq _ _); [congruence|discriminate E].
Qed.
Lemma kept_skip fuel : forall st st', line_buffer (fst st) -> skip_to_blank fuel st = Ok st' -> line_buffer (fst st').
Proof.
  induction fuel as [|fu IH]; intros st st' B E; cbn [skip_to_blank] in E;
    destruct (read_line st) as [[ok s]| | |] eqn:El; cbn [obind] in E; bad E; apply (kept_line _ B) in El; (destruct ok; [|congruence]);
    destruct (rd _ _ _) as [c| | |]; cbn [obind] in E; bad E; (destruct (c =? NEWLINE); [congruence|]); try discriminate E; eauto.
Qed.
Lemma kept_conf fuel : forall d st d' st', line_buffer (fst st) -> conf_rows fuel d st = Ok (d', st') -> line_buffer (fst st') /\ characters d' = characters d.
Proof.
  induction fuel as [|fu IH]; intros d st d' st' B E; cbn [conf_rows] in E;
    destruct (read_scan _ st) as [[r s]| | |] eqn:El; cbn [obind] in E; bad E; apply (kept_scan _ _ B) in El; (destruct r as [[v1 v2]|]; [|injection E as <- <-; auto]);
    destruct (cstr _ _) as [k| | |]; cbn [obind] in E; bad E; try discriminate E. apply IH in E; auto.
Qed.
Lemma class_characters d v c m d' : add_class d v c m = Ok d' -> characters d' = characters d.
Proof.
  unfold add_class. destruct (charclass v) as [k| | |]; cbn [obind]; intros E; bad E. destruct (_ && _); [|discriminate E]. now injection E as <-.
Qed.
Lemma kept_class fuel : forall d st d' st', line_buffer (fst st) -> class_rows fuel d st = Ok (d', st') -> line_buffer (fst st') /\ characters d' = characters d.
Proof.
  induction fuel as [|fu IH]; intros d st d' st' B E; cbn [class_rows] in E;
    destruct (read_scan _ st) as [[r s]| | |] eqn:El; cbn [obind] in E; bad E; apply (kept_scan _ _ B) in El; (destruct r as [[v1 v2]|]; [|injection E as <- <-; auto]);
    destruct (AccrptModel.read_char _ _) as [k| | |]; cbn [obind] in E; bad E; (destruct (k =? _); [discriminate E|]);
    destruct (add_class _ _ _ _) as [d1| | |] eqn:Ec; cbn [obind] in E; bad E; try discriminate E. apply IH in E; [|exact El]. apply class_characters in Ec. intuition congruence.
Qed.

(** The third line *)
Lemma title_takes t b f st : line_buffer b -> need_title t (b, f) = Ok st -> exists l, takes f l (snd st) /\ line_buffer (fst st).
Proof.
  intros B E. pose proof (kept_title _ (b, f) _ B E) as K. unfold need_title in E. destruct (read_line_takes b f B) as [[-> E']|(l & rest & b' & T & E' & _)]; rewrite E' in E; cbn [obind] in E; [discriminate E|].
  destruct (cstr _ _) as [x| | |]; cbn [obind] in E; bad E. destruct (strneq _ _ _); [|discriminate E]. injection E as <-. eauto.
Qed.
Lemma divider_takes t b f st : line_buffer b -> need_divider t (b, f) = Ok st -> exists l, takes f l (snd st) /\ line_buffer (fst st).
Proof.
  intros B E. pose proof (kept_divider _ (b, f) _ B E) as K. unfold need_divider in E. destruct (read_line_takes b f B) as [[-> E']|(l & rest & b' & T & E' & _)]; rewrite E' in E; cbn [obind] in E; [discriminate E|].
  destruct (cstr _ _) as [x| | |]; cbn [obind] in E; bad E. destruct (streq _ _); [|discriminate E]. injection E as <-. eauto.
Qed.
Lemma scan_takes b f n st : line_buffer b -> need_scan scan_one (b, f) = Ok (n, st) ->
  exists l s more, takes f l (snd st) /\ line_buffer (fst st) /\ ReportSpec.text_of l s /\ scan_long s = Some (n, more).
Proof.
  intros B E. pose proof (kept_need_scan _ (b, f) _ _ B E) as K. unfold need_scan, read_scan in E.
  destruct (read_line_takes b f B) as [[-> E']|(l & rest & b' & T & E' & H & C)]; rewrite E' in E; cbn [obind] in E; [discriminate E|].
  cbn [fst] in E. rewrite C in E. cbn [obind] in E. unfold scan_one in E. destruct (scan_long (cutnul l)) as [[v more]|] eqn:Es; cbn [option_map fst] in E; [|discriminate E].
  injection E as -> <-. exists l, (cutnul l), more. split; [exact T|]. split; [exact K|]. split; [apply text_cutnul|exact Es].
Qed.

Definition third_line (f : list Z) (n : Z) : Prop :=
  exists l1 l2 l3 rest s more, takes_all f [l1; l2; l3] rest /\ ReportSpec.text_of l3 s /\ scan_long s = Some (n, more).

Lemma kept_report line d f d' line' : line_buffer line -> read_accrpt line d f = Ok (d', line') ->
  line_buffer line' /\ third_line f (characters d' - characters d).
Proof.
  intros B E. unfold read_accrpt in E. cbv zeta in E.
  destruct (need_title _ _) as [s1| | |] eqn:E1; cbn [obind] in E; bad E. apply (title_takes _ _ _ _ B) in E1 as (l1 & T1 & B1). destruct s1 as [b1 f1].
  destruct (need_divider _ _) as [s2| | |] eqn:E2; cbn [obind] in E; bad E. apply (divider_takes _ _ _ _ B1) in E2 as (l2 & T2 & B2). destruct s2 as [b2 f2].
  destruct (need_scan _ (b2, f2)) as [[ch s3]| | |] eqn:E3; cbn [obind] in E; bad E. apply (scan_takes _ _ _ _ B2) in E3 as (l3 & s & more & T3 & B3 & X & Y).
  assert (third_line f ch) as Third.
  { exists l1, l2, l3, (snd s3), s, more. split; [|auto]. repeat (eapply takes_more; [eassumption|]). constructor. }
  clear T1 T2 T3 B B1 B2 b1 f1 b2 f2 X Y.
  repeat match type of E with
    | obind (need_scan ?sc ?st) _ = _ => let s := fresh "st" in let K := fresh "K" in destruct (need_scan sc st) as [[? s]| | |] eqn:K; cbn [obind] in E; bad E;
        apply kept_need_scan in K; [|assumption]
    | obind (need_line ?st) _ = _ => let s := fresh "st" in let K := fresh "K" in destruct (need_line st) as [s| | |] eqn:K; cbn [obind] in E; bad E;
        apply kept_need_line in K; [|assumption]
    end.
  destruct (skip_to_blank _ _) as [s4| | |] eqn:E4; cbn [obind] in E; bad E. apply kept_skip in E4; [|assumption].
  match type of E with obind ?m _ = _ => destruct m as [[d5 s5]| | |] eqn:E5; cbn [obind] in E; bad E end.
  match type of E5 with context [if _ then _ else Ok (?d0, _)] => assert (line_buffer (fst s5) /\ characters d5 = characters d0) as [B5 C5] end.
  { destruct (0 <? _); [|injection E5 as <- <-; auto]. destruct (read_line s4) as [[ok s6]| | |] eqn:E6; cbn [obind] in E5; bad E5.
    apply kept_line in E6; [|assumption]. destruct ok; [eapply kept_conf; [|exact E5]; assumption|injection E5 as <- <-; auto]. }
  match type of E with obind ?m _ = _ => destruct m as [[d7 s7]| | |] eqn:E7; cbn [obind] in E; bad E end.
  assert (line_buffer (fst s7) /\ characters d7 = characters d5) as [B7 C7].
  { clear E5. destruct (0 <? ch); [|injection E7 as <- <-; auto]. destruct (read_line s5) as [[ok s6]| | |] eqn:E6; cbn [obind] in E7; bad E7.
    apply kept_line in E6; [|assumption]. destruct ok; [eapply kept_class; [|exact E7]; assumption|injection E7 as <- <-; auto]. }
  injection E as <- <-. split; [exact B7|]. rewrite C7, C5. cbn [characters with_ops AccModel.add_counts]. now replace (characters d + ch - characters d) with ch by lia.
Qed.

(** Word accuracy reports *)
Lemma kept_wr b i b' : line_buffer b -> wr "line" b i 0 = Ok b' -> line_buffer b'.
Proof.
  intros [L Z99] E. unfold wr in E. destruct (zset b i 0) as [b''|] eqn:Ez; [|discriminate E]. injection E as <-.
  split; [now rewrite (zset_zlen _ _ _ _ Ez)|]. rewrite (zset_znth _ _ _ _ Ez). now destruct (99 =? i).
Qed.
Lemma kept_two st : line_buffer (fst st) -> in_buffer (two_lines st).
Proof.
  intros B ok st' E. unfold two_lines in E. destruct (read_line st) as [[k s]| | |] eqn:El; cbn [obind] in E; bad E. apply kept_line in El; [|exact B].
  destruct k; [eapply kept_line; [|eassumption]; assumption|congruence].
Qed.
Lemma kept_numbers fuel : forall ws t st, line_buffer (fst st) -> in_buffer (number_rows fuel ws t st).
Proof.
  induction fuel as [|fu IH]; intros ws t st B [w' t'] st' E; cbn [number_rows] in E;
    destruct (read_scan _ st) as [[r s]| | |] eqn:El; cbn [obind] in E; bad E; apply (kept_scan _ _ B) in El; (destruct r as [[v1 v2]|]; [|congruence]);
    destruct (cstr _ _) as [k| | |]; cbn [obind] in E; bad E; destruct (increment_at _ _ _ _) as [ws'| | |]; cbn [obind] in E; bad E; try discriminate E.
  eapply IH; [|eassumption]; assumption.
Qed.
Lemma kept_read_numbers fuel ws st : line_buffer (fst st) -> in_buffer (read_numbers fuel ws st).
Proof.
  intros B wt st' E. unfold read_numbers in E. destruct (two_lines st) as [[k s]| | |] eqn:El; cbn [obind] in E; bad E. apply kept_two in El; [|exact B].
  destruct k; [eapply kept_numbers; [|eassumption]; assumption|congruence].
Qed.
Lemma kept_terms fuel : forall ts st, line_buffer (fst st) -> in_buffer (term_rows fuel ts st).
Proof.
  induction fuel as [|fu IH]; intros ts st B t' st' E; cbn [term_rows] in E;
    destruct (read_scan _ st) as [[r s]| | |] eqn:El; cbn [obind] in E; bad E; apply (kept_scan _ _ B) in El; (destruct r as [[v1 v2]|]; [|congruence]);
    destruct (cstr _ 0) as [k| | |]; cbn [obind] in E; bad E; destruct (wr _ _ _ _) as [b| | |] eqn:Ew; cbn [obind] in E; bad E; apply (kept_wr _ _ _ El) in Ew;
    destruct (cstr _ _) as [k'| | |]; cbn [obind] in E; bad E; try discriminate E.
  eapply IH; [|exact E]. exact Ew.
Qed.
Lemma kept_read_terms fuel ts st : line_buffer (fst st) -> in_buffer (read_terms fuel ts st).
Proof.
  intros B wt st' E. unfold read_terms in E. destruct (two_lines st) as [[k s]| | |] eqn:El; cbn [obind] in E; bad E. apply kept_two in El; [|exact B].
  destruct k; [eapply kept_terms; [|eassumption]; assumption|congruence].
Qed.
Lemma kept_words fuel w s n d st d' st' : line_buffer (fst st) -> read_words fuel w s n d st = Ok (d', st') -> line_buffer (fst st') /\ wtotal d' = wtotal d.
Proof.
  intros B E. unfold read_words in E. destruct (0 <? w); [|injection E as <- <-; auto].
  destruct (read_numbers _ _ _) as [[[ps k] s1]| | |] eqn:E1; cbn [obind] in E; bad E. apply kept_read_numbers in E1; [|exact B].
  match type of E with obind ?m _ = _ => destruct m as [[t2 s2]| | |] eqn:E2; cbn [obind] in E; bad E end.
  assert (line_buffer (fst s2)) as B2. { destruct (0 <? s); [eapply kept_read_terms; eauto|congruence]. }
  match type of E with obind ?m _ = _ => destruct m as [[t3 s3]| | |] eqn:E3; cbn [obind] in E; bad E end.
  assert (line_buffer (fst s3)) as B3. { destruct (0 <? n); [eapply kept_read_terms; eauto|congruence]. }
  injection E as <- <-. auto.
Qed.
Lemma kept_tables fuel w m d st d' st' : line_buffer (fst st) -> read_tables fuel w m d st = Ok (d', st') -> line_buffer (fst st') /\ wcount (wtotal d') = wcount (wtotal d) + w.
Proof.
  intros B E. unfold read_tables in E. cbv zeta in E.
  destruct (read_numbers _ (stopword d) _) as [[[ps k] s1]| | |] eqn:E1; cbn [obind] in E; bad E. apply kept_read_numbers in E1; [|exact B].
  destruct (read_numbers _ (non_stopword d) _) as [[[ps2 k2] s2]| | |] eqn:E2; cbn [obind] in E; bad E. apply kept_read_numbers in E2; [|exact E1].
  destruct (read_numbers _ (distinct d) _) as [[[ps3 k3] s3]| | |] eqn:E3; cbn [obind] in E; bad E. apply kept_read_numbers in E3; [|exact E2].
  apply kept_words in E; [|exact E3]. destruct E as [E4 E5]. split; [exact E4|]. rewrite E5. reflexivity.
Qed.
Lemma kept_word_report line d f d' line' : line_buffer line -> read_wacrpt line d f = Ok (d', line') ->
  line_buffer line' /\ third_line f (wcount (wtotal d') - wcount (wtotal d)).
Proof.
  intros B E. unfold read_wacrpt in E. cbv zeta in E.
  destruct (need_title _ _) as [s1| | |] eqn:E1; cbn [obind] in E; bad E. apply (title_takes _ _ _ _ B) in E1 as (l1 & T1 & B1). destruct s1 as [b1 f1].
  destruct (need_divider _ _) as [s2| | |] eqn:E2; cbn [obind] in E; bad E. apply (divider_takes _ _ _ _ B1) in E2 as (l2 & T2 & B2). destruct s2 as [b2 f2].
  destruct (need_scan _ (b2, f2)) as [[ch s3]| | |] eqn:E3; cbn [obind] in E; bad E. apply (scan_takes _ _ _ _ B2) in E3 as (l3 & s & more & T3 & B3 & X & Y).
  assert (third_line f ch) as Third.
  { exists l1, l2, l3, (snd s3), s, more. split; [|auto]. repeat (eapply takes_more; [eassumption|]). constructor. }
  clear T1 T2 T3 B B1 B2 b1 f1 b2 f2 X Y.
  repeat match type of E with
    | obind (need_scan ?sc ?st) _ = _ => let s := fresh "st" in let K := fresh "K" in destruct (need_scan sc st) as [[? s]| | |] eqn:K; cbn [obind] in E; bad E;
        apply kept_need_scan in K; [|assumption]
    | obind (need_line ?st) _ = _ => let s := fresh "st" in let K := fresh "K" in destruct (need_line st) as [s| | |] eqn:K; cbn [obind] in E; bad E;
        apply kept_need_line in K; [|assumption]
    end.
  destruct (read_tables _ _ _ _ _) as [[d7 s7]| | |] eqn:E7; cbn [obind] in E; bad E. apply kept_tables in E7 as [B7 C7]; [|assumption].
  injection E as <- <-. split; [exact B7|]. rewrite C7. now replace (wcount (wtotal d) + ch - wcount (wtotal d)) with ch by lia.
Qed.

(** Edit operation reports *)
Lemma kept_moves fuel : forall ms st, line_buffer (fst st) -> in_buffer (move_rows fuel ms st).
Proof.
  induction fuel as [|fu IH]; intros ms st B t' st' E; cbn [move_rows] in E;
    destruct (read_scan _ st) as [[r s]| | |] eqn:El; cbn [obind] in E; bad E; apply (kept_scan _ _ B) in El; (destruct r as [[v1 v2]|]; [|congruence]);
    destruct (add_at _ _ _) as [k| | |]; cbn [obind] in E; bad E; try discriminate E.
  eapply IH; [|eassumption]; assumption.
Qed.
Lemma kept_edit_report line d f d' line' : line_buffer line -> read_edorpt line d f = Ok (d', line') -> line_buffer line'.
Proof.
  intros B E. unfold read_edorpt in E. cbv zeta in E. change line with (fst (line, f)) in B.
  destruct (need_title _ _) as [s1| | |] eqn:E1; cbn [obind] in E; bad E. apply kept_title in E1; [|exact B].
  destruct (need_divider _ _) as [s2| | |] eqn:E2; cbn [obind] in E; bad E. apply kept_divider in E2; [|exact E1].
  repeat match type of E with
    | obind (need_scan ?sc ?st) _ = _ => let s := fresh "st" in let K := fresh "K" in destruct (need_scan sc st) as [[? s]| | |] eqn:K; cbn [obind] in E; bad E;
        apply kept_need_scan in K; [|assumption]
    end.
  destruct (read_moves _ _ _ _) as [[ms s7]| | |] eqn:E7; cbn [obind] in E; bad E. injection E as _ <-.
  unfold read_moves, three_lines in E7. destruct (0 <? _); [|congruence].
  destruct (read_line st1) as [[k1 t1]| | |] eqn:L1; cbn [obind] in E7; bad E7. apply kept_line in L1; [|assumption]. destruct k1; cbn [obind] in E7; [|congruence].
  destruct (read_line t1) as [[k2 t2]| | |] eqn:L2; cbn [obind] in E7; bad E7. apply kept_line in L2; [|assumption]. destruct k2; cbn [obind] in E7; [|congruence].
  destruct (read_line t2) as [[k3 t3]| | |] eqn:L3; cbn [obind] in E7; bad E7. apply kept_line in L3; [|assumption]. destruct k3; cbn [obind] in E7; [|congruence].
  eapply kept_moves; [|eassumption]; assumption.
Qed.

(** ** A row without a character *)
Definition taken (f : list Z) (st : rstate) : Prop := line_buffer (fst st) /\ exists ls, takes_all f ls (snd st).
Lemma taken_more f ls r l r' : takes_all f ls r -> takes r l r' -> takes_all f (ls ++ [l]) r'.
Proof. intros H T. induction H as [f|f l0 r0 ls r Ht H IH]; cbn [app]; [eapply takes_more; [exact T|constructor]|]. eapply takes_more; [exact Ht|auto]. Qed.
Lemma taken_line f st ok st' : taken f st -> read_line st = Ok (ok, st') -> taken f st'.
Proof.
  intros [B [ls T]] E. destruct st as [b r]. cbn [fst snd] in *. destruct (read_line_takes b r B) as [[-> E']|(l & rest & b' & T' & E' & H & _)]; rewrite E' in E; injection E as _ <-.
  - split; [exact B|eauto].
  - split; [apply H|]. exists (ls ++ [l]). cbn [snd]. eapply taken_more; eauto.
Qed.
Lemma taken_scan {A} (scan : list Z -> option A) f st r st' : taken f st -> read_scan scan st = Ok (r, st') ->
  taken f st' /\ (r <> None -> exists ls l, takes_all f (ls ++ [l]) (snd st') /\ holds (fst st') l /\ scan (cutnul l) = r).
Proof.
  intros [B [ls T]] E. destruct st as [b g]. cbn [fst snd] in *. unfold read_scan in E.
  destruct (read_line_takes b g B) as [[-> E']|(l & rest & b' & T' & E' & H & C)]; rewrite E' in E; cbn [obind] in E.
  - injection E as <- <-. split; [split; eauto|congruence].
  - cbn [fst] in E. rewrite C in E. cbn [obind] in E. injection E as <- <-. pose proof (taken_more _ _ _ _ _ T T') as M. split.
    + split; [apply H|eauto].
    + intros _. exists ls, l. auto.
Qed.
Lemma taken_need_line f st st' : taken f st -> need_line st = Ok st' -> taken f st'.
Proof.
  intros B E. unfold need_line in E. destruct (read_line st) as [[ok s]| | |] eqn:El; cbn [obind] in E; bad E. apply (taken_line _ _ _ _ B) in El.
  destruct ok; [congruence|discriminate E].
Qed.
Lemma taken_need_scan {A} (scan : list Z -> option A) f st x st' : taken f st -> need_scan scan st = Ok (x, st') -> taken f st'.
Proof.
  intros B E. unfold need_scan in E. destruct (read_scan scan st) as [[r s]| | |] eqn:El; cbn [obind] in E; bad E. apply (taken_scan _ _ _ _ _ B) in El as [El _].
  destruct r; [congruence|discriminate E].
Qed.
Lemma taken_title t f st st' : taken f st -> need_title t st = Ok st' -> taken f st'.
Proof.
  intros B E. unfold need_title in E. destruct (read_line st) as [[ok s]| | |] eqn:El; cbn [obind] in E; bad E. apply (taken_line _ _ _ _ B) in El.
  destruct ok; [|discriminate E]. destruct (cstr _ _) as [x| | |]; cbn [obind] in E; bad E. destruct (strneq _ _ _); [congruence|discriminate E].
Qed.
Lemma taken_divider t f st st' : taken f st -> need_divider t st = Ok st' -> taken f st'.
Proof.
  intros B E. unfold need_divider in E. destruct (read_line st) as [[ok s]| | |] eqn:El; cbn [obind] in E; bad E. apply (taken_line _ _ _ _ B) in El.
  destruct ok; [|discriminate E]. destruct (cstr _ _) as [x| | |]; cbn [obind] in E; bad E. destruct (streq _ _); [congruence|discriminate E].
Qed.
Lemma taken_skip f fuel : forall st st', taken f st -> skip_to_blank fuel st = Ok st' -> taken f st'.
Proof.
  induction fuel as [|fu IH]; intros st st' B E; cbn [skip_to_blank] in E;
    destruct (read_line st) as [[ok s]| | |] eqn:El; cbn [obind] in E; bad E; apply (taken_line _ _ _ _ B) in El; (destruct ok; [|congruence]);
    destruct (rd _ _ _) as [c| | |]; cbn [obind] in E; bad E; (destruct (c =? NEWLINE); [congruence|]); try discriminate E; eauto.
Qed.
Lemma taken_conf f fuel : forall d st d' st', taken f st -> conf_rows fuel d st = Ok (d', st') -> taken f st'.
Proof.
  induction fuel as [|fu IH]; intros d st d' st' B E; cbn [conf_rows] in E;
    destruct (read_scan _ st) as [[r s]| | |] eqn:El; cbn [obind] in E; bad E; apply (taken_scan _ _ _ _ _ B) in El as [El _]; (destruct r as [[v1 v2]|]; [|injection E as <- <-; auto]);
    destruct (cstr _ _) as [k| | |]; cbn [obind] in E; bad E; try discriminate E. eapply IH; [|exact E]. exact El.
Qed.
(** What may fail. *)
Definition format_only {A} (m : outcome A) : Prop := forall msg, m = Fail msg -> msg = "invalid format in"%string.
Lemma line_ok f st : taken f st -> exists ok st', read_line st = Ok (ok, st').
Proof. intros [B _]. destruct st as [b g]. destruct (read_line_takes b g B) as [[-> E']|(l & rest & b' & T' & E' & H & _)]; rewrite E'; eauto. Qed.
Lemma scan_ok {A} (scan : list Z -> option A) f st : taken f st -> exists r st', read_scan scan st = Ok (r, st').
Proof. intros [B _]. destruct st as [b g]. destruct (read_scan_total scan b g B) as (r & b' & rest & E & _). eauto. Qed.
Lemma format_need_line f st : taken f st -> format_only (need_line st).
Proof. intros T msg E. unfold need_line in E. destruct (line_ok _ _ T) as (ok & st' & El). rewrite El in E. cbn [obind] in E. destruct ok; [discriminate E|]. now injection E as <-. Qed.
Lemma format_need_scan {A} (scan : list Z -> option A) f st : taken f st -> format_only (need_scan scan st).
Proof. intros T msg E. unfold need_scan in E. destruct (scan_ok scan _ _ T) as (r & st' & El). rewrite El in E. cbn [obind] in E. destruct r; [discriminate E|]. now injection E as <-. Qed.
Lemma format_title t f st : taken f st -> format_only (need_title t st).
Proof.
  intros T msg E. unfold need_title in E. destruct (line_ok _ _ T) as (ok & st' & El). rewrite El in E. cbn [obind] in E. destruct ok; [|now injection E as <-].
  destruct (cstr _ _) as [x|m| |] eqn:C; cbn [obind] in E; try discriminate E; [|now apply nf_cstr in C]. destruct (strneq _ _ _); [discriminate E|]. now injection E as <-.
Qed.
Lemma format_divider t f st : taken f st -> format_only (need_divider t st).
Proof.
  intros T msg E. unfold need_divider in E. destruct (line_ok _ _ T) as (ok & st' & El). rewrite El in E. cbn [obind] in E. destruct ok; [|now injection E as <-].
  destruct (cstr _ _) as [x|m| |] eqn:C; cbn [obind] in E; try discriminate E; [|now apply nf_cstr in C]. destruct (streq _ _); [discriminate E|]. now injection E as <-.
Qed.
Lemma nf_skip f fuel : forall st, taken f st -> no_fail (skip_to_blank fuel st).
Proof.
  induction fuel as [|fu IH]; intros st T; cbn [skip_to_blank]; destruct (line_ok _ _ T) as (ok & st' & El); pose proof (taken_line _ _ _ _ T El) as T'; rewrite El; cbn [obind];
    (destruct ok; [|apply nf_ok]); (apply nf_bind; [apply nf_rd|]); intros c _; (destruct (_ =? _); [apply nf_ok|]); [apply nf_fuel|auto].
Qed.
Lemma nf_conf_rows f fuel : forall d st, taken f st -> no_fail (conf_rows fuel d st).
Proof.
  induction fuel as [|fu IH]; intros d st T; cbn [conf_rows]; destruct (scan_ok scan_two _ _ T) as (r & st' & El); pose proof (taken_scan _ _ _ _ _ T El) as [T' _]; rewrite El; cbn [obind];
    (destruct r as [[v1 v2]|]; [|apply nf_ok]); (apply nf_bind; [apply nf_cstr|]); intros k _; [apply nf_fuel|auto].
Qed.
Lemma nf_add_class d v c m : no_fail (add_class d v c m).
Proof.
  intros msg E. assert (0 <= v < 1114111 \/ ~ (0 <= v < 1114111)) as [H|H] by lia.
  - rewrite (add_class_ok d v c m H) in E. discriminate E.
  - unfold add_class in E. rewrite (charclass_out v H) in E. discriminate E.
Qed.
Lemma class_message f fuel : forall d st msg, taken f st -> class_rows fuel d st = Fail msg ->
  exists ls l rest, takes_all f (ls ++ [l]) rest /\ no_character l.
Proof.
  induction fuel as [|fu IH]; intros d st msg T E; cbn [class_rows] in E; destruct (scan_ok scan_two _ _ T) as (r & st' & El); pose proof (taken_scan _ _ _ _ _ T El) as [T' L]; rewrite El in E;
    cbn [obind] in E; (destruct r as [[v1 v2]|]; [|discriminate E]); destruct (L ltac:(discriminate)) as (ls & l & Tl & [B [tl H]] & S);
    destruct (read_char_total _ B) as [v3 E3]; rewrite E3 in E; cbn [obind] in E;
    destruct (v3 =? _) eqn:Ev; try (destruct (add_class _ _ _ _) as [d'|m| |] eqn:Ea; cbn [obind] in E; try discriminate E); try (now apply nf_add_class in Ea); try (eapply IH; eassumption).
  all: exists ls, l, (snd st'); split; [exact Tl|]; split;
    [exists (cutnul l); split; [apply text_cutnul|apply scan_two_numbers; rewrite S; discriminate]|];
    intros uc v pre shown more N W Sv Ec Lp ->; destruct (C16_read_char uc v pre (more ++ 0 :: tl) N W Sv) as (s & Es & Er); [apply in_or_app; right; now left|];
    rewrite Ec in Es; injection Es as <-; rewrite H in E3; rewrite <- !app_assoc in E3; unfold CLASS_OFFSET in E3; rewrite <- Lp, Er in E3; injection E3 as <-;
    apply Z.eqb_eq in Ev; unfold INVALID_CHARVALUE in Ev; unfold scalar in Sv; lia.
Qed.
Lemma char_message line d f : line_buffer line -> read_accrpt line d f = Fail "invalid character in" ->
  exists ls l rest, takes_all f (ls ++ [l]) rest /\ no_character l.
Proof.
  intros B E. unfold read_accrpt in E. cbv zeta in E. assert (taken f (line, f)) as T by (split; [exact B|exists []; constructor]).
  repeat match type of E with
    | obind (need_title ?t ?st) _ = _ => let s := fresh "st" in let K := fresh "K" in destruct (need_title t st) as [s|m| |] eqn:K; cbn [obind] in E; try discriminate E;
        [apply (taken_title _ f) in K; [|assumption]|injection E as ->; apply (format_title _ f) in K; [discriminate K|assumption]]
    | obind (need_divider ?t ?st) _ = _ => let s := fresh "st" in let K := fresh "K" in destruct (need_divider t st) as [s|m| |] eqn:K; cbn [obind] in E; try discriminate E;
        [apply (taken_divider _ f) in K; [|assumption]|injection E as ->; apply (format_divider _ f) in K; [discriminate K|assumption]]
    | obind (need_scan ?sc ?st) _ = _ => let s := fresh "st" in let K := fresh "K" in destruct (need_scan sc st) as [[? s]|m| |] eqn:K; cbn [obind] in E; try discriminate E;
        [apply (taken_need_scan _ f) in K; [|assumption]|injection E as ->; apply (format_need_scan _ f) in K; [discriminate K|assumption]]
    | obind (need_line ?st) _ = _ => let s := fresh "st" in let K := fresh "K" in destruct (need_line st) as [s|m| |] eqn:K; cbn [obind] in E; try discriminate E;
        [apply (taken_need_line f) in K; [|assumption]|injection E as ->; apply (format_need_line f) in K; [discriminate K|assumption]]
    end.
  destruct (skip_to_blank _ _) as [s4|m| |] eqn:E4; cbn [obind] in E; try discriminate E; [|apply (nf_skip f) in E4; [contradiction|assumption]].
  apply (taken_skip f) in E4; [|assumption].
  match type of E with obind ?m _ = _ => destruct m as [[d5 s5]|m5| |] eqn:E5; cbn [obind] in E; try discriminate E end.
  - assert (taken f s5) as T5.
    { destruct (0 <? _); [|injection E5 as <- <-; auto]. destruct (read_line s4) as [[ok s6]| | |] eqn:E6; cbn [obind] in E5; bad E5.
      apply (taken_line f) in E6; [|assumption]. destruct ok; [eapply taken_conf; [|exact E5]; assumption|injection E5 as <- <-; auto]. }
    clear E5. match type of E with obind ?m _ = _ => destruct m as [[d7 s7]|m7| |] eqn:E7; cbn [obind] in E; try discriminate E end.
    destruct (0 <? _); [|discriminate E7]. destruct (line_ok _ _ T5) as (ok & s6 & E6). pose proof (taken_line _ _ _ _ T5 E6) as T6. rewrite E6 in E7. cbn [obind] in E7.
    destruct ok; [|discriminate E7]. eapply class_message; [exact T6|exact E7].
  - exfalso. destruct (0 <? _); [|discriminate E5]. destruct (line_ok _ _ E4) as (ok & s6 & E6). pose proof (taken_line _ _ _ _ E4 E6) as T6. rewrite E6 in E5. cbn [obind] in E5.
    destruct ok; [|discriminate E5]. now apply (nf_conf_rows f) in E5.
Qed.
