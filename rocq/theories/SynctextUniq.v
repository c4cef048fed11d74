(** The output of synctext determines what is shown of the texts. *)
From Coq Require Import String Permutation.
From Verif Require Import Base CLib CLibProof Utf8Model Utf8Proof TextModel TextSpec TextIO TextProps SyncModel SyncSpec AccModel AccSpec
  AccProof AccCount ReportModel ReportProof SynctextModel SynctextSpec SynctextProof.
Local Open Scope Z_scope.
Local Open Scope list_scope.

Notation clean s := (~ In 123 s).

Lemma split_at (a b x y : list Z) : clean a -> clean b -> a ++ 123 :: x = b ++ 123 :: y -> a = b /\ x = y.
Proof.
  revert b. induction a as [|c a IH]; intros [|d b] Ha Hb E; cbn [app In] in *.
  - injection E as E. auto.
  - exfalso. apply Hb. left. congruence.
  - exfalso. apply Ha. left. congruence.
  - injection E as -> E. destruct (IH b) as [-> ->]; auto.
Qed.

(** What follows a part: nothing, or a brace; the same in both cases. *)
Definition follows (x y : list Z) : Prop := (x = [] /\ y = []) \/ exists x' y', x = 123 :: x' /\ y = 123 :: y'.

Lemma split_follow (a b q x y : list Z) : clean a -> clean b -> clean q -> follows x y ->
  a ++ q ++ x = b ++ q ++ y -> a = b /\ x = y.
Proof.
  intros Ha Hb Hq [(-> & ->)|(x' & y' & -> & ->)] E; rewrite !app_assoc in E.
  - rewrite !app_nil_r in E. apply app_inv_tail in E. auto.
  - apply split_at in E as [E ->]; try (rewrite in_app_iff; tauto). apply app_inv_tail in E. auto.
Qed.

Section Unique.
Variable uc : unicode_data.
Variable show : bool.

Lemma utf8_clean v : 0 <= v <= 1114111 -> v <> 123 -> clean (utf8 v).
Proof.
  intros R N. unfold utf8.
  pose proof (Z.mod_pos_bound v 64). pose proof (Z.mod_pos_bound (v / 64) 64). pose proof (Z.mod_pos_bound (v / 4096) 64).
  assert (0 <= v / 64 /\ 0 <= v / 4096 /\ 0 <= v / 262144) by (repeat split; apply Z.div_pos; lia).
  repeat (match goal with |- context [if ?b then _ else _] => destruct b eqn:? end); cbn [In]; lia.
Qed.

Lemma image_clean c : scalar (value c) -> value c <> 123 -> clean (image uc c).
Proof.
  intros S N. assert (R : 0 <= value c <= 1114111) by (unfold scalar in S; lia). unfold image. rewrite in_app_iff. intros [H|H].
  - destruct (suspect c); cbn in H; lia.
  - destruct (Z.eqb_spec (value c) 10); [cbn in H; lia|]. unfold display in H. replace (value c =? 10) with false in H by lia.
    destruct (is_graphic uc (value c)).
    + apply in_app_or in H as [H|H]; [destruct (is_combining uc (value c)); revert H; cbn; lia|]. revert H. now apply utf8_clean.
    + destruct (hex_bytes (value c) (if value c <? 256 then 2 else 4) R) as [_ F]; [destruct (value c <? 256); auto|].
      rewrite Forall_forall in F. rewrite !in_app_iff in H. destruct H as [H|[H|H]]; [revert H; cbn; lia| |revert H; cbn; lia].
      apply F in H. lia.
Qed.

Definition ordinary (c : char) : Prop := scalar (value c) /\ value c <> 123.

Lemma images_clean cs : Forall ordinary cs -> clean (images uc cs).
Proof.
  intros F H. apply in_flat_map in H as (c & Hc & H). rewrite Forall_forall in F. destruct (F c Hc). revert H. now apply image_clean.
Qed.

(** Removing the indentation *)
Fixpoint outdent (w : nat) (skip : nat) (l : list Z) : list Z :=
  match l with
  | [] => []
  | x :: l => match skip with Datatypes.S k => outdent w k l | O => x :: outdent w (if x =? 10 then w else O) l end
  end.

Lemma outdent_app w a r : ~ In 10 a -> outdent w 0 (a ++ r) = a ++ outdent w 0 r.
Proof.
  induction a as [|x a IH]; intros H; [reflexivity|]. cbn [app outdent]. cbn [In] in H.
  replace (x =? 10) with false by lia. rewrite IH by tauto. reflexivity.
Qed.
Lemma outdent_skip w n r : outdent w n (repeat 32 n ++ r) = outdent w 0 r.
Proof. induction n as [|n IH]; [reflexivity|]. cbn [repeat app outdent]. exact IH. Qed.

Definition indented (w : Z) (cs : list char) : list Z :=
  flat_map (fun c => image uc c ++ if value c =? 10 then blanks (w + 2) else []) cs.

Lemma image_newline c : scalar (value c) -> value c <> 10 -> ~ In 10 (image uc c).
Proof.
  intros S N. unfold image. replace (value c =? 10) with false by lia. rewrite in_app_iff. intros [H|H].
  - destruct (suspect c); cbn in H; lia.
  - revert H. now apply display_ok.
Qed.

Lemma outdent_indented w cs : Forall ordinary cs -> outdent (Z.to_nat (w + 2)) 0 (indented w cs) = images uc cs.
Proof.
  induction 1 as [|c cs (Sc & _) F IH]; [reflexivity|]. unfold indented, images. cbn [flat_map].
  fold (indented w cs). fold (images uc cs). rewrite <- app_assoc.
  destruct (Z.eqb_spec (value c) 10) as [E|N].
  - unfold image. rewrite E. cbn [Z.eqb Pos.eqb]. rewrite <- !app_assoc. rewrite outdent_app by (destruct (suspect c); cbn; lia).
    f_equal. cbn [app outdent Z.eqb Pos.eqb]. f_equal. unfold blanks. rewrite outdent_skip. exact IH.
  - rewrite outdent_app by now apply image_newline. cbn [app]. now rewrite IH.
Qed.

Lemma indented_inj w cs ds : Forall ordinary cs -> Forall ordinary ds -> indented w cs = indented w ds -> images uc cs = images uc ds.
Proof. intros F G E. rewrite <- (outdent_indented w cs F), <- (outdent_indented w ds G). now rewrite E. Qed.

Lemma indented_clean w cs : Forall ordinary cs -> clean (indented w cs).
Proof.
  intros F H. apply in_flat_map in H as (c & Hc & H). rewrite Forall_forall in F. destruct (F c Hc).
  apply in_app_or in H as [H|H]; [revert H; now apply image_clean|]. destruct (value c =? 10); [|easy].
  apply repeat_spec in H. lia.
Qed.

(** *** Entries *)
Variable names : list (list Z).
Hypothesis names_clean : Forall (fun nm => clean nm) names.

Lemma separator_clean : clean separator.
Proof. unfold separator. rewrite in_app_iff. intros [H|H]; [apply repeat_spec in H; lia|cbn in H; lia]. Qed.
Lemma blanks_clean n : clean (blanks n).
Proof. intros H. apply repeat_spec in H. lia. Qed.

Definition lead (w : Z) (nms : list (list Z)) : list Z :=
  match nms with [] => separator | nm :: _ => nm ++ blanks (w - zlen nm) ++ bytes " " end.

Lemma lead_clean w nms : Forall (fun nm => clean nm) nms -> clean (lead w nms).
Proof.
  intros [|nm l H F]; [apply separator_clean|]. cbn [lead]. rewrite !in_app_iff. intros [C|[C|C]]; [tauto|revert C; apply blanks_clean|cbn in C; lia].
Qed.

Lemma entry_form w nm p : entry uc show w (nm, p) =
  (nm ++ blanks (w - zlen nm) ++ bytes " ") ++ 123 :: indented w (shown_piece show p) ++ [125; 10].
Proof. unfold entry. cbn [fst snd]. rewrite <- !app_assoc. reflexivity. Qed.

(** the rest after the lead *)
Lemma entries_form w nms ps s : List.length ps = List.length nms ->
  exists u, flat_map (entry uc show w) (combine nms ps) ++ separator ++ s = lead w nms ++ u /\
    match nms with [] => u = s | _ => exists u', u = 123 :: u' end.
Proof.
  destruct nms as [|nm nms], ps as [|p ps]; intros L; try discriminate L.
  - exists s. auto.
  - cbn [combine flat_map lead]. rewrite entry_form.
    exists ((123 :: indented w (shown_piece show p) ++ [125; 10]) ++ flat_map (entry uc show w) (combine nms ps) ++ separator ++ s).
    split; [now rewrite <- !app_assoc|]. eexists. reflexivity.
Qed.

Lemma entries_inj w nms : Forall (fun nm => clean nm) nms -> forall ps qs s t,
  List.length ps = List.length nms -> List.length qs = List.length nms -> follows s t ->
  Forall (Forall ordinary) ps -> Forall (Forall ordinary) qs ->
  flat_map (entry uc show w) (combine nms ps) ++ separator ++ s = flat_map (entry uc show w) (combine nms qs) ++ separator ++ t ->
  Forall2 (fun p q => images uc (shown_piece show p) = images uc (shown_piece show q)) ps qs /\ s = t.
Proof.
  intros C. induction C as [|nm nms Cn C IH]; intros [|p ps] [|q qs] s t L1 L2 Fo O1 O2 E; try discriminate L1; try discriminate L2.
  - cbn [combine flat_map app] in E. apply app_inv_head in E. split; [constructor|exact E].
  - injection L1 as L1. injection L2 as L2. apply Forall_cons_iff in O1 as [P1 O1]. apply Forall_cons_iff in O2 as [P2 O2].
    cbn [combine flat_map] in E. rewrite !entry_form, <- !app_assoc in E.
    do 3 apply app_inv_head in E. cbn [app] in E. apply (f_equal (@tl Z)) in E. cbn [tl] in E. rewrite <- !app_assoc in E.
    destruct (entries_form w nms ps s L1) as (u & E1 & U1). destruct (entries_form w nms qs t L2) as (v & E2 & V2).
    assert (Sh : forall x, Forall ordinary x -> Forall ordinary (shown_piece show x)).
    { intros x Hx. unfold shown_piece. apply Forall_map. eapply Forall_impl; [|exact Hx]. intros c Hc. exact Hc. }
    rewrite E1, E2 in E. rewrite (app_assoc [125; 10]), (app_assoc [125; 10] (lead w nms) v) in E.
    apply split_follow in E as [E Euv].
    + subst v. rewrite <- E1 in E2. destruct (IH ps qs s t L1 L2 Fo O1 O2) as [I1 I2].
      { rewrite E1. rewrite E1 in E2. now symmetry. }
      split; [|exact I2]. constructor; [|exact I1]. apply (indented_inj w); auto.
    + apply indented_clean; auto.
    + apply indented_clean; auto.
    + rewrite in_app_iff. intros [H|H]; [cbn in H; lia|]. revert H. now apply lead_clean.
    + destruct nms; [subst u v; exact Fo|]. right. destruct U1 as [u' ->], V2 as [v' ->]. eauto.
Qed.

(** *** Counting braces *)
Definition braces (s : list Z) : nat := count_occ Z.eq_dec s 123.
Lemma braces_app a b : braces (a ++ b) = (braces a + braces b)%nat.
Proof. apply count_occ_app. Qed.
Lemma braces_clean s : clean s -> braces s = 0%nat.
Proof. apply count_occ_not_In. Qed.

Lemma dec_clean n : 0 <= n -> clean (dec n).
Proof.
  intros H. unfold dec. destruct (Z.ltb_spec n 0); [lia|]. pose proof (dec_digits n H) as F. intros C. rewrite Forall_forall in F.
  apply F in C. discriminate C.
Qed.

Definition marker (k : Z) : list Z := bytes "{" ++ dec k ++ bytes "}".
Lemma marker_form k : marker k = 123 :: dec k ++ [125].
Proof. reflexivity. Qed.
Lemma braces_marker k : 0 <= k -> braces (marker k) = 1%nat.
Proof.
  intros H. rewrite marker_form. unfold braces. cbn [count_occ]. destruct (Z.eq_dec 123 123) as [_|C]; [|now destruct C].
  f_equal. apply braces_clean. rewrite in_app_iff. intros [C|C]; [revert C; now apply dec_clean|cbn in C; lia].
Qed.

Lemma braces_entry w nm p : clean nm -> Forall ordinary p -> braces (entry uc show w (nm, p)) = 1%nat.
Proof.
  intros Cn O. rewrite entry_form, braces_app, braces_clean.
  2: { rewrite !in_app_iff. intros [C|[C|C]]; [tauto|revert C; apply blanks_clean|cbn in C; lia]. }
  cbn [plus]. unfold braces. cbn [count_occ]. destruct (Z.eq_dec 123 123) as [_|C]; [|now destruct C].
  f_equal. apply braces_clean. rewrite in_app_iff. intros [C|C]; [|cbn in C; lia]. revert C. apply indented_clean.
  unfold shown_piece. apply Forall_map. exact O.
Qed.

Lemma braces_entries w nms ps : Forall (fun nm => clean nm) nms -> List.length ps = List.length nms -> Forall (Forall ordinary) ps ->
  braces (flat_map (entry uc show w) (combine nms ps)) = List.length nms.
Proof.
  intros C. revert ps. induction C as [|nm nms Cn C IH]; intros [|p ps] L O; try discriminate L; [reflexivity|].
  apply Forall_cons_iff in O as [P O]. cbn [combine flat_map List.length]. rewrite braces_app, braces_entry, IH; auto.
Qed.

Definition step_ok (s : list (list char) * list (list char)) : Prop :=
  List.length (fst s) = List.length names /\ Forall (Forall ordinary) (fst s) /\ Forall (Forall ordinary) (snd s).

Lemma common_ordinary ps : Forall (Forall ordinary) ps -> Forall ordinary (shown_common show ps).
Proof.
  intros H. unfold shown_common. cbv zeta. apply Forall_map, Forall_forall. intros (j & c) Hc. apply in_combine_r in Hc. cbn [fst snd].
  unfold piece in Hc. destruct (znth ps 0) eqn:E; [|easy]. apply znth_In in E. rewrite Forall_forall in H. specialize (H _ E).
  rewrite Forall_forall in H. exact (H c Hc).
Qed.

Definition commons (k : Z) (st : list (list (list char) * list (list char))) : list Z :=
  flat_map (fun ks => marker (fst ks) ++ images uc (shown_common show (snd (snd ks)))) (numbered k st).
Definition diffs (w k : Z) (st : list (list (list char) * list (list char))) : list Z :=
  flat_map (fun ks => difference_part uc show w names (fst ks) (fst (snd ks))) (numbered k st).

Lemma difference_form w k ps : difference_part uc show w names k ps =
  separator ++ marker k ++ [10] ++ flat_map (entry uc show w) (combine names ps).
Proof. unfold difference_part, marker. now rewrite <- !app_assoc. Qed.

Lemma braces_commons st : Forall step_ok st -> forall k, 0 <= k -> braces (commons k st) = List.length st.
Proof.
  unfold commons. induction 1 as [|s st (_ & _ & H) F IH]; intros k K; [reflexivity|]. cbn [numbered flat_map fst snd List.length].
  rewrite !braces_app, braces_marker, IH by lia. rewrite braces_clean; [reflexivity|]. apply images_clean, common_ordinary, H.
Qed.
Lemma braces_diffs w st : Forall step_ok st -> forall k, 0 <= k ->
  braces (diffs w k st) = (List.length st * Datatypes.S (List.length names))%nat.
Proof.
  unfold diffs. induction 1 as [|s st (L & H & _) F IH]; intros k K; [reflexivity|]. cbn [numbered flat_map fst snd List.length].
  rewrite braces_app, difference_form, !braces_app, braces_marker, braces_entries, IH by (auto; lia).
  rewrite (braces_clean separator separator_clean), (braces_clean [10]) by (cbn; lia). lia.
Qed.

(** *** The differences *)
Definition same_step (s t : list (list char) * list (list char)) : Prop :=
  Forall2 (fun p q => images uc (shown_piece show p) = images uc (shown_piece show q)) (fst s) (fst t).

Lemma diffs_start w k st : exists u, diffs w k st ++ separator = separator ++ u /\
  match st with [] => u = [] | _ => exists u', u = 123 :: u' end.
Proof.
  destruct st as [|s st]; [exists []; auto|]. unfold diffs. cbn [numbered flat_map fst snd]. rewrite difference_form, marker_form, <- !app_assoc.
  eexists. split; [reflexivity|]. eexists. reflexivity.
Qed.

Lemma diffs_inj w st : Forall step_ok st -> forall st', Forall step_ok st' -> List.length st = List.length st' -> forall k,
  diffs w k st ++ separator = diffs w k st' ++ separator -> Forall2 same_step st st'.
Proof.
  induction 1 as [|s st (L & O & _) F IH]; intros [|s' st'] F' El k E; try discriminate El; [constructor|].
  apply Forall_cons_iff in F' as [(L' & O' & _) F']. injection El as El. revert E.
  destruct (diffs_start w (k + 1) st) as (u & E1 & U). destruct (diffs_start w (k + 1) st') as (v & E2 & V).
  unfold diffs. cbn [numbered flat_map fst snd].
  fold (diffs w (k + 1) st). fold (diffs w (k + 1) st'). rewrite !difference_form, <- !app_assoc.
  intros E. do 3 apply app_inv_head in E. rewrite E1, E2 in E.
  apply entries_inj in E as [H E]; auto.
  - constructor; [exact H|]. apply (IH st' F' El (k + 1)). now rewrite E1, E2, E.
  - destruct st, st'; try discriminate El; [subst; now left|]. right. destruct U as [u' ->], V as [v' ->]. eauto.
Qed.

(** *** The common part *)
Definition same_common (s t : list (list char) * list (list char)) : Prop :=
  images uc (shown_common show (snd s)) = images uc (shown_common show (snd t)).

Lemma commons_inj w st : Forall step_ok st -> forall st', Forall step_ok st' -> List.length st = List.length st' -> forall k b b' full full',
  clean b -> clean b' -> List.length full = List.length full' ->
  b ++ commons k st ++ [10] ++ diffs w 1 full ++ separator = b' ++ commons k st' ++ [10] ++ diffs w 1 full' ++ separator ->
  b = b' /\ Forall2 same_common st st' /\ diffs w 1 full ++ separator = diffs w 1 full' ++ separator.
Proof.
  induction 1 as [|s st (_ & _ & O) F IH]; intros [|s' st'] F' El k b b' full full' Cb Cb' Ef E; try discriminate El.
  - cbn [commons numbered flat_map app] in E.
    destruct (diffs_start w 1 full) as (u & E1 & U). destruct (diffs_start w 1 full') as (v & E2 & V). rewrite E1, E2 in E |- *.
    change (10 :: separator ++ u) with ((10 :: separator) ++ u) in E. change (10 :: separator ++ v) with ((10 :: separator) ++ v) in E.
    apply split_follow in E as [-> ->]; auto.
    + intros [C|C]; [lia|]. revert C. apply separator_clean.
    + destruct full, full'; try discriminate Ef; [subst; now left|]. right. destruct U as [u' ->], V as [v' ->]. eauto.
  - apply Forall_cons_iff in F' as [(_ & _ & O') F']. injection El as El. unfold commons in E. cbn [numbered flat_map fst snd] in E.
    fold (commons (k + 1) st) in E. fold (commons (k + 1) st') in E. rewrite !marker_form, <- !app_assoc in E. cbn [app] in E.
    apply split_at in E as [-> E]; auto. rewrite <- !app_assoc in E. apply app_inv_head in E. cbn [app] in E.
    apply (f_equal (@tl Z)) in E. cbn [tl] in E.
    change (10 :: diffs w 1 full ++ separator) with ([10] ++ diffs w 1 full ++ separator) in E.
    change (10 :: diffs w 1 full' ++ separator) with ([10] ++ diffs w 1 full' ++ separator) in E.
    destruct (IH st' F' El (k + 1) _ _ full full' (images_clean _ (common_ordinary _ O)) (images_clean _ (common_ordinary _ O')) Ef E)
      as (H1 & H2 & H3). auto.
Qed.

(** What is shown of the text number [i]. *)
Definition shown_text (i : Z) (al : alignment) : list char :=
  shown_common show (beginning al) ++
  flat_map (fun s => shown_piece show (piece i (fst s)) ++ shown_common show (snd s)) (steps al).

Lemma printed_form al : printed uc show names al =
  separator ++ [10] ++ images uc (shown_common show (beginning al)) ++ commons 1 (steps al) ++ [10] ++
  diffs (longest names) 1 (steps al) ++ separator.
Proof.
  unfold printed, common_part, commons, diffs. rewrite <- !app_assoc. do 3 f_equal. f_equal.
  apply flat_map_ext_in. intros ks _. unfold marker. now rewrite <- !app_assoc.
Qed.

Lemma printed_unique al al' :
  Forall step_ok (steps al) -> Forall step_ok (steps al') ->
  Forall (Forall ordinary) (beginning al) -> Forall (Forall ordinary) (beginning al') ->
  printed uc show names al = printed uc show names al' ->
  forall i, images uc (shown_text i al) = images uc (shown_text i al').
Proof.
  intros F F' O O' E i. rewrite !printed_form in E. do 2 apply app_inv_head in E.
  assert (El : List.length (steps al) = List.length (steps al')).
  { pose proof (f_equal braces E) as B. rewrite !braces_app, !braces_commons, !braces_diffs in B by (auto; lia).
    rewrite !(braces_clean (images uc _)) in B by (apply images_clean, common_ordinary; auto).
    set (q := Datatypes.S (List.length names)) in *. nia. }
  destruct (commons_inj (longest names) _ F _ F' El 1 _ _ _ _ (images_clean _ (common_ordinary _ O)) (images_clean _ (common_ordinary _ O')) El E)
    as (H1 & H2 & H3).
  pose proof (diffs_inj (longest names) _ F _ F' El 1 H3) as H4.
  unfold shown_text, images. rewrite !flat_map_app. f_equal; [exact H1|]. clear -H2 H4. revert H4.
  induction H2 as [|s t st st' H F IH]; intros H4; [reflexivity|]. inversion H4; subst. cbn [flat_map]. rewrite !flat_map_app.
  f_equal; [|now apply IH]. f_equal; [|exact H]. clear -H3. unfold same_step in H3. unfold piece.
  revert i. induction H3 as [|p q ps qs E _ IH]; intros i; [reflexivity|].
  destruct (Z.eq_dec i 0) as [->|N]; [rewrite !znth_cons_0; exact E|].
  destruct (Z.ltb_spec i 0) as [C|C].
  - unfold znth. replace (i <? 0) with true by lia. reflexivity.
  - rewrite !znth_cons_S by lia. apply IH.
Qed.
End Unique.
