(** Proofs: what process_synclist adds up. *)
From Coq Require Import String.
From Verif Require Import Base CLib Utf8Model TextModel TextSpec CharclassModel CompareModel
  SyncModel SyncSpec EditProof AccModel AccSpec SumProof AccProof.
Local Open Scope Z_scope.
Local Open Scope list_scope.

(** *** Parts of a text *)
Definition sub_ok (t : list char) (s : substr) : Prop :=
  0 <= start s /\ 0 <= slen s /\ stop s = start s + slen s - 1 /\ start s + slen s <= zlen t.

Lemma sub_chars_from t st n : 0 <= st -> st + Z.of_nat n <= zlen t ->
  forall acc : list char, ofold (fun acc i => let! c := rd "text.array" t i in Ok (acc ++ [c]))
        (zrange st n) acc = Ok (acc ++ firstn n (skipn (Z.to_nat st) t)).
Proof.
  revert st. induction n as [|n IH]; intros st H1 H2 acc; cbn [zrange ofold firstn].
  - now rewrite app_nil_r.
  - destruct (znth_lt_Some t st) as [c Hc]; [lia|].
    unfold rd at 1. rewrite Hc. cbn [obind]. rewrite IH by lia.
    rewrite <- app_assoc. f_equal. f_equal.
    assert (skipn (Z.to_nat st) t = c :: skipn (Z.to_nat (st + 1)) t) as ->.
    { unfold znth in Hc. replace (st <? 0) with false in Hc by lia.
      replace (Z.to_nat (st + 1)) with (S (Z.to_nat st)) by lia.
      revert Hc. generalize (Z.to_nat st) as k. clear. intros k. revert t.
      induction k as [|k IHk]; intros [|x t]; cbn [nth_error skipn]; try discriminate.
      - now intros [= ->].
      - intros H. rewrite (IHk t H). destruct t; reflexivity. }
    reflexivity.
Qed.

Lemma sub_chars_ok t s : sub_ok t s -> sub_chars t s = Ok (part t s).
Proof.
  intros (H1 & H2 & H3 & H4). unfold sub_chars, part.
  replace (Z.to_nat (stop s - start s + 1)) with (Z.to_nat (slen s)) by lia.
  rewrite sub_chars_from by lia. reflexivity.
Qed.

Lemma part_len t s : sub_ok t s -> zlen (part t s) = slen s.
Proof.
  intros (H1 & H2 & H3 & H4). unfold part, zlen in *.
  rewrite firstn_length, skipn_length. lia.
Qed.

Lemma part_Forall (P : char -> Prop) t s : Forall P t -> Forall P (part t s).
Proof.
  intros H. rewrite Forall_forall in *. intros x Hx. apply H. unfold part in Hx.
  assert (In x (skipn (Z.to_nat (start s)) t)) as Hs.
  { rewrite <- (firstn_skipn (Z.to_nat (slen s))). apply in_or_app. now left. }
  rewrite <- (firstn_skipn (Z.to_nat (start s))). apply in_or_app. now right.
Qed.

Lemma consecutive_parts t ss : forall pos, 0 <= pos -> consecutive pos ss (zlen t) ->
  Forall (sub_ok t) ss /\ flat_map (part t) ss = skipn (Z.to_nat pos) t /\ pos <= zlen t.
Proof.
  induction ss as [|s ss IH]; cbn [consecutive flat_map]; intros pos Hp H.
  - split; [constructor|]. split; [|lia]. symmetry. apply skipn_all2. unfold zlen in H. lia.
  - destruct H as (H1 & H2 & H3 & H4). destruct (IH (start s + slen s)) as (F & E & L); [lia|exact H4|].
    split; [|split; [|lia]].
    + constructor; [|exact F]. repeat split; lia.
    + rewrite E. unfold part. rewrite <- H1.
      rewrite <- (firstn_skipn (Z.to_nat (slen s)) (skipn (Z.to_nat (start s)) t)) at 2.
      f_equal. rewrite skipn_add. f_equal. lia.
Qed.

(** *** The correct side *)
Definition tabulate (matched : bool) (cs : list char) (d : accdata) : accdata :=
  fold_left (fun d c => if is_tilde c then d
                        else add_class_pure d (value c) 1 (if matched then 0 else 1)) cs d.

Lemma tabulate_cons matched c cs d : tabulate matched (c :: cs) d =
  tabulate matched cs
    (if is_tilde c then d else add_class_pure d (value c) 1 (if matched then 0 else 1)).
Proof. reflexivity. Qed.

Lemma count_correct_ok matched cs d ch wi :
  Forall (fun c => 0 <= value c < 1114111) cs ->
  ofold (count_correct_step matched) cs (d, ch, wi)
  = Ok (tabulate matched cs d, ch + num plain cs, wi + num is_tilde cs).
Proof.
  intros F. revert d ch wi. induction F as [|c cs H F IH]; intros d ch wi; cbn [ofold].
  - unfold tabulate. cbn [fold_left]. rewrite !num_nil, !Z.add_0_r. reflexivity.
  - rewrite !num_cons. rewrite tabulate_cons.
    unfold plain at 1. change (is_tilde c) with (value c =? 126).
    unfold count_correct_step at 1, REJECT.
    destruct (value c =? 126) eqn:E; cbn [negb].
    + cbn [obind]. rewrite IH. unfold tabulate. apply f_equal, f_equal2; [apply f_equal2; [reflexivity|]|]; lia.
    + rewrite add_class_ok by lia. cbn [obind]. rewrite IH.
      unfold tabulate. apply f_equal, f_equal2; [apply f_equal2; [reflexivity|]|]; lia.
Qed.

Lemma tabulate_same matched cs d : let d' := tabulate matched cs d in
  characters d' = characters d /\ errors d' = errors d /\ rejects d' = rejects d /\
  suspects d' = suspects d /\ false_marks d' = false_marks d /\ marked_ops d' = marked_ops d /\
  unmarked_ops d' = unmarked_ops d /\ total_ops d' = total_ops d /\ conftable d' = conftable d.
Proof.
  revert d. induction cs as [|c cs IH]; intros d; [cbn; auto 10|].
  rewrite tabulate_cons.
  specialize (IH (if is_tilde c then d else add_class_pure d (value c) 1 (if matched then 0 else 1))).
  destruct (is_tilde c); exact IH.
Qed.

Lemma tabulate_tables matched cs d :
  Forall (fun c => 0 <= value c < 1114111) cs -> tables_consistent d ->
  tables_consistent (tabulate matched cs d).
Proof.
  intros F. revert d. induction F as [|c cs H F IH]; intros d T; [exact T|].
  rewrite tabulate_cons. apply IH.
  destruct (is_tilde c); [exact T|]. apply add_class_consistent; auto. destruct matched; lia.
Qed.

Lemma tabulate_count matched cs d :
  (forall v, ccount (small (tabulate matched cs d) v) = ccount (small d v) + num (plain_value v) cs) /\
  (forall v, cmissed (small (tabulate matched cs d) v) =
             cmissed (small d v) + (if matched then 0 else num (plain_value v) cs)) /\
  ccount (total_class (tabulate matched cs d)) = ccount (total_class d) + num plain cs.
Proof.
  revert d. induction cs as [|c cs IH]; intros d.
  - unfold tabulate. cbn [fold_left]. repeat split; intros; rewrite ?num_nil; destruct matched; lia.
  - rewrite tabulate_cons.
    destruct (IH (if is_tilde c then d else add_class_pure d (value c) 1 (if matched then 0 else 1)))
      as (I1 & I2 & I3).
    split; [|split]; [intros v|intros v|]; rewrite num_cons, ?I1, ?I2, ?I3;
      try change (plain c) with (negb (is_tilde c));
      try change (plain_value v c) with (negb (is_tilde c) && (value c =? v));
      destruct (is_tilde c) eqn:E; cbn [negb andb];
      cbn [small add_class_pure total_class update_class ccount];
      rewrite ?upd_count, ?upd_missed, ?(Z.eqb_sym v (value c));
      destruct matched; try destruct (value c =? v); try lia.
Qed.

Lemma count_generated_from cs re su :
  fold_left (fun (st : Z * Z) c =>
           let '(re, su) := st in
           if value c =? REJECT then (re + 1, su)
           else if suspect c then (re, su + 1) else (re, su)) cs (re, su)
  = (re + num is_tilde cs, su + num plain_suspect cs).
Proof.
  revert re su. induction cs as [|c cs IH]; intros re su; cbn [fold_left].
  - rewrite !num_nil, !Z.add_0_r. reflexivity.
  - rewrite !num_cons. change (plain_suspect c) with (negb (value c =? 126) && suspect c).
    change (is_tilde c) with (value c =? 126). unfold REJECT in *.
    destruct (value c =? 126); cbn [negb andb]; [|destruct (suspect c)]; rewrite IH; f_equal; lia.
Qed.

Lemma tables_empty : tables_consistent acc_empty.
Proof.
  constructor.
  - reflexivity.
  - intros v. change (0 <= 0 <= 0). lia.
  - intros j Hj. symmetry. apply sum_to_zero; [lia|]. intros i Hi. now destruct (in_class j i).
  - intros j Hj. symmetry. apply sum_to_zero; [lia|]. intros i Hi. now destruct (in_class j i).
  - symmetry. apply sum_to_zero; [lia|reflexivity].
  - symmetry. apply sum_to_zero; [lia|reflexivity].
  - symmetry. apply sum_to_zero; [lia|reflexivity].
  - symmetry. apply sum_to_zero; [lia|reflexivity].
Qed.

(** *** One group *)
Definition group_ops (t0 t1 : list char) (it : item) : accops :=
  let ch := group_chars t0 it in
  let gen := group_gen t0 t1 it in
  mkops (Z.max 0 (ch - gen)) (Z.min ch gen) (Z.max 0 (gen - ch)) (group_errors t0 t1 it).

Definition item_ok (t0 t1 : list char) (it : item) : Prop :=
  exists s0 s1, isubs it = [s0; s1] /\ sub_ok t0 s0 /\ sub_ok t1 s1.

Lemma marked_num cs :
  (0 <? num is_tilde cs + num plain_suspect cs) = existsb (fun c => is_tilde c || suspect c) cs.
Proof.
  induction cs as [|c cs IH]; [reflexivity|]. rewrite !num_cons. cbn [existsb]. rewrite <- IH.
  unfold plain_suspect at 1, plain. pose proof (num_nonneg is_tilde cs).
  pose proof (num_nonneg plain_suspect cs).
  destruct (is_tilde c), (suspect c); cbn [negb andb orb]; lia.
Qed.

Lemma add_ops_0 o : add_ops o no_ops = o.
Proof. destruct o. unfold add_ops, no_ops. cbn. f_equal; lia. Qed.

Section Unicode.
Variable uc : unicode_data.
Variables t0 t1 : list char.
Hypothesis Nul : nul_hidden uc.
Hypothesis T0 : text_ok t0.
Hypothesis T1 : text_ok t1.
Hypothesis Tab : tabulable t0.

Local Notation Gops := (group_ops t0 t1).
Local Notation Gerr := (group_errors t0 t1).
Local Notation Gmark := (group_marked t1).

Lemma process_item_ok d it : item_ok t0 t1 it ->
  exists d' d1 key, process_item uc t0 t1 d it = Ok d' /\
    d1 = tabulate (is_match it) (correct t0 it) d /\
    characters d' = characters d + group_chars t0 it /\
    rejects d' = rejects d + num is_tilde (generated t1 it) /\
    suspects d' = suspects d + num plain_suspect (generated t1 it) /\
    large d' = large d1 /\ total_class d' = total_class d1 /\ small d' = small d1 /\
    is_key uc (map value (correct t0 it)) (map value (generated t1 it)) key /\ zlen key <= 60 /\
    make_key uc (map value (correct t0 it)) (map value (generated t1 it)) = Ok key /\
    if is_match it then
      false_marks d' = false_marks d + num plain_suspect (generated t1 it) /\
      errors d' = errors d /\ conftable d' = conftable d /\
      marked_ops d' = marked_ops d /\ unmarked_ops d' = unmarked_ops d /\ total_ops d' = total_ops d
    else
      false_marks d' = false_marks d /\ errors d' = errors d + Gerr it /\
      conftable d' = (if 0 <? Gerr it
                      then conf_add (conftable d) key (Gerr it) (if Gmark it then Gerr it else 0)
                      else conftable d) /\
      marked_ops d' = (if Gmark it then add_ops (marked_ops d) (Gops it) else marked_ops d) /\
      unmarked_ops d' = (if Gmark it then unmarked_ops d else add_ops (unmarked_ops d) (Gops it)) /\
      total_ops d' = add_ops (total_ops d) (Gops it).
Proof.
  intros (s0 & s1 & Es & O0 & O1). unfold process_item. rewrite Es.
  rewrite sub_chars_ok by exact O0. cbn [obind].
  assert (correct t0 it = part t0 s0) as Ec. { unfold correct, nth_part. rewrite Es. reflexivity. }
  assert (generated t1 it = part t1 s1) as Eg. { unfold generated, nth_part. rewrite Es. reflexivity. }
  fold (is_match it). unfold count_correct.
  assert (Forall (fun c => 0 <= value c < 1114111) (correct t0 it)) as Fr.
  { rewrite Ec. apply part_Forall. unfold text_ok, tabulable, scalar in *. rewrite Forall_forall in *.
    intros c Hc. specialize (T0 c Hc). specialize (Tab c Hc). lia. }
  rewrite <- Ec, count_correct_ok by exact Fr. cbn [obind]. rewrite !Z.add_0_l.
  rewrite sub_chars_ok by exact O1. cbn [obind]. rewrite <- Eg.
  unfold count_generated. rewrite count_generated_from. rewrite !Z.add_0_l.
  destruct (tabulate_same (is_match it) (correct t0 it) d)
    as (S1 & S2 & S3 & S4 & S5 & S6 & S7 & S8 & S9).
  set (d1 := tabulate (is_match it) (correct t0 it) d) in *.
  destruct (make_key_ok uc (map value (correct t0 it)) (map value (generated t1 it)) Nul)
    as (key & Ek & Ik & Lk).
  { rewrite Ec. apply Forall_map. now apply (part_Forall (fun c => scalar (value c))). }
  { rewrite Eg. apply Forall_map. now apply (part_Forall (fun c => scalar (value c))). }
  assert (slen s1 = zlen (generated t1 it)) as Ls by (rewrite Eg; symmetry; now apply part_len).
  destruct (is_match it).
  - eexists _, d1, key. split; [reflexivity|].
    cbn [add_counts characters errors rejects suspects false_marks marked_ops unmarked_ops
         total_ops large total_class conftable small].
    unfold group_chars. rewrite S1, S2, S3, S4, S5, S6, S7, S8, S9. rewrite !Z.add_0_r.
    repeat apply conj; auto.
  - rewrite Ls.
    fold (group_gen t0 t1 it). fold (group_chars t0 it). fold (Gerr it).
    rewrite Ek. cbn [obind]. rewrite marked_num. fold (Gmark it).
    destruct (Z.ltb_spec 0 (Gerr it)) as [P|P].
    + fold (Gops it).
      destruct (Gmark it); (eexists _, d1, key; split; [reflexivity|];
        cbn [add_counts with_ops add_conf characters errors rejects suspects false_marks marked_ops
             unmarked_ops total_ops large total_class conftable small];
        rewrite S1, S2, S3, S4, S5, S6, S7, S8, S9, !Z.add_0_r, ?add_ops_0;
        repeat apply conj; auto).
    + eexists _, d1, key. split; [reflexivity|].
      assert (Gops it = no_ops) as ->.
      { unfold group_ops, no_ops. pose proof (num_nonneg plain (correct t0 it)).
        unfold group_errors in *. unfold group_chars, group_gen in *.
        f_equal; lia. }
      assert (Gerr it = 0) as ->.
      { unfold group_errors, group_chars in *. pose proof (num_nonneg plain (correct t0 it)). lia. }
      cbn [add_counts characters errors rejects suspects false_marks marked_ops
             unmarked_ops total_ops large total_class conftable small].
      rewrite S1, S2, S3, S4, S5, S6, S7, S8, S9, !Z.add_0_r, ?add_ops_0.
      destruct (Gmark it); repeat apply conj; auto.
Qed.

(** *** All groups *)
Definition ops_sum (l : list item) : accops :=
  mkops (zsum (map (fun it => ins (Gops it)) l)) (zsum (map (fun it => subst (Gops it)) l))
        (zsum (map (fun it => del (Gops it)) l)) (zsum (map (fun it => errs (Gops it)) l)).

Lemma ops_sum_snoc l it : ops_sum (l ++ [it]) = add_ops (ops_sum l) (Gops it).
Proof.
  unfold ops_sum, add_ops. cbn [ins subst del errs]. rewrite !map_app, !zsum_app.
  cbn [map]. rewrite !zsum_cons. change (zsum []) with 0. rewrite !Z.add_0_r. reflexivity.
Qed.

(** The group contributes to the confusion [key]. *)
Definition has_key (key : list Z) (it : item) : Prop :=
  is_key uc (map value (correct t0 it)) (map value (generated t1 it)) key.

(** The group is listed under [key]. *)
Definition listed_under (key : list Z) (it : item) : bool :=
  match make_key uc (map value (correct t0 it)) (map value (generated t1 it)) with
  | Ok k => if list_eq_dec Z.eq_dec k key then true else false
  | _ => false
  end.

Record counted (l : list item) (d : accdata) : Prop := {
  cn_characters : characters d = zsum (map (group_chars t0) l);
  cn_errors : errors d = zsum (map Gerr (unmatched_items l));
  cn_rejects : rejects d = zsum (map (fun it => num is_tilde (generated t1 it)) l);
  cn_suspects : suspects d = zsum (map (fun it => num plain_suspect (generated t1 it)) l);
  cn_false : false_marks d =
    zsum (map (fun it => num plain_suspect (generated t1 it)) (matched_items l));
  cn_marked : marked_ops d = ops_sum (filter Gmark (unmatched_items l));
  cn_unmarked : unmarked_ops d = ops_sum (filter (fun it => negb (Gmark it)) (unmatched_items l));
  cn_total : total_ops d = ops_sum (unmatched_items l);
  cn_tables : tables_consistent d;
  cn_total_class : ccount (total_class d) = zsum (map (group_chars t0) l);
  cn_count : forall v, ccount (small d v) =
    zsum (map (fun it => num (plain_value v) (correct t0 it)) l);
  cn_missed : forall v, cmissed (small d v) =
    zsum (map (fun it => num (plain_value v) (correct t0 it)) (unmatched_items l));
  cn_confs : confs_consistent (conftable d);
  cn_conf_errors : zsum (map cerrors (conftable d)) = zsum (map Gerr (unmatched_items l));
  cn_conf_marked : zsum (map cmarked (conftable d)) =
    zsum (map Gerr (filter Gmark (unmatched_items l)));
  cn_conf_of : forall key, conf_errors (conftable d) key =
    zsum (map Gerr (filter (listed_under key) (unmatched_items l)));
  cn_marked_of : forall key, conf_marked (conftable d) key =
    zsum (map Gerr (filter Gmark (filter (listed_under key) (unmatched_items l))));
  cn_keys : Forall (fun c => zlen (ckey c) <= 60 /\
    exists it, In it (unmatched_items l) /\ has_key (ckey c) it) (conftable d) }.

Lemma filter_snoc {A} (p : A -> bool) l x : filter p (l ++ [x]) = filter p l ++ (if p x then [x] else []).
Proof. rewrite filter_app. reflexivity. Qed.

Lemma zsum_snoc {A} (f : A -> Z) l x : zsum (map f (l ++ [x])) = zsum (map f l) + f x.
Proof. rewrite map_app, zsum_app. cbn [map]. rewrite zsum_cons. change (zsum []) with 0. lia. Qed.

Lemma conf_add_Forall (P : conf -> Prop) l k e m :
  Forall P l -> (forall e m, P (mkconf k e m)) -> Forall P (conf_add l k e m).
Proof.
  intros F H. induction F as [|c l Hc F IH]; cbn [conf_add]; [constructor; auto|].
  destruct (streq (ckey c) k); constructor; auto.
Qed.

Lemma counted_step l d it : counted l d -> item_ok t0 t1 it ->
  exists d', process_item uc t0 t1 d it = Ok d' /\ counted (l ++ [it]) d'.
Proof.
  intros C Hit. destruct (process_item_ok d it Hit)
    as (d' & d1 & key & E & Ed1 & E1 & E2 & E3 & E4 & E5 & E6 & Ik & Lk & Mk & R).
  exists d'. split; [exact E|]. destruct C.
  assert (Forall (fun c => 0 <= value c < 1114111) (correct t0 it)) as Fr.
  { destruct Hit as (s0 & s1 & Es & _). unfold correct, nth_part. rewrite Es. cbn.
    apply part_Forall. unfold text_ok, tabulable, scalar in *. rewrite Forall_forall in *.
    intros c Hc. specialize (T0 c Hc). specialize (Tab c Hc). lia. }
  assert (tables_consistent d') as TC.
  { assert (tables_consistent d1) as [? ? ? ? ? ? ? ?]
      by (rewrite Ed1; apply tabulate_tables; auto).
    constructor; rewrite ?E4, ?E5, ?E6; auto. }
  destruct (tabulate_count (is_match it) (correct t0 it) d) as (N1 & N2 & N3).
  rewrite <- Ed1 in N1, N2, N3. fold (group_chars t0 it) in N3.
  assert (unmatched_items (l ++ [it]) = unmatched_items l ++ (if is_match it then [] else [it])) as Eu.
  { unfold unmatched_items. rewrite filter_snoc. destruct (is_match it); reflexivity. }
  assert (matched_items (l ++ [it]) = matched_items l ++ (if is_match it then [it] else [])) as Em.
  { apply filter_snoc. }
  assert (Forall (fun c => zlen (ckey c) <= 60 /\
    exists it0, In it0 (unmatched_items (l ++ [it])) /\ has_key (ckey c) it0) (conftable d)) as K.
  { eapply Forall_impl; [|exact cn_keys0]. intros c (Lc & it0 & Hin & Hk). split; [exact Lc|].
    exists it0. split; [|exact Hk]. rewrite Eu. apply in_or_app. now left. }
  assert (0 <= Gerr it) as Ge.
  { unfold group_errors, group_chars. pose proof (num_nonneg plain (correct t0 it)). lia. }
  destruct (is_match it) eqn:M.
  - destruct R as (R1 & R2 & R3 & R4 & R5 & R6).
    rewrite app_nil_r in Eu.
    constructor; rewrite ?Eu, ?Em, ?zsum_snoc, ?R1, ?R2, ?R3, ?R4, ?R5, ?R6, ?E1, ?E2, ?E3, ?E5,
      ?E6, ?N3; auto; try lia.
    + intros v. rewrite N1, zsum_snoc, cn_count0. reflexivity.
    + intros v. rewrite N2, cn_missed0. lia.
  - destruct R as (R1 & R2 & R3 & R4 & R5 & R6). rewrite app_nil_r in Em.
    rewrite Eu in K.
    assert (forall p, filter p (unmatched_items l ++ [it]) =
                      filter p (unmatched_items l) ++ (if p it then [it] else [])) as Ef
      by (intros; apply filter_snoc).
    constructor; rewrite ?Eu, ?Em, ?zsum_snoc, ?R1, ?R2, ?R4, ?R5, ?R6, ?E1, ?E2, ?E3, ?E5,
      ?E6, ?N3, ?Ef; auto; try lia.
    + destruct (Gmark it); [now rewrite ops_sum_snoc, cn_marked0|now rewrite app_nil_r].
    + destruct (Gmark it); cbn [negb]; [now rewrite app_nil_r|now rewrite ops_sum_snoc, cn_unmarked0].
    + now rewrite ops_sum_snoc, cn_total0.
    + intros v. rewrite N1, zsum_snoc, cn_count0. reflexivity.
    + intros v. rewrite N2, zsum_snoc, cn_missed0. reflexivity.
    + rewrite R3. destruct (Z.ltb_spec 0 (Gerr it)); [|exact cn_confs0].
      apply conf_add_consistent; auto. destruct (Gmark it); lia.
    + rewrite R3. destruct (Z.ltb_spec 0 (Gerr it)); [|lia].
      destruct (conf_add_sum (conftable d) key (Gerr it) (if Gmark it then Gerr it else 0)) as [-> _].
      lia.
    + rewrite R3. destruct (Z.ltb_spec 0 (Gerr it)).
      * destruct (conf_add_sum (conftable d) key (Gerr it) (if Gmark it then Gerr it else 0)) as [_ ->].
        rewrite cn_conf_marked0. destruct (Gmark it); rewrite ?zsum_snoc, ?app_nil_r; lia.
      * rewrite cn_conf_marked0. destruct (Gmark it); rewrite ?zsum_snoc, ?app_nil_r; lia.
    + intros k. rewrite R3, Ef. unfold listed_under at 2. rewrite Mk.
      destruct (Z.ltb_spec 0 (Gerr it)).
      * rewrite conf_add_errors, cn_conf_of0.
        destruct (list_eq_dec Z.eq_dec key k); rewrite ?zsum_snoc, ?app_nil_r; lia.
      * rewrite cn_conf_of0.
        destruct (list_eq_dec Z.eq_dec key k); rewrite ?zsum_snoc, ?app_nil_r; lia.
    + intros k. rewrite R3, Ef. unfold listed_under at 2. rewrite Mk.
      destruct (Z.ltb_spec 0 (Gerr it)).
      * rewrite conf_add_marked, cn_marked_of0.
        destruct (list_eq_dec Z.eq_dec key k); rewrite ?app_nil_r, ?filter_snoc;
          destruct (Gmark it); rewrite ?zsum_snoc, ?app_nil_r; lia.
      * rewrite cn_marked_of0.
        destruct (list_eq_dec Z.eq_dec key k); rewrite ?app_nil_r, ?filter_snoc;
          destruct (Gmark it); rewrite ?zsum_snoc, ?app_nil_r; lia.
    + rewrite R3. destruct (0 <? Gerr it); [|exact K]. apply conf_add_Forall; [exact K|].
      intros e m. cbn [ckey]. split; [exact Lk|]. exists it. split; [|exact Ik].
      apply in_or_app. right. now left.
Qed.

Lemma counted_empty : counted [] acc_empty.
Proof.
  constructor; try reflexivity; try apply tables_empty; try (split; constructor); constructor.
Qed.

Lemma process_counted l : Forall (item_ok t0 t1) l ->
  exists d, process_synclist uc t0 t1 l acc_empty = Ok d /\ counted l d.
Proof.
  intros F. induction l as [|it l IH] using rev_ind.
  - exists acc_empty. split; [reflexivity|apply counted_empty].
  - apply Forall_app in F as [F Fi]. apply Forall_cons_iff in Fi as [Fi _].
    destruct (IH F) as (d & E & C). destruct (counted_step l d it C Fi) as (d' & E' & C').
    exists d'. split; [|exact C']. unfold process_synclist in *. rewrite ofold_app, E.
    cbn [obind ofold]. rewrite E'. reflexivity.
Qed.
End Unicode.
