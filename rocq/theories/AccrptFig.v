(** How accumulation changes the figures. *)
From Coq Require Import String Permutation.
From Verif Require Import Base CLib Utf8Model TextModel TextSpec CharclassModel CharclassProps CompareModel
  SortModel SortProps CompareProof AccModel AccSpec SumProof AccProof AccrptModel AccrptSpec.
Local Open Scope Z_scope.
Local Open Scope list_scope.

(** What one row of the per-character table contributes to a figure. *)
Definition class_part (x : AccrptSpec.figure) (v c m : Z) : Z :=
  match x with
  | FClass ms j => if (0 <=? j) && (j <? 256) && (class_of v =? j) then (if ms then m else c) else 0
  | FAllClasses ms => if ms then m else c
  | FCharacter ms w => if w =? v then (if ms then m else c) else 0
  | _ => 0
  end.
Definition conf_part (x : AccrptSpec.figure) (key : list Z) (e m : Z) : Z :=
  match x with
  | FConfusion mk k => if list_eq_dec Z.eq_dec key k then (if mk then m else e) else 0
  | _ => 0
  end.

Lemma fig_add_class x d v c m : fig x (add_class_pure d v c m) = fig x d + class_part x v c m.
Proof.
  destruct x; cbn [fig class_part]; cbn [characters errors rejects suspects false_marks
    marked_ops unmarked_ops total_ops large total_class small conftable add_class_pure];
    try (rewrite Z.add_0_r; reflexivity); unfold cell.
  - destruct ((0 <=? class) && (class <? 256)); cbn [andb]; [|lia].
    destruct missed; [rewrite upd_missed|rewrite upd_count]; rewrite Z.eqb_sym; reflexivity.
  - destruct missed; cbn [update_class ccount cmissed]; reflexivity.
  - destruct missed; [rewrite upd_missed|rewrite upd_count]; reflexivity.
Qed.

Lemma fig_add_conf x d k e m : fig x (add_conf d k e m) = fig x d + conf_part x k e m.
Proof.
  destruct x; cbn [fig conf_part]; cbn [characters errors rejects suspects false_marks
    marked_ops unmarked_ops total_ops large total_class small conftable add_conf];
    try (rewrite Z.add_0_r; reflexivity).
  - destruct marked; [apply conf_add_marked|apply conf_add_errors].
Qed.

(** Rows of the per-character table of [d], added to [D]. *)
Definition add_row (d D : accdata) (v : Z) : accdata :=
  if 0 <? ccount (small d v) then add_class_pure D v (ccount (small d v)) (cmissed (small d v)) else D.
Definition add_rows (d : accdata) (vs : list Z) (D : accdata) : accdata := fold_left (add_row d) vs D.
Definition add_confs (a : list conf) (D : accdata) : accdata :=
  fold_left (fun D c => add_conf D (ckey c) (cerrors c) (cmarked c)) a D.

Lemma class_part_zero x v : class_part x v 0 0 = 0.
Proof.
  destruct x; cbn [class_part]; try reflexivity.
  - destruct (_ && _); [|reflexivity]. now destruct missed.
  - now destruct missed.
  - destruct (_ =? _); [|reflexivity]. now destruct missed.
Qed.

Lemma fig_add_rows x d vs : tables_consistent d -> forall D,
  fig x (add_rows d vs D) =
  fig x D + zsum (map (fun v => class_part x v (ccount (small d v)) (cmissed (small d v))) vs).
Proof.
  intros T. induction vs as [|v vs IH]; intros D; [cbn; lia|]. cbn [map].
  change (add_rows d (v :: vs) D) with (add_rows d vs (add_row d D v)). rewrite IH, zsum_cons.
  assert (fig x (add_row d D v) = fig x D + class_part x v (ccount (small d v)) (cmissed (small d v))); [|lia].
  unfold add_row. pose proof (tc_missed d T v).
  destruct (Z.ltb_spec 0 (ccount (small d v))); [apply fig_add_class|].
  replace (ccount (small d v)) with 0 by lia. replace (cmissed (small d v)) with 0 by lia.
  rewrite class_part_zero. lia.
Qed.

Definition all_values : list Z := zrange 0 (Z.to_nat NUM_CHARVALUES).
Lemma In_all_values v : In v all_values -> 0 <= v < 1114111.
Proof. intros H. apply (In_upto 1114111 v); [lia|exact H]. Qed.

Lemma sum_to_at n i c : 0 <= i < n -> sum_to n (fun x => if x =? i then c else 0) = c.
Proof.
  intros H. rewrite (sum_to_ext n _ (fun x => 0 + (if x =? i then c else 0))) by (try lia; intros; lia).
  rewrite sum_to_add_at by lia. rewrite sum_to_zero; lia.
Qed.

(** All rows together contribute the class tables of [d]. *)
Definition class_fig (x : AccrptSpec.figure) (d : accdata) : Z :=
  match x with FClass _ _ | FAllClasses _ | FCharacter _ _ => fig x d | _ => 0 end.
Definition conf_fig (x : AccrptSpec.figure) (d : accdata) : Z :=
  match x with FConfusion _ _ => fig x d | _ => 0 end.

Lemma all_rows x d : tables_consistent d ->
  zsum (map (fun v => class_part x v (ccount (small d v)) (cmissed (small d v))) all_values)
  = class_fig x d.
Proof.
  intros T. unfold all_values, NUM_CHARVALUES.
  set (f := fun v => class_part x v (ccount (small d v)) (cmissed (small d v))).
  change (sum_to 1114111 f = class_fig x d). unfold f. clear f.
  destruct x; cbn [class_part class_fig]; try (apply sum_to_zero; [lia|reflexivity]); cbn [fig].
  - destruct ((0 <=? class) && (class <? 256)) eqn:E; cbn [andb].
    2: apply sum_to_zero; [lia|reflexivity].
    unfold cell. destruct missed.
    + rewrite (tc_large_missed d T) by lia. apply sum_to_ext; [lia|]. intros v V. now rewrite in_class_of.
    + rewrite (tc_large_count d T) by lia. apply sum_to_ext; [lia|]. intros v V. now rewrite in_class_of.
  - unfold cell. destruct missed; symmetry; [apply (tc_total_small_missed d T)|apply (tc_total_small_count d T)].
  - unfold cell.
    assert (forall g : Z -> Z, sum_to 1114111 (fun w => if v =? w then g w else 0)
              = if (0 <=? v) && (v <? 1114111) then g v else 0) as G.
    { intros g. destruct ((0 <=? v) && (v <? 1114111)) eqn:E.
      - rewrite (sum_to_ext _ _ (fun w => if w =? v then g v else 0)); [apply sum_to_at; lia|lia|].
        intros i _. rewrite (Z.eqb_sym i). destruct (Z.eqb_spec v i); [now subst|reflexivity].
      - apply sum_to_zero; [lia|]. intros i Hi. replace (v =? i) with false by lia. reflexivity. }
    destruct missed; rewrite G; destruct ((0 <=? v) && (v <? 1114111)) eqn:E; try reflexivity;
      rewrite (tc_range d T v) by lia; reflexivity.
Qed.

Lemma conf_fig_sum x l d : Permutation l (conftable d) ->
  zsum (map (fun c => conf_part x (ckey c) (cerrors c) (cmarked c)) l) = conf_fig x d.
Proof.
  intros P.
  assert (forall l', Permutation l l' ->
    zsum (map (fun c => conf_part x (ckey c) (cerrors c) (cmarked c)) l)
    = zsum (map (fun c => conf_part x (ckey c) (cerrors c) (cmarked c)) l')) as Q.
  { clear. intros l' P. induction P; cbn [map]; rewrite ?zsum_cons; try lia. }
  rewrite (Q _ P). destruct x; cbn [conf_fig conf_part]; try (apply zsum_map_zero; reflexivity).
  cbn [fig]. unfold conf_marked, conf_errors. destruct marked; reflexivity.
Qed.

Lemma fig_add_confs x a : forall D, fig x (add_confs a D) =
  fig x D + zsum (map (fun c => conf_part x (ckey c) (cerrors c) (cmarked c)) a).
Proof.
  induction a as [|c a IH]; intros D; [cbn; lia|]. cbn [map]. rewrite zsum_cons.
  change (add_confs (c :: a) D) with (add_confs a (add_conf D (ckey c) (cerrors c) (cmarked c))).
  rewrite IH, fig_add_conf. lia.
Qed.

(** Preservation of consistency. *)
Lemma add_rows_tables d vs : tables_consistent d -> (forall v, In v vs -> 0 <= v < 1114111) ->
  forall D, tables_consistent D -> tables_consistent (add_rows d vs D).
Proof.
  intros T. induction vs as [|v vs IH]; intros R D TD; [exact TD|].
  change (add_rows d (v :: vs) D) with (add_rows d vs (add_row d D v)). apply IH.
  - intros w Hw. apply R. now right.
  - unfold add_row. destruct (0 <? _); [|exact TD]. apply add_class_consistent; auto.
    + apply R. now left.
    + apply (tc_missed d T).
Qed.

Lemma add_rows_other d vs : forall D,
  conftable (add_rows d vs D) = conftable D /\ characters (add_rows d vs D) = characters D /\
  errors (add_rows d vs D) = errors D.
Proof.
  induction vs as [|v vs IH]; intros D; [auto|].
  change (add_rows d (v :: vs) D) with (add_rows d vs (add_row d D v)).
  destruct (IH (add_row d D v)) as (-> & -> & ->). unfold add_row. destruct (0 <? _); auto.
Qed.

Lemma add_confs_other a : forall D,
  small (add_confs a D) = small D /\ large (add_confs a D) = large D /\
  total_class (add_confs a D) = total_class D /\
  characters (add_confs a D) = characters D /\ errors (add_confs a D) = errors D.
Proof.
  induction a as [|c a IH]; intros D; [auto|].
  change (add_confs (c :: a) D) with (add_confs a (add_conf D (ckey c) (cerrors c) (cmarked c))).
  now destruct (IH (add_conf D (ckey c) (cerrors c) (cmarked c))) as (-> & -> & -> & -> & ->).
Qed.

Lemma tables_same D D' : small D' = small D -> large D' = large D -> total_class D' = total_class D ->
  tables_consistent D -> tables_consistent D'.
Proof.
  intros E1 E2 E3 [R M LC LM TC TM UC UM].
  constructor; rewrite ?E1, ?E2, ?E3; auto.
Qed.

Lemma add_confs_consistent a : Forall (fun c => 0 < cerrors c /\ 0 <= cmarked c <= cerrors c) a ->
  forall D, confs_consistent (conftable D) ->
  confs_consistent (conftable (add_confs a D)) /\
  zsum (map cerrors (conftable (add_confs a D))) = zsum (map cerrors (conftable D)) + zsum (map cerrors a).
Proof.
  induction 1 as [|c a [E M] F IH]; intros D C; [cbn; split; [exact C|lia]|].
  change (add_confs (c :: a) D) with (add_confs a (add_conf D (ckey c) (cerrors c) (cmarked c))).
  cbn [map]. rewrite zsum_cons. destruct (IH (add_conf D (ckey c) (cerrors c) (cmarked c))) as [I1 I2].
  - cbn [add_conf conftable]. now apply conf_add_consistent.
  - split; [exact I1|]. rewrite I2. cbn [add_conf conftable].
    destruct (conf_add_sum (conftable D) (ckey c) (cerrors c) (cmarked c)) as [-> _]. lia.
Qed.

Lemma add_confs_keys P a : forall D,
  Forall (fun c => P (ckey c)) a -> Forall (fun c => P (ckey c)) (conftable D) ->
  Forall (fun c => P (ckey c)) (conftable (add_confs a D)).
Proof.
  induction a as [|c a IH]; intros D Fa FD; [exact FD|].
  apply Forall_cons_iff in Fa as [Pc Fa].
  change (add_confs (c :: a) D) with (add_confs a (add_conf D (ckey c) (cerrors c) (cmarked c))).
  apply IH; [exact Fa|]. cbn [add_conf conftable]. rewrite Forall_forall in FD |- *.
  intros c' Hc'. apply (in_map ckey) in Hc'. apply conf_add_keys in Hc' as [H| ->]; [|exact Pc].
  apply in_map_iff in H as (c'' & <- & H). auto.
Qed.

(** The confusion table is determined by its figures. *)
Lemma conf_errors_in l c : confs_consistent l -> In c l ->
  conf_errors l (ckey c) = cerrors c /\ conf_marked l (ckey c) = cmarked c.
Proof.
  intros [ND F]. clear F. induction l as [|x l IH]; intros []; cbn [map] in ND;
    apply NoDup_cons_iff in ND as [NI ND].
  - subst x. unfold conf_errors, conf_marked. cbn [map]. rewrite !zsum_cons.
    destruct (list_eq_dec Z.eq_dec (ckey c) (ckey c)); [|congruence].
    rewrite !zsum_map_zero; [lia| |]; intros y Hy;
      destruct (list_eq_dec Z.eq_dec (ckey y) (ckey c)) as [E|]; auto; exfalso; apply NI;
      rewrite <- E; now apply in_map.
  - destruct (IH ND H) as [I1 I2]. unfold conf_errors, conf_marked in *. cbn [map]. rewrite !zsum_cons.
    destruct (list_eq_dec Z.eq_dec (ckey x) (ckey c)) as [E|]; [|lia].
    exfalso. apply NI. rewrite E. now apply in_map.
Qed.

Lemma conf_errors_notin l k : ~ In k (map ckey l) -> conf_errors l k = 0 /\ conf_marked l k = 0.
Proof.
  intros H. unfold conf_errors, conf_marked. split; apply zsum_map_zero; intros c Hc;
    (destruct (list_eq_dec Z.eq_dec (ckey c) k) as [E|]; [|reflexivity]); exfalso; apply H;
    rewrite <- E; now apply in_map.
Qed.

Lemma conf_perm a b : confs_consistent a -> confs_consistent b ->
  (forall k, conf_errors a k = conf_errors b k) -> (forall k, conf_marked a k = conf_marked b k) ->
  Permutation a b.
Proof.
  intros Ca Cb E M.
  assert (forall a b, confs_consistent a -> confs_consistent b ->
    (forall k, conf_errors a k = conf_errors b k) -> (forall k, conf_marked a k = conf_marked b k) ->
    forall c, In c a -> In c b) as H.
  { clear. intros a b Ca Cb E M c Hc. destruct (conf_errors_in a c Ca Hc) as [E1 E2].
    destruct (in_dec (list_eq_dec Z.eq_dec) (ckey c) (map ckey b)) as [I|I].
    - apply in_map_iff in I as (c' & K & I). destruct (conf_errors_in b c' Cb I) as [F1 F2].
      rewrite K, <- E in F1. rewrite K, <- M in F2.
      assert (c' = c) as <-; [|exact I]. destruct c, c'; cbn in *. congruence.
    - destruct (conf_errors_notin b (ckey c) I) as [F1 _]. rewrite <- E, E1 in F1.
      destruct Ca as [_ F]. rewrite Forall_forall in F. destruct (F c Hc). lia. }
  apply NoDup_Permutation.
  - eapply NoDup_map_inv. apply Ca.
  - eapply NoDup_map_inv. apply Cb.
  - intros c. split; apply H; auto.
Qed.
