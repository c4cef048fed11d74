(** C89: the work of the optimal synchronization of two texts. *)
From Coq Require Import String.
From Verif Require Import Base SyncModel SyncSpec EditProof FastukkProof FastukkSync WorkModel WorkProof.
Local Open Scope Z_scope.
Local Open Scope list_scope.

(** The numbers held by a list of rows (the memory kept until the synchronization is read off). *)
Definition numbers (rows : list path) : Z := fold_right (fun r t => zlen (pf r) + t) 0 rows.

(** Forgetting the count gives the program. *)
Theorem C89_count_erased a b :
  compute_pathlist a b = (let! (rows, _) := compute_pathlist_counted a b in Ok rows).
Proof. symmetry. apply erase_pathlist. Qed.
Print Assumptions C89_count_erased.

(** With D the edit distance of the texts: one row more than D, at most (D + 1)^2 numbers in all rows, and at
    most (2 D + 1) * min comparisons of characters. *)
Theorem C89_work a b :
  exists rows comparisons, compute_pathlist_counted a b = Ok (rows, comparisons) /\
    zlen rows = lev a b + 1 /\
    numbers rows <= (lev a b + 1) * (lev a b + 1) /\
    comparisons <= (2 * lev a b + 1) * Z.min (zlen a) (zlen b).
Proof.
  destruct (compute_pathlist_counted_ok a b) as (rows & w & E & _ & H). exists rows, w. split; [exact E|].
  destruct H as (H1 & H2 & H3). split; [exact H1|]. split; [|exact H3].
  replace (numbers rows) with (kept rows); [exact H2|]. clear. induction rows as [|r l IH]; [reflexivity|]. cbn [kept numbers fold_right]. rewrite IH. reflexivity.
Qed.
Print Assumptions C89_work.

(** A text compared with a copy of itself that was read without errors: one row of one number, and every
    character is compared once. *)
Lemma snake_same a : ~ In REJECT a -> forall fuel i w, 0 <= i <= zlen a -> zlen a - i <= Z.of_nat fuel ->
  snake_counted fuel a a i i w = Ok (zlen a, w + (zlen a - i)).
Proof.
  intros N. induction fuel as [|f IH]; intros i w Hi Hf; cbn [snake_counted].
  - destruct (Z.ltb_spec i (zlen a)); [lia|]. cbn [andb]. do 2 f_equal; lia.
  - destruct (Z.ltb_spec i (zlen a)) as [L|L]; cbn [andb]; [|do 2 f_equal; lia].
    destruct (znth_lt_Some a i ltac:(lia)) as [x Ex]. unfold rd. rewrite Ex. cbn [obind]. rewrite Z.eqb_refl. cbn [andb].
    destruct (Z.eqb_spec x REJECT) as [->|_]; [exfalso; apply N; eapply znth_In; exact Ex|]. cbn [negb]. rewrite IH by lia. do 2 f_equal; lia.
Qed.
Theorem C89_equal_texts a : ~ In REJECT a ->
  exists rows, compute_pathlist_counted a a = Ok (rows, zlen a) /\ zlen rows = 1 /\ numbers rows = 1.
Proof.
  intros N. pose proof (zlen_nonneg a) as H0. exists [mkpath 0 0 0 [zlen a]]. split; [|split; reflexivity].
  unfold compute_pathlist_counted. cbn [pathlist_counted]. rewrite Z.sub_diag. destruct (Z.leb_spec (- zlen a) 0) as [_|]; [|lia].
  cbn [hd_error]. unfold compute_row_counted. rewrite Z.leb_refl, Z.sub_diag. change (Z.to_nat (2 * 0 + 1)) with 1%nat. change (Z.min 0 0) with 0.
  cbn [down_loop_counted min_k]. destruct (Z.leb_spec (Z.max (- zlen a) (- 0)) 0) as [_|]; [|lia].
  unfold compute_f_counted. cbn [initial_f obind]. rewrite Z.add_0_l, (snake_same a N) by (unfold zlen in *; lia). cbn [obind diags min_k max_k].
  rewrite !Z.add_0_r, !Z.eqb_refl. replace (0 + Z.max (zlen a) (zlen a - 0) - zlen a) with 0 by lia. rewrite Z.sub_diag. replace (0 + (zlen a - 0)) with (zlen a) by lia.
  destruct (Z.to_nat (Z.max (zlen a) (zlen a))) as [|f]; cbn [pathlist_counted]; rewrite Z.sub_diag; reflexivity.
Qed.
Print Assumptions C89_equal_texts.

(** The bound on the comparisons is met by a text compared with itself, and for other texts too. *)
Example C89_equal_example : compute_pathlist_counted [97; 98; 99] [97; 98; 99] = Ok ([mkpath 0 0 0 [3]], 3).
Proof. reflexivity. Qed.
Example C89_example :
  compute_pathlist_counted [97; 98; 99; 100] [97; 120; 99; 100; 101] =
  Ok ([mkpath 2 1 1 [4]; mkpath 1 0 1 [4; 1]; mkpath 0 0 0 [1]], 5).
Proof. reflexivity. Qed.
Example C89_distance_example : lev [97; 98] [97; 120; 99] = 2 /\ exists rows, compute_pathlist_counted [97; 98] [97; 120; 99] = Ok (rows, 3) /\ zlen rows = 3.
Proof. split; [reflexivity|]. exists [mkpath 2 1 1 [2]; mkpath 1 0 1 [2; 1]; mkpath 0 0 0 [1]]. split; reflexivity. Qed.
