(** The synchronizations depend on the characters only through their being equal and being the reject
    character. *)
From Coq Require Import String.
From Verif Require Import Base SyncModel.
Local Open Scope Z_scope.
Local Open Scope list_scope.

Section Rename.
Variable f : Z -> Z.
Hypothesis Inj : forall x y, f x = f y -> x = y.
Hypothesis Rej : forall x, f x = REJECT <-> x = REJECT.

Lemma eqb_f x y : (f x =? f y) = (x =? y).
Proof. destruct (Z.eqb_spec x y) as [->|N]; [apply Z.eqb_refl|]. apply Z.eqb_neq. intros E. exact (N (Inj _ _ E)). Qed.
Lemma rej_f x : (f x =? REJECT) = (x =? REJECT).
Proof. apply Bool.eq_iff_eq_true. rewrite !Z.eqb_eq. apply Rej. Qed.
Lemma zlen_f l : zlen (map f l) = zlen l.
Proof. unfold zlen. now rewrite map_length. Qed.
Lemma rd_f s l i : rd s (map f l) i = (let! x := rd s l i in Ok (f x)).
Proof. unfold rd. rewrite znth_map. now destruct (znth l i). Qed.

Lemma extend_f c1 c2 : forall fuel i1 s1 i2 s2, extend fuel (map f c1) (map f c2) i1 s1 i2 s2 = extend fuel c1 c2 i1 s1 i2 s2.
Proof.
  induction fuel as [|n IH]; intros i1 s1 i2 s2; cbn [extend]; (destruct (_ && _); [|reflexivity]); rewrite !rd_f;
    (destruct (rd "c1" c1 i1); cbn [obind]; [|reflexivity..]); (destruct (rd "c2" c2 i2); cbn [obind]; [|reflexivity..]);
    rewrite eqb_f, rej_f; (destruct (_ && _); [|reflexivity]); [reflexivity|apply IH].
Qed.
Lemma lm_body_f c1 c2 a b s1 s2 st : lm_body (map f c1) (map f c2) a b s1 s2 st = lm_body c1 c2 a b s1 s2 st.
Proof.
  unfold lm_body. rewrite !rd_f. destruct (rd "c1" c1 s1); cbn [obind]; [|reflexivity..].
  destruct (rd "c2" c2 s2); cbn [obind]; [|reflexivity..]. rewrite eqb_f, rej_f. destruct (_ && _); [|reflexivity]. now rewrite extend_f.
Qed.
Lemma lm_inner_f c1 c2 : forall fuel a b s1 s2 st, lm_inner fuel (map f c1) (map f c2) a b s1 s2 st = lm_inner fuel c1 c2 a b s1 s2 st.
Proof.
  induction fuel as [|n IH]; intros a b s1 s2 st; cbn [lm_inner]; [reflexivity|]. destruct (_ <=? _); [|reflexivity].
  rewrite lm_body_f. destruct (lm_body c1 c2 a b s1 s2 st); cbn [obind]; [apply IH|reflexivity..].
Qed.
Lemma lm_outer_f c1 c2 : forall fuel a b s1 s2 st, lm_outer fuel (map f c1) (map f c2) a b s1 s2 st = lm_outer fuel c1 c2 a b s1 s2 st.
Proof.
  induction fuel as [|n IH]; intros a b s1 s2 st; cbn [lm_outer]; [reflexivity|]. destruct (_ <=? _); [|reflexivity].
  rewrite lm_inner_f. destruct (lm_inner _ c1 c2 _ _ _ _ _); cbn [obind]; [apply IH|reflexivity..].
Qed.
Lemma longest_match_f m c1 a1 b1 c2 a2 b2 p1 p2 :
  longest_match m (map f c1) a1 b1 (map f c2) a2 b2 p1 p2 = longest_match m c1 a1 b1 c2 a2 b2 p1 p2.
Proof. unfold longest_match. now rewrite lm_outer_f. Qed.

Lemma match_rest_f t0 : forall rest starts len,
  match_rest (map f t0) (map (fun p => (map f (fst p), snd p)) rest) starts len = match_rest t0 rest starts len.
Proof.
  induction rest as [|[t s] rest IH]; intros starts len; [reflexivity|]. cbn [map fst snd match_rest].
  destruct (rd "start[0]" starts 0) as [s0| | |]; cbn [obind]; [|reflexivity..]. rewrite longest_match_f.
  destruct (longest_match _ _ _ _ _ _ _ _ _) as [[[l1 a] b]| | |]; cbn [obind]; [|reflexivity..].
  destruct (l1 =? 0); [reflexivity|]. destruct (get_set "new_start" a); cbn [obind]; [|reflexivity..].
  destruct (get_set "start[i]" b); cbn [obind]; [|reflexivity..]. apply IH.
Qed.
Lemma combine_f (ts : list (list Z)) : forall (ss : list substr),
  combine (map (map f) ts) ss = map (fun p => (map f (fst p), snd p)) (combine ts ss).
Proof. induction ts as [|t ts IH]; intros [|s ss]; cbn; try reflexivity. now rewrite IH. Qed.
Lemma recursive_sync_f texts : forall fuel sl id, recursive_sync fuel (map (map f) texts) sl id = recursive_sync fuel texts sl id.
Proof.
  induction fuel as [|n IH]; intros sl id; [reflexivity|]. cbn [recursive_sync]. destruct (get_item _ _) as [s|]; [|reflexivity].
  destruct (existsb _ _); [reflexivity|]. destruct texts as [|t0 ts]; [reflexivity|]. cbn [map].
  destruct (subs s) as [|s0 ss]; [reflexivity|]. rewrite combine_f, match_rest_f.
  destruct (match_rest _ _ _ _) as [[[st ln]|]| | |]; cbn [obind]; [|reflexivity..].
  destruct (save_match _ _ _ _ _) as [sl1| | |]; cbn [obind]; [|reflexivity..].
  change (map f t0 :: map (map f) ts) with (map (map f) (t0 :: ts)).
  destruct (prev_id None (items sl1) id) as [p|]; cbn [obind].
  - rewrite IH. destruct (recursive_sync n (t0 :: ts) sl1 p) as [sl2| | |]; cbn [obind]; [|reflexivity..].
    destruct (next_id _ _); [apply IH|reflexivity].
  - destruct (next_id _ _); [apply IH|reflexivity].
Qed.
Lemma initialize_f texts a : initialize_synclist (map (map f) texts) a = initialize_synclist texts a.
Proof.
  unfold initialize_synclist. rewrite map_map.
  replace (map (fun x => mksub 0 (zlen (map f x) - 1) (zlen (map f x))) texts) with (map (fun t : list Z => mksub 0 (zlen t - 1) (zlen t)) texts); [reflexivity|].
  apply map_ext. intros t. now rewrite zlen_f.
Qed.
Lemma synchronize_f texts : synchronize (map (map f) texts) = synchronize texts.
Proof.
  unfold synchronize. replace (zlen (map (map f) texts)) with (zlen texts) by (unfold zlen; now rewrite map_length).
  destruct (_ || _); [reflexivity|]. rewrite initialize_f.
  destruct (items (initialize_synclist texts 1)) as [|s l]; [reflexivity|]. rewrite recursive_sync_f.
  replace (List.length (hd [] (map (map f) texts))) with (List.length (hd [] texts)); [reflexivity|].
  destruct texts; [reflexivity|]. cbn. now rewrite map_length.
Qed.

(** transpose_sync *)
Lemma ofold_pointwise {A B} (g h : B -> A -> outcome B) l : (forall b x, g b x = h b x) -> forall b, ofold g l b = ofold h l b.
Proof. intros H. induction l as [|x l IH]; intros b; [reflexivity|]. cbn. rewrite H. destruct (h b x); cbn; auto. Qed.
Lemma tr_search_f t1 t2 l1 l2 st : tr_search (map f t1) (map f t2) l1 l2 st = tr_search t1 t2 l1 l2 st.
Proof.
  unfold tr_search. apply ofold_pointwise. intros b s1. destruct (sub0 s1); cbn [obind]; [|reflexivity..].
  destruct (_ && _); [|reflexivity]. unfold tr_inner. apply ofold_pointwise. intros b' s2.
  destruct (sub0 s1); cbn [obind]; [|reflexivity..]. destruct (sub0 s2); cbn [obind]; [|reflexivity..].
  destruct (_ && _); [|reflexivity]. now rewrite longest_match_f.
Qed.
Lemma tr_loop_f t1 t2 : forall fuel sl1 sl2 m st, tr_loop fuel (map f t1) (map f t2) sl1 sl2 m st = tr_loop fuel t1 t2 sl1 sl2 m st.
Proof.
  induction fuel as [|n IH]; intros sl1 sl2 m st; cbn [tr_loop]; rewrite tr_search_f; [reflexivity|].
  destruct (tr_search _ _ _ _ _) as [s| | |]; cbn [obind]; [|reflexivity..]. destruct (_ =? 0); [reflexivity|].
  destruct (get_set "sync1" _); cbn [obind]; [|reflexivity..]. destruct (get_set "sync2" _); cbn [obind]; [|reflexivity..].
  destruct (get_set "start1" _); cbn [obind]; [|reflexivity..]. destruct (get_set "start2" _); cbn [obind]; [|reflexivity..].
  destruct (save_match _ _ _ _ _); cbn [obind]; [|reflexivity..]. destruct (save_match _ _ _ _ _); cbn [obind]; [|reflexivity..]. apply IH.
Qed.
Lemma transpose_sync_f t1 t2 : transpose_sync (map f t1) (map f t2) = transpose_sync t1 t2.
Proof.
  unfold transpose_sync. rewrite map_length, tr_loop_f. change [map f t1] with (map (map f) [t1]). change [map f t2] with (map (map f) [t2]).
  now rewrite !initialize_f.
Qed.

(** fastukk_sync *)
Lemma snake_f a b : forall fuel i j, snake fuel (map f a) (map f b) i j = snake fuel a b i j.
Proof.
  induction fuel as [|n IH]; intros i j; cbn [snake]; rewrite !zlen_f; (destruct (_ && _); [|reflexivity]); rewrite !rd_f;
    (destruct (rd "a" a i); cbn [obind]; [|reflexivity..]); (destruct (rd "b" b j); cbn [obind]; [|reflexivity..]);
    rewrite eqb_f, rej_f; (destruct (_ && _); [|reflexivity]); [reflexivity|apply IH].
Qed.
Lemma compute_f_f a b p pr k st : compute_f (map f a) (map f b) p pr k st = compute_f a b p pr k st.
Proof. unfold compute_f. rewrite !zlen_f. destruct (initial_f k pr) as [[i pk]| | |]; cbn [obind]; [|reflexivity..]. now rewrite map_length, snake_f. Qed.
Lemma down_f a b p pr : forall fuel k st, down_loop fuel (map f a) (map f b) p pr k st = down_loop fuel a b p pr k st.
Proof.
  induction fuel as [|n IH]; intros k st; cbn [down_loop]; [reflexivity|]. destruct (_ <=? _); [|reflexivity].
  rewrite compute_f_f. destruct (compute_f a b p pr k st); cbn [obind]; [apply IH|reflexivity..].
Qed.
Lemma up_f a b p pr : forall fuel k st, up_loop fuel (map f a) (map f b) p pr k st = up_loop fuel a b p pr k st.
Proof.
  induction fuel as [|n IH]; intros k st; cbn [up_loop]; [reflexivity|]. destruct (_ <=? _); [|reflexivity].
  rewrite compute_f_f. destruct (compute_f a b p pr k st); cbn [obind]; [apply IH|reflexivity..].
Qed.
Lemma compute_row_f a b p pr mn mx : compute_row (map f a) (map f b) p pr mn mx = compute_row a b p pr mn mx.
Proof.
  unfold compute_row. rewrite !zlen_f. destruct (_ <=? _).
  - rewrite down_f. destruct (down_loop _ a b _ _ _ _); cbn [obind]; [apply up_f|reflexivity..].
  - rewrite up_f. destruct (up_loop _ a b _ _ _ _); cbn [obind]; [apply down_f|reflexivity..].
Qed.
Lemma pathlist_f a b : forall fuel p ps mn mx, pathlist_loop fuel (map f a) (map f b) p ps mn mx = pathlist_loop fuel a b p ps mn mx.
Proof.
  induction fuel as [|n IH]; intros p ps mn mx; cbn [pathlist_loop]; rewrite !zlen_f; [reflexivity|]. destruct (_ <=? _); [|reflexivity].
  rewrite compute_row_f. destruct (compute_row a b p _ mn mx); cbn [obind]; [apply IH|reflexivity..].
Qed.
Lemma fastukk_sync_f a b : fastukk_sync (map f a) (map f b) = fastukk_sync a b.
Proof.
  unfold fastukk_sync, compute_pathlist. rewrite !zlen_f, pathlist_f. change [map f a; map f b] with (map (map f) [a; b]). now rewrite initialize_f.
Qed.
End Rename.
