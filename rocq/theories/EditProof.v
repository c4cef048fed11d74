(** Theory of the edit distance used by the synchronisation proofs. *)
From Verif Require Import Base SyncModel SyncSpec.

Fixpoint lev (a : list Z) : list Z -> Z :=
  match a with
  | [] => fun b => zlen b
  | x :: a' =>
      fix levb (b : list Z) : Z :=
        match b with
        | [] => zlen a' + 1
        | y :: b' =>
            Z.min (lev a' b' + (if (x =? y) && negb (x =? 126) then 0 else 1))
                  (1 + Z.min (lev a' b) (levb b'))
        end
  end.

Lemma lev_nil_l b : lev [] b = zlen b.
Proof. reflexivity. Qed.
Lemma lev_nil_r a : lev a [] = zlen a.
Proof. destruct a; [reflexivity|]. rewrite zlen_cons. reflexivity. Qed.
Lemma lev_cons x a y b :
  lev (x :: a) (y :: b) =
  Z.min (lev a b + (if (x =? y) && negb (x =? 126) then 0 else 1))
        (1 + Z.min (lev a (y :: b)) (lev (x :: a) b)).
Proof. reflexivity. Qed.

Lemma edits_ins_all b : edits [] b (zlen b).
Proof.
  induction b as [|y b IH]; [constructor|]. rewrite zlen_cons. now constructor.
Qed.
Lemma edits_del_all a : edits a [] (zlen a).
Proof.
  induction a as [|y a IH]; [constructor|]. rewrite zlen_cons. now constructor.
Qed.

Lemma lev_edits a b : edits a b (lev a b).
Proof.
  revert b; induction a as [|x a IHa]; intros b; [apply edits_ins_all|].
  induction b as [|y b IHb]; [rewrite lev_nil_r; apply edits_del_all|].
  rewrite lev_cons.
  destruct (Z.min_spec (lev a b + (if (x =? y) && negb (x =? 126) then 0 else 1))
        (1 + Z.min (lev a (y :: b)) (lev (x :: a) b))) as [[_ ->]|[_ ->]].
  - destruct ((x =? y) && negb (x =? 126)) eqn:E.
    + apply andb_prop in E as [E1 E2]. apply Z.eqb_eq in E1 as <-.
      apply negb_true_iff, Z.eqb_neq in E2. rewrite Z.add_0_r. now constructor.
    + now constructor.
  - destruct (Z.min_spec (lev a (y :: b)) (lev (x :: a) b)) as [[_ ->]|[_ ->]];
      rewrite Z.add_comm; [apply edits_delete|apply edits_insert]; auto.
Qed.

Lemma lev_nonneg a b : 0 <= lev a b.
Proof.
  revert b; induction a as [|x a IHa]; intros b; [apply zlen_nonneg|].
  induction b as [|y b IHb]; [rewrite lev_nil_r; apply zlen_nonneg|].
  rewrite lev_cons. specialize (IHa b) as H1. specialize (IHa (y :: b)) as H2.
  destruct (_ && _); lia.
Qed.

Lemma lev_min a b c : edits a b c -> lev a b <= c.
Proof.
  induction 1 as [|x a b c Hx H IH|x y a b c H IH|x a b c H IH|y a b c H IH].
  - cbn; lia.
  - rewrite lev_cons, Z.eqb_refl. apply Z.eqb_neq in Hx. rewrite Hx. cbn. lia.
  - rewrite lev_cons. destruct (_ && _); lia.
  - destruct b as [|y b].
    + rewrite lev_nil_r in *. rewrite zlen_cons. lia.
    + rewrite lev_cons. lia.
  - destruct a as [|x a].
    + rewrite lev_nil_l in *. rewrite zlen_cons. lia.
    + rewrite lev_cons. lia.
Qed.

Lemma lev_distance a b : distance a b (lev a b).
Proof. split; [apply lev_edits|apply lev_min]. Qed.

Lemma distance_lev a b d : distance a b d -> d = lev a b.
Proof.
  intros [H1 H2]. apply lev_min in H1. specialize (H2 _ (lev_edits a b)). lia.
Qed.

Lemma edits_sym a b c : edits a b c -> edits b a c.
Proof. induction 1; constructor; auto. Qed.

Lemma lev_sym a b : lev a b = lev b a.
Proof.
  apply Z.le_antisymm; apply lev_min, edits_sym, lev_edits.
Qed.

Lemma edits_drop_l x a b c : edits (x :: a) b c -> exists c', c' <= c + 1 /\ edits a b c'.
Proof.
  intros H. remember (x :: a) as xa eqn:E. revert x a E.
  induction H as [|x' a' b c Hx H IH|x' y a' b c H IH|x' a' b c H IH|y a' b c H IH];
    intros x a E; try discriminate.
  - injection E as -> ->. exists (c + 1). split; [lia|now constructor].
  - injection E as -> ->. exists (c + 1). split; [lia|now constructor].
  - injection E as -> ->. exists c. split; [lia|assumption].
  - destruct (IH _ _ E) as (c' & Hc & H'). exists (c' + 1). split; [lia|now constructor].
Qed.

Lemma lev_drop_l x a b : lev a b <= 1 + lev (x :: a) b.
Proof.
  destruct (edits_drop_l x a b _ (lev_edits (x :: a) b)) as (c' & Hc & H).
  apply lev_min in H. lia.
Qed.
Lemma lev_drop_r y a b : lev a b <= 1 + lev a (y :: b).
Proof. rewrite (lev_sym a b), (lev_sym a (y :: b)). apply lev_drop_l. Qed.

Lemma lev_diag x a y b : lev a b <= lev (x :: a) (y :: b).
Proof.
  rewrite lev_cons. pose proof (lev_drop_r y a b) as H1. pose proof (lev_drop_l x a b) as H2.
  destruct (_ && _); lia.
Qed.

Lemma lev_keep x a b : x <> 126 -> lev (x :: a) (x :: b) = lev a b.
Proof.
  intros Hx. apply Z.le_antisymm; [|apply lev_diag].
  rewrite lev_cons, Z.eqb_refl. apply Z.eqb_neq in Hx. rewrite Hx. cbn. lia.
Qed.

Lemma edits_lower a b c : edits a b c -> Z.abs (zlen b - zlen a) <= c.
Proof. induction 1; rewrite ?zlen_cons in *; rewrite ?zlen_nil; lia. Qed.

Lemma lev_lower a b : Z.abs (zlen b - zlen a) <= lev a b.
Proof. apply edits_lower, lev_edits. Qed.

Lemma lev_upper a b : lev a b <= Z.max (zlen a) (zlen b).
Proof.
  revert b; induction a as [|x a IHa]; intros b.
  - rewrite lev_nil_l, zlen_nil. lia.
  - destruct b as [|y b]; [rewrite lev_nil_r, zlen_nil; lia|].
    rewrite lev_cons, !zlen_cons. specialize (IHa b). destruct (_ && _); lia.
Qed.

Lemma edits_app a1 b1 c1 a2 b2 c2 :
  edits a1 b1 c1 -> edits a2 b2 c2 -> edits (a1 ++ a2) (b1 ++ b2) (c1 + c2).
Proof.
  intros H1 H2. induction H1 as [|x a b c Hx H IH|x y a b c H IH|x a b c H IH|y a b c H IH];
    cbn [app].
  - exact H2.
  - now constructor.
  - replace (c + 1 + c2) with (c + c2 + 1) by lia. now constructor.
  - replace (c + 1 + c2) with (c + c2 + 1) by lia. now constructor.
  - replace (c + 1 + c2) with (c + c2 + 1) by lia. now constructor.
Qed.

Lemma edits_refl w : ~ In 126 w -> edits w w 0.
Proof.
  induction w as [|x w IH]; intros H; constructor.
  - intros ->. apply H. now left.
  - apply IH. intros Hw. apply H. now right.
Qed.

Lemma edits_zero a b : edits a b 0 -> a = b /\ ~ In 126 a.
Proof.
  intros H. remember 0 as z eqn:E. induction H as [|x a b c Hx H IH| | | ]; subst.
  - split; auto.
  - destruct (IH eq_refl) as [-> Hn]. split; [reflexivity|]. intros [->|Hi]; auto.
  - apply edits_lower in H. lia.
  - apply edits_lower in H. lia.
  - apply edits_lower in H. lia.
Qed.

(** Prefixes and suffixes at [Z] positions. *)
Definition pfx (l : list Z) (i : Z) : list Z := firstn (Z.to_nat i) l.
Definition sfx (l : list Z) (i : Z) : list Z := skipn (Z.to_nat i) l.

Lemma pfx_sfx l i : pfx l i ++ sfx l i = l.
Proof. apply firstn_skipn. Qed.

Lemma sfx_0 l : sfx l 0 = l.
Proof. reflexivity. Qed.

Lemma sfx_all l i : zlen l <= i -> sfx l i = [].
Proof. unfold sfx, zlen. intros H. apply skipn_all2. lia. Qed.

Lemma pfx_all l i : zlen l <= i -> pfx l i = l.
Proof. unfold pfx, zlen. intros H. apply firstn_all2. lia. Qed.

Lemma sfx_zlen l i : 0 <= i <= zlen l -> zlen (sfx l i) = zlen l - i.
Proof. unfold sfx, zlen. intros H. rewrite skipn_length. lia. Qed.

Lemma pfx_zlen l i : 0 <= i <= zlen l -> zlen (pfx l i) = i.
Proof. unfold pfx, zlen. intros H. rewrite firstn_length. lia. Qed.

Lemma sfx_step l i x : znth l i = Some x -> sfx l i = x :: sfx l (i + 1).
Proof.
  intros H. pose proof (znth_Some_lt _ _ _ H) as Hi. unfold znth in H.
  destruct (Z.ltb_spec i 0); [lia|]. unfold sfx.
  replace (Z.to_nat (i + 1)) with (S (Z.to_nat i)) by lia.
  revert H. generalize (Z.to_nat i) as q. clear. intros q; revert l.
  induction q as [|q IH]; intros [|y l]; cbn; try discriminate.
  - now intros [= ->].
  - intros H. rewrite (IH l H). reflexivity.
Qed.

Lemma pfx_step l i x : znth l i = Some x -> pfx l (i + 1) = pfx l i ++ [x].
Proof.
  intros H. pose proof (znth_Some_lt _ _ _ H) as Hi. unfold znth in H.
  destruct (Z.ltb_spec i 0); [lia|]. unfold pfx.
  replace (Z.to_nat (i + 1)) with (S (Z.to_nat i)) by lia.
  revert H. generalize (Z.to_nat i) as q. clear. intros q; revert l.
  induction q as [|q IH]; intros [|y l]; cbn; try discriminate.
  - now intros [= ->].
  - intros H. rewrite <- (IH l H). reflexivity.
Qed.

Lemma z_up (z : Z) (P : Z -> Prop) :
  P z -> (forall x, z <= x -> P x -> P (x + 1)) -> forall x, z <= x -> P x.
Proof.
  intros H0 HS x Hx. replace x with (z + Z.of_nat (Z.to_nat (x - z))) by lia.
  induction (Z.to_nat (x - z)) as [|q IH].
  - now replace (z + Z.of_nat 0) with z by lia.
  - replace (z + Z.of_nat (S q)) with (z + Z.of_nat q + 1) by lia. apply HS; [lia|exact IH].
Qed.

(** *** Slices *)

Lemma znth_skipn {A} (l : list A) q i :
  0 <= i -> znth (skipn q l) i = znth l (Z.of_nat q + i).
Proof.
  intros Hi. unfold znth. destruct (Z.ltb_spec i 0); [lia|].
  destruct (Z.ltb_spec (Z.of_nat q + i) 0); [lia|].
  replace (Z.to_nat (Z.of_nat q + i)) with (q + Z.to_nat i)%nat by lia.
  generalize (Z.to_nat i) as r. clear. revert l; induction q as [|q IH]; intros l r; [reflexivity|].
  destruct l; cbn; [now destruct r|apply IH].
Qed.

Lemma znth_firstn {A} (l : list A) q i :
  i < Z.of_nat q -> znth (firstn q l) i = znth l i.
Proof.
  intros Hi. unfold znth. destruct (Z.ltb_spec i 0); [reflexivity|].
  assert (Z.to_nat i < q)%nat as H1 by lia. revert H1. generalize (Z.to_nat i) as r. clear.
  revert l; induction q as [|q IH]; intros l r Hr; [lia|].
  destruct l; cbn; [reflexivity|]. destruct r; cbn; [reflexivity|]. apply IH. lia.
Qed.

Lemma znth_slice t st len i : 0 <= st -> 0 <= i < len -> znth (slice t st len) i = znth t (st + i).
Proof.
  intros H1 H2. unfold slice. rewrite znth_firstn by lia. rewrite znth_skipn by lia.
  f_equal. lia.
Qed.

Lemma zlen_slice t st len : 0 <= st -> 0 <= len -> st + len <= zlen t -> zlen (slice t st len) = len.
Proof.
  unfold slice, zlen. intros. rewrite firstn_length, skipn_length. lia.
Qed.

Lemma skipn_add {A} (l : list A) p q : skipn q (skipn p l) = skipn (p + q) l.
Proof.
  revert l; induction p as [|p IH]; intros l; [reflexivity|]. destruct l; cbn [skipn Nat.add].
  - apply skipn_nil.
  - apply IH.
Qed.

Lemma slice_sfx t st len : 0 <= st -> 0 <= len -> sfx t st = slice t st len ++ sfx t (st + len).
Proof.
  intros H1 H2. unfold sfx, slice.
  replace (Z.to_nat (st + len)) with (Z.to_nat st + Z.to_nat len)%nat by lia.
  rewrite <- skipn_add. now rewrite firstn_skipn.
Qed.

Lemma Forall2_len {A B} (P : A -> B -> Prop) l1 l2 : Forall2 P l1 l2 -> List.length l1 = List.length l2.
Proof. induction 1; cbn; auto. Qed.

Lemma Forall2_impl' {A B} (P Q : A -> B -> Prop) l1 l2 :
  (forall x y, P x y -> Q x y) -> Forall2 P l1 l2 -> Forall2 Q l1 l2.
Proof. intros H. induction 1; constructor; auto. Qed.

Lemma Forall2_intro_znth {A B} (P : A -> B -> Prop) : forall l1 l2,
  zlen l1 = zlen l2 ->
  (forall t x y, znth l1 t = Some x -> znth l2 t = Some y -> P x y) -> Forall2 P l1 l2.
Proof.
  induction l1 as [|x l1 IH]; intros [|y l2] Hl H; try (rewrite ?zlen_cons in Hl; unfold zlen in Hl; cbn in Hl; lia).
  - constructor.
  - constructor; [apply (H 0); reflexivity|]. apply IH; [rewrite !zlen_cons in Hl; lia|].
    intros t a b Ha Hb. pose proof (znth_Some_lt _ _ _ Ha).
    apply (H (t + 1)); rewrite znth_cons_S by lia; rewrite Z.add_simpl_r; assumption.
Qed.
