(** Finite sums and counting. *)
From Verif Require Import Base TextModel AccSpec.

Lemma zsum_app a b : zsum (a ++ b) = zsum a + zsum b.
Proof. induction a as [|x a IH]; unfold zsum in *; cbn [app fold_right]; lia. Qed.
Lemma zsum_cons x a : zsum (x :: a) = x + zsum a.
Proof. reflexivity. Qed.
Lemma zsum_nonneg l : Forall (fun x => 0 <= x) l -> 0 <= zsum l.
Proof. induction 1; rewrite ?zsum_cons; cbn; lia. Qed.

Lemma zsum_map_ext {A} (f g : A -> Z) l :
  (forall x, In x l -> f x = g x) -> zsum (map f l) = zsum (map g l).
Proof.
  induction l as [|x l IH]; intros H; [reflexivity|]. cbn [map]. rewrite !zsum_cons.
  rewrite H by (left; reflexivity). rewrite IH; [reflexivity|]. intros; apply H; now right.
Qed.
Lemma zsum_map_add {A} (f g : A -> Z) l :
  zsum (map (fun x => f x + g x) l) = zsum (map f l) + zsum (map g l).
Proof. induction l as [|x l IH]; [reflexivity|]. cbn [map]. rewrite !zsum_cons. lia. Qed.
Lemma zsum_map_le {A} (f g : A -> Z) l :
  (forall x, In x l -> f x <= g x) -> zsum (map f l) <= zsum (map g l).
Proof.
  induction l as [|x l IH]; intros H; [reflexivity|]. cbn [map]. rewrite !zsum_cons.
  pose proof (H x (or_introl eq_refl)). assert (zsum (map f l) <= zsum (map g l)); [|lia].
  apply IH. intros; apply H; now right.
Qed.
Lemma zsum_map_zero {A} (f : A -> Z) l : (forall x, In x l -> f x = 0) -> zsum (map f l) = 0.
Proof.
  induction l as [|x l IH]; intros H; [reflexivity|]. cbn [map]. rewrite zsum_cons.
  rewrite (H x) by now left. rewrite IH; [lia|]. intros; apply H; now right.
Qed.
(** A sum of non-negative terms that vanishes has only zero terms. *)
Lemma zsum_map_zero_inv {A} (f : A -> Z) l :
  (forall x, In x l -> 0 <= f x) -> zsum (map f l) = 0 -> forall x, In x l -> f x = 0.
Proof.
  induction l as [|y l IH]; intros H E x []; cbn [map] in E; rewrite zsum_cons in E.
  - subst y. assert (0 <= zsum (map f l)).
    { apply zsum_nonneg. apply Forall_map, Forall_forall. intros; apply H; now right. }
    pose proof (H x (or_introl eq_refl)). lia.
  - pose proof (H y (or_introl eq_refl)).
    assert (0 <= zsum (map f l)).
    { apply zsum_nonneg. apply Forall_map, Forall_forall. intros; apply H; now right. }
    apply IH; auto; [|lia]. intros; apply H; now right.
Qed.
Lemma zsum_term_le {A} (f : A -> Z) l x :
  (forall y, In y l -> 0 <= f y) -> In x l -> f x <= zsum (map f l).
Proof.
  induction l as [|y l IH]; intros H []; cbn [map]; rewrite zsum_cons.
  - subst y. assert (0 <= zsum (map f l)); [|lia].
    apply zsum_nonneg. apply Forall_map, Forall_forall. intros; apply H; now right.
  - pose proof (H y (or_introl eq_refl)). assert (f x <= zsum (map f l)); [|lia].
    apply IH; auto. intros; apply H; now right.
Qed.

Lemma zsum_add_at l f i c :
  NoDup l -> In i l ->
  zsum (map (fun x => f x + (if x =? i then c else 0)) l) = zsum (map f l) + c.
Proof.
  intros ND Hi. rewrite zsum_map_add. f_equal.
  induction ND as [|x l Hx ND IH]; [easy|]. cbn [map]. rewrite zsum_cons.
  destruct Hi as [->|Hi].
  - rewrite Z.eqb_refl. rewrite zsum_map_zero; [lia|].
    intros y Hy. destruct (Z.eqb_spec y i); [congruence|reflexivity].
  - rewrite IH by exact Hi. destruct (Z.eqb_spec x i); [congruence|lia].
Qed.

(** Sums over 0, ..., n-1. *)
Lemma In_upto n i : 0 <= n -> In i (zrange 0 (Z.to_nat n)) <-> 0 <= i < n.
Proof. intros. rewrite In_zrange. lia. Qed.
Lemma sum_to_ext n f g : 0 <= n -> (forall i, 0 <= i < n -> f i = g i) -> sum_to n f = sum_to n g.
Proof. intros Hn H. apply zsum_map_ext. intros x Hx. apply H. now apply In_upto in Hx. Qed.
Lemma sum_to_add n f g : sum_to n (fun i => f i + g i) = sum_to n f + sum_to n g.
Proof. apply zsum_map_add. Qed.
Lemma sum_to_add_at n f i c :
  0 <= i < n -> sum_to n (fun x => f x + (if x =? i then c else 0)) = sum_to n f + c.
Proof.
  intros H. unfold sum_to. apply zsum_add_at; [apply NoDup_zrange|]. apply In_upto; lia.
Qed.
Lemma sum_to_zero n f : 0 <= n -> (forall i, 0 <= i < n -> f i = 0) -> sum_to n f = 0.
Proof. intros Hn H. apply zsum_map_zero. intros x Hx. apply H. now apply In_upto in Hx. Qed.
Lemma sum_to_zero_inv n f : 0 <= n -> (forall i, 0 <= i < n -> 0 <= f i) ->
  sum_to n f = 0 -> forall i, 0 <= i < n -> f i = 0.
Proof.
  intros Hn H E i Hi. apply (zsum_map_zero_inv f (zrange 0 (Z.to_nat n))); auto.
  - intros x Hx. apply H. now apply In_upto in Hx.
  - now apply In_upto.
Qed.
Lemma sum_to_term_le n f i : (forall i, 0 <= i < n -> 0 <= f i) -> 0 <= i < n -> f i <= sum_to n f.
Proof.
  intros H Hi. apply (zsum_term_le f (zrange 0 (Z.to_nat n))).
  - intros y Hy. apply H. apply In_upto in Hy; lia.
  - apply In_upto; lia.
Qed.
Lemma sum_to_nonneg n f : 0 <= n -> (forall i, 0 <= i < n -> 0 <= f i) -> 0 <= sum_to n f.
Proof.
  intros Hn H. apply zsum_nonneg, Forall_map, Forall_forall. intros x Hx. apply H.
  now apply In_upto in Hx.
Qed.
Lemma sum_to_le n f g : 0 <= n -> (forall i, 0 <= i < n -> f i <= g i) -> sum_to n f <= sum_to n g.
Proof. intros Hn H. apply zsum_map_le. intros x Hx. apply H. now apply In_upto in Hx. Qed.

(** Counting characters. *)
Lemma num_app p a b : num p (a ++ b) = num p a + num p b.
Proof. unfold num. rewrite filter_app, zlen_app. reflexivity. Qed.
Lemma num_cons p x l : num p (x :: l) = (if p x then 1 else 0) + num p l.
Proof. unfold num. cbn [filter]. destruct (p x); rewrite ?zlen_cons; lia. Qed.
Lemma num_nil p : num p [] = 0.
Proof. reflexivity. Qed.
Lemma num_nonneg p l : 0 <= num p l.
Proof. apply zlen_nonneg. Qed.
Lemma num_le p q l : (forall x, p x = true -> q x = true) -> num p l <= num q l.
Proof.
  intros H. induction l as [|x l IH]; [reflexivity|]. rewrite !num_cons.
  destruct (p x) eqn:E; [rewrite (H _ E); lia|]. destruct (q x); lia.
Qed.
Lemma num_len p l : num p l <= zlen l.
Proof. induction l as [|x l IH]; [reflexivity|]. rewrite num_cons, zlen_cons. destruct (p x); lia. Qed.
Lemma num_split l : num plain l + num is_tilde l = zlen l.
Proof.
  induction l as [|x l IH]; [reflexivity|]. rewrite !num_cons, zlen_cons.
  unfold plain at 1. destruct (is_tilde x); cbn [negb]; lia.
Qed.
