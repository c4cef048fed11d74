(** C88: the synchronizations, and the figures computed from them, depend on the characters only through
    which of them are equal. *)
From Coq Require Import String.
From Verif Require Import Base CLib Utf8Model TextModel TextProps CharclassModel CompareModel SyncModel AccModel EditopModel
  MarkProof RenameProof.
Local Open Scope Z_scope.
Local Open Scope list_scope.

(** Specification.  Characters are replaced one for one; the reject character stays what it is. *)
Definition renaming (f : Z -> Z) : Prop :=
  (forall x y, f x = f y -> x = y) /\ (forall x, f x = REJECT <-> x = REJECT).
Definition renamed (f : Z -> Z) (t : list char) : list char := map (fun c => mkchar (suspect c) (f (value c))) t.

Theorem C88_synchronize : forall f texts, renaming f -> synchronize (map (map f) texts) = synchronize texts.
Proof. intros f texts [I R]. now apply synchronize_f. Qed.
Print Assumptions C88_synchronize.
Theorem C88_transpose : forall f t1 t2, renaming f -> transpose_sync (map f t1) (map f t2) = transpose_sync t1 t2.
Proof. intros f t1 t2 [I R]. now apply transpose_sync_f. Qed.
Print Assumptions C88_transpose.
Theorem C88_fastukk : forall f t1 t2, renaming f -> fastukk_sync (map f t1) (map f t2) = fastukk_sync t1 t2.
Proof. intros f t1 t2 [I R]. now apply fastukk_sync_f. Qed.
Print Assumptions C88_fastukk.

Lemma count_plain_f f : renaming f -> forall text fuel i stop total,
  count_plain fuel (map f text) i stop total = count_plain fuel text i stop total.
Proof.
  intros [I R] text. induction fuel as [|n IH]; intros i stop total; cbn [count_plain]; [reflexivity|].
  destruct (_ <=? _); [|reflexivity]. rewrite rd_f. destruct (rd _ text i); cbn [obind]; [|reflexivity..]. rewrite (rej_f f R). apply IH.
Qed.
(** The edit operations of editop. *)
Theorem C88_editop : forall f t1 t2, renaming f -> edit_operations (map f t1) (map f t2) = edit_operations t1 t2.
Proof.
  intros f t1 t2 H. unfold edit_operations. rewrite C88_transpose by exact H.
  destruct (transpose_sync t1 t2) as [[l1 l2]| | |]; cbn [obind]; [|reflexivity..].
  replace (count_insertions l1 (map f t1) 0) with (count_insertions l1 t1 0); [reflexivity|].
  unfold count_insertions. apply ofold_pointwise. intros b x. destruct (inum x); [reflexivity|].
  destruct (rd "substr" (isubs x) 0); cbn [obind]; [|reflexivity..]. rewrite map_length. symmetry. now apply count_plain_f.
Qed.
Print Assumptions C88_editop.

(** Results, if there are any, in relation. *)
Definition wrel {A B} (R : A -> B -> Prop) (o : outcome A) (o' : outcome B) : Prop :=
  forall x y, o = Ok x -> o' = Ok y -> R x y.
Lemma wrel_bind {A B A' B'} (R : A -> A' -> Prop) (Q : B -> B' -> Prop) o o' g g' :
  wrel R o o' -> (forall x y, R x y -> wrel Q (g x) (g' y)) -> wrel Q (obind o g) (obind o' g').
Proof.
  intros H K x y. destruct o as [a| | |], o' as [a'| | |]; cbn; intros E E'; try discriminate E; try discriminate E'.
  exact (K a a' (H a a' eq_refl eq_refl) x y E E').
Qed.
Lemma wrel_ofold {A A' B B'} (P : A -> A' -> Prop) (R : B -> B' -> Prop) g g' : forall l l',
  Forall2 P l l' -> (forall b b' x x', R b b' -> P x x' -> wrel R (g b x) (g' b' x')) ->
  forall b b', R b b' -> wrel R (ofold g l b) (ofold g' l' b').
Proof.
  intros l l' F H. induction F as [|x x' l l' P1 F IH]; intros b b' Hb; [intros u v E E'; cbn in E, E'; congruence|]. cbn [ofold].
  eapply wrel_bind; [apply H; eassumption|]. intros y y' Hy. now apply IH.
Qed.
Lemma orel_wrel {A B} (R : A -> B -> Prop) o o' : orel R o o' -> wrel R o o'.
Proof. destruct o, o'; cbn; intros H x y E E'; try contradiction; congruence. Qed.

Definition figures (d : accdata) :=
  (characters d, errors d, rejects d, suspects d, false_marks d, (marked_ops d, unmarked_ops d, total_ops d), total_class d).

Section Acc.
Variable f : Z -> Z.
Hypothesis H : renaming f.
Definition ren (c c' : char) : Prop := value c' = f (value c) /\ suspect c' = suspect c.
Lemma ren_reject c c' : ren c c' -> (value c' =? REJECT) = (value c =? REJECT).
Proof. intros [-> _]. destruct H as [_ R]. apply (rej_f f R). Qed.
Lemma renamed_ren t : Forall2 ren t (renamed f t).
Proof. induction t as [|c t IH]; constructor; [split; reflexivity|exact IH]. Qed.

Lemma count_correct_ren matched cs cs' d d' : Forall2 ren cs cs' -> figures d = figures d' ->
  wrel (fun p p' => figures (fst (fst p)) = figures (fst (fst p')) /\ snd (fst p) = snd (fst p') /\ snd p = snd p')
       (count_correct matched cs d) (count_correct matched cs' d').
Proof.
  intros F E. unfold count_correct. eapply wrel_ofold; [exact F| |cbn; auto].
  intros [[b ch] w] [[b' ch'] w'] c c' (Hb & Hc & Hw) Hv. cbn in Hb, Hc, Hw. subst ch' w'. unfold count_correct_step.
  rewrite (ren_reject _ _ Hv). destruct (value c =? REJECT); [apply orel_wrel; cbn; auto|].
  apply (wrel_bind (fun d d' => figures d = figures d')); [|intros x y Hx; apply orel_wrel; cbn; auto].
  intros x y. unfold add_class. destruct (charclass (value c)); cbn [obind]; intros X; try discriminate X.
  destruct (charclass (value c')); cbn [obind]; intros Y; try discriminate Y.
  destruct (_ && _); [|discriminate X]. destruct (_ && _); [|discriminate Y]. injection X as <-. injection Y as <-.
  unfold figures in *. cbn. congruence.
Qed.
Lemma count_generated_ren cs cs' : Forall2 ren cs cs' -> count_generated cs = count_generated cs'.
Proof.
  intros F. unfold count_generated. generalize (0, 0). induction F as [|c c' cs cs' Hc F IH]; intros [re su]; [reflexivity|].
  cbn [fold_left]. rewrite (ren_reject _ _ Hc). destruct Hc as [_ ->]. apply IH.
Qed.

Lemma process_item_ren uc t0 t1 t0' t1' d d' it : Forall2 ren t0 t0' -> Forall2 ren t1 t1' -> figures d = figures d' ->
  wrel (fun d d' => figures d = figures d') (process_item uc t0 t1 d it) (process_item uc t0' t1' d' it).
Proof.
  intros F0 F1 E. unfold process_item. destruct (isubs it) as [|s0 [|s1 ss]]; [intros x y X; discriminate X..|].
  eapply wrel_bind; [apply orel_wrel; apply sub_chars_rel; exact F0|]. intros cs0 cs0' G0.
  eapply wrel_bind; [apply count_correct_ren; eassumption|].
  intros [[b ch] wild] [[b' ch'] wild'] (Hb & Hc & Hw). cbn in Hb, Hc, Hw. subst ch' wild'.
  eapply wrel_bind; [apply orel_wrel; apply sub_chars_rel; exact F1|]. intros cs1 cs1' G1.
  rewrite <- (count_generated_ren _ _ G1). destruct (count_generated cs1) as [re su].
  unfold figures in Hb. injection Hb as K1 K2 K3 K4 K5 K6 K7 K8 K9.
  destruct (match inum it with Some _ => true | None => false end).
  { apply orel_wrel. cbn. unfold figures. cbn. congruence. }
  destruct (0 <? _). 2: { apply orel_wrel. cbn. unfold figures. cbn. congruence. }
  eapply (wrel_bind (fun _ _ => True)); [intros x y _ _; exact I|]. intros k k' _.
  destruct (0 <? re + su); apply orel_wrel; cbn; unfold figures; cbn; congruence.
Qed.
End Acc.

(** accuracy: characters, errors, rejected and marked characters, edit operations, total of the classes. *)
Theorem C88_accuracy : forall uc f t0 t1 d d', renaming f ->
  accuracy_data uc t0 t1 = Ok d -> accuracy_data uc (renamed f t0) (renamed f t1) = Ok d' ->
  figures d = figures d'.
Proof.
  intros uc f t0 t1 d d' H E E'. unfold accuracy_data in *.
  assert (V : forall t, map value (renamed f t) = map f (map value t)).
  { intros t. unfold renamed. rewrite !map_map. reflexivity. }
  rewrite !V, C88_fastukk in E' by exact H. destruct (fastukk_sync _ _) as [l| | |]; cbn [obind] in E, E'; try discriminate E.
  unfold process_synclist in *. revert d d' E E'.
  change (wrel (fun d d' => figures d = figures d') (ofold (process_item uc t0 t1) l acc_empty)
           (ofold (process_item uc (renamed f t0) (renamed f t1)) l acc_empty)).
  eapply (wrel_ofold eq); [apply Forall2_refl; reflexivity| |reflexivity].
  intros b b' it it' Hb <-. apply (process_item_ren f H); auto using renamed_ren.
Qed.
Print Assumptions C88_accuracy.

Definition swap_ab (x : Z) : Z := if x =? 97 then 98 else if x =? 98 then 97 else x.
Example C88_ex : renaming swap_ab /\
  exists d d', accuracy_data sample_uc [mkchar false 97; mkchar false 98; mkchar false 126] [mkchar true 98] = Ok d /\
    accuracy_data sample_uc (renamed swap_ab [mkchar false 97; mkchar false 98; mkchar false 126]) (renamed swap_ab [mkchar true 98]) = Ok d' /\
    errors d = 1 /\ errors d' = 1 /\ suspects d' = 1.
Proof.
  split.
  - unfold renaming, swap_ab, REJECT. split; intros x; [intros y|];
      destruct (Z.eqb_spec x 97), (Z.eqb_spec x 98); try (destruct (Z.eqb_spec y 97), (Z.eqb_spec y 98)); lia.
  - eexists _, _. split; [vm_compute; reflexivity|]. split; [vm_compute; reflexivity|]. repeat split; vm_compute; reflexivity.
Qed.
