(** Suspect marks: what the figures of two versions of a text have in common that differ in the marks
    only. *)
From Coq Require Import String.
From Verif Require Import Base CLib Utf8Model TextModel CharclassModel CompareModel SyncModel AccModel NgramModel MarkSpec.
Local Open Scope Z_scope.
Local Open Scope list_scope.

(** Two outcomes: results in relation, or the same failure. *)
Definition orel {A B} (R : A -> B -> Prop) (o : outcome A) (o' : outcome B) : Prop :=
  match o, o' with
  | Ok x, Ok y => R x y
  | Fail m, Fail m' => m = m'
  | UB m, UB m' => m = m'
  | OutOfFuel, OutOfFuel => True
  | _, _ => False
  end.
Lemma orel_bind {A B A' B'} (R : A -> A' -> Prop) (Q : B -> B' -> Prop) o o' f f' :
  orel R o o' -> (forall x y, R x y -> orel Q (f x) (f' y)) -> orel Q (obind o f) (obind o' f').
Proof. destruct o, o'; cbn; intros H K; try contradiction; auto. Qed.
Lemma orel_refl {A} (R : A -> A -> Prop) o : (forall x, R x x) -> orel R o o.
Proof. intros H. destruct o; cbn; auto. Qed.
Lemma orel_ofold {A A' B B'} (P : A -> A' -> Prop) (R : B -> B' -> Prop) f f' : forall l l',
  Forall2 P l l' -> (forall b b' x x', R b b' -> P x x' -> orel R (f b x) (f' b' x')) ->
  forall b b', R b b' -> orel R (ofold f l b) (ofold f' l' b').
Proof.
  intros l l' F H. induction F as [|x x' l l' P1 F IH]; intros b b' Hb; [exact Hb|]. cbn [ofold].
  eapply orel_bind; [apply H; eassumption|]. intros y y' Hy. now apply IH.
Qed.
Lemma orel_mono {A B} (R Q : A -> B -> Prop) o o' : (forall x y, R x y -> Q x y) -> orel R o o' -> orel Q o o'.
Proof. destruct o, o'; cbn; auto. Qed.
Lemma Forall2_refl {A} (R : A -> A -> Prop) l : (forall x, R x x) -> Forall2 R l l.
Proof. intros H. induction l; constructor; auto. Qed.

Lemma rd_rel {A B} (P : A -> B -> Prop) s l l' i : Forall2 P l l' -> orel P (rd s l i) (rd s l' i).
Proof.
  intros F. unfold rd, znth. destruct (i <? 0); [reflexivity|].
  generalize (Z.to_nat i) as n. induction F as [|x x' l l' H F IH]; intros [|n]; cbn; try reflexivity; [exact H|apply IH].
Qed.

Lemma sub_chars_rel (P : char -> char -> Prop) t t' s : Forall2 P t t' -> orel (Forall2 P) (sub_chars t s) (sub_chars t' s).
Proof.
  intros F. unfold sub_chars. eapply (orel_ofold eq); [now apply Forall2_refl| |constructor].
  intros b b' i i' Hb <-. eapply orel_bind; [apply rd_rel; exact F|]. intros x y Hx. cbn. apply Forall2_app; [exact Hb|]. now constructor.
Qed.

Lemma more_values t t' : more_marks t t' -> same_characters t t'.
Proof. intros F. unfold same_characters. induction F as [|c c' t t' [H _] F IH]; [reflexivity|]. cbn. now rewrite H, IH. Qed.
Lemma same_Forall2 t t' : same_characters t t' -> Forall2 (fun c c' => value c = value c') t t'.
Proof.
  revert t'. unfold same_characters. induction t as [|c t IH]; intros [|c' t'] H; try discriminate H; [constructor|].
  cbn in H. injection H as H1 H2. constructor; auto.
Qed.
Lemma Forall2_same t t' : Forall2 (fun c c' => value c = value c') t t' -> map value t = map value t'.
Proof. induction 1 as [|c c' t t' H F IH]; [reflexivity|]. cbn. now rewrite H, IH. Qed.

(** The state of the counting, more marks on the right. *)
Definition rel (d d' : accdata) : Prop := same_but_marks d d' /\ marks_grow d d'.

Lemma upd_eq {A} (f g : Z -> A) i x y : x = y -> (forall j, f j = g j) -> forall j, upd f i x j = upd g i y j.
Proof. intros -> H j. unfold upd. destruct (j =? i); auto. Qed.

Lemma add_class_rel v n m d d' : rel d d' -> orel rel (add_class d v n m) (add_class d' v n m).
Proof.
  intros [(S1 & S2 & S3 & S4 & S5 & S6 & S7 & S8) G]. unfold add_class. apply (orel_bind eq); [apply orel_refl; reflexivity|].
  intros k k' <-. destruct (_ && _); [|reflexivity]. cbn. split.
  - unfold same_but_marks. cbn. repeat (split; [first [assumption|idtac]|]).
    + apply upd_eq; [now rewrite S5|exact S5].
    + now rewrite S6.
    + apply upd_eq; [now rewrite S7|exact S7].
    + exact S8.
  - exact G.
Qed.

Lemma count_correct_rel matched cs : forall cs' d d', map value cs = map value cs' -> rel d d' ->
  orel (fun p p' => rel (fst (fst p)) (fst (fst p')) /\ snd (fst p) = snd (fst p') /\ snd p = snd p')
       (count_correct matched cs d) (count_correct matched cs' d').
Proof.
  intros cs' d d' E R. unfold count_correct.
  eapply (orel_ofold (fun c c' => value c = value c')); [now apply same_Forall2| |cbn; auto].
  intros [[b ch] w] [[b' ch'] w'] c c' (Hb & Hc & Hw) Hv. cbn in Hb, Hc, Hw. subst ch' w'. unfold count_correct_step. rewrite Hv.
  destruct (value c' =? REJECT); [cbn; auto|]. eapply orel_bind; [now apply add_class_rel|]. intros x y Hx. cbn. auto.
Qed.

Lemma count_generated_rel cs : forall cs', more_marks cs cs' ->
  exists re su su', count_generated cs = (re, su) /\ count_generated cs' = (re, su') /\ 0 <= re /\ 0 <= su <= su'.
Proof.
  unfold count_generated. intros cs' F.
  enough (H : forall re0 su0 su0', 0 <= re0 -> 0 <= su0 <= su0' -> exists re su su',
    fold_left (fun (st : Z * Z) c => let '(re, su) := st in if value c =? REJECT then (re + 1, su) else if suspect c then (re, su + 1) else (re, su)) cs (re0, su0) = (re, su) /\
    fold_left (fun (st : Z * Z) c => let '(re, su) := st in if value c =? REJECT then (re + 1, su) else if suspect c then (re, su + 1) else (re, su)) cs' (re0, su0') = (re, su') /\
    0 <= re /\ 0 <= su <= su') by (apply H; lia).
  induction F as [|c c' cs cs' [H1 H2] F IH]; intros re0 su0 su0' P Q; [exists re0, su0, su0'; cbn; auto|].
  cbn [fold_left]. rewrite <- H1. destruct (value c =? REJECT); [apply IH; lia|].
  destruct (suspect c) eqn:E; [rewrite (H2 eq_refl); apply IH; lia|]. destruct (suspect c'); apply IH; lia.
Qed.

Lemma conf_add_rel key e m m' : 0 <= m <= m' -> forall l l', Forall2 conf_grow l l' -> Forall2 conf_grow (conf_add l key e m) (conf_add l' key e m').
Proof.
  intros M l l' F. induction F as [|c c' l l' (H1 & H2 & H3) F IH]; cbn.
  - constructor; [|constructor]. repeat split; cbn; lia.
  - rewrite <- H1. destruct (streq (ckey c) key).
    + constructor; [|exact F]. repeat split; cbn; lia.
    + constructor; [repeat split; assumption|exact IH].
Qed.

Lemma process_item_rel uc t0 t0' t1 t1' it d d' : same_characters t0 t0' -> more_marks t1 t1' -> rel d d' ->
  orel rel (process_item uc t0 t1 d it) (process_item uc t0' t1' d' it).
Proof.
  intros E0 E1 R. unfold process_item. destruct (isubs it) as [|s0 [|s1 ss]]; [reflexivity..|].
  eapply orel_bind; [apply (sub_chars_rel (fun c c' => value c = value c')); now apply same_Forall2|].
  intros cs0 cs0' F0. apply Forall2_same in F0.
  eapply orel_bind; [apply count_correct_rel; eassumption|].
  intros [[b ch] wild] [[b' ch'] wild'] (Hb & Hc & Hw). cbn in Hb, Hc, Hw. subst ch' wild'.
  eapply orel_bind; [apply sub_chars_rel; exact E1|]. intros cs1 cs1' F1.
  destruct (count_generated_rel _ _ F1) as (re & su & su' & -> & -> & Re & Su).
  apply more_values in F1. unfold same_characters in F1. rewrite <- F0, <- F1.
  destruct Hb as [(S1 & S2 & S3 & S4 & S5 & S6 & S7 & S8) (G1 & G2 & G3 & G4 & G5)].
  destruct (match inum it with Some _ => true | None => false end).
  { cbn. split; [unfold same_but_marks|unfold marks_grow]; cbn; repeat split; try assumption; try lia. }
  destruct (0 <? _) eqn:Er.
  2: { cbn. split; [unfold same_but_marks|unfold marks_grow]; cbn; repeat split; try assumption; try lia. }
  apply (orel_bind eq); [apply orel_refl; reflexivity|]. intros k k' <-.
  apply Z.ltb_lt in Er.
  assert (Q : forall e m m', 0 <= m <= m' -> Forall2 conf_grow (conf_add (conftable b) k e m) (conf_add (conftable b') k e m')).
  { intros e m m' Hm. apply conf_add_rel; assumption. }
  assert (Q' : forall e m m', 0 <= m <= m' -> map (fun c => (ckey c, cerrors c)) (conf_add (conftable b) k e m) = map (fun c => (ckey c, cerrors c)) (conf_add (conftable b') k e m')).
  { intros e m m' Hm. specialize (Q e m m' Hm). clear - Q. induction Q as [|c c' l l' (H1 & H2 & _) _ IH]; [reflexivity|]. cbn. congruence. }
  destruct (0 <? re + su) eqn:M1, (0 <? re + su') eqn:M2; try (exfalso; lia).
  all: cbn [orel]; split; [unfold same_but_marks|unfold marks_grow]; cbn; repeat (split; [first [assumption|lia|congruence|rewrite S4; reflexivity|idtac]|]);
    first [assumption|lia|apply Q; lia|apply Q'; lia|idtac].
Qed.

Lemma rel_empty : rel acc_empty acc_empty.
Proof. split; [unfold same_but_marks|unfold marks_grow]; cbn; repeat split; try lia; constructor. Qed.

Lemma accuracy_rel uc t0 t0' t1 t1' : same_characters t0 t0' -> more_marks t1 t1' ->
  orel rel (accuracy_data uc t0 t1) (accuracy_data uc t0' t1').
Proof.
  intros E0 E1. unfold accuracy_data. pose proof (more_values _ _ E1) as V1. unfold same_characters in V1. rewrite <- V1.
  pose proof E0 as V0. unfold same_characters in V0. rewrite <- V0.
  apply (orel_bind eq); [apply orel_refl; reflexivity|]. intros l l' <-. unfold process_synclist.
  eapply (orel_ofold eq); [apply Forall2_refl; reflexivity| |exact rel_empty].
  intros b b' it it' Hb <-. now apply process_item_rel.
Qed.

(** No marks at all. *)
Definition unmarked (t : list char) : list char := map (fun c => mkchar false (value c)) t.
Lemma unmarked_more t : more_marks (unmarked t) t.
Proof. unfold unmarked. induction t as [|c t IH]; constructor; [|exact IH]. cbn. split; [reflexivity|intros H; discriminate H]. Qed.
Lemma unmarked_same t t' : same_characters t t' -> unmarked t = unmarked t'.
Proof.
  unfold same_characters, unmarked. revert t'. induction t as [|c t IH]; intros [|c' t'] H; try discriminate H; [reflexivity|].
  cbn in H. injection H as H1 H2. cbn. rewrite H1. f_equal. now apply IH.
Qed.

Lemma same_but_trans d1 d2 d3 : same_but_marks d1 d2 -> same_but_marks d1 d3 -> same_but_marks d2 d3.
Proof.
  intros (A1 & A2 & A3 & A4 & A5 & A6 & A7 & A8) (B1 & B2 & B3 & B4 & B5 & B6 & B7 & B8). unfold same_but_marks.
  repeat (split; [first [congruence|intros k; rewrite <- A5; apply B5|intros k; rewrite <- A7; apply B7]|]). congruence.
Qed.

(** Marks in the correct text. *)
Lemma orel_eq {A} (o o' : outcome A) : orel eq o o' -> o = o'.
Proof. destruct o, o'; cbn; congruence || contradiction. Qed.
Lemma count_correct_eq matched cs cs' d : map value cs = map value cs' ->
  count_correct matched cs d = count_correct matched cs' d.
Proof.
  intros E. apply orel_eq. unfold count_correct.
  eapply (orel_ofold (fun c c' => value c = value c')); [now apply same_Forall2| |reflexivity].
  intros [[b ch] w] p c c' <- Hv. unfold count_correct_step. rewrite Hv.
  destruct (value c' =? REJECT); [cbn; auto|]. apply orel_refl. reflexivity.
Qed.
Lemma accuracy_correct uc t0 t0' t1 : same_characters t0 t0' -> accuracy_data uc t0 t1 = accuracy_data uc t0' t1.
Proof.
  intros E0. apply orel_eq. unfold accuracy_data. pose proof E0 as V0. unfold same_characters in V0. rewrite <- V0.
  apply (orel_bind eq); [apply orel_refl; reflexivity|]. intros l l' <-. unfold process_synclist.
  eapply (orel_ofold eq); [apply Forall2_refl; reflexivity| |reflexivity].
  intros b b' it it' <- <-. unfold process_item. destruct (isubs it) as [|s0 [|s1 ss]]; [reflexivity..|].
  eapply orel_bind; [apply (sub_chars_rel (fun c c' => value c = value c')); now apply same_Forall2|].
  intros cs0 cs0' F0. apply Forall2_same in F0. rewrite (count_correct_eq _ _ _ _ F0), F0. apply orel_refl. reflexivity.
Qed.

(** *** ngram *)
Definition ngram_rel (t t' : seqtable) : Prop :=
  Forall2 (fun e e' => fst e = fst e' /\ svalue (snd e) = svalue (snd e') /\ scount (snd e) = scount (snd e') /\
                       ssuspect (snd e) <= ssuspect (snd e')) (entries t) (entries t') /\
  total_count t = total_count t' /\ total_suspect t <= total_suspect t'.

Lemma sequence_at_rel uc n : forall l l' key v (s s' : bool), more_marks l l' -> (s = true -> s' = true) ->
  orel (fun r r' => match r, r' with
                    | None, None => True
                    | Some (k, v, s), Some (k', v', s') => k = k' /\ v = v' /\ (s = true -> s' = true)
                    | _, _ => False
                    end) (sequence_at uc n l key v s) (sequence_at uc n l' key v s').
Proof.
  induction n as [|n IH]; intros l l' key v s s' F H; [cbn; auto|]. cbn [sequence_at].
  destruct F as [|c c' l l' [H1 H2] F]; [exact I|]. rewrite H1.
  apply (orel_bind eq); [apply orel_refl; reflexivity|]. intros k k' <-. destruct (_ <=? _); [|reflexivity].
  apply IH; [exact F|]. rewrite !orb_true_iff. tauto.
Qed.

Lemma add_sequence_rel t t' key v (s s' : bool) : ngram_rel t t' -> (s = true -> s' = true) ->
  ngram_rel (add_sequence t key v s) (add_sequence t' key v s').
Proof.
  intros (F & C & U) H. assert (B : (if s then 1 else 0) <= (if s' then 1 else 0)).
  { destruct s; [rewrite (H eq_refl); lia|destruct s'; lia]. }
  unfold add_sequence, ngram_rel. cbn [entries total_count total_suspect]. split; [|split; lia].
  assert (E : existsb (has_key key) (entries t) = existsb (has_key key) (entries t')).
  { clear - F. induction F as [|e e' l l' (H1 & _) _ IH]; [reflexivity|]. cbn. unfold has_key at 1 3. rewrite H1, IH. reflexivity. }
  rewrite <- E. destruct (existsb _ _).
  - clear E. induction F as [|e e' l l' (H1 & H2 & H3 & H4) _ IH]; [constructor|]. cbn [map]. constructor; [|exact IH].
    replace (has_key key e) with (has_key key e') by (unfold has_key; now rewrite H1).
    destruct (has_key key e'); cbn; repeat split; try assumption; try lia.
  - apply Forall2_app; [exact F|]. constructor; [|constructor]. cbn. repeat split; lia.
Qed.

Lemma process_text_rel uc n l l' : more_marks l l' -> forall t t', ngram_rel t t' ->
  orel ngram_rel (process_text uc n t l) (process_text uc n t' l').
Proof.
  induction 1 as [|c c' l l' H F IH]; intros t t' R; [exact R|]. cbn [process_text].
  eapply orel_bind; [apply sequence_at_rel; [constructor; [exact H|exact F]|intros X; exact X]|].
  intros [[[k v] s]|] [[[k' v'] s']|] Q; try contradiction; [|exact R]. destruct Q as (<- & <- & Q).
  apply IH. now apply add_sequence_rel.
Qed.
