(** Word recognition: identifiers, common words and the final marks. *)
From Coq Require Import String.
From Verif Require Import Base CLib TextIO LcsModel LcsSpec LcsProof.
Local Open Scope Z_scope.
Local Open Scope list_scope.

(** ** The table of words *)

Definition keys (t : idtable) : list (list Z) := map fst t.

Lemma id_of_Some t w : forall i j, id_of t w i = Some j -> i <= j /\ znth (keys t) (j - i) = Some w.
Proof.
  induction t as [|[key fl] t IH]; intros i j H; cbn [id_of] in H; [discriminate|].
  destruct (streq key w) eqn:E.
  - injection H as <-. apply streq_spec in E. subst. rewrite Z.sub_diag. split; [lia|reflexivity].
  - apply IH in H. destruct H as [B H]. split; [lia|]. cbn [keys map fst].
    rewrite znth_cons_S by lia. now replace (j - i - 1) with (j - (i + 1)) by lia.
Qed.

Lemma id_of_None t w : forall i, id_of t w i = None -> ~ In w (keys t).
Proof.
  induction t as [|[key fl] t IH]; intros i H; cbn [id_of] in H; [now intros []|].
  destruct (streq key w) eqn:E; [discriminate|]. intros [Q|Q].
  - cbn in Q. apply streq_spec in Q. congruence.
  - exact (IH _ H Q).
Qed.

Definition flag (side : bool) (fl : bool * bool) : bool := if side then snd fl else fst fl.

(** The words [ws] of text number [side] and [os] of the other text have been entered. *)
Definition entered (side : bool) (t : idtable) (ws os : list (list Z)) : Prop :=
  NoDup (keys t) /\
  (forall i w fl, znth t i = Some (w, fl) ->
     (flag side fl = true <-> In w ws) /\ (flag (negb side) fl = true <-> In w os)) /\
  (forall w, In w ws \/ In w os -> In w (keys t)).
Definition numbered (t : idtable) (ws : list (list Z)) (ids : list Z) : Prop :=
  Forall2 (fun w i => znth (keys t) i = Some w) ws ids.

Lemma keys_znth t i w : znth (keys t) i = Some w -> exists fl, znth t i = Some (w, fl).
Proof.
  unfold keys. rewrite znth_map. destruct (znth t i) as [[w' fl]|]; [|discriminate].
  intros E. injection E as <-. now exists fl.
Qed.

Lemma numbered_more t t' r ws ids : keys t' = keys t ++ r -> numbered t ws ids -> numbered t' ws ids.
Proof.
  intros K. induction 1 as [|w i ws ids E _ IH]; constructor; [|exact IH].
  rewrite K, znth_app1; [exact E|]. apply znth_Some_lt in E. lia.
Qed.

Lemma NoDup_znth {T} (l : list T) i j x : NoDup l -> znth l i = Some x -> znth l j = Some x -> i = j.
Proof.
  intros N Ei Ej. pose proof (znth_Some_lt _ _ _ Ei). pose proof (znth_Some_lt _ _ _ Ej).
  unfold znth in *. destruct (Z.ltb_spec i 0), (Z.ltb_spec j 0); try lia.
  assert (Z.to_nat i = Z.to_nat j); [|lia].
  eapply NoDup_nth_error; [exact N| |congruence]. apply nth_error_Some. congruence.
Qed.

Lemma In_snoc {T} (x w : T) l : In x (l ++ [w]) <-> In x l \/ x = w.
Proof. rewrite in_app_iff. cbn. intuition. Qed.

(** One word, when its entry exists. *)
Lemma mark_entered side t ws os i w : entered side t ws os -> znth (keys t) i = Some w ->
  exists t', (let! e := rd "id" t i in wr "id" t i (fst e, mark_found side (snd e))) = Ok t' /\
    entered side t' (ws ++ [w]) os /\ keys t' = keys t.
Proof.
  intros (N & Fl & Al) Ei. destruct (keys_znth _ _ _ Ei) as (fl & Et).
  unfold rd. rewrite Et. cbn [obind fst snd]. unfold wr.
  destruct (zset_lt_Some t i (w, mark_found side fl) (znth_Some_lt _ _ _ Et)) as (t' & E').
  rewrite E'. exists t'. split; [reflexivity|].
  assert (keys t' = keys t) as K.
  { apply znth_ext; [unfold keys, zlen; rewrite !map_length; pose proof (zset_zlen _ _ _ _ E') as Q; unfold zlen in Q; lia|].
    intros j _. unfold keys. rewrite !znth_map, (zset_znth _ _ _ _ E').
    destruct (Z.eqb_spec j i) as [->|]; [now rewrite Et|reflexivity]. }
  split; [|exact K]. split; [now rewrite K|]. split.
  - intros j w' fl' Ej. rewrite (zset_znth _ _ _ _ E') in Ej. rewrite In_snoc.
    destruct (Z.eqb_spec j i) as [->|Nj].
    + injection Ej as <- <-. destruct (Fl i w fl Et) as [F0 F1]. split.
      * split; [auto|]. intros _. now destruct side.
      * rewrite <- F1. now destruct side.
    + destruct (Fl j w' fl' Ej) as [F0 F1]. split; [|exact F1]. rewrite F0. split; [auto|].
      intros [Q|Q]; [exact Q|]. subst w'. exfalso. apply Nj. apply (NoDup_znth (keys t) j i w N); [|exact Ei].
      unfold keys. rewrite znth_map, Ej. reflexivity.
  - intros w' [Q|Q]; rewrite K.
    + apply In_snoc in Q. destruct Q as [Q| ->]; [apply Al; auto|]. eapply znth_In; exact Ei.
    + apply Al. auto.
Qed.

Lemma setup_word_ok side t ids ws os w : entered side t ws os -> numbered t ws ids ->
  exists t' ids' r, setup_word side (t, ids) w = Ok (t', ids') /\ entered side t' (ws ++ [w]) os /\
    numbered t' (ws ++ [w]) ids' /\ keys t' = keys t ++ r.
Proof.
  intros En Nu. unfold setup_word. destruct (id_of t w 0) as [i|] eqn:E.
  - apply id_of_Some in E. destruct E as [B E]. rewrite Z.sub_0_r in E.
    destruct (mark_entered side t ws os i w En E) as (t' & Et & En' & K).
    exists t', (ids ++ [i]), []. split; [|split; [exact En'|split; [|now rewrite app_nil_r]]].
    + destruct (rd "id" t i) as [e| | |]; cbn [obind] in *; try discriminate. rewrite Et. reflexivity.
    + apply Forall2_app; [eapply numbered_more; [|exact Nu]; rewrite app_nil_r; exact K|].
      constructor; [now rewrite K|constructor].
  - apply id_of_None in E. destruct En as (N & Fl & Al).
    assert (keys (t ++ [(w, (false, false))]) = keys t ++ [w]) as K1 by (unfold keys; now rewrite map_app).
    assert (~ In w ws /\ ~ In w os) as [Nw No] by (split; intros Q; apply E, Al; auto).
    assert (entered side (t ++ [(w, (false, false))]) ws os) as En1.
    { split; [rewrite K1; apply NoDup_Add with (a := w) (l := keys t); [rewrite <- (app_nil_r (keys t)) at 1; apply Add_app|split; auto]|]. split.
      - intros i w' fl' Ei. destruct (Z_lt_ge_dec i (zlen t)).
        + rewrite znth_app1 in Ei by lia. exact (Fl i w' fl' Ei).
        + rewrite znth_app2 in Ei by lia. pose proof (znth_Some_lt _ _ _ Ei) as Bi. cbn in Bi.
          replace (i - zlen t) with 0 in Ei by lia. injection Ei as <- <-.
          destruct side; cbn; split; (split; [discriminate|tauto]).
      - intros w' Q. rewrite K1, in_app_iff. left. auto. }
    destruct (mark_entered side _ ws os (zlen t) w En1) as (t' & Et & En' & K).
    { rewrite K1. replace (zlen t) with (zlen (keys t)) by (unfold keys, zlen; now rewrite map_length).
      rewrite znth_app2, Z.sub_diag by lia. reflexivity. }
    exists t', (ids ++ [zlen t]), [w]. split; [|split; [exact En'|split; [|now rewrite K]]].
    + destruct (rd "id" (t ++ [(w, (false, false))]) (zlen t)) as [e| | |]; cbn [obind] in *; try discriminate.
      rewrite Et. reflexivity.
    + apply Forall2_app; [eapply numbered_more; [|exact Nu]; rewrite K; exact K1|].
      constructor; [|constructor]. rewrite K, K1.
      replace (zlen t) with (zlen (keys t)) by (unfold keys, zlen; now rewrite map_length).
      rewrite znth_app2, Z.sub_diag by lia. reflexivity.
Qed.

Lemma setup_words_ok side l : forall t ids ws os, entered side t ws os -> numbered t ws ids ->
  exists t' ids' r, ofold (setup_word side) l (t, ids) = Ok (t', ids') /\ entered side t' (ws ++ l) os /\
    numbered t' (ws ++ l) ids' /\ keys t' = keys t ++ r.
Proof.
  induction l as [|w l IH]; intros t ids ws os En Nu; cbn [ofold].
  - exists t, ids, []. rewrite !app_nil_r. auto.
  - destruct (setup_word_ok side t ids ws os w En Nu) as (t1 & ids1 & r1 & E1 & En1 & Nu1 & K1).
    rewrite E1. cbn [obind]. destruct (IH t1 ids1 (ws ++ [w]) os En1 Nu1) as (t2 & ids2 & r2 & E2 & En2 & Nu2 & K2).
    exists t2, ids2, (r1 ++ r2). rewrite <- app_assoc in En2, Nu2. split; [exact E2|]. split; [exact En2|].
    split; [exact Nu2|]. now rewrite K2, K1, app_assoc.
Qed.

(** ** The words common to both texts *)

(** The positions of the true flags. *)
Fixpoint positions (fl : list bool) (i : Z) : list Z :=
  match fl with
  | [] => []
  | f :: fl => if f then i :: positions fl (i + 1) else positions fl (i + 1)
  end.

Definition found_in (side : bool) (t : idtable) (id : Z) : bool :=
  match znth t id with Some e => if side then fst (snd e) else snd (snd e) | None => false end.

Lemma setup_array_from side t ids l : forall pre acc, ids = pre ++ l ->
  (forall i, In i l -> 0 <= i < zlen t) ->
  ofold (array_word side t ids) (zrange (zlen pre) (List.length l)) acc = Ok (acc ++ positions (map (found_in side t) l) (zlen pre)).
Proof.
  induction l as [|x l IH]; intros pre acc E B; cbn [List.length zrange ofold map positions].
  - now rewrite app_nil_r.
  - assert (znth ids (zlen pre) = Some x) as Ex by (subst ids; rewrite znth_app2, Z.sub_diag by lia; reflexivity).
    unfold array_word at 1. unfold rd at 1. rewrite Ex. cbn [obind].
    destruct (znth_lt_Some t x (B x (or_introl eq_refl))) as (e & Ee).
    unfold rd at 1. rewrite Ee. cbn [obind]. unfold found_in at 1. rewrite Ee.
    replace (zlen pre + 1) with (zlen (pre ++ [x])) by (rewrite zlen_app; reflexivity).
    rewrite (IH (pre ++ [x])); [|rewrite <- app_assoc; exact E|intros; apply B; now right].
    destruct (if side then _ else _); [|reflexivity]. now rewrite <- app_assoc.
Qed.

Lemma setup_array_ok side t ids : (forall i, In i ids -> 0 <= i < zlen t) ->
  setup_array side t ids = Ok (positions (map (found_in side t) ids) 0).
Proof. intros B. exact (setup_array_from side t ids ids [] [] eq_refl B). Qed.

Lemma read_at ids l : forall fl pre acc, ids = pre ++ l -> List.length fl = List.length l ->
  ofold (id_at ids) (positions fl (zlen pre)) acc
  = Ok (acc ++ select fl l).
Proof.
  induction l as [|x l IH]; intros [|f fl] pre acc E L; cbn [List.length] in L; try lia; cbn [positions select].
  - cbn. now rewrite app_nil_r.
  - assert (znth ids (zlen pre) = Some x) as Ex by (subst ids; rewrite znth_app2, Z.sub_diag by lia; reflexivity).
    replace (zlen pre + 1) with (zlen (pre ++ [x])) by (rewrite zlen_app; reflexivity).
    destruct f.
    + cbn [ofold]. unfold id_at at 1. unfold rd at 1. rewrite Ex. cbn [obind]. rewrite IH; [|rewrite <- app_assoc; exact E|lia].
      now rewrite <- app_assoc.
    + rewrite IH; [reflexivity|rewrite <- app_assoc; exact E|lia].
Qed.

Lemma select_filter {T} (P : T -> bool) l : select (map P l) l = filter P l.
Proof. induction l as [|x l IH]; cbn; [reflexivity|]. destruct (P x); now rewrite IH. Qed.

Lemma select_map {T U} (f : T -> U) fl : forall l, select fl (map f l) = map f (select fl l).
Proof. induction fl as [|[|] fl IH]; intros [|x l]; cbn; auto. now rewrite IH. Qed.

(** ** Marks *)

(** The marks [sel] of the selected elements, spread over all. *)
Fixpoint spread (fl sel : list bool) : list bool :=
  match fl with
  | [] => []
  | true :: fl => match sel with s :: sel => s :: spread fl sel | [] => false :: spread fl [] end
  | false :: fl => false :: spread fl sel
  end.

Lemma spread_length fl : forall sel, List.length (spread fl sel) = List.length fl.
Proof. induction fl as [|[|] fl IH]; intros [|s sel]; cbn; auto. Qed.

Lemma select_spread {T} fl : forall sel (l : list T), List.length fl = List.length l ->
  select (spread fl sel) l = select sel (select fl l).
Proof.
  induction fl as [|[|] fl IH]; intros sel [|x l] E; cbn in *; try lia.
  - now destruct sel as [|[|] sel].
  - destruct sel as [|[|] sel]; cbn; rewrite IH by lia; [now destruct (select fl l)|reflexivity..].
  - apply IH. lia.
Qed.

Lemma positions_range fl : forall b i q, znth (positions fl b) i = Some q -> b <= q < b + zlen fl.
Proof.
  induction fl as [|f fl IH]; intros b i q E; cbn [positions] in E.
  - apply znth_Some_lt in E. cbn in E. lia.
  - rewrite zlen_cons. pose proof (zlen_nonneg fl). destruct f.
    + pose proof (znth_Some_lt _ _ _ E). destruct (Z.eq_dec i 0) as [->|].
      * rewrite znth_cons_0 in E. injection E as <-. lia.
      * rewrite znth_cons_S in E by lia. apply IH in E. lia.
    + apply IH in E. lia.
Qed.

Lemma spread_true fl : forall sel b q, znth (spread fl sel) q = Some true <->
  exists i, znth sel i = Some true /\ znth (positions fl b) i = Some (q + b).
Proof.
  induction fl as [|f fl IH]; intros sel b q; cbn [positions].
  - split; [intros Q; apply znth_Some_lt in Q; cbn in Q; lia|].
    intros (i & _ & Q). apply znth_Some_lt in Q. cbn in Q. lia.
  - destruct (Z_lt_ge_dec q 0) as [Hq|Hq].
    { split; [intros Q; apply znth_Some_lt in Q; lia|]. intros (i & _ & Q).
      change (if f then b :: positions fl (b + 1) else positions fl (b + 1)) with (positions (f :: fl) b) in Q.
      apply positions_range in Q. lia. }
    destruct f.
    + destruct sel as [|s sel]; cbn [spread].
      * split.
        -- destruct (Z.eq_dec q 0) as [->|]; [rewrite znth_cons_0; discriminate|].
           rewrite znth_cons_S, (IH [] b) by lia. intros (i & Q & _). apply znth_Some_lt in Q. cbn in Q. lia.
        -- intros (i & Q & _). apply znth_Some_lt in Q. cbn in Q. lia.
      * destruct (Z.eq_dec q 0) as [->|Nq].
        -- rewrite znth_cons_0. split.
           ++ intros Q. exists 0. rewrite !znth_cons_0. split; [exact Q|]. f_equal; lia.
           ++ intros (i & Q & E). pose proof (znth_Some_lt _ _ _ E). destruct (Z.eq_dec i 0) as [->|].
              ** rewrite znth_cons_0 in Q. exact Q.
              ** rewrite znth_cons_S in E by lia. apply positions_range in E. lia.
        -- rewrite znth_cons_S, (IH sel (b + 1)) by lia. replace (q - 1 + (b + 1)) with (q + b) by lia. split.
           ++ intros (i & Q & E). exists (i + 1). pose proof (znth_Some_lt _ _ _ E).
              rewrite !znth_cons_S by lia. replace (i + 1 - 1) with i by lia. auto.
           ++ intros (i & Q & E). pose proof (znth_Some_lt _ _ _ E). destruct (Z.eq_dec i 0) as [->|].
              ** rewrite znth_cons_0 in E. injection E as E. lia.
              ** exists (i - 1). rewrite znth_cons_S in Q by lia; rewrite znth_cons_S in E by lia. auto.
    + cbn [spread]. destruct (Z.eq_dec q 0) as [->|Nq].
      * rewrite znth_cons_0. split; [discriminate|]. intros (i & _ & E). apply positions_range in E. lia.
      * rewrite znth_cons_S, (IH sel (b + 1)) by lia. replace (q - 1 + (b + 1)) with (q + b) by lia. reflexivity.
Qed.

Lemma marks_ext (x y : list bool) : List.length x = List.length y ->
  (forall q, znth x q = Some true <-> znth y q = Some true) -> x = y.
Proof.
  intros L H. apply znth_ext; [unfold zlen; lia|]. intros q _. specialize (H q).
  destruct (znth x q) as [[|]|] eqn:Ex, (znth y q) as [[|]|] eqn:Ey; auto; try (destruct H; intuition congruence); exfalso.
  - pose proof (znth_Some_lt _ _ _ Ex). destruct (znth_lt_Some y q) as (z & Ez); [unfold zlen in *; lia|congruence].
  - pose proof (znth_Some_lt _ _ _ Ey). destruct (znth_lt_Some x q) as (z & Ez); [unfold zlen in *; lia|congruence].
Qed.

(** ** Subsequences *)

Lemma subseq_refl {T} (l : list T) : subseq l l.
Proof. induction l; now constructor. Qed.

Lemma subseq_trans {T} (x y z : list T) : subseq x y -> subseq y z -> subseq x z.
Proof.
  intros H G. revert x H. induction G as [|e c l G IH|e c l G IH]; intros x H; auto.
  - inversion H; subst; constructor; auto.
  - constructor. auto.
Qed.

Lemma subseq_filter {T} (P : T -> bool) l : subseq (filter P l) l.
Proof. induction l as [|x l IH]; cbn; [constructor|]. destruct (P x); now constructor. Qed.

Lemma subseq_select {T} fl : forall l : list T, subseq (select fl l) l.
Proof. induction fl as [|[|] fl IH]; intros [|x l]; cbn; try constructor; auto; apply subseq_nil_l. Qed.

Lemma subseq_In {T} (c l : list T) x : subseq c l -> In x c -> In x l.
Proof. induction 1; cbn; [auto|intros [->|Q]; auto|auto]. Qed.

Lemma subseq_in_filter {T} (P : T -> bool) c l : subseq c l -> (forall x, In x c -> P x = true) -> subseq c (filter P l).
Proof.
  induction 1 as [|x c l H IH|x c l H IH]; intros A; cbn.
  - constructor.
  - rewrite (A x (or_introl eq_refl)). constructor. apply IH. intros; apply A; now right.
  - destruct (P x); [constructor|]; auto.
Qed.

Lemma subseq_map {T U} (f : T -> U) c l : subseq c l -> subseq (map f c) (map f l).
Proof. induction 1; cbn; now constructor. Qed.

Lemma subseq_unmap {T U} (f : T -> U) l : forall c, subseq c (map f l) -> exists d, c = map f d /\ subseq d l.
Proof.
  induction l as [|x l IH]; intros c H; cbn in H; inversion H as [|y c' l' S|y c' l' S]; subst.
  - exists []. split; [reflexivity|constructor].
  - destruct (IH _ S) as (d & -> & Sd). exists (x :: d). split; [reflexivity|now constructor].
  - destruct (IH _ S) as (d & -> & Sd). exists d. split; [reflexivity|now constructor].
Qed.

Lemma map_inj_on {T U} (f : T -> U) (P : T -> Prop) : (forall x y, P x -> P y -> f x = f y -> x = y) ->
  forall l l', Forall P l -> Forall P l' -> map f l = map f l' -> l = l'.
Proof.
  intros I. induction l as [|x l IH]; intros [|y l'] F F' E; cbn in E; try discriminate; [reflexivity|].
  inversion F; inversion F'; subst. injection E as E0 E1. f_equal; [now apply I|now apply IH].
Qed.

(** ** Recognition *)

Definition common (l l' : list (list Z)) : list (list Z) :=
  filter (fun w => existsb (streq w) l') l.

Lemma existsb_streq w l : existsb (streq w) l = true <-> In w l.
Proof.
  rewrite existsb_exists. split.
  - intros (x & I & E). apply streq_spec in E. now subst.
  - intros I. exists w. split; [exact I|]. now apply streq_spec.
Qed.

Lemma positions_count fl : forall b, zlen (positions fl b) = zlen (select fl fl).
Proof.
  induction fl as [|[|] fl IH]; intros b; cbn [positions select]; [reflexivity| |apply IH].
  now rewrite !zlen_cons, (IH (b + 1)).
Qed.

Lemma select_count {T} fl : forall l : list T, List.length fl = List.length l -> zlen (select fl l) = zlen (select fl fl).
Proof.
  induction fl as [|[|] fl IH]; intros [|x l] E; cbn [List.length] in E; try lia; cbn [select]; [reflexivity| |apply IH; lia].
  rewrite !zlen_cons, (IH l) by lia. reflexivity.
Qed.

Theorem recognize_ok w0 w1 :
  (65535 < zlen (common w0 w1) -> recognize w0 w1 = Fail "text stream is too long") /\
  (zlen (common w0 w1) <= 65535 -> exists marks, recognize w0 w1 = Ok marks /\ lcs_marks marks w0 w1).
Proof.
  unfold recognize.
  destruct (setup_words_ok false w0 [] [] [] []) as (t0 & ids0 & r0 & E0 & En0 & Nu0 & K0).
  { split; [constructor|]. split; [intros i w fl E; apply znth_Some_lt in E; cbn in E; lia|]. intros w [[]|[]]. }
  { constructor. }
  unfold idtable in *. rewrite E0. cbn [obind app] in *.
  assert (entered true t0 [] w0) as En0'.
  { destruct En0 as (N & Fl & Al). split; [exact N|]. split.
    - intros i w fl E. destruct (Fl i w fl E). cbn [negb] in *. auto.
    - intros w Q. apply Al. tauto. }
  destruct (setup_words_ok true w1 t0 [] [] w0 En0') as (t & ids1 & r1 & E1 & En1 & Nu1 & K1); [constructor|].
  unfold idtable in *. rewrite E1. cbn [obind app] in *.
  pose proof (numbered_more _ _ _ _ _ K1 Nu0) as Nu0'.
  destruct En1 as (N & Fl & _). cbn [negb flag] in Fl.
  set (kf := fun i => match znth (keys t) i with Some w => w | None => [] end).
  assert (forall ws ids, numbered t ws ids -> ws = map kf ids /\ Forall (fun i => 0 <= i < zlen t) ids) as NK.
  { intros ws ids. induction 1 as [|w i ws ids E _ [IH0 IH1]]; [split; constructor|]. split.
    - cbn [map]. unfold kf at 1. rewrite E. now f_equal.
    - constructor; [|exact IH1]. apply znth_Some_lt in E. unfold keys, zlen in *. rewrite map_length in E. lia. }
  destruct (NK _ _ Nu0') as [W0 B0]. destruct (NK _ _ Nu1) as [W1 B1].
  assert (forall x y, 0 <= x < zlen t -> 0 <= y < zlen t -> kf x = kf y -> x = y) as INJ.
  { intros x y Hx Hy E. assert (zlen (keys t) = zlen t) as Lk by (unfold keys, zlen; now rewrite map_length).
    destruct (znth_lt_Some (keys t) x ltac:(lia)) as (wx & Ex). destruct (znth_lt_Some (keys t) y ltac:(lia)) as (wy & Ey).
    unfold kf in E. rewrite Ex, Ey in E. subst wy. exact (NoDup_znth _ _ _ _ N Ex Ey). }
  assert (forall i, 0 <= i < zlen t -> found_in false t i = existsb (streq (kf i)) w1 /\
                                       found_in true t i = existsb (streq (kf i)) w0) as FI.
  { intros i Hi. destruct (znth_lt_Some t i Hi) as ([w fl] & E). unfold found_in, kf, keys. rewrite znth_map, E. cbn [option_map fst snd].
    destruct (Fl i w fl E) as [F1 F0]. rewrite <- existsb_streq in F1, F0.
    split; apply eq_true_iff_eq; assumption. }
  rewrite Forall_forall in B0, B1.
  rewrite setup_array_ok by exact B0. cbn [obind].
  assert (filter (found_in false t) ids0 = filter (fun i => existsb (streq (kf i)) w1) ids0) as Fa
    by (apply filter_ext_in; intros i Hi; apply FI, B0, Hi).
  assert (filter (found_in true t) ids1 = filter (fun i => existsb (streq (kf i)) w0) ids1) as Fb
    by (apply filter_ext_in; intros i Hi; apply FI, B1, Hi).
  assert (forall (P : list Z -> bool) ids, map kf (filter (fun i => P (kf i)) ids) = filter P (map kf ids)) as MF.
  { intros P ids. induction ids as [|x ids IH]; cbn; [reflexivity|]. destruct (P (kf x)); cbn; now rewrite IH. }
  assert (map kf (filter (found_in false t) ids0) = common w0 w1) as Ca.
  { rewrite Fa, (MF (fun w => existsb (streq w) w1)). now rewrite <- W0. }
  assert (map kf (filter (found_in true t) ids1) = common w1 w0) as Cb.
  { rewrite Fb, (MF (fun w => existsb (streq w) w0)). now rewrite <- W1. }
  set (fl0 := map (found_in false t) ids0). set (fl1 := map (found_in true t) ids1).
  assert (zlen (positions fl0 0) = zlen (common w0 w1)) as Lp.
  { rewrite positions_count, <- (select_count fl0 ids0) by apply map_length. unfold fl0. rewrite select_filter, <- Ca.
    unfold zlen. now rewrite map_length. }
  rewrite Lp. split; intros Len.
  { destruct (Z.ltb_spec 65535 (zlen (common w0 w1))); [reflexivity|lia]. }
  destruct (Z.ltb_spec 65535 (zlen (common w0 w1))); [lia|].
  rewrite setup_array_ok by exact B1. cbn [obind]. fold fl1.
  pose proof (read_at ids0 ids0 fl0 [] [] eq_refl (map_length _ _)) as R0. change (zlen (@nil Z)) with 0 in R0.
  rewrite R0. clear R0. cbn [obind app].
  pose proof (read_at ids1 ids1 fl1 [] [] eq_refl (map_length _ _)) as R1. change (zlen (@nil Z)) with 0 in R1.
  rewrite R1. clear R1. cbn [obind app].
  assert (select fl0 ids0 = filter (found_in false t) ids0) as S0 by apply select_filter.
  assert (select fl1 ids1 = filter (found_in true t) ids1) as S1 by apply select_filter.
  set (a := select fl0 ids0) in *. set (b := select fl1 ids1) in *.
  assert (zlen a = zlen (common w0 w1)) as La by (rewrite S0, <- Ca; unfold zlen; now rewrite map_length).
  destruct (compute_pathlist_ok a b ltac:(lia)) as (l & p & f & L & U & El & Ch & O & C & Min).
  rewrite El. cbn [obind].
  assert (List.length w0 = List.length ids0) as Lw by (rewrite W0; apply map_length).
  destruct (obtain_ok a b (positions fl0 0) l p f L U Ch ltac:(lia) (zlen b - zlen a) (zlen a)
              (repeat false (List.length w0)) O C) as (sel & marks & (Sl & Ss & Sc) & Eo & Lm & Mm).
  { intros i q E. apply positions_range in E. rewrite repeat_zlen. unfold zlen, fl0 in E. rewrite map_length in E. lia. }
  exists marks. split; [exact Eo|].
  replace (zlen a + (zlen b - zlen a)) with (zlen b) in Ss by lia. rewrite !tk_all in *.
  assert (marks = spread fl0 sel) as ->.
  { apply marks_ext.
    - rewrite spread_length. unfold fl0. rewrite map_length. rewrite repeat_zlen in Lm. unfold zlen in Lm. lia.
    - intros q. rewrite Mm, (spread_true fl0 sel 0 q), Z.add_0_r. split; [|auto].
      intros [Q|Q]; [|exact Q]. exfalso. unfold znth in Q. destruct (q <? 0); [discriminate|].
      apply nth_error_In, repeat_spec in Q. discriminate. }
  assert (select (spread fl0 sel) w0 = map kf (select sel a)) as Sw.
  { rewrite select_spread by (unfold fl0; rewrite map_length; lia). unfold a. now rewrite W0, !select_map. }
  split; [|split].
  - rewrite spread_length. unfold fl0. now rewrite map_length.
  - rewrite Sw. apply (subseq_map kf) in Ss. eapply subseq_trans; [exact Ss|].
    rewrite W1. apply subseq_map. apply subseq_select.
  - intros c c0 c1. rewrite Sw. unfold zlen at 2. rewrite map_length. fold (zlen (select sel a)).
    assert (subseq c (map kf a)) as Q0.
    { rewrite S0, Ca. apply subseq_in_filter; [exact c0|]. intros x Hx. apply existsb_streq. exact (subseq_In _ _ _ c1 Hx). }
    assert (subseq c (map kf b)) as Q1.
    { rewrite S1, Cb. apply subseq_in_filter; [exact c1|]. intros x Hx. apply existsb_streq. exact (subseq_In _ _ _ c0 Hx). }
    apply subseq_unmap in Q0, Q1. destruct Q0 as (d & -> & D0). destruct Q1 as (d' & Ed & D1).
    assert (d = d') as <-.
    { apply (map_inj_on kf (fun i => 0 <= i < zlen t)); [exact INJ| | |exact Ed]; apply Forall_forall; intros x Hx.
      - apply B0. apply (subseq_In _ _ _ D0) in Hx. exact (subseq_In _ _ _ (subseq_select fl0 ids0) Hx).
      - apply B1. apply (subseq_In _ _ _ D1) in Hx. exact (subseq_In _ _ _ (subseq_select fl1 ids1) Hx). }
    pose proof (Min _ (reach_all a b d D0 D1)). unfold zlen at 1. rewrite map_length. fold (zlen d). lia.
Qed.
