(** Proofs about MemTextModel. *)
From Coq Require Import String.
From Verif Require Import Base CLib ListModel ListSpec ListProof Utf8Model TextModel MemTextModel MemTextSpec.
Local Open Scope Z_scope.
Local Open Scope list_scope.

Lemma access_ok m a : a <> NULL -> live m a = true -> access m a = Ok tt.
Proof. intros N L. unfold access. rewrite eqb_NULL_neq by exact N. now rewrite L. Qed.
Lemma touch_ok m a : (a <> NULL -> live m a = true) -> touch m a = Ok tt.
Proof. intros L. unfold touch. destruct (Z.eqb_spec a NULL); [reflexivity|]. apply access_ok; auto. Qed.

Lemma lastd_in p xs : lastd p xs = p \/ In (lastd p xs) xs.
Proof.
  revert p. induction xs as [|x xs IH]; intros p; [now left|]. right. rewrite lastd_cons. destruct (IH x) as [->|I]; [now left|now right].
Qed.
Lemma hd_in {A} (d : A) xs : hd d xs = d \/ In (hd d xs) xs.
Proof. destruct xs; [now left|right; now left]. Qed.

Lemma inv_real l h xs a : inv l h xs -> In a xs -> a <> NULL.
Proof. intros I. apply dlseg_nonnull with (h := h) (p := NULL) (q := NULL). apply I. Qed.

(** An item in a list, and its neighbours. *)
Lemma inv_item l h xs x ys : inv l h (xs ++ x :: ys) -> x <> NULL /\ h x = mknode (lastd NULL xs) (hd NULL ys).
Proof.
  intros I. pose proof (inv_seg _ _ _ I) as S. apply dlseg_app in S as [_ S]. cbn [dlseg] in S. destruct S as (N & E & _). auto.
Qed.

(** The operations on texts leave words and strings. *)
Definition same_words (m m' : memory) : Prop := words m' = words m /\ bytes m' = bytes m.
Lemma same_words_trans a b c : same_words a b -> same_words b c -> same_words a c.
Proof. intros [A B] [C D]. split; congruence. Qed.
Lemma remove_item_words l m a l' m' : remove_item l m a = Ok (l', m') -> same_words m m'.
Proof.
  unfold remove_item. destruct (access m a); cbn [obind]; intros E; try discriminate E.
  destruct (touch m (prev (links m a))); cbn [obind] in E; try discriminate E.
  destruct (touch m (next (links m a))); cbn [obind] in E; try discriminate E.
  destruct (list_remove l (links m) a) as [[l2 h]| | |]; cbn [obind] in E; try discriminate E. injection E as <- <-. now split.
Qed.
Lemma insert_last_words l m a l' m' : insert_last l m a = Ok (l', m') -> same_words m m'.
Proof.
  unfold insert_last. destruct (access m a); cbn [obind]; intros E; try discriminate E.
  destruct (touch m (last l)); cbn [obind] in E; try discriminate E.
  destruct (list_insert_last l (links m) a) as [[l2 h]| | |]; cbn [obind] in E; try discriminate E. injection E as <- <-. now split.
Qed.
Lemma free_block_words m a m' : free_block m a = Ok m' -> same_words m m'.
Proof. unfold free_block. destruct (access m a); cbn [obind]; intros E; try discriminate E. injection E as <-. now split. Qed.
Lemma blank_chars_words uc fuel : forall m c m', blank_chars uc fuel m c = Ok m' -> same_words m m'.
Proof.
  induction fuel as [|fu IH]; intros m c m'; cbn [blank_chars]; (destruct (c =? NULL); [intros E; injection E as <-; now split|]); [intros E; discriminate E|].
  destruct (access m c); cbn [obind]; intros E; try discriminate E. apply IH in E. eapply same_words_trans; [|exact E].
  destruct (is_blank uc (value (chars m c))); now split.
Qed.
Lemma lower_chars_words uc fuel : forall m c m', lower_chars uc fuel m c = Ok m' -> same_words m m'.
Proof.
  induction fuel as [|fu IH]; intros m c m'; cbn [lower_chars]; (destruct (c =? NULL); [intros E; injection E as <-; now split|]); [intros E; discriminate E|].
  destruct (access m c); cbn [obind]; intros E; try discriminate E. apply IH in E. eapply same_words_trans; [|exact E]. now split.
Qed.
Lemma compress_items_words fuel : forall found l m c l' m', compress_items fuel found l m c = Ok (l', m') -> same_words m m'.
Proof.
  induction fuel as [|fu IH]; intros found l m c l' m'; cbn [compress_items]; (destruct (c =? NULL); [intros E; injection E as <- <-; now split|]); [intros E; discriminate E|].
  intros E. repeat match type of E with obind (access ?a ?b) _ = _ => destruct (access a b); cbn [obind] in E; try discriminate E end.
  match type of E with obind ?e _ = _ => destruct e as [rm| | |]; cbn [obind] in E; try discriminate E end.
  destruct rm; [|now apply IH in E].
  match type of E with obind ?e _ = _ => assert (W : forall m1, e = Ok m1 -> same_words m m1); [|destruct e as [m1| | |]; cbn [obind] in E; try discriminate E] end.
  { intros m1. destruct (found && negb (next (links m c) =? NULL)); [|intros Q; injection Q as <-; now split].
    destruct (access m (next (links m c))); cbn [obind]; intros Q; try discriminate Q.
    destruct (value (chars m (next (links m c))) =? BLANK); injection Q as <-; now split. }
  specialize (W _ eq_refl).
  destruct (remove_item l m1 c) as [[l2 m2]| | |] eqn:R; cbn [obind] in E; try discriminate E. apply remove_item_words in R.
  destruct (free_block m2 c) as [m3| | |] eqn:F; cbn [obind] in E; try discriminate E. apply free_block_words in F. apply IH in E.
  eapply same_words_trans; [exact W|]. eapply same_words_trans; [exact R|]. eapply same_words_trans; [exact F|exact E].
Qed.
Lemma free_text_words fuel : forall l m l' m', free_text fuel l m = Ok (l', m') -> same_words m m'.
Proof.
  induction fuel as [|fu IH]; intros l m l' m'; cbn [free_text]; (destruct (first l =? NULL); [intros E; injection E as <- <-; now split|]); [intros E; discriminate E|].
  intros E. destruct (remove_item l m (first l)) as [[l2 m2]| | |] eqn:R; cbn [obind] in E; try discriminate E. apply remove_item_words in R.
  destruct (free_block m2 (first l)) as [m3| | |] eqn:F; cbn [obind] in E; try discriminate E. apply free_block_words in F. apply IH in E.
  eapply same_words_trans; [exact R|]. eapply same_words_trans; [exact F|exact E].
Qed.

Section Proof.
Variable alloc : (addr -> bool) -> Z -> addr.
Hypothesis sound : sound_allocator alloc.
Variable uc : unicode_data.

Lemma remove_item_ok l m xs x ys : inv l (links m) (xs ++ x :: ys) -> Forall (fun a => live m a = true) (xs ++ x :: ys) ->
  exists l' m', remove_item l m x = Ok (l', m') /\ inv l' (links m') (xs ++ ys) /\ chars m' = chars m /\ live m' = live m /\
    forall a, ~ In a (xs ++ x :: ys) -> links m' a = links m a.
Proof.
  intros I L. rewrite Forall_forall in L. destruct (inv_item _ _ _ _ _ I) as [N E]. unfold remove_item.
  rewrite access_ok by (try exact N; apply L; apply in_or_app; right; now left). cbn [obind]. rewrite E. cbn [prev next].
  rewrite touch_ok.
  2:{ intros Nn. apply L. apply in_or_app. left. destruct (lastd_in NULL xs) as [Q|Q]; [congruence|exact Q]. }
  cbn [obind]. rewrite touch_ok.
  2:{ intros Nn. apply L. apply in_or_app. right. right. destruct (hd_in NULL ys) as [Q|Q]; [congruence|exact Q]. }
  cbn [obind]. destruct (list_remove_spec l (links m) xs x ys I) as (l' & h' & Er & I' & _ & F & _). rewrite Er. cbn [obind].
  do 2 eexists. split; [reflexivity|]. cbn [links chars live]. auto.
Qed.

Lemma append_char_ok l m xs c : inv l (links m) xs -> Forall (fun a => live m a = true) xs ->
  append_char alloc (l, m) c = Fail "unable to allocate memory" \/
  exists l' m' e, append_char alloc (l, m) c = Ok (l', m') /\ inv l' (links m') (xs ++ [e]) /\ live m e = false /\
    live m' = upd (live m) e true /\ chars m' = upd (upd (chars m) e (mkchar false 0)) e c /\
    words m' = upd (words m) e NULL /\ bytes m' = bytes m /\
    forall a, ~ In a (e :: xs) -> links m' a = links m a.
Proof.
  intros I L. unfold append_char, new_block. set (e := alloc (live m) (calls m)).
  destruct (Z.eqb_spec e NULL) as [E|N]; [now left|]. right. cbn [obind].
  destruct (sound (live m) (calls m)) as [X|Fr]; [contradiction|]. fold e in Fr.
  unfold insert_last, set_char. cbn [links chars live calls].
  rewrite access_ok by (try exact N; apply upd_same). cbn [obind].
  rewrite Forall_forall in L.
  assert (Ne : ~ In e xs) by (intros H; apply L in H; congruence).
  rewrite touch_ok.
  2:{ intros Nl. cbn [live]. rewrite (inv_last _ _ _ I) in Nl |- *. destruct (lastd_in NULL xs) as [Q|Q]; [congruence|].
      unfold upd. destruct (lastd NULL xs =? e); [reflexivity|]. now apply L. }
  cbn [obind]. unfold list_insert_last. rewrite (inv_last _ _ _ I).
  assert (I1 : inv l (upd (links m) e (mknode NULL NULL)) (xs ++ [])).
  { rewrite app_nil_r. destruct I as [A B C D E F]. constructor; try assumption. now apply dlseg_upd_notin. }
  destruct (list_insert_spec l _ xs [] e I1 N) as (l' & h' & Ei & I' & _ & F); [now rewrite app_nil_r|].
  cbn [hd] in Ei. rewrite Ei. cbn [obind]. do 2 eexists. exists e. split; [reflexivity|]. cbn [links chars live].
  split; [exact I'|]. split; [exact Fr|]. split; [reflexivity|]. split; [reflexivity|]. split; [reflexivity|]. split; [reflexivity|].
  intros a Na. rewrite F by (rewrite app_nil_r; exact Na). apply upd_other. intros ->. apply Na. now left.
Qed.

(** Reading: the new items, which were not in use, and the rest of the memory. *)
Definition extends (xs new : list addr) (m m' : memory) : Prop :=
  (forall a, live m' a = true <-> live m a = true \/ In a new) /\
  (forall a, In a new -> live m a = false) /\
  (forall a, live m a = true -> chars m' a = chars m a) /\
  (forall a, live m a = true -> ~ In a xs -> links m' a = links m a) /\
  (forall a, live m a = true -> words m' a = words m a /\ bytes m' a = bytes m a).

Lemma append_chars_ok cs : forall l m xs, inv l (links m) xs -> Forall (fun a => live m a = true) xs ->
  ofold (append_char alloc) cs (l, m) = Fail "unable to allocate memory" \/
  exists l' m' new, ofold (append_char alloc) cs (l, m) = Ok (l', m') /\ inv l' (links m') (xs ++ new) /\
    map (chars m') new = cs /\ extends xs new m m'.
Proof.
  induction cs as [|c cs IH]; intros l m xs I L.
  - right. exists l, m, []. rewrite app_nil_r. unfold extends. cbn [In]. split; [reflexivity|]. split; [exact I|]. split; [reflexivity|]. intuition.
  - cbn [ofold]. destruct (append_char_ok l m xs c I L) as [->|(l1 & m1 & e & -> & I1 & Fr & L1 & C1 & W1 & B1 & K1)]; [now left|].
    cbn [obind].
    assert (Le : forall a, live m1 a = true <-> live m a = true \/ a = e).
    { intros a. rewrite L1. unfold upd. destruct (Z.eqb_spec a e) as [->|]; [tauto|]. split; [tauto|]. intros [|]; [assumption|contradiction]. }
    destruct (IH l1 m1 (xs ++ [e]) I1) as [->|(l2 & m2 & new & -> & I2 & M2 & X1 & X2 & X3 & X4 & X5)].
    { rewrite Forall_forall in L |- *. intros a Ha. apply Le. apply in_app_iff in Ha as [Ha|[<-|[]]]; auto. }
    { now left. }
    right. exists l2, m2, (e :: new). split; [reflexivity|]. rewrite <- app_assoc in I2. split; [exact I2|].
    split.
    { cbn [map]. f_equal; [|exact M2]. rewrite X3 by (apply Le; now right). rewrite C1. apply upd_same. }
    split; [|split; [|split; [|split]]].
    + intros a. rewrite X1, Le. cbn [In]. intuition.
    + intros a [<-|Ha]; [exact Fr|]. apply X2 in Ha. destruct (live m a) eqn:E; [|reflexivity].
      rewrite (proj2 (Le a)) in Ha by auto. discriminate Ha.
    + intros a Ha. rewrite X3 by (apply Le; auto). rewrite C1. rewrite !upd_other; [reflexivity| |]; intros ->; congruence.
    + intros a Ha Na. assert (a <> e) by (intros ->; congruence).
      rewrite X4; [apply K1; cbn; intuition|apply Le; auto|rewrite in_app_iff; cbn; intuition].
    + intros a Ha. assert (a <> e) by (intros ->; congruence). destruct (X5 a) as [-> ->]; [apply Le; auto|]. rewrite W1, B1. now rewrite upd_other.
Qed.

(** The loops that change characters in place. *)
Lemma each_char (loop : nat -> memory -> addr -> outcome memory) (step : memory -> addr -> memory) (f : char -> char) :
  (forall fuel m c, loop fuel m c = if c =? NULL then Ok m else match fuel with
     | O => OutOfFuel
     | S fu => let! _ := access m c in loop fu (step m c) (next (links (step m c) c)) end) ->
  (forall m c, links (step m c) = links m /\ live (step m c) = live m /\ chars (step m c) c = f (chars m c) /\
     forall a, a <> c -> chars (step m c) a = chars m a) ->
  forall rest ps l m fuel, inv l (links m) (ps ++ rest) -> Forall (fun a => live m a = true) rest -> (List.length rest <= fuel)%nat ->
  exists m', loop fuel m (hd NULL rest) = Ok m' /\ links m' = links m /\ live m' = live m /\
    map (chars m') rest = map f (map (chars m) rest) /\ forall a, ~ In a rest -> chars m' a = chars m a.
Proof.
  intros Eq St. induction rest as [|x rest IH]; intros ps l m fuel I L Fu.
  - exists m. rewrite Eq. split; [reflexivity|]. auto.
  - destruct fuel as [|fu]; [cbn in Fu; lia|]. cbn [hd]. rewrite Eq. destruct (inv_item _ _ _ _ _ I) as [N E].
    rewrite eqb_NULL_neq by exact N. inversion L as [|? ? Lx L']; subst. rewrite access_ok by assumption. cbn [obind].
    destruct (St m x) as (S1 & S2 & S3 & S4). rewrite S1, E. cbn [next].
    destruct (IH (ps ++ [x]) l (step m x) fu) as (m' & -> & K & V & C & O).
    { rewrite <- app_assoc, S1. exact I. }
    { rewrite S2. exact L'. }
    { cbn in Fu. lia. }
    pose proof (inv_nodup _ _ _ I) as Nd. apply NoDup_remove_2 in Nd. rewrite in_app_iff in Nd.
    exists m'. split; [reflexivity|]. split; [congruence|]. split; [congruence|]. split.
    + cbn [map]. f_equal; [rewrite O by tauto; exact S3|].
      rewrite C. f_equal. apply map_ext_in. intros a Ha. apply S4. intros ->. tauto.
    + intros a Na. rewrite O by (intros H; apply Na; now right). apply S4. intros ->. apply Na. now left.
Qed.

Lemma blank_chars_ok rest ps l m fuel : inv l (links m) (ps ++ rest) -> Forall (fun a => live m a = true) rest -> (List.length rest <= fuel)%nat ->
  exists m', blank_chars uc fuel m (hd NULL rest) = Ok m' /\ links m' = links m /\ live m' = live m /\
    map (chars m') rest = blanks_to_blank uc (map (chars m) rest) /\ forall a, ~ In a rest -> chars m' a = chars m a.
Proof.
  apply (each_char (blank_chars uc) (fun m c => if is_blank uc (value (chars m c)) then set_char m c (mkchar (suspect (chars m c)) BLANK) else m)
    (fun c => if is_blank uc (value c) then mkchar (suspect c) BLANK else c)).
  - intros [|fu] m' c; reflexivity.
  - intros m' c. destruct (is_blank uc (value (chars m' c))); [|auto]. unfold set_char. cbn [links live chars].
    split; [reflexivity|]. split; [reflexivity|]. split; [apply upd_same|]. intros a Na. now apply upd_other.
Qed.
Lemma lower_chars_ok rest ps l m fuel : inv l (links m) (ps ++ rest) -> Forall (fun a => live m a = true) rest -> (List.length rest <= fuel)%nat ->
  exists m', lower_chars uc fuel m (hd NULL rest) = Ok m' /\ links m' = links m /\ live m' = live m /\
    map (chars m') rest = map (fun c => mkchar (suspect c) (tolower uc (value c))) (map (chars m) rest) /\ forall a, ~ In a rest -> chars m' a = chars m a.
Proof.
  apply (each_char (lower_chars uc) (fun m c => set_char m c (mkchar (suspect (chars m c)) (tolower uc (value (chars m c)))))).
  - intros [|fu] m' c; reflexivity.
  - intros m' c. unfold set_char. cbn [links live chars].
    split; [reflexivity|]. split; [reflexivity|]. split; [apply upd_same|]. intros a Na. now apply upd_other.
Qed.

(** compress_spacing.  [ps] are the items before [c], [rest] those from [c] on. *)
Lemma compress_ok : forall n rest, List.length rest = n -> forall ps l m found fuel fuel', inv l (links m) (ps ++ rest) -> Forall (fun a => live m a = true) (ps ++ rest) ->
  (List.length rest <= fuel)%nat -> (List.length rest <= fuel')%nat ->
  exists l' m' kept t, compress_items fuel found l m (hd NULL rest) = Ok (l', m') /\
    compress_loop fuel' found (map (chars m) rest) = Ok t /\
    inv l' (links m') (ps ++ kept) /\ map (chars m') kept = t /\
    (forall a, In a kept -> In a rest) /\
    (forall a, live m' a = true <-> live m a = true /\ (In a rest -> In a kept)) /\
    (forall a, ~ In a rest -> chars m' a = chars m a) /\
    (forall a, ~ In a (ps ++ rest) -> links m' a = links m a).
Proof.
  induction n as [|n IH]; intros rest Len ps l m found fuel fuel' I L Fu Fu'.
  - destruct rest; [|discriminate Len]. exists l, m, [], []. destruct fuel, fuel'; (split; [reflexivity|]); (split; [reflexivity|]); cbn [In]; intuition.
  - destruct rest as [|x rest]; [discriminate Len|]. injection Len as Len. cbn [List.length] in Fu, Fu'.
    destruct fuel as [|fu]; [lia|]. destruct fuel' as [|fu']; [lia|].
    destruct (inv_item _ _ _ _ _ I) as [N E]. rewrite Forall_forall in L.
    assert (Lx : live m x = true) by (apply L; apply in_or_app; right; now left).
    pose proof (inv_nodup _ _ _ I) as Nd0. pose proof (NoDup_remove_2 _ _ _ Nd0) as Nd. rewrite in_app_iff in Nd.
    assert (Real : forall a, In a rest -> a <> NULL) by (intros a Ha; eapply inv_real; [exact I|]; apply in_or_app; right; now right).
    cbn [hd compress_items]. rewrite eqb_NULL_neq by exact N. rewrite access_ok by assumption. cbn [obind]. rewrite E. cbn [next].
    cbn [map].
    set (v := value (chars m x)).
    (* the decision *)
    set (next_is := fun w => match map (chars m) rest with c :: _ => value c =? w | [] => false end).
    set (no_next := match map (chars m) rest with [] => true | _ => false end).
    set (dec := ((v =? BLANK) && (negb found || no_next || next_is BLANK || next_is NEWLINE)) || ((v =? NEWLINE) && negb found)).
    assert (Hdec : (if (v =? BLANK) && negb found then Ok true
           else if (v =? BLANK) && (hd NULL rest =? NULL) then Ok true
           else
             obind (if v =? BLANK then obind (access m (hd NULL rest)) (fun _ => Ok (value (chars m (hd NULL rest)))) else Ok 0) (fun w =>
             Ok (((v =? BLANK) && ((w =? BLANK) || (w =? NEWLINE))) || ((v =? NEWLINE) && negb found)))) = Ok dec).
    { unfold dec, next_is, no_next. destruct (Z.eqb_spec v BLANK) as [Ev|Nv]; cbn [andb orb].
      - destruct found; cbn [negb andb orb]; [|reflexivity]. destruct rest as [|y rest]; [reflexivity|]. cbn [hd map].
        rewrite eqb_NULL_neq by (apply Real; now left). cbn [andb].
        rewrite access_ok by (try (apply Real; now left); apply L; apply in_or_app; right; right; now left). cbn [obind].
        now rewrite !andb_false_r, !orb_false_r.
      - reflexivity. }
    rewrite Hdec. cbn [obind]. clear Hdec.
    assert (Hl : compress_loop (S fu') found (chars m x :: map (chars m) rest) =
      if dec then compress_loop fu' found (if found && negb no_next && next_is BLANK then or_suspect (suspect (chars m x)) (map (chars m) rest) else map (chars m) rest)
      else obind (compress_loop fu' (negb (v =? NEWLINE)) (map (chars m) rest)) (fun r => Ok (chars m x :: r))) by reflexivity.
    rewrite Hl. clear Hl.
    destruct dec.
    + (* removed *)
      set (nxt := if found && negb no_next && next_is BLANK then or_suspect (suspect (chars m x)) (map (chars m) rest) else map (chars m) rest).
      assert (M1 : exists m1, (if found && negb (hd NULL rest =? NULL) then
                       obind (access m (hd NULL rest)) (fun _ =>
                       if value (chars m (hd NULL rest)) =? BLANK
                       then Ok (set_char m (hd NULL rest) (mkchar (suspect (chars m (hd NULL rest)) || suspect (chars m x)) (value (chars m (hd NULL rest))))) else Ok m)
                     else Ok m) = Ok m1 /\ links m1 = links m /\ live m1 = live m /\ map (chars m1) rest = nxt /\ forall a, ~ In a rest -> chars m1 a = chars m a).
      { unfold nxt, no_next, next_is. destruct found; cbn [andb]; [|exists m; auto]. destruct rest as [|y rest]; [exists m; auto|]. cbn [hd map].
        rewrite eqb_NULL_neq by (apply Real; now left). cbn [negb andb].
        rewrite access_ok by (try (apply Real; now left); apply L; apply in_or_app; right; right; now left). cbn [obind].
        destruct (value (chars m y) =? BLANK); [|exists m; auto]. eexists. split; [reflexivity|]. unfold set_char. cbn [links live chars or_suspect].
        split; [reflexivity|]. split; [reflexivity|]. split.
        - f_equal; [apply upd_same|]. apply map_ext_in. intros a Ha. apply upd_other. intros ->.
          apply NoDup_remove_1 in Nd0. apply NoDup_remove_2 in Nd0. apply Nd0. apply in_or_app. now right.
        - intros a Na. apply upd_other. intros ->. apply Na. now left. }
      destruct M1 as (m1 & -> & K1 & V1 & C1 & O1). cbn [obind].
      destruct (remove_item_ok l m1 ps x rest) as (l2 & m2 & -> & I2 & C2 & V2 & F2).
      { rewrite K1. exact I. }
      { rewrite V1, Forall_forall. exact L. }
      cbn [obind]. unfold free_block. rewrite access_ok by (try exact N; rewrite V2, V1; exact Lx). cbn [obind].
      destruct (IH rest Len ps l2 (mkmem (links m2) (chars m2) (words m2) (bytes m2) (upd (live m2) x false) (calls m2)) found fu fu') as (l' & m' & kept & t & Er & Et & I' & M' & Sub & V' & O' & F').
      { exact I2. }
      { cbn [live]. rewrite Forall_forall. intros a Ha. unfold upd. destruct (Z.eqb_spec a x) as [->|]; [exfalso; apply Nd; now apply in_app_iff|].
        rewrite V2, V1. apply L. rewrite in_app_iff in Ha |- *. destruct Ha; [now left|right; now right]. }
      { lia. } { lia. }
      exists l', m', kept, t. split; [exact Er|].
      cbn [chars] in Et. rewrite C2, C1 in Et. split; [exact Et|].
      split; [exact I'|]. split; [exact M'|]. split; [intros a Ha; right; now apply Sub|].
      split; [|split].
      * intros a. rewrite V'. cbn [live]. unfold upd. rewrite V2, V1. cbn [In]. destruct (Z.eqb_spec a x) as [->|Na].
        -- split; [intros [Q _]; discriminate Q|]. intros [_ Q]. exfalso. apply Nd. right. apply Sub. apply Q. now left.
        -- split; intros [A B]; (split; [exact A|]); [intros [Q|Q]; [congruence|auto]|auto].
      * intros a Na. rewrite O' by (intros Q; apply Na; now right). cbn [chars]. rewrite C2. apply O1. intros Q. apply Na. now right.
      * intros a Na. rewrite F' by (rewrite in_app_iff in Na |- *; cbn [In] in Na; tauto). cbn [links]. rewrite F2 by exact Na. now rewrite K1.
    + (* kept *)
      destruct (IH rest Len (ps ++ [x]) l m (negb (v =? NEWLINE)) fu fu') as (l' & m' & kept & t & Er & Et & I' & M' & Sub & V' & O' & F').
      { now rewrite <- app_assoc. }
      { rewrite <- app_assoc. now apply Forall_forall. }
      { lia. } { lia. }
      exists l', m', (x :: kept), (chars m x :: t). split; [exact Er|]. rewrite Et. cbn [obind]. split; [reflexivity|].
      rewrite <- app_assoc in I'. split; [exact I'|]. split; [cbn [map]; f_equal; [apply O'; tauto|exact M']|].
      split; [intros a [<-|Ha]; [now left|right; auto]|]. split; [|split].
      * intros a. rewrite V'. cbn [In]. split; intros [A B]; (split; [exact A|]); [intros [Q|Q]; [now left|right; auto]|]. intros Q. destruct (B (or_intror Q)) as [<-|K]; [|exact K]. exfalso. tauto.
      * intros a Na. apply O'. intros Q. apply Na. now right.
      * intros a Na. apply F'. rewrite <- app_assoc. exact Na.
Qed.

(** free_text *)
Lemma free_text_ok : forall xs fuel l m, inv l (links m) xs -> Forall (fun a => live m a = true) xs -> (List.length xs <= fuel)%nat ->
  exists l' m', free_text fuel l m = Ok (l', m') /\ inv l' (links m') [] /\ (forall a, live m' a = true <-> live m a = true /\ ~ In a xs) /\
    chars m' = chars m /\ forall a, ~ In a xs -> links m' a = links m a.
Proof.
  induction xs as [|x xs IH]; intros fuel l m I L Fu.
  - exists l, m. destruct fuel; cbn [free_text]; rewrite (inv_first _ _ _ I); (split; [reflexivity|]); cbn [In]; intuition.
  - destruct fuel as [|fu]; [cbn in Fu; lia|]. cbn [free_text]. rewrite (inv_first _ _ _ I). cbn [hd].
    destruct (inv_item l (links m) [] x xs I) as [N _]. rewrite eqb_NULL_neq by exact N.
    destruct (remove_item_ok l m [] x xs I L) as (l2 & m2 & -> & I2 & C2 & V2 & F2). cbn [obind]. unfold free_block.
    inversion L as [|? ? Lx L']; subst. rewrite access_ok by (try exact N; rewrite V2; exact Lx). cbn [obind].
    pose proof (inv_nodup _ _ _ I) as Nd. inversion Nd as [|? ? Nx Nd']; subst.
    destruct (IH fu l2 (mkmem (links m2) (chars m2) (words m2) (bytes m2) (upd (live m2) x false) (calls m2))) as (l' & m' & -> & I' & V' & C' & F').
    { exact I2. }
    { cbn [live]. rewrite Forall_forall in L' |- *. intros a Ha. unfold upd. destruct (Z.eqb_spec a x) as [->|]; [contradiction|]. rewrite V2. auto. }
    { cbn in Fu. lia. }
    exists l', m'. split; [reflexivity|]. split; [exact I'|]. cbn [live links chars] in *. split; [|split].
    + intros a. rewrite V'. unfold upd. rewrite V2. cbn [In]. destruct (Z.eqb_spec a x) as [->|Na]; [|intuition].
      split; [intros [Q _]; discriminate Q|]. intros [_ Q]. exfalso. apply Q. now left.
    + congruence.
    + intros a Na. cbn [In] in Na. rewrite F' by tauto. apply F2. exact Na.
Qed.

Lemma inv_fuel l h xs : inv l h xs -> Z.to_nat (count l) = List.length xs.
Proof. intros I. rewrite (inv_count _ _ _ I). unfold zlen. apply Nat2Z.id. Qed.

Lemma after_ok l m xs new last0 : inv l (links m) (xs ++ new) -> Forall (fun a => live m a = true) (xs ++ new) -> last0 = lastd NULL xs ->
  after last0 l m = Ok (hd NULL new).
Proof.
  intros I L ->. unfold after. destruct (lastd_in NULL xs) as [E|E].
  - rewrite E. change (NULL =? NULL) with true. destruct xs as [|x xs]; [now rewrite (inv_first _ _ _ I)|].
    exfalso. destruct (lastd_in x xs) as [Q|Q]; cbn [lastd] in E.
    + rewrite Q in E. eapply inv_real; [exact I|now left|exact E].
    + rewrite E in Q. eapply (inv_real _ _ _ NULL); [exact I| |reflexivity]. right. apply in_or_app. now left.
  - rewrite Forall_forall in L.
    destruct (exists_last (l := xs)) as (ys & y & ->); [intros ->; destruct E|]. clear E. rewrite lastd_snoc.
    rewrite <- app_assoc in I. destruct (inv_item _ _ _ _ _ I) as [N Ey]. replace (y =? NULL) with false by (symmetry; now apply Z.eqb_neq).
    rewrite access_ok; [|exact N|apply L; apply in_or_app; left; apply in_or_app; right; now left]. cbn [obind]. now rewrite Ey.
Qed.

Lemma extends_live xs new m m' : extends xs new m m' -> Forall (fun a => live m a = true) xs -> Forall (fun a => live m' a = true) (xs ++ new).
Proof.
  intros (A & _) L. rewrite Forall_forall in L |- *. intros a Ha. apply A. apply in_app_iff in Ha as [Ha|Ha]; auto.
Qed.

Lemma compress_total : forall fuel found cs, (List.length cs <= fuel)%nat -> exists t, compress_loop fuel found cs = Ok t.
Proof.
  induction fuel as [|fuel IH]; intros found cs F; (destruct cs as [|c cs]; [eexists; reflexivity|]); [cbn in F; lia|].
  cbn [compress_loop]. match goal with |- context [if ?b then _ else obind _ _] => destruct b end.
  - apply IH. cbn in F. match goal with |- context [if ?b then _ else _] => destruct b end; [|lia]. destruct cs; cbn in *; lia.
  - destruct (IH (negb (value c =? NEWLINE)) cs ltac:(cbn in F; lia)) as (t & ->). eexists. reflexivity.
Qed.
Lemma compress_spacing_total t k : exists t', compress_spacing uc t k = Ok t'.
Proof.
  unfold compress_spacing. destruct (compress_total (List.length (blanks_to_blank uc (skipn k t))) false (blanks_to_blank uc (skipn k t))) as (r & ->); [lia|].
  eexists. reflexivity.
Qed.

(** read_text after the characters have been appended. *)
Lemma finish_ok (opt : textopt) l m m0 xs new t0 :
  inv l (links m) (xs ++ new) -> extends xs new m0 m -> Forall (fun a => live m0 a = true) xs -> map (chars m0) xs = t0 ->
  exists l' m' kept t', 
    (let! (l, m) :=
      if normalize opt then
        let! c := after (lastd NULL xs) l m in
        let! m := blank_chars uc (Z.to_nat (count l)) m c in
        let! (l, m) := compress_items (Z.to_nat (count l)) false l m c in Ok (l, m)
      else Ok (l, m) in
     let! m := if case_insensitive opt then let! c := after (lastd NULL xs) l m in lower_chars uc (Z.to_nat (count l)) m c else Ok m in
     Ok (l, m)) = Ok (l', m') /\
    (let! text := if normalize opt then compress_spacing uc (t0 ++ map (chars m) new) (List.length t0) else Ok (t0 ++ map (chars m) new) in
     Ok (if case_insensitive opt then lowercase uc text (List.length t0) else text)) = Ok t' /\
    inv l' (links m') (xs ++ kept) /\ map (chars m') (xs ++ kept) = t' /\ extends xs kept m0 m'.
Proof.
  intros I X L0 T0.
  assert (Hx : map (chars m) xs = t0).
  { rewrite <- T0. apply map_ext_in. intros a Ha. apply X. rewrite Forall_forall in L0. auto. }
  pose proof (extends_live _ _ _ _ X L0) as L.
  set (t1 := map (chars m) new).
  assert (A : exists l1 m1 kept t2,
    (if normalize opt then
        let! c := after (lastd NULL xs) l m in
        let! m := blank_chars uc (Z.to_nat (count l)) m c in
        let! (l, m) := compress_items (Z.to_nat (count l)) false l m c in Ok (l, m)
      else Ok (l, m)) = Ok (l1, m1) /\
    (if normalize opt then compress_spacing uc (t0 ++ t1) (List.length t0) else Ok (t0 ++ t1)) = Ok (t0 ++ t2) /\
    inv l1 (links m1) (xs ++ kept) /\ map (chars m1) kept = t2 /\ extends xs kept m0 m1).
  { destruct (normalize opt); [|exists l, m, new, t1; auto].
    rewrite (after_ok l m xs new _ I L eq_refl). cbn [obind]. rewrite (inv_fuel _ _ _ I), app_length.
    apply Forall_app in L as [Lx Ln].
    destruct (blank_chars_ok new xs l m (List.length xs + List.length new) I Ln ltac:(lia)) as (m1 & Eb & K1 & V1 & C1 & O1). rewrite Eb. cbn [obind].
    pose proof (inv_nodup _ _ _ I) as Nd.
    destruct (compress_ok _ new eq_refl xs l m1 false (List.length xs + List.length new) (List.length new)) as (l2 & m2 & kept & t2 & Ec & Et & I2 & M2 & Sub & V2 & O2 & F2).
    { rewrite K1. exact I. } { rewrite V1. apply Forall_app. now split. } { lia. } { lia. }
    rewrite Ec. cbn [obind]. exists l2, m2, kept, t2. split; [reflexivity|]. split.
    { unfold compress_spacing. rewrite skipn_app, skipn_all, Nat.sub_diag. cbn [app skipn]. unfold t1. rewrite <- C1. rewrite map_length, Et. cbn [obind].
      now rewrite firstn_app, firstn_all, Nat.sub_diag, app_nil_r. }
    split; [exact I2|]. split; [exact M2|]. destruct X as (X1 & X2 & X3 & X4 & X5). split; [|split; [|split; [|split]]].
    - intros a. rewrite V2, V1, X1. split.
      + intros [[A|A] B]; [now left|right; auto].
      + intros [A|A]; (split; [|intros Q]); auto. apply X2 in Q. congruence.
    - intros a Ha. apply X2. now apply Sub.
    - intros a Ha. assert (~ In a new) by (intros Q; apply X2 in Q; congruence). rewrite O2, O1 by assumption. now apply X3.
    - intros a Ha Na. assert (~ In a new) by (intros Q; apply X2 in Q; congruence).
      rewrite F2 by (rewrite in_app_iff; tauto). rewrite K1. now apply X4.
    - intros a Ha. apply blank_chars_words in Eb. apply compress_items_words in Ec. destruct (same_words_trans _ _ _ Eb Ec) as [-> ->]. now apply X5. }
  destruct A as (l1 & m1 & kept & t2 & -> & -> & I1 & M1 & X1). cbn [obind].
  assert (Hx1 : map (chars m1) xs = t0).
  { rewrite <- T0. apply map_ext_in. intros a Ha. apply X1. rewrite Forall_forall in L0. auto. }
  destruct (case_insensitive opt).
  - pose proof (extends_live _ _ _ _ X1 L0) as L1. rewrite (after_ok l1 m1 xs kept _ I1 L1 eq_refl). cbn [obind]. rewrite (inv_fuel _ _ _ I1), app_length.
    apply Forall_app in L1 as [Lx Ln].
    destruct (lower_chars_ok kept xs l1 m1 (List.length xs + List.length kept) I1 Ln ltac:(lia)) as (m2 & El & K2 & V2 & C2 & O2). rewrite El. cbn [obind].
    exists l1, m2, kept. eexists. split; [reflexivity|]. split; [reflexivity|]. rewrite K2. split; [exact I1|].
    pose proof (inv_nodup _ _ _ I1) as Nd.
    destruct X1 as (Y1 & Y2 & Y3 & Y4 & Y5). rewrite Forall_forall in L0. split.
    + unfold lowercase. rewrite firstn_app, firstn_all, Nat.sub_diag, skipn_app, skipn_all, Nat.sub_diag. cbn [firstn skipn app]. rewrite app_nil_r.
      rewrite map_app, C2, M1. f_equal. rewrite <- Hx1. apply map_ext_in. intros a Ha. apply O2. intros Q. apply Y2 in Q. apply L0 in Ha. congruence.
    + unfold extends. rewrite V2, K2. split; [exact Y1|]. split; [exact Y2|]. apply lower_chars_words in El as [-> ->]. split; [|split; [exact Y4|exact Y5]].
      intros a Ha. rewrite O2; [now apply Y3|]. intros Q. apply Y2 in Q. congruence.
  - exists l1, m1, kept. eexists. split; [reflexivity|]. split; [reflexivity|]. split; [exact I1|]. split; [|exact X1].
    rewrite map_app, Hx1, M1. reflexivity.
Qed.

Lemma read_text_ok junk junk4 opt l m xs t f : inv l (links m) xs -> Forall (fun a => live m a = true) xs -> map (chars m) xs = t ->
  match read_text uc junk junk4 opt t f with
  | Ok (t', found) =>
      read_text_items alloc uc junk junk4 opt l m f = Fail "unable to allocate memory" \/
      exists l' m' new, read_text_items alloc uc junk junk4 opt l m f = Ok (l', m', found) /\
        inv l' (links m') (xs ++ new) /\ map (chars m') (xs ++ new) = t' /\ extends xs new m m'
  | Fail e => read_text_items alloc uc junk junk4 opt l m f = Fail e
  | UB e => read_text_items alloc uc junk junk4 opt l m f = UB e
  | OutOfFuel => read_text_items alloc uc junk junk4 opt l m f = OutOfFuel
  end.
Proof.
  intros I L T. unfold read_text, read_text_items.
  destruct (if find_header opt then read_header junk f else Ok (false, f)) as [[found f']| | |]; cbn [obind]; try reflexivity.
  destruct (read_contents (Datatypes.length f') f' (find_markers opt) (if suspect_marker opt =? 0 then SUSPECT_MARKER else suspect_marker opt) junk4 false) as [cs| | |]; cbn [obind]; try reflexivity.
  destruct (append_chars_ok cs l m xs I L) as [Ef|(l1 & m1 & new & E1 & I1 & M1 & X1)].
  - rewrite Ef. cbn [obind]. 
    assert (Ok' : exists t2, (if normalize opt then compress_spacing uc (t ++ cs) (List.length t) else Ok (t ++ cs)) = Ok t2) by (destruct (normalize opt); [apply compress_spacing_total|eexists; reflexivity]).
    destruct Ok' as (t2 & ->). cbn [obind]. now left.
  - rewrite E1. cbn [obind]. rewrite (inv_last _ _ _ I).
    destruct (finish_ok opt l1 m1 m xs new t I1 X1 L T) as (l' & m' & kept & t' & Er & Et & I' & M' & X'). rewrite M1 in Et.
    destruct (if normalize opt then compress_spacing uc (t ++ cs) (List.length t) else Ok (t ++ cs)) as [t2| | |]; cbn [obind] in Et |- *; try discriminate Et.
    injection Et as Et. right. exists l', m', kept.
    match type of Er with obind ?e _ = _ => destruct e as [[l2 m2]| | |]; cbn [obind] in Er |- *; try discriminate Er end.
    match type of Er with obind ?e _ = _ => destruct e as [m3| | |]; cbn [obind] in Er |- *; try discriminate Er end.
    injection Er as -> ->. rewrite Et. auto.
Qed.
End Proof.
