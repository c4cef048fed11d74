(** C73: the memory of texts and words. *)
From Coq Require Import String.
From Verif Require ArgsProps TextSpec WordProps.
From Verif Require Import Base CLib ListModel ListSpec ListProof Utf8Model TextModel TextIO WordModel MemTextModel MemTextSpec MemTextProof MemWordModel MemWordSpec MemWordProof.
Local Open Scope Z_scope.
Local Open Scope list_scope.

Lemma extends_others xs new m m' : extends xs new m m' -> others_unchanged xs m m'.
Proof.
  intros (A & _ & C & K & W) a L N. split; [apply A; now left|]. split; [auto|]. split; [auto|]. apply W. exact L.
Qed.

(** read_text appends to the list new blocks that hold the characters read; every other allocated
    block is as before, and none is lost: the blocks of characters that are taken out again when
    spacing is compressed have been freed.  Errors of the file are the same as without memory. *)
Theorem C73_read_text : forall alloc uc junk junk4 opt l m xs t f,
  sound_allocator alloc -> holds_text l m xs t ->
  match read_text uc junk junk4 opt t f with
  | Ok (t', found) =>
      read_text_items alloc uc junk junk4 opt l m f = Fail "unable to allocate memory" \/
      exists l' m' new, read_text_items alloc uc junk junk4 opt l m f = Ok (l', m', found) /\
        holds_text l' m' (xs ++ new) t' /\
        (forall a, live m' a = true <-> live m a = true \/ In a new) /\
        (forall a, In a new -> live m a = false) /\
        others_unchanged xs m m'
  | Fail e => read_text_items alloc uc junk junk4 opt l m f = Fail e
  | UB e => read_text_items alloc uc junk junk4 opt l m f = UB e
  | OutOfFuel => read_text_items alloc uc junk junk4 opt l m f = OutOfFuel
  end.
Proof.
  intros alloc uc junk junk4 opt l m xs t f Sd (P & M & L). apply presents_inv in P.
  pose proof (read_text_ok alloc Sd uc junk junk4 opt l m xs t f P L M) as R.
  destruct (read_text uc junk junk4 opt t f) as [[t' found]| | |]; try exact R.
  destruct R as [R|(l' & m' & new & E & I' & M' & X)]; [now left|]. right. exists l', m', new. split; [exact E|].
  split; [split; [now apply inv_presents|split; [exact M'|now apply (extends_live _ _ m)]]|].
  split; [apply X|]. split; [apply X|]. now apply extends_others in X.
Qed.
Print Assumptions C73_read_text.

(** list_empty(&text, free): every character is freed exactly once, no other block. *)
Theorem C73_free_text : forall l m xs t,
  holds_text l m xs t ->
  exists l' m', free_text (Z.to_nat (count l)) l m = Ok (l', m') /\ holds_text l' m' [] [] /\
    (forall a, live m' a = true <-> live m a = true /\ ~ In a xs) /\
    others_unchanged xs m m'.
Proof.
  intros l m xs t (P & M & L). apply presents_inv in P.
  destruct (free_text_ok xs (Z.to_nat (count l)) l m P L) as (l' & m' & E & I' & V & C & K); [rewrite (inv_fuel _ _ _ P); lia|].
  exists l', m'. split; [exact E|]. split; [split; [now apply inv_presents|auto]|]. split; [exact V|].
  intros a La Na. apply free_text_words in E as [W B]. split; [now apply V|]. split; [auto|]. rewrite C, W, B. auto.
Qed.
Print Assumptions C73_free_text.

(** ngram: whatever the files and their number, the only text in memory is that of the last file;
    the texts before have been freed. *)
Theorem C73_ngram : forall alloc uc junk junk4 opt files l m xs t,
  sound_allocator alloc -> holds_text l m xs t ->
  (forall f, In f files -> exists t' found, read_text uc junk junk4 opt [] f = Ok (t', found)) ->
  ofold (next_text alloc uc junk junk4 opt) files (l, m) = Fail "unable to allocate memory" \/
  exists l' m' xs' t', ofold (next_text alloc uc junk junk4 opt) files (l, m) = Ok (l', m') /\
    holds_text l' m' xs' t' /\
    match rev files with
    | [] => xs' = xs
    | f :: _ => exists found, read_text uc junk junk4 opt [] f = Ok (t', found)
    end /\
    (forall a, live m' a = true <-> (live m a = true /\ ~ In a xs) \/ In a xs') /\
    (forall a, In a xs' -> live m a = true -> In a xs) /\
    others_unchanged xs m m'.
Proof.
  intros alloc uc junk junk4 opt files l m xs t Sd H R. revert R.
  induction files as [|f files IH] using rev_ind; intros R.
  - right. exists l, m, xs, t. split; [reflexivity|]. split; [exact H|]. split; [reflexivity|]. split; [|split; [auto|unfold others_unchanged; auto 6]].
    intros a. destruct (in_dec Z.eq_dec a xs) as [I|I]; [|tauto]. destruct H as (_ & _ & L). rewrite Forall_forall in L. specialize (L a I). tauto.
  - rewrite ofold_app, rev_app_distr. cbn [rev app].
    destruct IH as [->|(l1 & m1 & x1 & t1 & -> & H1 & _ & V1 & F1 & O1)]; [intros g G; apply R; apply in_or_app; now left|now left|].
    cbn [obind ofold next_text].
    destruct (C73_free_text l1 m1 x1 t1 H1) as (l2 & m2 & -> & H2 & V2 & O2). cbn [obind].
    destruct (R f) as (t' & found & Rf); [apply in_or_app; right; now left|].
    pose proof (C73_read_text alloc uc junk junk4 opt l2 m2 [] [] f Sd H2) as X. rewrite Rf in X.
    destruct X as [->|(l3 & m3 & new & -> & H3 & V3 & F3 & O3)]; [now left|]. right. cbn [obind]. exists l3, m3, new, t'. split; [reflexivity|].
    split; [exact H3|]. split; [eauto|].
    assert (V : forall a, live m2 a = true <-> live m a = true /\ ~ In a xs).
    { intros a. rewrite V2, V1. specialize (F1 a). tauto. }
    split; [|split].
    + intros a. now rewrite V3, V.
    + intros a Ha La. apply F3 in Ha. destruct (in_dec Z.eq_dec a xs) as [I|I]; [exact I|]. assert (live m2 a = true) as Q by (apply V; auto). congruence.
    + intros a La Na. destruct (O1 a La Na) as (L1 & A1 & B1 & C1 & D1). destruct (O2 a L1) as (L2 & A2 & B2 & C2 & D2).
      { intros Q. apply Na. auto. }
      destruct (O3 a L2) as (L3 & A3 & B3 & C3 & D3); [intros []|]. repeat split; congruence.
Qed.
Print Assumptions C73_ngram.

(** find_words appends a new block for each word, with a new block for its string, and leaves every
    other allocated block; the buffers it works with have been freed.  When there is no memory the
    program ends with a message or (see below) goes wrong, or the string of a word is missing. *)
Theorem C73_find_words : forall alloc garbage uc NFC wl tl m xs ss ws ys t ws',
  sound_allocator alloc -> holds_words wl m xs ss ws -> holds_text tl m ys t ->
  (forall a, In a xs -> ~ In a ys) ->
  find_words uc NFC ws (map value t) = Ok ws' ->
  find_words_items alloc garbage uc NFC wl tl m = UB "access through NULL" \/
  find_words_items alloc garbage uc NFC wl tl m = Fail "unable to allocate memory" \/
  exists wl' m' nx ns, find_words_items alloc garbage uc NFC wl tl m = Ok (wl', m') /\
    holds_words wl' m' (xs ++ nx) (ss ++ ns) ws' /\ holds_text tl m' ys t /\
    (forall a, live m' a = true <-> live m a = true \/ In a (nx ++ real ns)) /\
    (forall a, In a (nx ++ real ns) -> live m a = false) /\
    others_unchanged xs m m'.
Proof.
  intros alloc garbage uc NFC wl tl m xs ss ws ys t ws' Sd [P L M F Nd] (Pt & Mt & Lt) D Fw. apply presents_inv in P, Pt.
  unfold find_words_items. rewrite (inv_fuel _ _ _ Pt), (inv_first _ _ _ Pt).
  rewrite (text_values_ok tl ys [] m (List.length ys) Pt Lt ltac:(lia)). cbn [obind].
  assert (Ev : map (fun a => value (chars m a)) ys = map value t) by (rewrite <- Mt, map_map; reflexivity). rewrite Ev.
  destruct (find_words_in_ok alloc Sd garbage uc NFC (List.length (map value t)) (map value t) ws ws' wl m xs P L Fw) as [E|[E|(wl' & m' & nx & ns & nw & E & -> & I & Mw & Fs & Nw & X)]]; [now left|right; now left|].
  right. right. exists wl', m', nx, ns. split; [exact E|].
  pose proof X as (X1 & X2 & X3 & X4 & X5). rewrite Forall_forall in L, Lt.
  assert (Ls : forall a, In a (real ss) -> live m a = true).
  { intros a Ha. apply In_real in Ha as [Ha Na]. destruct (Forall2_In_l _ _ _ _ F Ha) as (w & _ & [Q|Q]); [contradiction|apply Q]. }
  split; [|split; [|split; [exact X1|split; [exact X2|now apply extends_others in X]]]].
  - constructor.
    + now apply inv_presents.
    + apply Forall_forall. intros a Ha. apply X1. apply in_app_iff in Ha as [Ha|Ha]; [left; auto|right; apply in_or_app; now left].
    + rewrite map_app, Mw. f_equal. rewrite <- M. apply map_ext_in. intros a Ha. apply X5. auto.
    + apply Forall2_app; [|exact Fs]. eapply ArgsProps.Forall2_weaken; [|exact F]. intros s w [->|S]; [now left|right; eapply extends_string; eauto].
    + rewrite real_app. apply (Permutation.Permutation_NoDup (l := (xs ++ real ss) ++ (nx ++ real ns))).
      { rewrite <- !app_assoc. apply Permutation.Permutation_app_head. rewrite !app_assoc. apply Permutation.Permutation_app_tail. apply Permutation.Permutation_app_comm. }
      apply NoDup_join; [exact Nd|exact Nw|]. intros a Ha Hb. apply X2 in Hb. apply in_app_iff in Ha as [Ha|Ha]; [apply L in Ha|apply Ls in Ha]; congruence.
  - split; [|split].
    + apply inv_presents. eapply extends_inv; [exact X|exact Pt|now apply Forall_forall|]. intros a Ha Hb. exact (D a Hb Ha).
    + rewrite <- Mt. apply map_ext_in. intros a Ha. apply X3. auto.
    + apply Forall_forall. intros a Ha. apply X1. left. auto.
Qed.
Print Assumptions C73_find_words.

(** list_empty(&wordlist, free_word): every word and every string is freed exactly once, no other block. *)
Theorem C73_free_words : forall l m xs ss ws,
  holds_words l m xs ss ws ->
  exists l' m', free_words (Z.to_nat (count l)) l m = Ok (l', m') /\ holds_words l' m' [] [] [] /\
    (forall a, live m' a = true <-> live m a = true /\ ~ In a (xs ++ real ss)) /\
    others_unchanged (xs ++ real ss) m m'.
Proof.
  intros l m xs ss ws [P L M F Nd]. apply presents_inv in P. subst ss.
  destruct (free_words_ok (fun _ _ => 0) (fun s => s) xs (Z.to_nat (count l)) l m P) as (l' & m' & E & I' & V & C & W & B & K).
  { apply Forall_app. split; [exact L|]. apply Forall_forall. intros a Ha. apply In_real in Ha as [Ha Na]. destruct (Forall2_In_l _ _ _ _ F Ha) as (w & _ & [Q|Q]); [contradiction|apply Q]. }
  { exact Nd. } { rewrite (inv_fuel _ _ _ P). lia. }
  exists l', m'. split; [exact E|]. split; [constructor; [now apply inv_presents|constructor|reflexivity|constructor|constructor]|]. split; [exact V|].
  intros a La Na. split; [now apply V|]. rewrite C, W, B. split; [|auto]. apply K. intros Q. apply Na. apply in_or_app. now left.
Qed.
Print Assumptions C73_free_words.

(** wordfreq: whatever the files and their number, in the end the texts, the words and their strings
    have been freed; what remains, besides what was there before, are the keys of the table, which
    are the different words of the files with their numbers of occurrences. *)
Theorem C73_wordfreq : forall alloc garbage uc NFC junk junk4 opt files wss tl wl m,
  sound_allocator alloc -> (forall s, ~ In 0 (NFC s)) ->
  holds_text tl m [] [] -> holds_words wl m [] [] [] ->
  Forall2 (fun f ws => exists t found, read_text uc junk junk4 opt [] f = Ok (t, found) /\
                                       find_words uc NFC [] (map value t) = Ok ws) files wss ->
  let run := ofold (wordfreq_file alloc garbage uc NFC junk junk4 opt) files (tl, wl, [], m) in
  run = UB "access through NULL" \/ run = Fail "unable to allocate memory" \/
  exists tl' wl' terms m', run = Ok (tl', wl', terms, m') /\
    holds_text tl' m' [] [] /\ holds_words wl' m' [] [] [] /\ holds_terms m' terms (concat wss) /\
    (forall a, live m' a = true <-> live m a = true \/ In a (map fst terms)) /\
    (forall a, In a (map fst terms) -> live m a = false) /\
    others_unchanged [] m m'.
Proof.
  intros alloc garbage uc NFC junk junk4 opt files wss tl wl m Sd Nf (Pt & _) [Pw _ _ _ _] Fs run. subst run. apply presents_inv in Pt, Pw.
  assert (G : ofold (wordfreq_file alloc garbage uc NFC junk junk4 opt) files (tl, wl, [], m) = UB "access through NULL" \/
    ofold (wordfreq_file alloc garbage uc NFC junk junk4 opt) files (tl, wl, [], m) = Fail "unable to allocate memory" \/
    exists tl' wl' terms m', ofold (wordfreq_file alloc garbage uc NFC junk junk4 opt) files (tl, wl, [], m) = Ok (tl', wl', terms, m') /\
    inv tl' (links m') [] /\ inv wl' (links m') [] /\ table_is m' terms (fold_left counted (concat wss) []) /\ extends [] (map fst terms) m m').
  { revert wss Fs. induction files as [|f files IH] using rev_ind; intros wss Fs.
    - inversion Fs; subst. right. right. exists tl, wl, [], m. split; [reflexivity|]. split; [exact Pt|]. split; [exact Pw|]. split; [|apply extends_refl].
      split; [constructor|]. split; constructor.
    - apply Forall2_app_inv_l in Fs as (w1 & w2 & F1 & F2 & ->). inversion F2 as [|? ws ? ? Hf F3]; subst. inversion F3; subst. clear F2 F3.
      destruct Hf as (t & found & Rf & Ff). rewrite ofold_app.
      destruct (IH w1 F1) as [->|[->|(tl1 & wl1 & terms1 & m1 & -> & I1 & J1 & T1 & X1)]]; [now left|right; now left|]. cbn [obind ofold].
      destruct (wordfreq_file_ok alloc Sd garbage uc NFC junk junk4 opt Nf tl1 wl1 terms1 m1 _ f t found ws I1 J1 T1 Rf Ff) as [->|[->|(tl2 & wl2 & terms2 & m2 & nk & -> & I2 & J2 & T2 & K2 & X2)]]; [now left|right; now left|].
      right. right. cbn [obind]. exists tl2, wl2, terms2, m2. split; [reflexivity|]. split; [exact I2|]. split; [exact J2|]. split.
      + rewrite concat_app, fold_left_app. cbn [concat]. rewrite app_nil_r. exact T2.
      + rewrite K2. eapply (extends_trans [] []); [exact X1|exact X2|intros a []]. }
  destruct G as [G|[G|(tl' & wl' & terms & m' & E & I & J & T & X)]]; [now left|right; now left|]. right. right. exists tl', wl', terms, m'. split; [exact E|].
  split; [split; [now apply inv_presents|auto]|]. split; [constructor; [now apply inv_presents|constructor|reflexivity|constructor|constructor]|].
  split. { eapply table_holds; [exact T|]. apply (counted_all (concat wss) [] []). split; [constructor|]. split; [intros w n []|intros w []]. }
  split; [apply X|]. split; [apply X|]. now apply extends_others in X.
Qed.
Print Assumptions C73_wordfreq.

(** ** Concrete runs *)

(** A small memory: the blocks 1 to [size]; the first free one is taken, so that freed blocks are used
    again. *)
Definition first_free (size : nat) (used : addr -> bool) (n : Z) : addr :=
  match find (fun a => negb (used a)) (zrange 1 size) with Some a => a | None => NULL end.
Lemma first_free_sound size : sound_allocator (first_free size).
Proof.
  intros used n. unfold first_free. destruct (find (fun a => negb (used a)) (zrange 1 size)) as [a|] eqn:E; [|now left].
  right. apply find_some in E as [_ E]. now apply negb_true_iff.
Qed.
Definition no_memory_used : memory := mkmem (fun _ => mknode NULL NULL) (fun _ => mkchar false 0) (fun _ => NULL) (fun _ => []) (fun _ => false) 0.
Definition no_items : header := mkheader NULL NULL None 0.
Lemma nothing_held m : holds_text no_items m [] [].
Proof. split; [|auto]. apply inv_presents. constructor; try reflexivity. constructor. Qed.
Lemma no_words_held m : holds_words no_items m [] [] [].
Proof. constructor; [apply (nothing_held m)|constructor|reflexivity|constructor|constructor]. Qed.

(** Words when there is no memory: malloc in append_word is not checked, and the program writes through
    NULL instead of ending with the message "unable to allocate memory". *)
Theorem C73_shortage_refuted : exists alloc uc wl tl m t,
  sound_allocator alloc /\ holds_words wl m [] [] [] /\ holds_text tl m [1] t /\
  find_words uc (fun s => s) [] (map value t) = Ok [[97]] /\
  find_words_items alloc (fun _ _ => 0) uc (fun s => s) wl tl m = UB "access through NULL".
Proof.
  exists (first_free 1), WordProps.word_uc, no_items, (mkheader 1 1 None 1), (mkmem (fun _ => mknode NULL NULL) (fun _ => mkchar false 97) (fun _ => NULL) (fun _ => []) (fun a => a =? 1) 1), [mkchar false 97].
  split; [apply first_free_sound|]. split; [apply no_words_held|].
  split.
  { split; [|split; [reflexivity|constructor; [reflexivity|constructor]]]. apply inv_presents. constructor; try reflexivity; cbn.
    - split; [discriminate|]. split; [reflexivity|exact I].
    - repeat constructor. intros []. }
  split; vm_compute; reflexivity.
Qed.
Print Assumptions C73_shortage_refuted.

(** wordfreq on two files, "ab a" and "a", with room for 12 blocks: all the theorems' conditions hold. *)
Definition plain_options : textopt := mkopt false false 0 true true.
Example C73_ex :
  sound_allocator (first_free 12) /\ holds_text no_items no_memory_used [] [] /\ holds_words no_items no_memory_used [] [] [] /\
  (exists t found, read_text WordProps.word_uc [] [0; 0; 0; 0] plain_options [] [97; 98; 32; 97] = Ok (t, found) /\
     find_words WordProps.word_uc (fun s => s) [] (map value t) = Ok [[97; 98]; [97]]) /\
  match ofold (wordfreq_file (first_free 12) (fun _ _ => 1) WordProps.word_uc (fun s => s) [] [0; 0; 0; 0] plain_options)
              [[97; 98; 32; 97]; [97]] (no_items, no_items, [], no_memory_used) with
  | Ok (tl, wl, terms, m) => map (fun t => (bytes m (fst t), snd t)) terms = [([97; 98; 0], 1); ([97; 0], 2)] /\ map (live m) (zrange 1 14) = map (fun a => existsb (Z.eqb a) (map fst terms)) (zrange 1 14)
  | _ => False
  end.
Proof.
  split; [apply first_free_sound|]. split; [apply nothing_held|]. split; [apply no_words_held|].
  split; [exists (map (mkchar false) [97; 98; 32; 97]), false; split; vm_compute; reflexivity|]. vm_compute. split; reflexivity.
Qed.
