(** Proofs about MemWordModel. *)
From Coq Require Import String Permutation.
From Verif Require ArgsProps.
From Verif Require Import Base CLib ListModel ListSpec ListProof Utf8Model TextModel TextIO WordModel MemTextModel MemTextSpec MemTextProof MemWordModel MemWordSpec.
Local Open Scope Z_scope.
Local Open Scope list_scope.

Definition some_block (s : addr) : list addr := if s =? NULL then [] else [s].
Lemma real_cons s ss : real (s :: ss) = some_block s ++ real ss.
Proof. unfold real, some_block. cbn [filter]. destruct (s =? NULL); reflexivity. Qed.
Lemma real_app a b : real (a ++ b) = real a ++ real b.
Proof. apply filter_app. Qed.
Lemma In_real s ss : In s (real ss) <-> In s ss /\ s <> NULL.
Proof. unfold real. rewrite filter_In, negb_true_iff, Z.eqb_neq. reflexivity. Qed.

Lemma c_string_nul w : ~ In 0 w -> c_string (w ++ [0]) = w.
Proof.
  induction w as [|b w IH]; intros N; [reflexivity|]. cbn [app c_string]. destruct (Z.eqb_spec b 0) as [->|]; [exfalso; apply N; now left|].
  f_equal. apply IH. intros I. apply N. now right.
Qed.
Lemma c_string_content w : c_string (w ++ [0]) = c_string w.
Proof. induction w as [|b w IH]; [reflexivity|]. cbn [app c_string]. destruct (b =? 0); [reflexivity|]. now f_equal. Qed.
Lemma c_string_no_nul b : ~ In 0 (c_string b).
Proof. induction b as [|x b IH]; [intros []|]. cbn [c_string]. destruct (Z.eqb_spec x 0); [intros []|]. intros [Q|Q]; auto. Qed.
Lemma has_nul w : existsb (Z.eqb 0) (w ++ [0]) = true.
Proof. rewrite existsb_app. cbn. now rewrite orb_true_r. Qed.

Lemma read_string_ok m s w : string_at m s w -> ~ In 0 w -> read_string m s = Ok w.
Proof.
  intros (N & L & B) Z. unfold read_string. rewrite access_ok by assumption. cbn [obind]. now rewrite B, has_nul, c_string_nul.
Qed.
Lemma read_null m : read_string m NULL = UB "access through NULL".
Proof. reflexivity. Qed.

(** A string stays where nothing is written. *)
Lemma extends_string xs new m m' s w : extends xs new m m' -> string_at m s w -> string_at m' s w.
Proof.
  intros (A & _ & _ & _ & B) (N & L & E). split; [exact N|]. split; [apply A; now left|]. destruct (B s L) as [_ ->]. exact E.
Qed.
Lemma extends_refl xs m : extends xs [] m m.
Proof. unfold extends. cbn [In]. intuition. Qed.
Lemma extends_trans xs it n1 n2 m m1 m2 : extends xs n1 m m1 -> extends (xs ++ it) n2 m1 m2 -> (forall a, In a it -> In a n1) ->
  extends xs (n1 ++ n2) m m2.
Proof.
  intros (A1 & A2 & A3 & A4 & A5) (B1 & B2 & B3 & B4 & B5) S.
  assert (F : forall a, live m a = true -> ~ In a it) by (intros a L I; apply S, A2 in I; congruence).
  assert (U : forall a, live m a = true -> live m1 a = true) by (intros a L; apply A1; now left).
  split; [|split; [|split; [|split]]].
  - intros a. rewrite B1, A1, in_app_iff. tauto.
  - intros a I. apply in_app_iff in I as [I|I]; [auto|]. apply B2 in I. destruct (live m a) eqn:E; [|reflexivity]. apply U in E. congruence.
  - intros a L. rewrite B3 by auto. auto.
  - intros a L N. rewrite B4; [auto|auto|]. rewrite in_app_iff. intros [Q|Q]; [auto|]. exact (F a L Q).
  - intros a L. destruct (B5 a (U a L)) as [-> ->]. auto.
Qed.
Lemma extends_incl xs ys new m m' : (forall a, In a xs -> In a ys) -> extends xs new m m' -> extends ys new m m'.
Proof. intros S (A & B & C & D & E). unfold extends. intuition. Qed.
Lemma extends_perm xs new new' m m' : (forall a, In a new <-> In a new') -> extends xs new m m' -> extends xs new' m m'.
Proof. intros S (A & B & C & D & E). split; [|split; [|auto]]; [intros a; now rewrite A, S|]. intros a I. apply S in I. auto. Qed.
(** Another list. *)
Lemma extends_inv l xs ys new m m' : extends xs new m m' -> inv l (links m) ys -> Forall (fun a => live m a = true) ys ->
  (forall a, In a ys -> ~ In a xs) -> inv l (links m') ys.
Proof.
  intros (A & _ & _ & B & _) [I1 I2 I3 I4 I5 I6] L D. constructor; try assumption. apply (dlseg_ext (links m)); [|exact I3].
  intros x Hx. rewrite Forall_forall in L. apply B; auto.
Qed.

Lemma NoDup_join {A} (a b : list A) : NoDup a -> NoDup b -> (forall x, In x a -> ~ In x b) -> NoDup (a ++ b).
Proof.
  induction a as [|x a IH]; intros Na Nb D; [exact Nb|]. inversion Na as [|? ? Nx Na']; subst. cbn [app]. constructor.
  - rewrite in_app_iff. intros [Q|Q]; [auto|]. exact (D x (or_introl eq_refl) Q).
  - apply IH; auto. intros y Hy. apply D. now right.
Qed.

Section Proof.
Variable alloc : (addr -> bool) -> Z -> addr.
Hypothesis sound : sound_allocator alloc.
Variable garbage : Z -> Z -> Z.
Variable uc : unicode_data.
Variable NFC : list Z -> list Z.

Definition only_new (e : addr) (m m' : memory) : Prop :=
  e <> NULL /\ live m e = false /\ live m' = upd (live m) e true /\ links m' = links m /\ chars m' = chars m /\ words m' = words m /\
  forall a, a <> e -> bytes m' a = bytes m a.
Lemma only_new_extends e m m' : only_new e m m' -> extends [] [e] m m'.
Proof.
  intros (N & F & V & K & C & W & B). split; [|split; [|split; [|split]]].
  - intros a. rewrite V. unfold upd. cbn [In]. destruct (Z.eqb_spec a e); [subst; tauto|]. intuition congruence.
  - intros a [<-|[]]. exact F.
  - intros a L. now rewrite C.
  - intros a L _. now rewrite K.
  - intros a L. rewrite W. split; [reflexivity|]. apply B. intros ->. congruence.
Qed.
(** No memory. *)
Definition unchanged (m m' : memory) : Prop :=
  live m' = live m /\ links m' = links m /\ chars m' = chars m /\ words m' = words m /\ bytes m' = bytes m.

Lemma malloc_ok m size : 0 <= size -> 
  (exists m', malloc alloc garbage m size = (NULL, m') /\ unchanged m m') \/
  (exists e m', malloc alloc garbage m size = (e, m') /\ only_new e m m' /\ zlen (bytes m' e) = size).
Proof.
  intros H. unfold malloc. set (e := alloc (live m) (calls m)). destruct (Z.eqb_spec e NULL) as [E|N].
  - left. eexists. split; [reflexivity|]. unfold unchanged. cbn. auto.
  - right. exists e. eexists. split; [reflexivity|]. destruct (sound (live m) (calls m)) as [X|F]; [contradiction|]. fold e in F.
    unfold only_new. cbn [links chars words bytes live calls]. split; [|rewrite upd_same; unfold zlen; rewrite map_length, zrange_length; lia].
    do 6 (split; [first [assumption|reflexivity]|]). intros a Na. now apply upd_other.
Qed.

Lemma write_bytes_ok m e m0 w : only_new e m0 m -> zlen (bytes m e) = zlen w + 1 ->
  exists m', write_bytes m e (w ++ [0]) = Ok m' /\ only_new e m0 m' /\ string_at m' e w.
Proof.
  intros (N & F & V & K & C & W & B) Len. unfold write_bytes. rewrite access_ok by (try exact N; rewrite V; apply upd_same). cbn [obind].
  assert (L : List.length (bytes m e) = List.length (w ++ [0])) by (unfold zlen in Len; rewrite app_length; cbn [List.length]; lia).
  replace (zlen (w ++ [0]) <=? zlen (bytes m e)) with true by (symmetry; apply Z.leb_le; unfold zlen; lia).
  rewrite <- L, skipn_all, app_nil_r. eexists. split; [reflexivity|]. unfold set_bytes, only_new, string_at. cbn [links chars words bytes live calls]. split.
  - do 6 (split; [assumption|]). intros a Na. rewrite upd_other by exact Na. auto.
  - rewrite V, !upd_same. auto.
Qed.

Lemma new_string_ok m w : new_string alloc garbage m w = UB "access through NULL" \/
  exists e m', new_string alloc garbage m w = Ok (e, m') /\ only_new e m m' /\ string_at m' e w.
Proof.
  unfold new_string. destruct (malloc_ok m (zlen w + 1)) as [(m' & -> & _)|(e & m' & -> & O & Len)]; [pose proof (zlen_nonneg w); lia|now left|].
  right. destruct (write_bytes_ok m' e m w O Len) as (m2 & -> & O2 & S). cbn [obind]. eauto.
Qed.

Lemma nfc_string_ok m t : exists s m', nfc_string alloc garbage NFC m t = (s, m') /\
  ((s = NULL /\ unchanged m m') \/ (only_new s m m' /\ string_at m' s (NFC t))).
Proof.
  unfold nfc_string. destruct (malloc_ok m (zlen (NFC t) + 1)) as [(m' & -> & U)|(e & m' & -> & O & Len)]; [pose proof (zlen_nonneg (NFC t)); lia| |].
  - exists NULL, m'. split; [reflexivity|]. now left.
  - pose proof O as (N & F & V & K & C & W & B). rewrite eqb_NULL_neq by exact N. do 2 eexists. split; [reflexivity|]. right.
    unfold set_bytes, only_new, string_at. cbn [links chars words bytes live calls]. split.
    + do 6 (split; [assumption|]). intros a Na. rewrite upd_other by exact Na. auto.
    + rewrite V, !upd_same. auto.
Qed.

Lemma insert_last_ok l m xs e : inv l (links m) xs -> Forall (fun a => live m a = true) xs -> e <> NULL -> live m e = true -> ~ In e xs ->
  exists l' m', insert_last l m e = Ok (l', m') /\ inv l' (links m') (xs ++ [e]) /\ live m' = live m /\ chars m' = chars m /\
    words m' = words m /\ bytes m' = bytes m /\ forall a, ~ In a (e :: xs) -> links m' a = links m a.
Proof.
  intros I L N Le Ne. rewrite Forall_forall in L. unfold insert_last. rewrite access_ok by assumption. cbn [obind]. rewrite touch_ok.
  2:{ intros Nl. rewrite (inv_last _ _ _ I) in Nl |- *. destruct (lastd_in NULL xs) as [Q|Q]; [congruence|]. now apply L. }
  cbn [obind]. unfold list_insert_last. rewrite (inv_last _ _ _ I). rewrite <- (app_nil_r xs) in I.
  destruct (list_insert_spec l _ xs [] e I N) as (l' & h' & Ei & I' & _ & F); [now rewrite app_nil_r|].
  cbn [hd] in Ei. rewrite Ei. cbn [obind]. do 2 eexists. split; [reflexivity|]. cbn [links chars words bytes live].
  split; [exact I'|]. do 4 (split; [reflexivity|]). intros a Na. apply F. now rewrite app_nil_r.
Qed.

Lemma new_block_ok m : new_block alloc m = Fail "unable to allocate memory" \/
  exists e m', new_block alloc m = Ok (e, m') /\ e <> NULL /\ live m e = false /\ live m' = upd (live m) e true /\ 
    bytes m' = bytes m /\ (forall a, a <> e -> links m' a = links m a /\ chars m' a = chars m a /\ words m' a = words m a).
Proof.
  unfold new_block. set (e := alloc (live m) (calls m)). destruct (Z.eqb_spec e NULL) as [E|N]; [now left|]. right.
  destruct (sound (live m) (calls m)) as [X|F]; [contradiction|]. fold e in F. exists e. eexists. split; [reflexivity|].
  cbn [links chars words bytes live]. do 4 (split; [first [assumption|reflexivity]|]). intros a Na. now rewrite !upd_other.
Qed.

Lemma append_word_ok l m xs fst lst w : inv l (links m) xs -> Forall (fun a => live m a = true) xs ->
  append_word NFC fst lst = Ok w ->
  append_word_item alloc garbage NFC (l, m) fst lst = UB "access through NULL" \/
  append_word_item alloc garbage NFC (l, m) fst lst = Fail "unable to allocate memory" \/
  exists l' m' e s, append_word_item alloc garbage NFC (l, m) fst lst = Ok (l', m') /\ inv l' (links m') (xs ++ [e]) /\
    words m' e = s /\ (s = NULL \/ string_at m' s w) /\ ~ In e (some_block s) /\ extends xs (e :: some_block s) m m'.
Proof.
  intros I L W. unfold append_word in W. unfold append_word_item. destruct lst as [|? after]; [discriminate W|].
  destruct (encode_between fst after) as [content| | |]; cbn [obind] in W |- *; try discriminate W. injection W as <-.
  destruct (new_string_ok m content) as [->|(b & m1 & -> & O1 & S1)]; [now left|]. right. cbn [obind].
  destruct (new_block_ok m1) as [->|(e & m2 & -> & Ne & Fe & V2 & B2 & R2)]; [now left|]. right. cbn [obind].
  pose proof O1 as (Nb & Fb & V1 & K1 & C1 & W1 & B1).
  assert (Neb : e <> b) by (intros ->; rewrite V1, upd_same in Fe; discriminate Fe).
  assert (Feb : live m e = false) by (rewrite V1, upd_other in Fe by exact Neb; exact Fe).
  assert (S2 : string_at m2 b content). { destruct S1 as (A & B & C). split; [exact A|]. rewrite V2, B2, upd_other by congruence. auto. }
  assert (Rd : read_string m2 b = Ok (c_string content)).
  { destruct S2 as (A & B & C). unfold read_string. rewrite access_ok by assumption. cbn [obind]. now rewrite C, has_nul, c_string_content. }
  rewrite Rd. cbn [obind]. destruct (nfc_string_ok m2 (c_string content)) as (s & m3 & -> & N3).
  assert (Le2 : live m2 e = true) by (rewrite V2; apply upd_same).
  assert (P3 : (forall a, live m2 a = true -> live m3 a = true /\ bytes m3 a = bytes m2 a) /\ links m3 = links m2 /\ chars m3 = chars m2 /\ words m3 = words m2 /\
    (forall a, live m3 a = true <-> live m2 a = true \/ In a (some_block s)) /\ (forall a, In a (some_block s) -> live m2 a = false) /\ (s = NULL \/ string_at m3 s (NFC (c_string content)))).
  { destruct N3 as [(-> & A & B & C & D & E)|[O S]].
    - rewrite A, B, C, D, E. cbn [some_block]. change (NULL =? NULL) with true. cbn [In]. do 4 (split; [auto|]). split; [intros a; intuition|]. split; [intros a []|now left].
    - pose proof (only_new_extends _ _ _ O) as (X1 & X2 & _ & _ & X5). destruct O as (N & F & V & K & C & W & B).
      unfold some_block. rewrite eqb_NULL_neq by exact N. split; [|auto 8]. intros a La. split; [apply X1; now left|apply X5; exact La]. }
  destruct P3 as (A3 & K3 & C3 & W3 & V3 & F3 & S3). clear N3.
  destruct (A3 e Le2) as [Le3 _]. rewrite access_ok by assumption. cbn [obind].
  match goal with |- context [insert_last l ?mm e] => set (m4 := mm) end.
  rewrite Forall_forall in L.
  assert (U1 : forall a, live m a = true -> a <> b /\ a <> e /\ live m2 a = true).
  { intros a La. assert (a <> b) by (intros ->; congruence). assert (a <> e) by (intros ->; congruence). split; [assumption|]. split; [assumption|].
    rewrite V2, V1, !upd_other by congruence. exact La. }
  assert (Ks : forall a, a <> e -> links m4 a = links m a).
  { intros a Na. cbn [m4 links]. rewrite K3. destruct (R2 a Na) as (-> & _). now rewrite K1. }
  destruct (insert_last_ok l m4 xs e) as (l' & m5 & -> & I5 & V5 & C5 & W5 & B5 & K5).
  { destruct I as [I1 I2 I3 I4 I5 I6]. constructor; try assumption. apply (dlseg_ext (links m)); [|exact I3]. intros x Hx. apply Ks.
    intros ->. apply L in Hx. congruence. }
  { apply Forall_forall. intros a Ha. cbn [m4 live]. apply A3. now apply U1, L. }
  { exact Ne. } { exact Le3. }
  { intros Q. apply L in Q. congruence. }
  cbn [obind]. unfold free_block. cbn [m4 live] in V5.
  assert (Lb3 : live m3 b = true) by (apply A3; rewrite V2, V1, upd_other by congruence; apply upd_same).
  rewrite access_ok by (try exact Nb; rewrite V5; exact Lb3). cbn [obind].
  assert (Nsb : ~ In b (some_block s)).
  { intros Q. apply F3 in Q. rewrite V2, V1, upd_other, upd_same in Q by congruence. discriminate Q. }
  do 2 eexists. exists e, s. split; [reflexivity|]. unfold extends, string_at. cbn [links chars words bytes live].
  split; [exact I5|]. split; [rewrite W5; cbn [m4 words]; apply upd_same|].
  split.
  { destruct S3 as [Q|(Q1 & Q2 & Q3)]; [now left|]. right. split; [exact Q1|]. rewrite B5, V5. cbn [m4 bytes]. split; [|exact Q3].
    rewrite upd_other; [exact Q2|]. intros ->. apply Nsb. unfold some_block. rewrite eqb_NULL_neq by exact Q1. now left. }
  split; [intros Q; apply F3 in Q; congruence|].
  split; [|split; [|split; [|split]]].
  - intros a. rewrite V5. unfold upd. cbn [In]. destruct (Z.eqb_spec a b) as [->|Nab].
    + split; [intros Q; discriminate Q|]. intros [Q|[Q|Q]]; [congruence|congruence|contradiction].
    + rewrite V3, V2, V1. unfold upd. destruct (Z.eqb_spec a e) as [->|Nae]; [tauto|]. destruct (Z.eqb_spec a b); [contradiction|]. intuition congruence.
  - intros a [<-|Q]; [exact Feb|]. apply F3 in Q. destruct (live m a) eqn:E; [|reflexivity]. apply U1 in E as (_ & _ & E). congruence.
  - intros a La. destruct (U1 a La) as (N1 & N2 & _). rewrite C5. cbn [m4 chars]. rewrite C3. destruct (R2 a N2) as (_ & -> & _). now rewrite C1.
  - intros a La Nx. destruct (U1 a La) as (N1 & N2 & _). rewrite K5; [now apply Ks|]. cbn. intuition congruence.
  - intros a La. destruct (U1 a La) as (N1 & N2 & L2). rewrite W5, B5. cbn [m4 words bytes]. rewrite upd_other by exact N2. rewrite W3.
    destruct (R2 a N2) as (_ & _ & ->). rewrite W1. split; [reflexivity|]. destruct (A3 a L2) as [_ ->]. rewrite B2. now apply B1.
Qed.

Lemma text_values_ok l : forall rest ps m fuel, inv l (links m) (ps ++ rest) -> Forall (fun a => live m a = true) rest -> (List.length rest <= fuel)%nat ->
  text_values fuel m (hd NULL rest) = Ok (map (fun a => value (chars m a)) rest).
Proof.
  induction rest as [|x rest IH]; intros ps m fuel I L F.
  - destruct fuel; reflexivity.
  - destruct fuel as [|fu]; [cbn in F; lia|]. cbn [hd text_values]. destruct (inv_item _ _ _ _ _ I) as [N E]. inversion L as [|? ? Lx L']; subst.
    rewrite eqb_NULL_neq by exact N. rewrite access_ok by assumption. cbn [obind]. rewrite E. cbn [next].
    rewrite (IH (ps ++ [x]) m fu); [reflexivity| |exact L'|cbn in F; lia]. now rewrite <- app_assoc.
Qed.

(** Words found: new items with new strings. *)
Definition new_words (m' : memory) (xs nx ns : list addr) (nw : list (list Z)) (m : memory) : Prop :=
  map (words m') nx = ns /\ Forall2 (fun s w => s = NULL \/ string_at m' s w) ns nw /\ NoDup (nx ++ real ns) /\ extends xs (nx ++ real ns) m m'.

Lemma find_words_in_ok : forall fuel fst ws ws' l m xs, inv l (links m) xs -> Forall (fun a => live m a = true) xs ->
  find_words_from uc NFC fuel fst ws = Ok ws' ->
  find_words_in alloc garbage uc NFC fuel fst (l, m) = UB "access through NULL" \/
  find_words_in alloc garbage uc NFC fuel fst (l, m) = Fail "unable to allocate memory" \/
  exists l' m' nx ns nw, find_words_in alloc garbage uc NFC fuel fst (l, m) = Ok (l', m') /\ ws' = ws ++ nw /\ inv l' (links m') (xs ++ nx) /\ new_words m' xs nx ns nw m.
Proof.
  induction fuel as [|fuel IH]; intros fst ws ws' l m xs I L Fw; cbn [find_words_from find_words_in] in *;
    (destruct (find_next_boundary fst) as [lst| | |]; cbn [obind] in *; try discriminate Fw);
    (destruct lst as [|c nxt]; [right; right; injection Fw as <-; exists l, m, [], [], []; rewrite !app_nil_r; unfold new_words; cbn [map app real filter]; split; [reflexivity|]; split; [reflexivity|];
       split; [exact I|]; split; [reflexivity|]; split; [constructor|]; split; [constructor|]; apply extends_refl|]).
  - discriminate Fw.
  - destruct (rd "first->value" fst 0) as [v| | |]; cbn [obind] in *; try discriminate Fw.
    destruct (is_word_start uc v); cbn [obind] in *; [|now apply IH].
    destruct (append_word NFC fst (c :: nxt)) as [w| | |] eqn:A; cbn [obind] in Fw; try discriminate Fw.
    destruct (append_word_ok l m xs fst (c :: nxt) w I L A) as [->|[->|(l1 & m1 & e & s & -> & I1 & W1 & S1 & Nd1 & X1)]]; [now left|right; now left|]. cbn [obind].
    assert (L1 : Forall (fun a => live m1 a = true) (xs ++ [e])).
    { apply Forall_app. split; [eapply Forall_impl; [|exact L]; intros a La; apply X1; now left|]. constructor; [|constructor]. apply X1. right. now left. }
    destruct (IH nxt (ws ++ [w]) ws' l1 m1 (xs ++ [e]) I1 L1 Fw) as [->|[->|(l2 & m2 & nx & ns & nw & -> & -> & I2 & M2 & F2 & Nd2 & X2)]]; [now left|right; now left|].
    right. right. exists l2, m2, (e :: nx), (s :: ns), (w :: nw). split; [reflexivity|]. split; [now rewrite <- app_assoc|]. split; [now rewrite <- app_assoc in I2|].
    assert (Le : live m1 e = true) by (rewrite Forall_forall in L1; apply L1; apply in_or_app; right; now left).
    assert (Fr : forall a, In a (nx ++ real ns) -> ~ In a (e :: some_block s)).
    { intros a Ha Q. apply X2 in Ha. assert (live m1 a = true) by (apply X1; now right). congruence. }
    unfold new_words. rewrite real_cons. split; [|split; [|split]].
    + cbn [map]. f_equal; [|exact M2]. destruct X2 as (_ & _ & _ & _ & X5). destruct (X5 e Le) as [-> _]. exact W1.
    + constructor; [|exact F2]. destruct S1 as [->|S1]; [now left|right; eapply extends_string; [exact X2|exact S1]].
    + apply (Permutation_NoDup (l := (e :: some_block s) ++ (nx ++ real ns))).
      { cbn [app]. constructor. rewrite app_assoc, (Permutation_app_comm (some_block s)), <- app_assoc. reflexivity. }
      apply NoDup_join; [|exact Nd2|].
      * constructor; [exact Nd1|]. unfold some_block. destruct (s =? NULL); repeat constructor; intros [].
      * intros a Ha Q. exact (Fr a Q Ha).
    + apply (extends_perm _ ((e :: some_block s) ++ (nx ++ real ns))); [intros a; cbn [app In]; rewrite !in_app_iff; tauto|].
      eapply extends_trans; [exact X1|exact X2|]. intros a [<-|[]]. now left.
Qed.

(** free_words *)
Lemma free_words_ok : forall xs fuel l m, inv l (links m) xs -> Forall (fun a => live m a = true) (xs ++ real (map (words m) xs)) -> NoDup (xs ++ real (map (words m) xs)) ->
  (List.length xs <= fuel)%nat ->
  exists l' m', free_words fuel l m = Ok (l', m') /\ inv l' (links m') [] /\ (forall a, live m' a = true <-> live m a = true /\ ~ In a (xs ++ real (map (words m) xs))) /\
    chars m' = chars m /\ words m' = words m /\ bytes m' = bytes m /\ forall a, ~ In a xs -> links m' a = links m a.
Proof.
  induction xs as [|x xs IH]; intros fuel l m I L Nd Fu.
  - exists l, m. destruct fuel; cbn [free_words]; rewrite (inv_first _ _ _ I); (split; [reflexivity|]); cbn [map real filter app In]; intuition.
  - destruct fuel as [|fu]; [cbn in Fu; lia|]. cbn [free_words]. rewrite (inv_first _ _ _ I). cbn [hd].
    destruct (inv_item l (links m) [] x xs I) as [N _]. rewrite eqb_NULL_neq by exact N.
    pose proof L as L0. apply Forall_app in L0 as [Lxs Lss].
    destruct (remove_item_ok l m [] x xs I Lxs) as (l2 & m2 & R & I2 & C2 & V2 & F2). rewrite R. cbn [obind].
    destruct (remove_item_words _ _ _ _ _ R) as [W2 B2].
    rewrite Forall_forall in L. cbn [map] in L, Nd. rewrite real_cons in L, Nd.
    assert (Lx : live m x = true) by (apply L; now left).
    unfold free_word. rewrite access_ok by (try exact N; rewrite V2; exact Lx). cbn [obind]. rewrite W2.
    assert (Sub : forall a, In a (xs ++ real (map (words m) xs)) -> In a ((x :: xs) ++ some_block (words m x) ++ real (map (words m) xs)) /\ a <> x /\ ~ In a (some_block (words m x))).
    { intros a Ha. assert (P : NoDup ((x :: some_block (words m x)) ++ xs ++ real (map (words m) xs))).
      { eapply Permutation_NoDup; [|exact Nd]. cbn [app]. constructor. rewrite !app_assoc. apply Permutation_app_tail. apply Permutation_app_comm. }
      split; [rewrite !in_app_iff in *; cbn [In]; tauto|]. 
      assert (D : ~ In a (x :: some_block (words m x))).
      { intros Q. apply in_split in Q as (u & v & Q). rewrite Q, <- app_assoc in P. cbn [app] in P. apply NoDup_remove_2 in P. apply P. rewrite app_assoc. apply in_or_app. now right. }
      cbn [In] in D. split; [intros ->; apply D; now left|tauto]. }
    assert (M3 : exists m3, (if words m x =? NULL then Ok m2 else free_block m2 (words m x)) = Ok m3 /\ links m3 = links m2 /\ chars m3 = chars m2 /\ words m3 = words m2 /\ bytes m3 = bytes m2 /\
      (forall a, live m3 a = true <-> live m2 a = true /\ ~ In a (some_block (words m x)))).
    { unfold some_block in *. destruct (Z.eqb_spec (words m x) NULL) as [E|Nw].
      - exists m2. split; [reflexivity|]. do 4 (split; [reflexivity|]). cbn [In]. intuition.
      - unfold free_block. rewrite access_ok; [|exact Nw|rewrite V2; apply L; apply in_or_app; right; now left]. cbn [obind].
        eexists. split; [reflexivity|]. cbn [links chars words bytes live]. do 4 (split; [reflexivity|]). intros a. unfold upd. cbn [In].
        destruct (Z.eqb_spec a (words m x)) as [->|Na]; [split; [intros Q; discriminate Q|tauto]|]. intuition. }
    destruct M3 as (m3 & -> & K3 & C3 & W3 & B3 & V3). cbn [obind].
    assert (Nx : ~ In x (some_block (words m x))).
    { intros Q. cbn [app] in Nd. inversion Nd as [|? ? Q1 Q2]; subst. apply Q1. rewrite !in_app_iff. tauto. }
    unfold free_block. rewrite access_ok; [|exact N|apply V3; split; [rewrite V2; exact Lx|exact Nx]]. cbn [obind].
    match goal with |- context [free_words fu l2 ?mm] => set (m4 := mm) end.
    assert (Wm : words m4 = words m) by (cbn [m4 words]; congruence).
    destruct (IH fu l2 m4) as (l' & m' & -> & I' & V' & C' & W' & B' & F').
    { cbn [m4 links]. rewrite K3. exact I2. }
    { rewrite Wm. apply Forall_forall. intros a Ha. destruct (Sub a Ha) as (S1 & S2 & S3). cbn [m4 live]. rewrite upd_other by exact S2. apply V3. split; [rewrite V2; apply L; exact S1|exact S3]. }
    { rewrite Wm. cbn [app] in Nd. inversion Nd as [|? ? Q1 Q2]; subst. rewrite app_assoc in Q2. 
      apply (Permutation_NoDup (l' := some_block (words m x) ++ (xs ++ real (map (words m) xs)))) in Q2; [|rewrite !app_assoc; apply Permutation_app_tail; apply Permutation_app_comm].
      clear - Q2. induction (some_block (words m x)) as [|y ys IH]; [exact Q2|]. apply IH. now inversion Q2. }
    { cbn in Fu. lia. }
    exists l', m'. split; [reflexivity|]. split; [exact I'|]. split; [|split; [|split; [|split]]].
    + intros a. rewrite V', Wm. cbn [m4 live map]. rewrite real_cons. unfold upd. destruct (Z.eqb_spec a x) as [->|Na].
      * split; [intros [Q _]; discriminate Q|]. intros [_ Q]. exfalso. apply Q. now left.
      * rewrite V3, V2, !in_app_iff. cbn [In]. intuition congruence.
    + rewrite C'. cbn [m4 chars]. congruence.
    + rewrite W'. exact Wm.
    + rewrite B'. cbn [m4 bytes]. congruence.
    + intros a Na. cbn [In] in Na. rewrite F' by tauto. cbn [m4 links]. rewrite K3. apply F2. exact Na.
Qed.

(** The table of terms, as a list of words with counts. *)
Definition table_is (m : memory) (terms : list (addr * Z)) (assoc : list (list Z * Z)) : Prop :=
  Forall2 (fun t a => string_at m (fst t) (fst a) /\ snd t = snd a) terms assoc /\ NoDup (map fst terms) /\ Forall (fun a => ~ In 0 (fst a)) assoc.
Fixpoint raise (assoc : list (list Z * Z)) (w : list Z) : option (list (list Z * Z)) :=
  match assoc with
  | [] => None
  | (v, n) :: rest => if streq v w then Some ((v, n + 1) :: rest) else match raise rest w with Some rest => Some ((v, n) :: rest) | None => None end
  end.
Definition counted (assoc : list (list Z * Z)) (w : list Z) : list (list Z * Z) :=
  match raise assoc w with Some assoc => assoc | None => assoc ++ [(w, 1)] end.

Lemma count_key_ok m w : forall terms assoc, Forall2 (fun t a => string_at m (fst t) (fst a) /\ snd t = snd a) terms assoc -> Forall (fun a => ~ In 0 (fst a)) assoc ->
  match raise assoc w with
  | Some assoc' => exists terms', count_key m terms w = Ok (Some terms') /\ map fst terms' = map fst terms /\
       Forall2 (fun t a => string_at m (fst t) (fst a) /\ snd t = snd a) terms' assoc' /\ map fst assoc' = map fst assoc
  | None => count_key m terms w = Ok None
  end.
Proof.
  induction 1 as [|[k n] [v n'] terms assoc [S E] F IH]; intros Z; [reflexivity|]. cbn [fst snd] in S, E. inversion Z as [|? ? Zv Z']; subst. cbn [fst] in Zv.
  cbn [raise count_key]. rewrite (read_string_ok m k v S Zv). cbn [obind]. destruct (streq v w).
  - eexists. split; [reflexivity|]. split; [reflexivity|]. split; [constructor; [|exact F]; cbn; auto|reflexivity].
  - specialize (IH Z'). destruct (raise assoc w) as [assoc'|].
    + destruct IH as (terms' & -> & M & F' & M'). cbn [obind]. eexists. split; [reflexivity|]. cbn [map]. rewrite M. split; [reflexivity|].
      split; [constructor; [cbn; auto|exact F']|]. cbn [map]. now rewrite M'.
    + rewrite IH. reflexivity.
Qed.
Lemma extends_table xs new m m' terms assoc : extends xs new m m' -> table_is m terms assoc -> table_is m' terms assoc.
Proof.
  intros X (F & N & Z). split; [|auto]. eapply ArgsProps.Forall2_weaken; [|exact F]. intros t a [S E]. split; [eapply extends_string; eauto|exact E].
Qed.
Lemma table_live m terms assoc : table_is m terms assoc -> forall a, In a (map fst terms) -> live m a = true.
Proof.
  intros (F & _) a Ha. apply in_map_iff in Ha as (t & <- & Ht). clear - F Ht. induction F as [|x y l l' [S _] F IH]; [destruct Ht|].
  destruct Ht as [<-|Ht]; [apply S|auto].
Qed.

Lemma add_key_ok m terms assoc key w : table_is m terms assoc -> string_at m key w -> ~ In 0 w ->
  add_key alloc garbage (terms, m) key = UB "access through NULL" \/
  exists terms' m' nk, add_key alloc garbage (terms, m) key = Ok (terms', m') /\ table_is m' terms' (counted assoc w) /\
    map fst terms' = map fst terms ++ nk /\ extends [] nk m m' /\ (forall a, live m a = true -> links m' a = links m a).
Proof.
  intros T S Z. unfold add_key. rewrite (read_string_ok m key w S Z). cbn [obind]. pose proof T as (F & N & Zs). unfold counted.
  pose proof (count_key_ok m w terms assoc F Zs) as C. destruct (raise assoc w) as [assoc'|] eqn:R.
  - destruct C as (terms' & -> & M & F' & M'). cbn [obind]. right. exists terms', m, []. split; [reflexivity|]. rewrite app_nil_r.
    split; [|split; [exact M|split; [apply extends_refl|reflexivity]]]. split; [exact F'|]. rewrite M. split; [exact N|].
    apply Forall_forall. intros a Ha. rewrite Forall_forall in Zs. assert (In (fst a) (map fst assoc)) as Q by (rewrite <- M'; now apply in_map).
    apply in_map_iff in Q as (b & E & Hb). rewrite <- E. auto.
  - rewrite C. cbn [obind]. destruct (new_string_ok m w) as [->|(e & m' & -> & O & S')]; [now left|]. right. cbn [obind].
    pose proof (only_new_extends _ _ _ O) as X.
    do 2 eexists. exists [e]. split; [reflexivity|]. split; [|split; [now rewrite map_app|split; [exact X|]]].
    + destruct (extends_table _ _ _ _ _ _ X T) as (F' & _). split; [|split].
      * apply Forall2_app; [exact F'|]. constructor; [|constructor]. cbn. auto.
      * rewrite map_app. apply NoDup_join; [exact N|cbn; repeat constructor; intros []|]. intros a Ha [Q|[]]. cbn [fst] in Q. subst a.
        apply (table_live _ _ _ T) in Ha. destruct O as (_ & Fr & _). congruence.
      * apply Forall_app. split; [exact Zs|]. constructor; [exact Z|constructor].
    + intros a La. apply X; [exact La|intros []].
Qed.

Lemma add_words_ok l : forall rest ns nw ps m terms assoc fuel, inv l (links m) (ps ++ rest) -> Forall (fun a => live m a = true) (ps ++ rest) -> table_is m terms assoc ->
  map (words m) rest = ns -> Forall2 (fun s w => s = NULL \/ string_at m s w) ns nw -> Forall (fun w => ~ In 0 w) nw -> (List.length rest <= fuel)%nat ->
  add_words alloc garbage fuel (terms, m) (hd NULL rest) = UB "access through NULL" \/
  exists terms' m' nk, add_words alloc garbage fuel (terms, m) (hd NULL rest) = Ok (terms', m') /\ table_is m' terms' (fold_left counted nw assoc) /\
    map fst terms' = map fst terms ++ nk /\ extends [] nk m m'.
Proof.
  induction rest as [|x rest IH]; intros ns nw ps m terms assoc fuel I L T M F Z Fu.
  - cbn [map] in M. subst ns. inversion F; subst. right. exists terms, m, []. rewrite app_nil_r. destruct fuel; (split; [reflexivity|]; split; [exact T|]; split; [reflexivity|apply extends_refl]).
  - destruct fuel as [|fu]; [cbn in Fu; lia|]. cbn [hd add_words snd]. destruct (inv_item _ _ _ _ _ I) as [N E]. rewrite eqb_NULL_neq by exact N.
    pose proof L as L0. rewrite Forall_forall in L0. assert (Lx : live m x = true) by (apply L0; apply in_or_app; right; now left).
    rewrite access_ok by assumption. cbn [obind map] in *. subst ns. inversion F as [|? w ? nw' Hs F']; subst. inversion Z as [|? ? Zw Z']; subst.
    destruct Hs as [Hs|Hs]; [left; rewrite Hs; reflexivity|].
    destruct (add_key_ok m terms assoc (words m x) w T Hs Zw) as [->|(terms1 & m1 & nk1 & -> & T1 & K1 & X1 & Ln)]; [now left|]. cbn [obind snd].
    rewrite Ln by exact Lx. rewrite E. cbn [next]. pose proof X1 as (_ & _ & _ & _ & X5).
    destruct (IH (map (words m) rest) nw' (ps ++ [x]) m1 terms1 (counted assoc w) fu) as [->|(terms2 & m2 & nk2 & -> & T2 & K2 & X2)].
    { rewrite <- app_assoc. cbn [app]. eapply extends_inv; [exact X1|exact I|exact L|]. intros a _ []. }
    { rewrite <- app_assoc. cbn [app]. eapply Forall_impl; [|exact L]. intros a La. apply X1. now left. }
    { exact T1. }
    { apply map_ext_in. intros a Ha. apply X5. apply L0. apply in_or_app. right. now right. }
    { eapply ArgsProps.Forall2_weaken; [|exact F']. intros s v [->|S]; [now left|right; eapply extends_string; eauto]. }
    { exact Z'. } { cbn in Fu. lia. }
    { now left. }
    right. exists terms2, m2, (nk1 ++ nk2). split; [reflexivity|]. split; [exact T2|]. split; [now rewrite K2, K1, app_assoc|].
    eapply (extends_trans [] []); [exact X1|exact X2|intros a []].
Qed.

Variable junk junk4 : list Z.
Variable opt : textopt.
Hypothesis nfc_c_string : forall s, ~ In 0 (NFC s).

Lemma append_word_no_nul fst lst w : append_word NFC fst lst = Ok w -> ~ In 0 w.
Proof.
  unfold append_word. destruct lst; intros E; [discriminate E|]. destruct (encode_between fst lst); cbn [obind] in E; try discriminate E. injection E as <-. apply nfc_c_string.
Qed.
Lemma find_words_no_nul fuel : forall fst ws ws', find_words_from uc NFC fuel fst ws = Ok ws' -> Forall (fun w => ~ In 0 w) ws -> Forall (fun w => ~ In 0 w) ws'.
Proof.
  induction fuel as [|fu IH]; intros fst ws ws' E Z; cbn [find_words_from] in E; (destruct (find_next_boundary fst) as [lst| | |]; cbn [obind] in E; try discriminate E);
   (destruct lst as [|c nxt]; [injection E as <-; exact Z|]); [discriminate E|].
  destruct (rd "first->value" fst 0) as [v| | |]; cbn [obind] in E; try discriminate E.
  destruct (is_word_start uc v); cbn [obind] in E; [|eauto].
  destruct (append_word NFC fst (c :: nxt)) as [w| | |] eqn:A; cbn [obind] in E; try discriminate E. apply IH in E; [exact E|].
  apply Forall_app. split; [exact Z|]. constructor; [|constructor]. eapply append_word_no_nul. exact A.
Qed.

Lemma wordfreq_file_ok tl wl terms m assoc f t found ws : inv tl (links m) [] -> inv wl (links m) [] -> table_is m terms assoc ->
  read_text uc junk junk4 opt [] f = Ok (t, found) -> find_words uc NFC [] (map value t) = Ok ws ->
  wordfreq_file alloc garbage uc NFC junk junk4 opt (tl, wl, terms, m) f = UB "access through NULL" \/
  wordfreq_file alloc garbage uc NFC junk junk4 opt (tl, wl, terms, m) f = Fail "unable to allocate memory" \/
  exists tl' wl' terms' m' nk, wordfreq_file alloc garbage uc NFC junk junk4 opt (tl, wl, terms, m) f = Ok (tl', wl', terms', m') /\
    inv tl' (links m') [] /\ inv wl' (links m') [] /\ table_is m' terms' (fold_left counted ws assoc) /\ map fst terms' = map fst terms ++ nk /\ extends [] nk m m'.
Proof.
  intros It Iw T Rt Fw. unfold wordfreq_file.
  pose proof (read_text_ok alloc sound uc junk junk4 opt tl m [] [] f It (Forall_nil _) eq_refl) as R. rewrite Rt in R.
  destruct R as [->|(tl1 & m1 & xt & -> & It1 & Mt & X1)]; [right; now left|]. cbn [app] in It1, Mt. cbn [obind].
  assert (Lt : Forall (fun a => live m1 a = true) xt) by (apply Forall_forall; intros a Ha; apply X1; now right).
  unfold find_words_items. rewrite (inv_fuel _ _ _ It1), (inv_first _ _ _ It1).
  rewrite (text_values_ok tl1 xt [] m1 (List.length xt) It1 Lt ltac:(lia)). cbn [obind].
  assert (Ev : map (fun a => value (chars m1 a)) xt = map value t) by (rewrite <- Mt, map_map; reflexivity). rewrite Ev.
  assert (Iw1 : inv wl (links m1) []).
  { destruct Iw as [I1 I2 I3 I4 I5 I6]. constructor; try assumption. }
  destruct (find_words_in_ok (List.length (map value t)) (map value t) [] ws wl m1 [] Iw1 (Forall_nil _) Fw) as [->|[->|(wl2 & m2 & nx & ns & nw & -> & Ew & Iw2 & Mw & Fs & Nd & X2)]]; [now left|right; now left|].
  cbn [app] in Ew, Iw2. subst nw. cbn [obind].
  assert (Lw : Forall (fun a => live m2 a = true) nx) by (apply Forall_forall; intros a Ha; apply X2; right; apply in_or_app; now left).
  rewrite (inv_fuel _ _ _ Iw2), (inv_first _ _ _ Iw2).
  assert (X12 : extends [] (xt ++ (nx ++ real ns)) m m2) by (eapply (extends_trans [] []); [exact X1|exact X2|intros a []]).
  destruct (add_words_ok wl2 nx ns ws [] m2 terms assoc (List.length nx) Iw2 Lw) as [->|(terms3 & m3 & nk & -> & T3 & K3 & X3)].
  { eapply extends_table; [exact X12|exact T]. } { exact Mw. } { exact Fs. }
  { eapply find_words_no_nul; [exact Fw|constructor]. } { lia. }
  { now left. }
  cbn [obind]. right. right.
  assert (X13 : extends [] ((xt ++ (nx ++ real ns)) ++ nk) m m3) by (eapply (extends_trans [] []); [exact X12|exact X3|intros a []]).
  assert (It2 : inv tl1 (links m2) xt) by (eapply extends_inv; [exact X2|exact It1|exact Lt|intros a _ []]).
  assert (Lt2 : Forall (fun a => live m2 a = true) xt) by (eapply Forall_impl; [|exact Lt]; intros a La; apply X2; now left).
  assert (It3 : inv tl1 (links m3) xt) by (eapply extends_inv; [exact X3|exact It2|exact Lt2|intros a _ []]).
  assert (Lt3 : Forall (fun a => live m3 a = true) xt) by (eapply Forall_impl; [|exact Lt2]; intros a La; apply X3; now left).
  assert (Iw3 : inv wl2 (links m3) nx) by (eapply extends_inv; [exact X3|exact Iw2|exact Lw|intros a _ []]).
  destruct (free_text (List.length xt) tl1 m3) as [[tl4 m4]| | |] eqn:Ef;
    destruct (free_text_ok xt (List.length xt) tl1 m3 It3 Lt3 ltac:(lia)) as (tl4' & m4' & Ef' & It4 & V4 & C4 & K4); rewrite Ef' in Ef; try discriminate Ef.
  injection Ef as -> ->. cbn [obind]. apply free_text_words in Ef' as [W4 B4].
  assert (Dt : forall a, In a (nx ++ real ns) -> ~ In a xt).
  { intros a Ha Q. apply X2 in Ha. rewrite Forall_forall in Lt. apply Lt in Q. congruence. }
  assert (Ms : map (words m4) nx = ns).
  { rewrite W4, <- Mw. apply map_ext_in. intros a Ha. apply X3. rewrite Forall_forall in Lw. auto. }
  destruct (free_words_ok nx (List.length nx) wl2 m4) as (wl5 & m5 & -> & Iw5 & V5 & C5 & W5 & B5 & K5).
  { destruct Iw3 as [I1 I2 I3 I4 I5 I6]. constructor; try assumption. apply (dlseg_ext (links m3)); [|exact I3]. intros x Hx. apply K4. apply Dt. apply in_or_app. now left. }
  { rewrite Ms. apply Forall_forall. intros a Ha. apply V4. split; [|now apply Dt]. apply X3. left. apply X2. now right. }
  { rewrite Ms. exact Nd. } { lia. }
  cbn [obind]. exists tl4, wl5, terms3, m5, nk. split; [reflexivity|].
  assert (It5 : inv tl4 (links m5) []) by (destruct It4 as [I1 I2 I3 I4 I5 I6]; constructor; assumption).
  split; [exact It5|]. split; [exact Iw5|]. rewrite Ms in V5.
  assert (V : forall a, live m5 a = true <-> live m3 a = true /\ ~ In a xt /\ ~ In a (nx ++ real ns)) by (intros a; rewrite V5, V4; tauto).
  assert (Fk : forall a, In a nk -> ~ In a xt /\ ~ In a (nx ++ real ns)).
  { intros a Ha. apply X3 in Ha. split; intros Q; assert (live m2 a = true) as La by (apply X12; right; rewrite in_app_iff; tauto); congruence. }
  assert (Fm : forall a, live m a = true -> ~ In a xt /\ ~ In a (nx ++ real ns)).
  { intros a La. split; intros Q; assert (live m a = false) as Lf by (apply X12; rewrite in_app_iff; tauto); congruence. }
  destruct X13 as (Y1 & Y2 & Y3 & Y4 & Y5). split; [|split; [exact K3|]].
  - destruct T3 as (F3 & N3 & Z3). split; [|auto].
    assert (Al : forall a, In a (map fst terms3) -> live m5 a = true).
    { intros a Ha. rewrite K3 in Ha. apply V. apply in_app_iff in Ha as [Ha|Ha]; [|split; [apply Y1; right; apply in_or_app; now right|auto]].
      apply (table_live _ _ _ T) in Ha. split; [apply Y1; now left|auto]. }
    clear - F3 Al B5 B4. induction F3 as [|x y l l' [(S1 & S2 & S3) E] F IH]; constructor.
    + split; [|exact E]. split; [exact S1|]. split; [apply Al; now left|]. congruence.
    + apply IH. intros a Ha. apply Al. now right.
  - split; [|split; [|split; [|split]]].
    + intros a. rewrite V, Y1, !in_app_iff. specialize (Fk a). specialize (Fm a). rewrite in_app_iff in Fk, Fm. tauto.
    + intros a Ha. apply Y2. apply in_or_app. now right.
    + intros a La. rewrite C5, C4. now apply Y3.
    + intros a La _. destruct (Fm a La) as [N1 N2]. rewrite in_app_iff in N2. rewrite K5 by tauto. rewrite K4 by exact N1. apply Y4; [exact La|intros []].
    + intros a La. rewrite W5, B5, W4, B4. now apply Y5.
Qed.
End Proof.

(** What the table counts. *)
Definition counts (assoc : list (list Z * Z)) (ws : list (list Z)) : Prop :=
  NoDup (map fst assoc) /\ (forall w n, In (w, n) assoc -> n = occurrences w ws /\ In w ws) /\ (forall w, In w ws -> In w (map fst assoc)).
Lemma occurrences_snoc w ws v : occurrences w (ws ++ [v]) = occurrences w ws + (if list_eq_dec Z.eq_dec v w then 1 else 0).
Proof.
  unfold occurrences. rewrite filter_app, zlen_app. cbn [filter]. destruct (list_eq_dec Z.eq_dec v w); reflexivity.
Qed.
Lemma occurrences_none w ws : ~ In w ws -> occurrences w ws = 0.
Proof.
  induction ws as [|v ws IH]; intros N; [reflexivity|]. unfold occurrences in *. cbn [filter]. destruct (list_eq_dec Z.eq_dec v w) as [->|]; [exfalso; apply N; now left|].
  apply IH. intros Q. apply N. now right.
Qed.
Lemma raise_some w : forall assoc assoc', raise assoc w = Some assoc' -> exists a b n, assoc = a ++ (w, n) :: b /\ assoc' = a ++ (w, n + 1) :: b.
Proof.
  induction assoc as [|[v n] assoc IH]; intros assoc' E; cbn [raise] in E; [discriminate E|]. destruct (streq v w) eqn:S.
  - apply streq_spec in S. subst v. injection E as <-. exists [], assoc, n. auto.
  - destruct (raise assoc w) as [r|]; [|discriminate E]. injection E as <-. destruct (IH _ eq_refl) as (a & b & k & -> & ->). exists ((v, n) :: a), b, k. auto.
Qed.
Lemma raise_none w : forall assoc, raise assoc w = None -> ~ In w (map fst assoc).
Proof.
  induction assoc as [|[v n] assoc IH]; intros E; cbn [raise] in E; [intros []|]. destruct (streq v w) eqn:S; [discriminate E|].
  destruct (raise assoc w); [discriminate E|]. intros [Q|Q]; [|exact (IH eq_refl Q)]. cbn [fst] in Q. subst v. rewrite (proj2 (streq_spec w w) eq_refl) in S. discriminate S.
Qed.
Lemma counted_ok assoc ws w : counts assoc ws -> counts (counted assoc w) (ws ++ [w]).
Proof.
  intros (N & C & A). unfold counted. destruct (raise assoc w) as [assoc'|] eqn:R.
  - apply raise_some in R as (a & b & n & -> & ->). 
    assert (M : map fst (a ++ (w, n + 1) :: b) = map fst (a ++ (w, n) :: b)) by now rewrite !map_app.
    unfold counts. rewrite M. split; [exact N|]. rewrite map_app in N. cbn [map fst] in N. apply NoDup_remove_2 in N. rewrite <- map_app in N.
    assert (In w ws) by (apply (C w n); apply in_or_app; right; now left). split.
    + intros v k I. rewrite occurrences_snoc, in_app_iff. apply in_app_iff in I as [I|[I|I]].
      * destruct (C v k) as [-> Iv]; [apply in_or_app; now left|]. destruct (list_eq_dec Z.eq_dec w v) as [->|]; [|split; [lia|now left]].
        exfalso. apply N. apply in_map_iff. exists (v, occurrences v ws). split; [reflexivity|apply in_or_app; now left].
      * injection I as <- <-. destruct (C w n) as [-> _]; [apply in_or_app; right; now left|]. destruct (list_eq_dec Z.eq_dec w w); [|congruence]. split; [lia|now left].
      * destruct (C v k) as [-> Iv]; [apply in_or_app; right; now right|]. destruct (list_eq_dec Z.eq_dec w v) as [->|]; [|split; [lia|now left]].
        exfalso. apply N. apply in_map_iff. exists (v, occurrences v ws). split; [reflexivity|apply in_or_app; now right].
    + intros v I. apply in_app_iff in I as [I|[<-|[]]]; auto.
  - apply raise_none in R. assert (Nw : ~ In w ws) by (intros Q; apply R; auto). split; [|split].
    + rewrite map_app. apply NoDup_join; [exact N|cbn; repeat constructor; intros []|]. intros v Iv [<-|[]]. auto.
    + intros v k I. rewrite occurrences_snoc, in_app_iff. apply in_app_iff in I as [I|[I|[]]].
      * destruct (C v k I) as [-> Iv]. destruct (list_eq_dec Z.eq_dec w v) as [->|]; [contradiction|]. split; [lia|now left].
      * injection I as <- <-. rewrite occurrences_none by exact Nw. destruct (list_eq_dec Z.eq_dec w w); [|congruence]. split; [lia|right; now left].
    + intros v I. rewrite map_app, in_app_iff. apply in_app_iff in I as [I|[<-|[]]]; [auto|right; now left].
Qed.
Lemma counted_all ws : forall assoc ws0, counts assoc ws0 -> counts (fold_left counted ws assoc) (ws0 ++ ws).
Proof.
  induction ws as [|w ws IH]; intros assoc ws0 C; [now rewrite app_nil_r|]. cbn [fold_left]. replace (ws0 ++ w :: ws) with ((ws0 ++ [w]) ++ ws) by now rewrite <- app_assoc.
  apply IH. now apply counted_ok.
Qed.

Lemma Forall2_In_l {A B} (R : A -> B -> Prop) l l' a : Forall2 R l l' -> In a l -> exists b, In b l' /\ R a b.
Proof. induction 1 as [|x y l l' H F IH]; intros I; [destruct I|]. destruct I as [<-|I]; [exists y; split; [now left|exact H]|]. destruct (IH I) as (b & Hb & Rb). exists b. split; [now right|exact Rb]. Qed.
Lemma Forall2_In_r {A B} (R : A -> B -> Prop) l l' b : Forall2 R l l' -> In b l' -> exists a, In a l /\ R a b.
Proof. induction 1 as [|x y l l' H F IH]; intros I; [destruct I|]. destruct I as [<-|I]; [exists x; split; [now left|exact H]|]. destruct (IH I) as (a & Ha & Ra). exists a. split; [now right|exact Ra]. Qed.

Lemma string_unique m s w w' : string_at m s w -> string_at m s w' -> w = w'.
Proof. intros (_ & _ & A) (_ & _ & B). rewrite A in B. now apply app_inj_tail in B. Qed.

Lemma table_holds m terms assoc ws : table_is m terms assoc -> counts assoc ws -> holds_terms m terms ws.
Proof.
  intros (F & N & _) (Na & C & A). constructor.
  - apply Forall_forall. intros t Ht. destruct (Forall2_In_l _ _ _ _ F Ht) as ([w n] & Hb & S & E). cbn [fst snd] in *. exists w. destruct (C w n Hb) as [-> Iw]. auto.
  - intros w Iw. apply A, in_map_iff in Iw as ([v n] & E & Hb). cbn [fst] in E. subst v. destruct (Forall2_In_r _ _ _ _ F Hb) as (t & Ht & S & _). eauto.
  - intros t t' w Ht Ht' S S'. clear C A. revert N Na. induction F as [|x [v n] l l' [Sx Ex] F IH]; intros N Na; [destruct Ht|]. cbn [map fst snd] in *.
    inversion N as [|? ? Nx N']; subst. inversion Na as [|? ? Nv Na']; subst.
    destruct Ht as [<-|Ht], Ht' as [<-|Ht']; [reflexivity| | |auto]; exfalso; apply Nv.
    + pose proof (string_unique _ _ _ _ S Sx) as <-. destruct (Forall2_In_l _ _ _ _ F Ht') as ([u k] & Hb & Su & _). cbn [fst] in Su.
      pose proof (string_unique _ _ _ _ Su S') as ->. now apply (in_map fst) in Hb.
    + pose proof (string_unique _ _ _ _ S' Sx) as <-. destruct (Forall2_In_l _ _ _ _ F Ht) as ([u k] & Hb & Su & _). cbn [fst] in Su.
      pose proof (string_unique _ _ _ _ Su S) as ->. now apply (in_map fst) in Hb.
  - exact N.
Qed.
