(** How many words one edit of a text can change. *)
From Verif Require Import Base WordTable Utf8Model TextSpec WordModel WordSpec WordProof.
Local Open Scope Z_scope.
Local Open Scope list_scope.

(** The properties of characters that stand between letters or digits. *)
Definition mid (p : wb_property) : Prop :=
  p = MidLetter \/ p = MidNum \/ p = MidNumLet \/ p = Single_Quote \/ p = Double_Quote.

Lemma mid_behind a a' b c d : rules a b c d = true -> rules a' b c d = false -> mid b.
Proof.
  intros H N. apply rules_joined in H.
  assert (N' : ~ joined a' b c d) by (rewrite <- rules_joined; congruence).
  inversion H; subst; try (exfalso; apply N'; econstructor; eauto; fail); unfold midnumletq, mid in *; tauto.
Qed.
Lemma mid_ahead a b c d d' : rules a b c d = true -> rules a b c d' = false -> mid c.
Proof.
  intros H N. apply rules_joined in H.
  assert (N' : ~ joined a b c d') by (rewrite <- rules_joined; congruence).
  inversion H; subst; try (exfalso; apply N'; econstructor; eauto; fail); unfold midnumletq, mid in *; tauto.
Qed.

Lemma hd_snoc {A} (d : A) l x y : hd d (rev (l ++ [x; y])) = y.
Proof. rewrite rev_app_distr. reflexivity. Qed.

(** Left of the edit: what comes after two characters has no influence. *)
Lemma cjoin_ahead2 l1 z r w w' : ext z = false -> cjoin l1 (z :: r ++ w) <> cjoin l1 (z :: r ++ w') ->
  F r = [] /\ mid (prop z).
Proof.
  intros X. unfold cjoin. rewrite !F_main, !F_app by exact X. cbn [hd tl].
  destruct (F r) as [|q r']; cbn [app hd]; [|intros N; now destruct N]. intros N. split; [reflexivity|].
  destruct (rules _ _ (prop z) (hd eot (F w))) eqn:E1, (rules _ _ (prop z) (hd eot (F w'))) eqn:E2; try now destruct N.
  - exact (mid_ahead _ _ _ _ _ E1 E2).
  - exact (mid_ahead _ _ _ _ _ E2 E1).
Qed.

(** Right of the edit: what comes before two characters has no influence. *)
Lemma cjoin_behind2 w w' v1 l2 : F v1 <> [] -> cjoin (w ++ v1) l2 <> cjoin (w' ++ v1) l2 ->
  exists p, F v1 = [p] /\ mid p.
Proof.
  intros Nv. unfold cjoin. rewrite !F_app, !rev_app_distr.
  destruct (rev (F v1)) as [|p r] eqn:E.
  { exfalso. apply Nv. apply (f_equal (@rev _)) in E. rewrite rev_involutive in E. exact E. }
  destruct r as [|q r]; cbn [app hd tl]; [|intros N; now destruct N]. intros N. exists p.
  apply (f_equal (@rev _)) in E. rewrite rev_involutive in E. cbn [rev app] in E. split; [exact E|].
  destruct (rules (hd sot (rev (F w))) p _ _) eqn:E1, (rules (hd sot (rev (F w'))) p _ _) eqn:E2; try now destruct N.
  - exact (mid_behind _ _ _ _ _ E1 E2).
  - exact (mid_behind _ _ _ _ _ E2 E1).
Qed.

(** * Cutting a text in two at the end of a segment *)
Lemma split_same {A} (s1 s2 t1 t2 : list (list A)) : Forall (fun s => s <> []) (s1 ++ s2) -> s1 ++ s2 = t1 ++ t2 ->
  concat s1 = concat t1 -> s1 = t1 /\ s2 = t2.
Proof.
  intros N E C. assert (s1 = t1) as <-.
  { destruct (app_split s1 s2 t1 t2 E) as [(x & r & -> & ->)|(r & -> & ->)].
    - exfalso. apply Forall_app in N as [_ N]. apply Forall_cons_iff in N as [N _].
      rewrite concat_app in C. cbn [concat] in C. apply (f_equal (@List.length A)) in C. rewrite !app_length in C.
      destruct x; [now apply N|]. cbn [List.length] in C. lia.
    - destruct r as [|x r]; [now rewrite app_nil_r|]. exfalso. apply Forall_app in N as [N _]. apply Forall_app in N as [_ N].
      apply Forall_cons_iff in N as [N _]. rewrite concat_app in C. cbn [concat] in C. apply (f_equal (@List.length A)) in C. rewrite !app_length in C.
      destruct x; [now apply N|]. cbn [List.length] in C. lia. }
  split; [reflexivity|]. now apply app_inv_head in E.
Qed.

Lemma cuts_left {A} (P : list A -> list A -> Prop) text s1 s2 : cuts text (s1 ++ s2) -> ends_at P text (s1 ++ s2) ->
  cuts (concat s1) s1 /\ ends_at (fun a b => P a (b ++ concat s2)) (concat s1) s1.
Proof.
  intros [C N] E. pose proof N as N'. apply Forall_app in N' as [N1 N2]. split; [split; [reflexivity|exact N1]|].
  rewrite concat_app in C.
  intros l1 l2 Hl. rewrite <- (E l1 (l2 ++ concat s2)) by (rewrite app_assoc, Hl; exact C).
  split; intros (r1 & r2 & H1 & H2).
  - exists r1, (r2 ++ s2). split; [now rewrite H1, app_assoc|exact H2].
  - symmetry in H1. destruct (app_split r1 r2 s1 s2 H1) as [(x & r & G1 & G2)|(r & G1 & G2)].
    + exists r1, (x :: r). auto.
    + destruct r as [|x r]; [exists s1, []; rewrite app_nil_r in *; subst; auto|].
      exfalso. rewrite H2, G1, concat_app in Hl. cbn [concat] in Hl. apply (f_equal (@List.length A)) in Hl. rewrite !app_length in Hl.
      rewrite G2 in N2. apply Forall_app in N2 as [N2 _]. apply Forall_cons_iff in N2 as [N2 _]. destruct x; [now apply N2|]. cbn [List.length] in Hl. lia.
Qed.

Lemma cuts_right {A} (P : list A -> list A -> Prop) text s1 s2 : cuts text (s1 ++ s2) -> ends_at P text (s1 ++ s2) ->
  cuts (concat s2) s2 /\ ends_at (fun a b => P (concat s1 ++ a) b) (concat s2) s2.
Proof.
  intros [C N] E. pose proof N as N'. apply Forall_app in N' as [N1 N2]. split; [split; [reflexivity|exact N2]|].
  rewrite concat_app in C.
  intros l1 l2 Hl. rewrite <- (E (concat s1 ++ l1) l2) by (rewrite <- app_assoc, Hl; exact C).
  split; intros (r1 & r2 & H1 & H2).
  - exists (s1 ++ r1), r2. split; [now rewrite H1, app_assoc|now rewrite concat_app, H2].
  - symmetry in H1. destruct (app_split r1 r2 s1 s2 H1) as [(x & r & G1 & G2)|(r & G1 & G2)].
    + exfalso. clear Hl.
      rewrite G1, concat_app in H2. cbn [concat] in H2. apply (f_equal (@List.length A)) in H2. rewrite !app_length in H2.
      rewrite G1 in N1. apply Forall_app in N1 as [_ N1]. apply Forall_cons_iff in N1 as [N1 _]. destruct x; [now apply N1|]. cbn [List.length] in H2. lia.
    + exists r, r2. split; [exact G2|]. rewrite G1, concat_app in H2. now apply app_inv_head in H2.
Qed.

Lemma common_prefix {A} (dec : forall s t : A, {s = t} + {s <> t}) : forall a b : list A, exists c a' b',
  a = c ++ a' /\ b = c ++ b' /\ forall s a'' b'', a' = s :: a'' -> b' = s :: b'' -> False.
Proof.
  induction a as [|s a IH]; intros b.
  - exists [], [], b. repeat split. intros. discriminate.
  - destruct b as [|t b]; [exists [], (s :: a), []; repeat split; intros; discriminate|].
    destruct (dec s t) as [->|N].
    + destruct (IH b) as (c & a' & b' & -> & -> & M). exists (t :: c), a', b'. auto.
    + exists [], (s :: a), (t :: b). repeat split. intros r a'' b'' E1 E2. injection E1 as -> _. injection E2 as -> _. now apply N.
Qed.
Lemma common_suffix {A} (dec : forall s t : A, {s = t} + {s <> t}) (a b : list A) : exists c a' b',
  a = a' ++ c /\ b = b' ++ c /\ forall s a'' b'', a' = a'' ++ [s] -> b' = b'' ++ [s] -> False.
Proof.
  destruct (common_prefix dec (rev a) (rev b)) as (c & a' & b' & Ea & Eb & M). exists (rev c), (rev a'), (rev b').
  apply (f_equal (@rev _)) in Ea, Eb. rewrite rev_involutive, rev_app_distr in Ea, Eb. repeat split; [exact Ea|exact Eb|].
  intros s a'' b'' E1 E2. apply (f_equal (@rev _)) in E1, E2. rewrite rev_involutive, rev_app_distr in E1, E2. cbn [rev app] in E1, E2. exact (M _ _ _ E1 E2).
Qed.

(** * One edit *)
Section Edit.
Variables u x y v : list Z.
Hypothesis (Lx : (List.length x <= 1)%nat) (Ly : (List.length y <= 1)%nat).
Notation A := (u ++ x ++ v).
Notation B := (u ++ y ++ v).

(** A place of [A], not at its ends, where a segment ends; in [B] none ends at the corresponding place. *)
Record place (l1 l2 : list Z) : Prop := {
  pl_text : l1 ++ l2 = A;
  pl_main : exists z r, l2 = z :: r /\ ext z = false;
  pl_cut : cjoin l1 l2 = false;
  pl_left : forall z r, u = l1 ++ z :: r -> cjoin l1 (z :: r ++ y ++ v) = true;
  pl_right : forall v1, l1 = u ++ x ++ v1 -> F v1 <> [] -> cjoin (u ++ y ++ v1) l2 = true }.

Lemma place_in_u l1 l2 z r : place l1 l2 -> u = l1 ++ z :: r -> exists l3, l2 = z :: l3 /\ ext z = false /\ F r = [] /\ mid (prop z).
Proof.
  intros P E. destruct (pl_main _ _ P) as (z' & l3 & -> & X). pose proof (pl_text _ _ P) as T. rewrite E, <- app_assoc in T.
  apply app_inv_head in T. cbn [app] in T. injection T as -> T. exists l3. split; [reflexivity|]. split; [exact X|].
  apply (cjoin_ahead2 l1 z r (x ++ v) (y ++ v) X). pose proof (pl_cut _ _ P) as C. rewrite T in C. rewrite C, (pl_left _ _ P _ _ E). discriminate.
Qed.

Lemma place_in_v l1 l2 v1 : place l1 l2 -> l1 = u ++ x ++ v1 -> F v1 = [] \/ exists p, F v1 = [p] /\ mid p.
Proof.
  intros P E. destruct (F v1) as [|p f] eqn:Fv; [now left|right].
  assert (F v1 <> []) as N by (rewrite Fv; discriminate). rewrite <- Fv.
  apply (cjoin_behind2 (u ++ x) (u ++ y) v1 l2 N). rewrite <- !app_assoc. rewrite (pl_right _ _ P _ E N), <- E, (pl_cut _ _ P). discriminate.
Qed.

(** The segments [ts], all starting at such places, of which [h] or more... *)
Variable wrd : list Z -> Z.
Variable h : Z.
Hypothesis (Wr : forall t, 0 <= wrd t <= 1) (Wm : forall z t, mid (prop z) -> wrd (z :: t) <= h) (H0 : 0 <= h).
Definition tot (ts : list (list Z)) : Z := fold_right (fun t n => wrd t + n) 0 ts.

Definition places (l1 : list Z) (ts : list (list Z)) (l2 : list Z) : Prop :=
  Forall (fun t => t <> []) ts /\ forall t1 t t2, ts = t1 ++ t :: t2 -> place (l1 ++ concat t1) (concat (t :: t2) ++ l2).

Lemma places_cons l1 t ts l2 : places l1 (t :: ts) l2 -> t <> [] /\ place l1 (t ++ concat ts ++ l2) /\ places (l1 ++ t) ts l2.
Proof.
  intros [N P]. apply Forall_cons_iff in N as [N1 N2]. split; [exact N1|]. split.
  - specialize (P [] t ts eq_refl). cbn [concat app] in P. rewrite app_nil_r, <- app_assoc in P. exact P.
  - split; [exact N2|]. intros t1 t' t2 ->. specialize (P (t :: t1) t' t2 eq_refl). cbn [concat] in P. rewrite app_assoc in P. exact P.
Qed.

Lemma count_one l1 v1 ts l2 : places l1 ts l2 -> l1 = u ++ x ++ v1 -> F v1 <> [] -> tot ts <= 1.
Proof.
  intros P E N. destruct ts as [|t ts]; [cbn [tot fold_right]; lia|]. apply places_cons in P as (Nt & P1 & P2).
  destruct (place_in_v _ _ _ P1 E) as [Z|(p & Fp & _)]; [contradiction|].
  destruct (pl_main _ _ P1) as (z & r & Ez & X). destruct t as [|z' t]; [contradiction|]. cbn [app] in Ez. injection Ez as -> _.
  destruct ts as [|t2 ts]; [cbn [tot fold_right]; pose proof (Wr (z :: t)) as Wt; lia|].
  apply places_cons in P2 as (_ & P2 & _). exfalso.
  destruct (place_in_v _ _ (v1 ++ z :: t) P2) as [Z|(q & Fq & _)].
  - rewrite E, <- !app_assoc. reflexivity.
  - rewrite F_app, Fp in Z. discriminate Z.
  - rewrite F_app, Fp, F_main in Fq by exact X. discriminate Fq.
Qed.

Lemma count_v l1 v1 ts l2 : places l1 ts l2 -> l1 = u ++ x ++ v1 -> tot ts <= 1 + h.
Proof.
  intros P E. destruct (F v1) as [|p f] eqn:Fv; [|pose proof (count_one _ _ _ _ P E ltac:(rewrite Fv; discriminate)); lia].
  destruct ts as [|t ts]; [cbn [tot fold_right]; lia|]. apply places_cons in P as (Nt & P1 & P2).
  destruct (pl_main _ _ P1) as (z & r & Ez & X). destruct t as [|z' t]; [contradiction|]. cbn [app] in Ez. injection Ez as -> _.
  assert (E2 : l1 ++ z :: t = u ++ x ++ v1 ++ z :: t) by (rewrite E, <- !app_assoc; reflexivity).
  assert (N2 : F (v1 ++ z :: t) <> []) by (rewrite F_app, Fv, F_main by exact X; discriminate).
  pose proof (count_one _ _ _ _ P2 E2 N2) as C1. cbn [tot fold_right]. fold (tot ts).
  destruct ts as [|t2 ts]; [cbn [tot fold_right]; pose proof (Wr (z :: t)) as Wt; lia|].
  pose proof P2 as P2'. apply places_cons in P2' as (_ & P3 & _).
  destruct (place_in_v _ _ _ P3 E2) as [Z|(q & Fq & M)]; [contradiction|].
  rewrite F_app, Fv, F_main in Fq by exact X. cbn [app] in Fq. injection Fq as <- _. pose proof (Wm z t M) as Wz. lia.
Qed.

Lemma count_x l1 w ts l2 : places l1 ts l2 -> l1 = u ++ w -> tot ts <= zlen x + 1 + h.
Proof.
  intros P E. pose proof (zlen_nonneg x) as Zx. destruct ts as [|t ts]; [cbn [tot fold_right]; lia|]. pose proof P as P'. apply places_cons in P' as (Nt & P1 & P2).
  pose proof (pl_text _ _ P1) as T. rewrite E, <- app_assoc in T. apply app_inv_head in T.
  destruct (app_split w _ x v T) as [(z & r & Ex & _)|(v1 & -> & _)].
  - assert (w = [] /\ r = []) as [-> ->].
    { rewrite Ex, app_length in Lx. cbn [List.length] in Lx. destruct w, r; cbn [List.length] in Lx; try lia. auto. }
    cbn [app] in Ex. cbn [tot fold_right]. fold (tot ts). pose proof (Wr t) as Wt.
    assert (exists v1, t = x ++ v1) as [v1 Et].
    { destruct t as [|z' t]; [contradiction|]. rewrite Ex in T. cbn [app] in T. injection T as -> _. exists t. now rewrite Ex. }
    assert (tot ts <= 1 + h) by (apply (count_v _ v1 _ _ P2); rewrite E, app_nil_r, Et; reflexivity).
    rewrite Ex. unfold zlen. cbn [List.length]. lia.
  - pose proof (count_v _ v1 _ _ P E). lia.
Qed.

Lemma count_all l1 ts l2 : places l1 ts l2 -> tot ts <= zlen x + 1 + 2 * h.
Proof.
  intros P. pose proof (zlen_nonneg x) as Zx. destruct ts as [|t ts]; [cbn [tot fold_right]; lia|]. pose proof P as P'. apply places_cons in P' as (Nt & P1 & P2).
  destruct (app_split l1 _ u (x ++ v) (pl_text _ _ P1)) as [(z & r & Eu & _)|(w & E & _)]; [|pose proof (count_x _ _ _ _ P E); lia].
  destruct (place_in_u _ _ _ _ P1 Eu) as (l3 & E3 & X & Fr & M). destruct t as [|z' t]; [contradiction|]. cbn [app] in E3. injection E3 as -> _.
  cbn [tot fold_right]. fold (tot ts). pose proof (Wm z t M) as Wz.
  destruct ts as [|t2 ts]; [cbn [tot fold_right]; lia|]. pose proof P2 as P2'. apply places_cons in P2' as (N2 & P3 & _).
  destruct (app_split (l1 ++ z :: t) _ u (x ++ v) (pl_text _ _ P3)) as [(z2 & r2 & Eu2 & _)|(w & E & _)]; [|pose proof (count_x _ _ _ _ P2 E); lia].
  exfalso. destruct (place_in_u _ _ _ _ P3 Eu2) as (l4 & _ & X2 & _ & _). rewrite Eu, <- app_assoc in Eu2. apply app_inv_head in Eu2. cbn [app] in Eu2. injection Eu2 as ->.
  rewrite F_app, F_main in Fr by exact X2. destruct (F t); discriminate Fr.
Qed.

Lemma cut_same_left a b z r : ext z = false ->
  (cut_place [] a (b ++ z :: r ++ x ++ v) <-> cut_place [] a (b ++ z :: r ++ y ++ v)) \/ b = [].
Proof.
  intros X. destruct b as [|q b]; [now right|left]. cbn [app]. unfold cut_place. cbn [app].
  assert (ext q = false -> cjoin a (q :: b ++ z :: r ++ x ++ v) = cjoin a (q :: b ++ z :: r ++ y ++ v)) as J.
  { intros Q. destruct (Bool.bool_dec (cjoin a (q :: b ++ z :: r ++ x ++ v)) (cjoin a (q :: b ++ z :: r ++ y ++ v))) as [|N]; [assumption|].
    exfalso. change (b ++ z :: r ++ x ++ v) with (b ++ (z :: r) ++ x ++ v) in N. change (b ++ z :: r ++ y ++ v) with (b ++ (z :: r) ++ y ++ v) in N.
    rewrite !(app_assoc b) in N. destruct (cjoin_ahead2 a q (b ++ z :: r) _ _ Q N) as [Z _].
    rewrite F_app, F_main in Z by exact X. destruct (F b); discriminate Z. }
  split; intros [H|[H|(q' & l & E & X' & N & C)]]; try (left; exact H); try discriminate H; right; right.
  - injection E as <- <-. exists q, (b ++ z :: r ++ y ++ v). rewrite <- J by exact X'. auto.
  - injection E as <- <-. exists q, (b ++ z :: r ++ x ++ v). rewrite J by exact X'. auto.
Qed.

Lemma cut_same_right v1 z a b : ext z = false -> F v1 <> [] ->
  (cut_place [] ((u ++ x ++ v1) ++ z :: a) b <-> cut_place [] ((u ++ y ++ v1) ++ z :: a) b).
Proof.
  intros X N1. unfold cut_place. cbn [app].
  assert (NF1 : F (v1 ++ z :: a) <> []) by (rewrite F_app, F_main by exact X; intros Z; apply app_eq_nil in Z as [_ Z]; discriminate Z).
  assert (cjoin ((u ++ x ++ v1) ++ z :: a) b = cjoin ((u ++ y ++ v1) ++ z :: a) b) as J.
  { destruct (Bool.bool_dec (cjoin ((u ++ x ++ v1) ++ z :: a) b) (cjoin ((u ++ y ++ v1) ++ z :: a) b)) as [|N]; [assumption|].
    exfalso. rewrite !app_assoc, <- !(app_assoc _ v1 (z :: a)) in N. destruct (cjoin_behind2 _ _ (v1 ++ z :: a) _ NF1 N) as (p & Fp & _).
    rewrite F_app, F_main in Fp by exact X. apply (f_equal (@List.length _)) in Fp. rewrite app_length in Fp. cbn [List.length] in Fp. destruct (F v1); [apply N1; reflexivity|cbn [List.length] in Fp; lia]. }
  assert (forall w, F ((u ++ w ++ v1) ++ z :: a) <> []) as NF.
  { intros w. rewrite !F_app, F_main by exact X. intros Z. apply app_eq_nil in Z as [_ Z]. discriminate Z. }
  split; intros [H|[H|(q' & l & E & X' & N & C)]]; try (apply app_eq_nil in H as [_ H]; discriminate H); try (right; left; exact H); right; right; exists q', l.
  - rewrite <- J. auto.
  - rewrite J. auto.
Qed.

(** The segments of [A] and [B] are the same but for some in the middle, few of them in [A]. *)
Lemma edit_segments SA SB : cuts A SA -> ends_at (cut_place []) A SA -> cuts B SB -> ends_at (cut_place []) B SB ->
  exists c MA MB d, SA = c ++ MA ++ d /\ SB = c ++ MB ++ d /\ tot MA <= zlen x + 2 + 2 * h.
Proof.
  intros CA EA CB EB. pose proof (zlen_nonneg x) as Zx.
  destruct (common_prefix (list_eq_dec Z.eq_dec) SA SB) as (c & A' & B' & ESA & ESB & Mp).
  destruct (common_suffix (list_eq_dec Z.eq_dec) A' B') as (d & MA & MB & EA' & EB' & Ms).
  exists c, MA, MB, d. rewrite ESA, ESB, EA', EB'. split; [reflexivity|]. split; [reflexivity|].
  destruct MA as [|s rest]; [cbn [tot fold_right]; lia|]. cbn [tot fold_right]. fold (tot rest). pose proof (Wr s) as Ws.
  assert (NA : Forall (fun s => s <> []) SA) by apply CA. assert (NB : Forall (fun s => s <> []) SB) by apply CB.
  assert (Ns : s <> []) by (rewrite ESA, EA' in NA; apply Forall_app in NA as [_ NA]; apply Forall_app in NA as [NA _]; now apply Forall_cons_iff in NA as [NA _]).
  assert (Nr : Forall (fun s => s <> []) rest) by (rewrite ESA, EA' in NA; apply Forall_app in NA as [_ NA]; apply Forall_app in NA as [NA _]; now apply Forall_cons_iff in NA as [_ NA]).
  destruct (list_eq_dec (list_eq_dec Z.eq_dec) MB []) as [->|NMB].
  { destruct rest as [|t rest]; [cbn [tot fold_right]; lia|]. exfalso. apply Forall_cons_iff in Nr as [Nt _].
    destruct CA as [CA _]. destruct CB as [CB _]. rewrite ESA, EA' in CA. rewrite ESB, EB' in CB. rewrite !concat_app in CA, CB. cbn [concat] in CA, CB.
    apply (f_equal (@List.length Z)) in CA, CB. rewrite !app_length in CA, CB. cbn [List.length] in CB.
    destruct s; [contradiction|]. destruct t; [contradiction|]. cbn [List.length] in CA.
    rewrite !app_length in CA. lia. }
  assert (places (concat c ++ s) rest (concat d)) as P; [|pose proof (count_all _ _ _ P); lia].
  split; [exact Nr|]. intros t1 t t2 Er.
  assert (Nt : t <> []) by (rewrite Er in Nr; apply Forall_app in Nr as [_ Nr]; now apply Forall_cons_iff in Nr as [Nr _]).
  assert (El1 : (concat c ++ s) ++ concat t1 = concat (c ++ s :: t1)) by (rewrite concat_app; cbn [concat]; now rewrite app_assoc).
  assert (El2 : concat (t :: t2) ++ concat d = concat (t :: t2 ++ d)) by (cbn [concat]; now rewrite concat_app, app_assoc).
  assert (S2 : SA = (c ++ s :: t1) ++ t :: t2 ++ d) by (rewrite ESA, EA', Er, <- !app_assoc; cbn [app]; now rewrite <- !app_assoc).
  rewrite El1, El2. set (l1 := concat (c ++ s :: t1)) in *. set (l2 := concat (t :: t2 ++ d)) in *.
  assert (T : l1 ++ l2 = A) by (unfold l1, l2; rewrite <- concat_app, <- S2; apply CA).
  assert (K : cut_place [] l1 l2) by (apply EA; [exact T|exists (c ++ s :: t1), (t :: t2 ++ d); auto]).
  assert (L1 : l1 <> []). { unfold l1. rewrite concat_app. cbn [concat]. intros Z. apply app_eq_nil in Z as [_ Z]. apply app_eq_nil in Z as [Z _]. contradiction. }
  destruct K as [Z|[Z|(z & l3 & E3 & X & NF & C)]]; [contradiction|unfold l2 in Z; cbn [concat] in Z; apply app_eq_nil in Z as [Z _]; contradiction|].
  cbn [app] in C.
  split; [exact T|exists z, l3; auto|exact C|..].
  - intros z' r Eu. destruct (cjoin l1 (z' :: r ++ y ++ v)) eqn:J; [reflexivity|]. exfalso.
    assert (z' = z /\ l3 = r ++ x ++ v) as [-> E4].
    { rewrite Eu, E3, <- app_assoc in T. apply app_inv_head in T. cbn [app] in T. injection T as -> ->. auto. }
    assert (TB : l1 ++ z :: r ++ y ++ v = B) by (rewrite Eu, <- app_assoc; reflexivity).
    assert (KB : cut_place [] l1 (z :: r ++ y ++ v)) by (right; right; exists z, (r ++ y ++ v); cbn [app]; auto).
    apply (EB _ _ TB) in KB as (b1 & b2 & Eb & El). rewrite Eb in CB, EB. rewrite S2 in CA, EA.
    destruct (cuts_left _ _ _ _ CA EA) as [CA1 EA1]. destruct (cuts_left _ _ _ _ CB EB) as [CB1 EB1].
    assert (E2B : concat b2 = z :: r ++ y ++ v).
    { destruct CB as [CB _]. rewrite concat_app, <- El, <- TB in CB. now apply app_inv_head in CB. }
    fold l1 l2 in CA1, EA1. rewrite <- El, E2B in *. rewrite E3, E4 in EA1.
    assert (c ++ s :: t1 = b1) as Q.
    { apply (cuts_unique _ l1 _ _ CA1 EA1 CB1). eapply ends_at_iff; [|exact EB1]. intros a b Hab. cbv beta.
      destruct (cut_same_left a b z r X) as [Q|Q]; [symmetry; exact Q|]. subst b. rewrite app_nil_r in Hab. subst a. cbn [app].
      split; intros _; right; right; [exists z, (r ++ x ++ v); rewrite <- E4, <- E3; auto|exists z, (r ++ y ++ v); auto]. }
    rewrite ESB, <- Q, <- app_assoc in Eb. apply app_inv_head in Eb. apply (Mp s (rest ++ d) (t1 ++ b2)); [rewrite EA'; reflexivity|exact Eb].
  - intros v1 E1 N1. destruct (cjoin (u ++ y ++ v1) l2) eqn:J; [reflexivity|]. exfalso.
    assert (Ev : v = v1 ++ l2). { rewrite E1, <- !app_assoc in T. do 2 apply app_inv_head in T. auto. }
    assert (TB : (u ++ y ++ v1) ++ l2 = B) by (rewrite Ev, <- !app_assoc; reflexivity).
    assert (NB1 : F (u ++ y ++ v1) <> []) by (rewrite !F_app; intros Z; apply app_eq_nil in Z as [_ Z]; apply app_eq_nil in Z as [_ Z]; exact (N1 Z)).
    assert (KB : cut_place [] (u ++ y ++ v1) l2) by (right; right; exists z, l3; cbn [app]; auto).
    pose proof KB as KB'. apply (EB _ _ TB) in KB as (b1 & b2 & Eb & El). rewrite Eb in CB, EB. rewrite S2 in CA, EA.
    destruct (cuts_right _ _ _ _ CA EA) as [CA1 EA1]. destruct (cuts_right _ _ _ _ CB EB) as [CB1 EB1].
    assert (E2B : concat b2 = l2).
    { destruct CB as [CB _]. rewrite concat_app, <- El, <- TB in CB. now apply app_inv_head in CB. }
    fold l1 l2 in CA1, EA1. rewrite <- El, E2B in *.
    assert (t :: t2 ++ d = b2) as Q.
    { apply (cuts_unique _ l2 _ _ CA1 EA1 CB1). eapply ends_at_iff; [|exact EB1]. intros a b Hab. cbv beta.
      destruct a as [|z' a].
      - cbn [app] in Hab. subst b. rewrite !app_nil_r. split; intros _; [|exact KB']. right; right; exists z, l3; cbn [app]; auto.
      - rewrite E3 in Hab. cbn [app] in Hab. injection Hab as -> _. rewrite E1. symmetry. now apply cut_same_right. }
    rewrite ESB, EB', <- Q in Eb. change (t :: t2 ++ d) with ((t :: t2) ++ d) in Eb. rewrite !app_assoc in Eb. apply app_inv_tail in Eb.
    destruct (exists_last NMB) as (MB' & m & EMB). destruct (exists_last (l := t :: t2)) as (t2' & m' & Et2); [discriminate|].
    rewrite EMB, Et2, !app_assoc in Eb. apply app_inj_tail in Eb as [_ Em]. subst m'.
    apply (Ms m (s :: t1 ++ t2') MB'); [rewrite Er, Et2; cbn [app]; now rewrite <- app_assoc|exact EMB].
Qed.
End Edit.
