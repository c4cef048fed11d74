(** C94: the layout of a file does not matter. *)
From Verif Require Import Base CLib Utf8Model TextModel TextSpec TextProof TextIO TextProps UtilModel MainModel SpacingSpec.
Local Open Scope Z_scope.
Local Open Scope list_scope.

Section Spacing.
Variable uc : unicode_data.

Lemma white_blank c : white uc c -> is_blank uc c = true.
Proof.
  intros [N H]. unfold is_blank, NEWLINE. destruct (Z.eqb_spec c 10) as [E|_]; [exact (False_ind _ (N E))|].
  destruct H as [I|H].
  - cbn in I. destruct I as [E|[E|[E|[E|[E|[]]]]]]; subst c; reflexivity.
  - destruct (_ || _); [reflexivity|]. destruct H as [E|[E|E]]; rewrite E; reflexivity.
Qed.

(** The state of the marks after a text. *)
Fixpoint pend (fm : bool) (m : Z) (s : bool) (u : list Z) : bool :=
  match u with [] => s | c :: t => pend fm m (fm && (c =? m)) t end.

Lemma tag_app fm m : forall u w s, tag fm m s (u ++ w) = tag fm m s u ++ tag fm m (pend fm m s u) w.
Proof.
  induction u as [|c u IH]; intros w s; [reflexivity|]. cbn [app tag pend].
  destruct (fm && (c =? m)); rewrite IH; reflexivity.
Qed.

Lemma pend_unmarked fm m u : unmarked m u -> pend fm m false u = false.
Proof.
  intros U. destruct u as [|c u _] using rev_ind; [reflexivity|].
  assert (N : c =? m = false).
  { apply Z.eqb_neq. intros E. subst c. exact (U u eq_refl). }
  clear U. generalize false at 1. induction u as [|d u IH]; intros s; cbn [app pend].
  - rewrite N, andb_false_r. reflexivity.
  - apply IH.
Qed.

Definition norm (l : list char) : list char := cl false false (blanks_to_blank uc l).
Notation B2B := (blanks_to_blank uc).

Lemma b2b_app u w : B2B (u ++ w) = B2B u ++ B2B w.
Proof. apply map_app. Qed.

Definition ends_line (w : list char) : bool :=
  match w with [] => true | n :: _ => (value n =? BLANK) || (value n =? NEWLINE) end.
Definition more_blank (w : list char) : bool :=
  match w with [] => false | n :: _ => value n =? BLANK end.

Lemma cl_cons' found s c next : cl found s (c :: next) =
  if ((value c =? BLANK) && (negb found || ends_line next)) || ((value c =? NEWLINE) && negb found)
  then cl found (found && more_blank next && (suspect c || s)) next
  else mkchar (suspect c || s) (value c) :: cl (negb (value c =? NEWLINE)) false next.
Proof.
  rewrite cl_cons. destruct next as [|n next]; cbn [ends_line more_blank].
  - rewrite !orb_false_r. reflexivity.
  - rewrite orb_false_r, orb_assoc. reflexivity.
Qed.

(** Replacing the rest of a text. *)
Lemma cl_context w w' :
  ends_line w = ends_line w' -> (forall f, cl f false w = cl f false w') ->
  (forall x, cl true (more_blank w && x) w = cl true (more_blank w' && x) w') ->
  forall u, cl false false (u ++ w) = cl false false (u ++ w').
Proof.
  intros D E0 E2.
  assert (G : forall u f s, u <> [] -> cl f s (u ++ w) = cl f s (u ++ w')).
  { induction u as [|c u IH]; intros f s N; [exact (False_ind _ (N eq_refl))|]. clear N.
    cbn [app]. rewrite !cl_cons'. destruct u as [|d u].
    - cbn [app]. rewrite D. destruct (_ || _).
      + destruct f; [cbn [andb]; apply E2|cbn [andb]; apply E0].
      + f_equal. apply E0.
    - assert (M : ends_line ((d :: u) ++ w) = ends_line ((d :: u) ++ w')) by reflexivity.
      assert (M' : more_blank ((d :: u) ++ w) = more_blank ((d :: u) ++ w')) by reflexivity.
      assert (Q : forall f s, cl f s ((d :: u) ++ w) = cl f s ((d :: u) ++ w'))
        by (intros; apply IH; exact (fun Y => eq_ind (d :: u) (fun l => match l with [] => False | _ => True end) I [] Y)).
      rewrite M, M', !Q. reflexivity. }
  intros u. destruct u as [|c u]; [apply E0|].
  apply G. exact (fun Y => eq_ind (c :: u) (fun l => match l with [] => False | _ => True end) I [] Y).
Qed.

Notation BL s := (mkchar s BLANK).
Notation NLc s := (mkchar s NEWLINE).

Lemma cl_start_blank f s t v : f = false -> cl f s (BL t :: v) = cl false false v.
Proof. intros ->. rewrite cl_cons'. reflexivity. Qed.
Lemma cl_start_nl f s t v : f = false -> cl f s (NLc t :: v) = cl false false v.
Proof. intros ->. rewrite cl_cons'. reflexivity. Qed.
Lemma cl_nl s t v : cl true s (NLc t :: v) = NLc (t || s) :: cl false false v.
Proof. rewrite cl_cons'. reflexivity. Qed.

Lemma norm_respaced fm m : marker_visible uc m -> forall cs cs', respaced uc m cs cs' ->
  norm (tag fm m false cs) = norm (tag fm m false cs').
Proof.
  intros [Mw Mn] cs cs' R.
  assert (W : forall b s v, white uc b -> B2B (tag fm m s (b :: v)) = BL s :: B2B (tag fm m false v)).
  { intros b s v Wb. cbn [tag]. replace (b =? m) with false by (symmetry; apply Z.eqb_neq; intros E; subst b; exact (Mw Wb)).
    rewrite andb_false_r. unfold blanks_to_blank. cbn [map value suspect]. now rewrite (white_blank b Wb). }
  assert (L : forall s v, B2B (tag fm m s (10 :: v)) = NLc s :: B2B (tag fm m false v)).
  { intros s v. cbn [tag]. replace (10 =? m) with false by (symmetry; apply Z.eqb_neq; intros E; exact (Mn (eq_sym E))).
    rewrite andb_false_r. reflexivity. }
  unfold norm. induction R as [l|l l' _ IH|l l' l'' _ IH1 _ IH2|u b b' v Wb Wb'|u b b' v Wb Wb'|u b v U Wb|u b v Wb|u v|b v [Wb | ->]|u b Wb].
  - reflexivity.
  - now symmetry.
  - now transitivity (cl false false (B2B (tag fm m false l'))).
  - rewrite !tag_app, !b2b_app, !W by assumption. reflexivity.
  - rewrite !tag_app, !b2b_app, !W by assumption. set (z := B2B (tag fm m false v)). clearbody z. set (p := pend fm m false u). clearbody p.
    assert (E : forall f x, cl f x (BL p :: z) = cl f x (BL p :: BL false :: z)).
    { intros [|] x.
      - rewrite (cl_cons' true x (BL p) (BL false :: z)). change (cl true x (BL p :: z) = cl true (p || x) (BL false :: z)).
        rewrite !cl_cons'. cbn [suspect value]. reflexivity.
      - rewrite !cl_start_blank by reflexivity. reflexivity. }
    apply cl_context; [reflexivity|intros; apply E|intros; apply E].
  - rewrite !tag_app, !b2b_app, (pend_unmarked fm m u U), (W b), !L by assumption. set (z := B2B (tag fm m false v)). clearbody z. apply cl_context.
    + reflexivity.
    + intros f. rewrite (cl_cons' f false (BL false) (NLc false :: z)). cbn [value suspect ends_line]. rewrite !orb_true_r. cbn [andb orb].
      rewrite andb_false_r. reflexivity.
    + intros x. change (more_blank (BL false :: NLc false :: z)) with true. change (more_blank (NLc false :: z)) with false. cbn [andb].
      rewrite (cl_cons' true x (BL false) (NLc false :: z)). reflexivity.
  - rewrite !tag_app, !b2b_app, !L, (W b) by assumption. set (z := B2B (tag fm m false v)). clearbody z.
    assert (E : forall f s, cl f s (NLc (pend fm m false u) :: z) = cl f s (NLc (pend fm m false u) :: BL false :: z)).
    { intros [|] s.
      - rewrite !cl_nl, cl_start_blank; reflexivity.
      - rewrite !cl_start_nl, cl_start_blank; reflexivity. }
    apply cl_context; [reflexivity|intros; apply E|intros; apply E].
  - rewrite !tag_app, !b2b_app, !L by assumption. set (z := B2B (tag fm m false v)). clearbody z.
    assert (E : forall f s, cl f s (NLc (pend fm m false u) :: z) = cl f s (NLc (pend fm m false u) :: NLc false :: z)).
    { intros [|] s.
      - rewrite !cl_nl, cl_start_nl; reflexivity.
      - rewrite !cl_start_nl; reflexivity. }
    apply cl_context; [reflexivity|intros; apply E|intros; apply E].
  - rewrite W by assumption. rewrite cl_start_blank by reflexivity. reflexivity.
  - rewrite L. rewrite cl_start_nl by reflexivity. reflexivity.
  - rewrite tag_app, b2b_app, W by assumption. rewrite <- (app_nil_r (B2B (tag fm m false u))) at 1. apply cl_context.
    + reflexivity.
    + intros f. rewrite cl_cons'. cbn [value ends_line]. rewrite orb_true_r. reflexivity.
    + intros x. rewrite cl_cons'. reflexivity.
Qed.
End Spacing.

Lemma post_norm uc opt l : normalize opt = true ->
  post uc opt l = if case_insensitive opt then map (fun c => mkchar (suspect c) (tolower uc (value c))) (norm uc l) else norm uc l.
Proof. intros N. unfold post, norm. rewrite N. reflexivity. Qed.

Lemma read_respaced uc line buf opt text f f' :
  junk_ok line buf -> normalize opt = true -> marker_visible uc (marker_of opt) ->
  respaced_files uc (marker_of opt) f f' ->
  read_text uc line buf opt text f = read_text uc line buf opt text f'.
Proof.
  intros J N V (B & B' & T & T' & cs & cs' & S & S' & E & E' & R).
  enough (H : forall o, find_header o = false -> normalize o = true -> marker_of o = marker_of opt ->
            read_text uc line buf o text f = read_text uc line buf o text f').
  { destruct (find_header opt) eqn:Hh; [|apply H; [exact Hh|exact N|reflexivity]].
    rewrite (C13_no_header uc line buf opt text f J Hh T), (C13_no_header uc line buf opt text f' J Hh T').
    apply H; [reflexivity|exact N|reflexivity]. }
  clear N T T'. intros o Hh N M.
  destruct (read_text_ok uc line buf o text f Hh B (proj2 J)) as [(c1 & S1 & E1 & R1)|(X & _)]; [|exfalso; exact (X cs S E)].
  destruct (read_text_ok uc line buf o text f' Hh B' (proj2 J)) as [(c2 & S2 & E2 & R2)|(X & _)]; [|exfalso; exact (X cs' S' E')].
  rewrite E in E1. apply utf8s_inj in E1; [|assumption..]. rewrite E' in E2. apply utf8s_inj in E2; [|assumption..]. subst c1 c2.
  rewrite R1, R2, !post_norm, M, (norm_respaced uc (find_markers o) (marker_of opt) V cs cs' R) by exact N. reflexivity.
Qed.

(** ** The programs *)

Section Programs.
Variable uc : unicode_data.
Variable NFC : list Z -> list Z.
Variables line buf : list Z.
Hypothesis J : junk_ok line buf.
Hypothesis V : marker_visible uc 94.
Variables sys sys' : system.
Hypothesis R : respaced_system uc sys sys'.

Definition alike (x y : outcome result) : Prop :=
  match x, y with
  | Ok r, Ok r' => standard_output r = standard_output r' /\
      (forall n, files_after r n = files_after r' n \/
                 (files_after r n = contents sys n /\ files_after r' n = contents sys' n))
  | Fail a, Fail b => a = b
  | UB a, UB b => a = b
  | OutOfFuel, OutOfFuel => True
  | _, _ => False
  end.

Lemma alike_fail m : alike (Fail m) (Fail m).
Proof. reflexivity. Qed.

Lemma alike_bind {A} (x : outcome A) k k' : (forall a, alike (k a) (k' a)) -> alike (obind x k) (obind x k').
Proof. intros H. destruct x; cbn; auto. Qed.

Lemma alike_two {A B} (x y : outcome A) (i : A -> outcome B) k k' :
  obind x i = obind y i -> (forall b, alike (k b) (k' b)) ->
  alike (obind x (fun s => obind (i s) k)) (obind y (fun s => obind (i s) k')).
Proof.
  intros E H.
  assert (Q : forall z (g : B -> outcome result), obind z (fun s => obind (i s) g) = obind (obind z i) g) by (intros z g; destruct z; reflexivity).
  rewrite !Q, E. apply alike_bind. exact H.
Qed.

Lemma alike_if (b : bool) x y x' y' : alike x x' -> alike y y' -> alike (if b then x else y) (if b then x' else y').
Proof. destruct b; auto. Qed.

Lemma open_alike {A} name (g : list Z -> outcome A) :
  (forall f f', respaced_files uc 94 f f' -> g f = g f') -> obind (open_read sys name) g = obind (open_read sys' name) g.
Proof.
  intros G. unfold open_read. destruct R as [_ C]. destruct (C name) as [E|(f & f' & E & E' & F)].
  - rewrite E. reflexivity.
  - rewrite E, E'. cbn [obind]. exact (G f f' F).
Qed.

Lemma read_alike opt f f' : suspect_marker opt = 0 -> normalize opt = true -> respaced_files uc 94 f f' ->
  read_text uc line buf opt [] f = read_text uc line buf opt [] f'.
Proof.
  intros M N F. assert (E : marker_of opt = 94) by (unfold marker_of; rewrite M; reflexivity).
  apply read_respaced; [exact J|exact N|rewrite E; exact V|rewrite E; exact F].
Qed.

Lemma alike_read opt name k k' : suspect_marker opt = 0 -> normalize opt = true ->
  (forall t h, alike (k (t, h)) (k' (t, h))) ->
  alike (obind (open_read sys name) (fun f => obind (read_text uc line buf opt [] f) k))
        (obind (open_read sys' name) (fun f => obind (read_text uc line buf opt [] f) k')).
Proof.
  intros M N K. unfold open_read. destruct R as [_ C]. destruct (C name) as [E|(f & f' & E & E' & F)].
  - rewrite E. destruct (contents sys' name) as [f|]; cbn [obind]; [|reflexivity]. apply alike_bind. intros [t h]. apply K.
  - rewrite E, E'. cbn [obind]. rewrite (read_alike opt f f' M N F). apply alike_bind. intros [t h]. apply K.
Qed.

Lemma alike_write name printed c : alike (write_to sys name printed c) (write_to sys' name printed c).
Proof.
  destruct R as [Wr C]. destruct name as [name|]; cbn [write_to].
  - rewrite Wr. destruct (writable sys' name); [|reflexivity]. apply alike_bind. intros a. cbn. split; [reflexivity|].
    intros n. unfold update. destruct (list_eq_dec _ _ _); [left; reflexivity|right; split; reflexivity].
  - apply alike_bind. intros a. cbn. split; [reflexivity|]. intros n. right. split; reflexivity.
Qed.

Lemma ofold_alike {S} (g h : S -> list Z -> outcome S) : (forall st n, g st n = h st n) ->
  forall l st, ofold g l st = ofold h l st.
Proof.
  intros E. induction l as [|a l IH]; intros st; cbn [ofold]; [reflexivity|]. rewrite E.
  destruct (h st a); cbn [obind]; [apply IH|reflexivity..].
Qed.

Lemma run_alike table argv body body' : (forall args vars, alike (body args vars) (body' args vars)) ->
  end_alike sys sys' (run_main table argv body) (run_main table argv body').
Proof.
  intros H. unfold run_main.
  destruct (rd _ argv 0); cbn [obind]; [|try reflexivity; exact I..].
  destruct (basefilename _); cbn [obind]; [|try reflexivity; exact I..].
  destruct (parse_args _ _ _ _) as [p|m|m|]; cbn [obind]; [|try reflexivity; exact I..].
  destruct p as [args vars| | |]; try reflexivity.
  specialize (H args vars). unfold alike in H.
  destruct (body args vars), (body' args vars); cbn [obind end_alike]; exact H || (exfalso; exact H).
Qed.
End Programs.
