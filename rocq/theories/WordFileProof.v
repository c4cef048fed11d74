(** Reading a file cut at a newline: the values of the characters. *)
From Coq Require Import String.
From Verif Require Import Base CLib Utf8Model TextModel TextSpec TextProof TextIO TextProps WordTable WordModel
  WordSpec WordProof WordProps WordLineProof StopModel.
Local Open Scope Z_scope.
Local Open Scope list_scope.
#[local] Opaque property.

Lemma tag_values fm m cs : forall s, map value (tag fm m s cs) = filter (fun c => negb (fm && (c =? m))) cs.
Proof.
  induction cs as [|c cs IH]; intros s; [reflexivity|]. cbn [tag filter].
  destruct (fm && (c =? m)); cbn [negb map value]; now rewrite IH.
Qed.

(** compress_spacing on values *)
Fixpoint clv (found : bool) (l : list Z) : list Z :=
  match l with
  | [] => []
  | c :: next =>
      let next_is (v : Z) := match next with n :: _ => n =? v | [] => false end in
      let no_next := match next with [] => true | _ => false end in
      if ((c =? BLANK) && (negb found || no_next || next_is BLANK || next_is NEWLINE)) ||
         ((c =? NEWLINE) && negb found)
      then clv found next
      else c :: clv (negb (c =? NEWLINE)) next
  end.
Lemma cl_values l : forall found s, map value (cl found s l) = clv found (map value l).
Proof.
  induction l as [|c next IH]; intros found s; [reflexivity|].
  rewrite cl_cons. cbn [clv map]. destruct next as [|n next].
  - cbn [map]. destruct (_ || _); cbn [map value]; [apply (IH found)|f_equal; apply IH].
  - cbn [map] in *. destruct (_ || _); cbn [map value]; [apply (IH found)|f_equal; apply IH].
Qed.

Lemma clv_newline y : forall x found, exists fnd : bool,
  clv found (x ++ 10 :: y) = clv found x ++ (if fnd then [10] else []) ++ clv false y /\
  (fnd = false -> clv found x = [] /\ found = false \/ exists w, clv found x = w ++ [10]).
Proof.
  induction x as [|c x IH]; intros found.
  - exists found. cbn [app clv]. change (10 =? BLANK) with false. change (10 =? NEWLINE) with true. cbn [andb orb].
    destruct found; cbn [negb]; (split; [reflexivity|]); [intros H; discriminate H|auto].
  - cbn [app]. cbn [clv].
    assert (N : (match x ++ 10 :: y with n :: _ => n =? BLANK | [] => false end) = (match x with n :: _ => n =? BLANK | [] => false end)).
    { destruct x; reflexivity. }
    rewrite N.
    assert (M : (match x ++ 10 :: y with [] => true | _ => false end) || (match x with n :: _ => n =? BLANK | [] => false end) || (match x ++ 10 :: y with n :: _ => n =? NEWLINE | [] => false end)
            = (match x with [] => true | _ => false end) || (match x with n :: _ => n =? BLANK | [] => false end) || (match x with n :: _ => n =? NEWLINE | [] => false end)).
    { destruct x; reflexivity. }
    rewrite <- !orb_assoc in M. rewrite <- !orb_assoc. rewrite M. clear M N.
    destruct (_ || _) eqn:B.
    + destruct (IH found) as (fnd & E & H). exists fnd. split; [exact E|exact H].
    + destruct (IH (negb (c =? NEWLINE))) as (fnd & E & H). exists fnd. rewrite E. split; [reflexivity|].
      intros Hf. right. destruct (H Hf) as [[H1 H2]|(w & H1)].
      * exists []. rewrite H1. cbn [app]. f_equal. apply negb_false_iff, Z.eqb_eq in H2. exact H2.
      * exists (c :: w). rewrite H1. reflexivity.
Qed.

Section Files.
Variable uc : unicode_data.
Variable NFC : list Z -> list Z.
Variables junk junk4 : list Z.
Hypothesis J : junk_ok junk junk4.
Variable ci : bool.
Hypothesis Keeps : ci = true -> lower_keeps_spacing uc.
Hypothesis Lower : ci = true -> forall c, scalar c -> scalar (tolower uc c).

Definition nl_opt (fh : bool) : textopt := mkopt fh true 0 true ci.
Definition low (v : Z) : Z := if ci then tolower uc v else v.
Definition raw_values (cs : list Z) : list Z :=
  map (fun v => if is_blank uc v then BLANK else v) (filter (fun c => negb (c =? 94)) cs).
Definition read_values (cs : list Z) : list Z := map low (clv false (raw_values cs)).

Lemma low_nl : low 10 = 10.
Proof. unfold low. destruct ci; [|reflexivity]. apply (Keeps eq_refl 10). reflexivity. Qed.

Lemma read_values_ok f t : Forall is_byte f -> ~ starts_with title_start f ->
  read_text uc junk junk4 (nl_opt true) [] f = Ok (t, false) ->
  exists cs, Forall scalar cs /\ f = utf8s cs /\ map value t = read_values cs.
Proof.
  clear Keeps Lower. intros B H E. rewrite (C13_no_header uc junk junk4 (nl_opt true) [] f J eq_refl H) in E.
  cbn [nl_opt find_markers suspect_marker normalize case_insensitive] in E.
  destruct (read_text_ok uc junk junk4 (nl_opt false) [] f eq_refl B (proj2 J)) as [(cs & S & Ef & R)|(_ & m & R)];
    unfold nl_opt in R; rewrite R in E; [|discriminate E].
  exists cs. split; [exact S|]. split; [exact Ef|]. injection E as <-. unfold read_values, post.
  cbn [normalize case_insensitive find_markers].
  assert (X : map value (cl false false (blanks_to_blank uc (tag true (marker_of (mkopt false true 0 true ci)) false cs)))
              = clv false (raw_values cs)).
  { rewrite cl_values. f_equal. unfold blanks_to_blank, raw_values. rewrite map_map.
    change (marker_of (mkopt false true 0 true ci)) with 94.
    transitivity (map (fun v => if is_blank uc v then BLANK else v) (map value (tag true 94 false cs))).
    - rewrite map_map. apply map_ext. intros c. now destruct (is_blank uc (value c)).
    - rewrite tag_values. reflexivity. }
  unfold low. destruct ci.
  - rewrite map_map. cbn [value]. rewrite <- X. now rewrite map_map.
  - rewrite X. now rewrite map_id.
Qed.

Lemma values_read cs : Forall scalar cs -> ~ starts_with title_start (utf8s cs) -> Forall is_byte (utf8s cs) ->
  exists t, read_text uc junk junk4 (nl_opt true) [] (utf8s cs) = Ok (t, false) /\ map value t = read_values cs.
Proof.
  intros S H B. destruct (C08_reject uc junk junk4 (nl_opt false) [] (utf8s cs) J B eq_refl) as [R _].
  destruct R as (t & E); [eauto|].
  assert (E' : read_text uc junk junk4 (nl_opt true) [] (utf8s cs) = Ok (t, false)).
  { rewrite (C13_no_header uc junk junk4 (nl_opt true) [] _ J eq_refl H). exact E. }
  exists t. split; [exact E'|]. destruct (read_values_ok _ t B H E') as (cs' & S' & Eu & V).
  rewrite (utf8s_inj cs cs' S S' Eu). exact V.
Qed.

Lemma read_values_join cs1 cs2 : exists fnd : bool,
  read_values (cs1 ++ 10 :: cs2) = read_values cs1 ++ (if fnd then [10] else []) ++ read_values cs2 /\
  (fnd = false -> read_values cs1 = [] \/ exists w, read_values cs1 = w ++ [10]).
Proof.
  unfold read_values. assert (E : raw_values (cs1 ++ 10 :: cs2) = raw_values cs1 ++ 10 :: raw_values cs2).
  { unfold raw_values. rewrite filter_app, map_app. cbn [filter]. change (negb (10 =? 94)) with true. reflexivity. }
  rewrite E. destruct (clv_newline (raw_values cs2) (raw_values cs1) false) as (fnd & -> & H). exists fnd.
  rewrite !map_app. split.
  - destruct fnd; cbn [map]; [|reflexivity]. now rewrite low_nl.
  - intros Hf. destruct (H Hf) as [[-> _]|(w & ->)]; [now left|]. right. exists (map low w). rewrite map_app. cbn [map]. now rewrite low_nl.
Qed.

Lemma low_scalar v : scalar v -> scalar (low v).
Proof. unfold low. destruct ci; [apply (Lower eq_refl)|auto]. Qed.
Lemma clv_incl v : forall l found, In v (clv found l) -> In v l.
Proof.
  induction l as [|c l IH]; intros found; [auto|]. cbn [clv]. destruct (_ || _); intros H.
  - right. eapply IH. exact H.
  - destruct H as [->|H]; [now left|right]. eapply IH. exact H.
Qed.
Lemma read_values_scalar cs : Forall scalar cs -> Forall scalar (read_values cs).
Proof.
  intros S. unfold read_values. apply Forall_map, Forall_forall. intros v Hv. apply low_scalar. apply clv_incl in Hv.
  unfold raw_values in Hv. apply in_map_iff in Hv as (c & <- & Hc). apply filter_In in Hc as [Hc _].
  rewrite Forall_forall in S. destruct (is_blank uc c); [unfold scalar, BLANK; lia|auto].
Qed.

Lemma utf8s_app a b : utf8s (a ++ b) = utf8s a ++ utf8s b.
Proof. unfold utf8s. apply flat_map_app. Qed.

Lemma title_join f1 f2 : ~ starts_with title_start f1 -> ~ starts_with title_start (f1 ++ 10 :: f2).
Proof.
  intros H (r & E). assert (N : ~ In 10 title_start) by (vm_compute; intuition discriminate).
  destruct (WordProof.app_split _ _ _ _ E) as [(x & q & G1 & G2)|(q & G1 & G2)].
  - injection G2 as <- _. apply N. rewrite G1. apply in_or_app. right. now left.
  - apply H. exists q. exact G1.
Qed.

Lemma prop_nl : prop 10 = LF.
Proof. vm_compute. reflexivity. Qed.
Lemma prop_cr x : prop x = CR -> x = 13.
Proof.
  intros H. symmetry in H. apply has_property_prop in H. destruct H as [(r & I & R & V)|[_ H]]; [|discriminate H].
  assert (G : forallb (fun r => negb (wb_code (wb_value r) =? 1) || ((WordTable.start r =? 13) && (WordTable.stop r =? 13))) WORD_BREAK_PROPERTY = true)
    by (vm_compute; reflexivity).
  rewrite forallb_forall in G. specialize (G r I). rewrite V in G. cbn in G. unfold in_range in R. lia.
Qed.
Lemma canonical_no_cr t : canonical uc t -> no_cr (map value t).
Proof.
  intros (H & _) x Hx E. apply prop_cr in E. subst x. apply in_map_iff in Hx as (c & E & Hc).
  specialize (H c Hc). rewrite E in H. assert (13 = 32); [apply H; unfold blankish; lia|lia].
Qed.

Lemma words_join f1 f2 t1 t2 : Forall is_byte f1 -> Forall is_byte f2 ->
  ~ starts_with title_start f1 -> ~ starts_with title_start f2 -> wordy (cat uc 10) = false ->
  read_text uc junk junk4 (nl_opt true) [] f1 = Ok (t1, false) -> starts_main (map value t1) ->
  read_text uc junk junk4 (nl_opt true) [] f2 = Ok (t2, false) -> starts_main (map value t2) ->
  exists w1 w2, words_in uc NFC junk junk4 (nl_opt true) f1 = Ok w1 /\ words_in uc NFC junk junk4 (nl_opt true) f2 = Ok w2 /\
    words_in uc NFC junk junk4 (nl_opt true) (f1 ++ 10 :: f2) = Ok (w1 ++ w2).
Proof.
  intros B1 B2 H1 H2 Wn E1 M1 E2 M2. unfold words_in. rewrite E1, E2. cbn [obind].
  assert (Nc : no_cr (map value t1)).
  { destruct (C10_canonical uc junk junk4 (nl_opt true) [] f1 t1 false J B1 eq_refl Keeps E1) as (new & -> & C). now apply canonical_no_cr. }
  destruct (read_values_ok f1 t1 B1 H1 E1) as (cs1 & S1 & Ef1 & V1).
  destruct (read_values_ok f2 t2 B2 H2 E2) as (cs2 & S2 & Ef2 & V2).
  assert (Ef : f1 ++ 10 :: f2 = utf8s (cs1 ++ 10 :: cs2)).
  { rewrite utf8s_app. cbn [utf8s flat_map]. change (utf8 10) with [10]. rewrite Ef1, Ef2. reflexivity. }
  assert (Sj : Forall scalar (cs1 ++ 10 :: cs2)).
  { apply Forall_app. split; [exact S1|]. constructor; [unfold scalar; lia|exact S2]. }
  destruct (values_read (cs1 ++ 10 :: cs2) Sj) as (t & Et & Vt).
  { rewrite <- Ef. now apply title_join. }
  { rewrite <- Ef. apply Forall_app. split; [exact B1|]. constructor; [unfold is_byte; lia|exact B2]. }
  rewrite Ef, Et. cbn [obind]. rewrite Vt. rewrite V1, V2 in *. clear t t1 t2 Et Vt E1 E2 V1 V2 Ef Ef1 Ef2 B1 B2 H1 H2.
  pose proof (scalars _ (read_values_scalar cs1 S1)) as U1. pose proof (scalars _ (read_values_scalar cs2 S2)) as U2.
  assert (P : apart (prop 10)) by (rewrite prop_nl; right; left; reflexivity).
  assert (SF : forall l, starts_main l -> l = [] \/ F l <> []).
  { intros [|x l] H; [now left|right]. rewrite F_main by exact H. discriminate. }
  destruct (segments_of _ U1 (SF _ M1)) as (g1 & _ & _ & W1). destruct (segments_of _ U2 (SF _ M2)) as (g2 & _ & _ & W2).
  specialize (W1 uc NFC []). specialize (W2 uc NFC []). cbn [app] in W1, W2.
  exists (words_of uc NFC g1), (words_of uc NFC g2). split; [exact W1|]. split; [exact W2|].
  destruct (read_values_join cs1 cs2) as (fnd & -> & Hf). destruct fnd; cbn [app].
  - apply (find_words_join uc NFC []); auto. apply Forall_app. split; [exact U1|]. constructor; [lia|exact U2].
  - destruct (Hf eq_refl) as [E|(w & E)].
    + rewrite E in *. cbn [app]. rewrite find_words_empty in W1 by reflexivity. injection W1 as <-. exact W2.
    + rewrite E in *. rewrite <- app_assoc. cbn [app]. apply Forall_app in U1 as [Uw U0].
      assert (Mw : starts_main w) by (destruct w; [exact I|exact M1]).
      assert (Nw : no_cr w) by (intros x Hx; apply Nc, in_or_app; now left).
      destruct (segments_of _ Uw (SF _ Mw)) as (gw & _ & _ & Ww). specialize (Ww uc NFC []). cbn [app] in Ww.
      assert (W0 : find_words uc NFC [] (w ++ 10 :: []) = Ok ([] ++ words_of uc NFC gw ++ [])).
      { apply (find_words_join uc NFC []); auto; try exact I; try (apply Forall_app; split; assumption). }
      rewrite W1 in W0. cbn [app] in W0. rewrite app_nil_r in W0. injection W0 as ->.
      apply (find_words_join uc NFC []); auto. apply Forall_app. split; [exact Uw|]. constructor; [lia|exact U2].
Qed.
End Files.
