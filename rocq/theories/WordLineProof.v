(** The words of a text are those of the parts between its blanks and newlines. *)
From Verif Require Import Base WordTable Utf8Model TextSpec WordModel WordSpec WordProof WordProps.
Local Open Scope Z_scope.
Local Open Scope list_scope.

(** A character that no rule joins with another one. *)
Definition apart (p : wb_property) : Prop := p = Other \/ p = LF \/ p = Newline.

Lemma apart_main c : apart (prop c) -> ext c = false.
Proof. unfold ext. intros [-> | [-> | ->]]; reflexivity. Qed.
Lemma apart_left a c d e : apart c -> rules a c d e = false.
Proof.
  intros H. destruct (rules a c d e) eqn:E; [|reflexivity]. apply rules_joined in E. exfalso.
  destruct H as [-> | [-> | ->]]; inversion E; subst; unfold ahletter, midnumletq in *; intuition discriminate.
Qed.
Lemma apart_right a b c d : apart c -> b <> CR -> rules a b c d = false.
Proof.
  intros H N. destruct (rules a b c d) eqn:E; [|reflexivity]. apply rules_joined in E. exfalso.
  destruct H as [-> | [-> | ->]]; inversion E; subst; unfold ahletter, midnumletq in *; intuition discriminate.
Qed.
Lemma apart_ahead a b c d : apart d -> rules a b c d = rules a b c eot.
Proof. intros [-> | [-> | ->]]; unfold rules; destruct c; cbn; rewrite ?andb_false_r; reflexivity. Qed.
Lemma apart_behind a b c d : apart a -> rules a b c d = rules sot b c d.
Proof. intros [-> | [-> | ->]]; reflexivity. Qed.

Lemma cjoin_ahead l1 m c b : F m <> [] -> ext c = false -> apart (prop c) -> cjoin l1 (m ++ c :: b) = cjoin l1 m.
Proof.
  intros N X A. unfold cjoin. rewrite F_app, F_main by exact X. destruct (F m) as [|x [|y r]]; [contradiction|..]; [|reflexivity].
  cbn [app hd tl]. now apply apart_ahead.
Qed.
Lemma cjoin_behind a c l1 l2 : F l1 <> [] -> ext c = false -> apart (prop c) -> cjoin (a ++ c :: l1) l2 = cjoin l1 l2.
Proof.
  intros N X A. unfold cjoin. rewrite F_app, F_main by exact X. rewrite rev_app_distr. cbn [rev].
  destruct (rev (F l1)) as [|x [|y r]] eqn:E.
  - exfalso. apply N. apply (f_equal (@rev _)) in E. rewrite rev_involutive in E. exact E.
  - cbn [app hd tl]. now apply apart_behind.
  - reflexivity.
Qed.

Definition no_cr (a : list Z) : Prop := forall x, In x a -> prop x <> CR.
Lemma no_cr_F a : no_cr a -> hd sot (rev (F a)) <> CR.
Proof.
  intros H. destruct (rev (F a)) as [|x r] eqn:E; [discriminate|]. cbn [hd]. intros ->.
  assert (In CR (F a)) as I by (apply in_rev; rewrite E; now left). unfold F in I. apply in_map_iff in I as (y & Ey & I).
  apply filter_In in I as [I _]. exact (H y I Ey).
Qed.

Definition starts_main (b : list Z) : Prop := match b with [] => True | x :: _ => ext x = false end.

Lemma segments_join a c b sa sb : apart (prop c) -> no_cr a -> (a = [] \/ F a <> []) -> starts_main b ->
  cuts a sa -> ends_at (cut_place []) a sa -> cuts b sb -> ends_at (cut_place []) b sb ->
  cuts (a ++ c :: b) (sa ++ [c] :: sb) /\ ends_at (cut_place []) (a ++ c :: b) (sa ++ [c] :: sb).
Proof.
  intros A Ncr Fa Sb [Ca Na] Ea [Cb Nb] Eb. pose proof (apart_main c A) as X. split.
  { split; [rewrite concat_app, Ca; cbn [concat app]; now rewrite Cb|].
    apply Forall_app. split; [exact Na|]. constructor; [discriminate|exact Nb]. }
  intros l1 l2 Hl. destruct (app_split l1 l2 a (c :: b) Hl) as [(x & r & E1 & E2)|(r & E1 & E2)].
  - (* inside [a] *)
    assert (D : (exists s1 s2, sa ++ [c] :: sb = s1 ++ s2 /\ l1 = concat s1) <-> (exists s1 s2, sa = s1 ++ s2 /\ l1 = concat s1)).
    { split; intros (s1 & s2 & H1 & H2).
      - symmetry in H1. destruct (app_split s1 s2 sa ([c] :: sb) H1) as [(y & q & G1 & G2)|(q & G1 & G2)].
        + exists s1, (y :: q). split; [exact G1|exact H2].
        + exfalso. rewrite G1, concat_app, Ca in H2. apply (f_equal (@List.length Z)) in H2, E1.
          rewrite app_length in H2, E1. cbn [List.length] in E1. lia.
      - exists s1, (s2 ++ [c] :: sb). split; [now rewrite H1, app_assoc|exact H2]. }
    rewrite D, (Ea l1 (x :: r)) by (symmetry; exact E1). rewrite E2. unfold cut_place. cbn [app].
    assert (Y : ext x = false -> F (x :: r) <> []) by (intros G; rewrite F_main by exact G; discriminate).
    split; intros [H|[H|(y & l2' & G1 & G2 & G3 & G4)]]; [left; exact H|discriminate H| |left; exact H|discriminate H|].
    + right. right. injection G1 as <- <-. exists x, (r ++ c :: b). split; [reflexivity|]. split; [exact G2|]. split; [exact G3|].
      change (x :: r ++ c :: b) with ((x :: r) ++ c :: b). rewrite cjoin_ahead; auto.
    + right. right. injection G1 as <- <-. exists x, r. split; [reflexivity|]. split; [exact G2|]. split; [exact G3|].
      change (x :: r ++ c :: b) with ((x :: r) ++ c :: b) in G4. rewrite cjoin_ahead in G4; auto.
  - destruct r as [|c' r].
    + (* between [a] and [c] *)
      cbn [app] in E2. rewrite app_nil_r in E1. subst l1 l2. split; intros _.
      * destruct Fa as [->|Fa]; [left; reflexivity|]. right. right. exists c, b. split; [reflexivity|]. split; [exact X|].
        split; [exact Fa|]. cbn [app]. unfold cjoin. rewrite F_main by exact X. cbn [hd].
        apply apart_right; [exact A|now apply no_cr_F].
      * exists sa, ([c] :: sb). auto.
    + cbn [app] in E2. injection E2 as <- E2.
      assert (D : (exists s1 s2, sa ++ [c] :: sb = s1 ++ s2 /\ l1 = concat s1) <-> (exists s1 s2, sb = s1 ++ s2 /\ r = concat s1)).
      { split; intros (s1 & s2 & H1 & H2).
        - symmetry in H1. destruct (app_split s1 s2 sa ([c] :: sb) H1) as [(y & q & G1 & G2)|(q & G1 & G2)].
          + exfalso. rewrite <- Ca, G1, concat_app, <- H2 in E1. apply (f_equal (@List.length Z)) in E1.
            rewrite !app_length in E1. cbn [List.length] in E1. lia.
          + rewrite G1, concat_app, Ca, E1 in H2. apply app_inv_head in H2. destruct q as [|z q]; [discriminate H2|].
            cbn [app] in G2. injection G2 as <- G2. cbn [concat app] in H2. injection H2 as H2. exists q, s2. auto.
        - exists (sa ++ [c] :: s1), s2. split; [rewrite H1, <- app_assoc; reflexivity|].
          rewrite concat_app, Ca, E1. cbn [concat app]. now rewrite H2. }
      rewrite D, (Eb r l2) by (symmetry; exact E2). rewrite E1. unfold cut_place. cbn [app].
      destruct r as [|y r].
      { split; [|intros _; left; reflexivity]. intros _. cbn [app] in E2. rewrite E2 in Sb. destruct l2 as [|z l2]; [right; left; reflexivity|].
        right. right. exists z, l2. split; [reflexivity|]. split; [exact Sb|]. rewrite F_app, F_main by exact X.
        split; [intros H; apply app_eq_nil in H as [_ H]; discriminate H|]. rewrite cjoin_snoc by exact X. now apply apart_left. }
      assert (F (y :: r) <> []) as Fy. { rewrite E2 in Sb. cbn [starts_main app] in Sb. rewrite F_main by exact Sb. discriminate. }
      split; intros [H|[H|(z & l2' & G1 & G2 & G3 & G4)]]; [discriminate H|right; left; exact H| | |right; left; exact H|].
      * right. right. exists z, l2'. split; [exact G1|]. split; [exact G2|]. rewrite F_app, F_main by exact X.
        split; [intros H; apply app_eq_nil in H as [_ H]; discriminate H|]. rewrite cjoin_behind; auto.
      * destruct a; discriminate H.
      * right. right. exists z, l2'. split; [exact G1|]. split; [exact G2|]. split; [exact Fy|]. rewrite cjoin_behind in G4; auto.
Qed.

Lemma nil_cuts : cuts (@nil Z) [] /\ ends_at (cut_place []) [] [].
Proof.
  split; [split; [reflexivity|constructor]|]. intros l1 l2 H. apply app_eq_nil in H as [-> ->]. split; intros _; [now left|].
  exists [], []. auto.
Qed.

(** The segments of a text, empty or not made of marks only. *)
Lemma segments_of t : Forall (fun c => 0 <= c <= 1114111) t -> (t = [] \/ F t <> []) ->
  exists segs, cuts t segs /\ ends_at (cut_place []) t segs /\
    forall uc NFC wl, find_words uc NFC wl t = Ok (wl ++ words_of uc NFC segs).
Proof.
  intros V [->|H]; [|now apply find_words_ok]. exists []. destruct nil_cuts as [C E]. split; [exact C|]. split; [exact E|].
  intros. cbn [words_of filter map]. rewrite app_nil_r. now apply find_words_empty.
Qed.

Lemma find_words_join uc NFC wl a c b wa wb : Forall (fun c => 0 <= c <= 1114111) (a ++ c :: b) ->
  apart (prop c) -> no_cr a -> (a = [] \/ F a <> []) -> starts_main b -> wordy (cat uc c) = false ->
  find_words uc NFC [] a = Ok wa -> find_words uc NFC [] b = Ok wb ->
  find_words uc NFC wl (a ++ c :: b) = Ok (wl ++ wa ++ wb).
Proof.
  intros V A Ncr Fa Sb W Wa Wb. pose proof V as V'. apply Forall_app in V' as [Va Vb]. apply Forall_cons_iff in Vb as [_ Vb].
  assert (Fb : b = [] \/ F b <> []).
  { destruct b as [|x b]; [now left|right]. rewrite F_main by exact Sb. discriminate. }
  destruct (segments_of a Va Fa) as (sa & Ca & Ea & Fwa). destruct (segments_of b Vb Fb) as (sb & Cb & Eb & Fwb).
  rewrite Fwa in Wa. rewrite Fwb in Wb. cbn [app] in Wa, Wb. injection Wa as <-. injection Wb as <-.
  destruct (segments_join a c b sa sb A Ncr Fa Sb Ca Ea Cb Eb) as [Cj Ej].
  assert (Fj : F (a ++ c :: b) <> []).
  { rewrite F_app, F_main by (now apply apart_main). intros H. apply app_eq_nil in H as [_ H]. discriminate H. }
  destruct (find_words_ok _ V Fj) as (segs & C & E & Fw). rewrite Fw.
  rewrite (cuts_unique _ _ _ _ C E Cj Ej). unfold words_of. rewrite filter_app. cbn [filter starts_word]. rewrite W.
  now rewrite map_app.
Qed.
