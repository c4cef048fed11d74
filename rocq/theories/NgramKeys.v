(** Sequences of at most three characters are shown differently unless they are equal. *)
From Coq Require Import String.
From Verif Require Import Base CLib CLibProof Utf8Model Utf8Proof TextModel TextSpec TextProof AccModel AccSpec AccProof
  AccrptSpec AccrptChar.
Local Open Scope Z_scope.
Local Open Scope list_scope.

Section Keys.
Variable uc : unicode_data.
Hypothesis Hwide : marks_wide uc.

Lemma combining_graphic v : is_combining uc v = true -> is_graphic uc v = true.
Proof. unfold is_combining, is_graphic. destruct (v =? 32); [reflexivity|]. destruct (cat uc v); try discriminate; reflexivity. Qed.

(** Three forms: an escape in angle brackets, a mark on a dotted circle, the character itself. *)
Lemma display_cases v : scalar v ->
  (exists e, display uc v = 60 :: e ++ [62] /\ (2 <= List.length e)%nat /\ ~ In 62 e /\ ~ In 60 e /\
     Forall (fun b => 0 <= b < 128) e /\
     ((v = 10 /\ e = [92; 110]) \/ (v <> 10 /\ hex_str e v))) \/
  (is_combining uc v = true /\ 128 <= v /\ display uc v = utf8 9676 ++ utf8 v) \/
  (is_combining uc v = false /\ v <> 10 /\ display uc v = utf8 v).
Proof.
  intros S. unfold display. destruct (Z.eqb_spec v 10) as [->|N].
  { left. exists [92; 110]. split; [reflexivity|]. cbn [List.length In]. split; [lia|].
    split; [intros [H|[H|[]]]; lia|]. split; [intros [H|[H|[]]]; lia|]. split; [repeat constructor; lia|]. auto. }
  destruct (is_graphic uc v) eqn:G.
  - right. destruct (is_combining uc v) eqn:C.
    + left. split; [reflexivity|]. split; [|reflexivity].
      destruct (Z.lt_ge_cases v 128); [|assumption]. destruct S as [S _]. rewrite (Hwide v) in C by lia. discriminate C.
    + right. auto.
  - left. set (w := if v <? 256 then 2%nat else 4%nat). exists (hexpad w v).
    assert (0 <= v) as V by (destruct S; lia).
    pose proof (hexpad_str w v V) as H. destruct H as (H1 & H2 & H3).
    assert (forall b, In b (hexpad w v) -> 48 <= b <= 57 \/ 65 <= b <= 70) as Hb.
    { intros b Hi. rewrite Forall_forall in H2. apply (H2 b Hi). }
    split; [reflexivity|]. split.
    { unfold hexpad, pad. rewrite app_length, repeat_length. subst w. destruct (v <? 256); lia. }
    split; [intros Hi; specialize (Hb _ Hi); lia|]. split; [intros Hi; specialize (Hb _ Hi); lia|].
    split; [apply Forall_forall; intros b Hi; specialize (Hb _ Hi); lia|].
    right. split; [exact N|]. split; [exact H1|]. split; [exact H2|exact H3].
Qed.

Lemma scalar_ascii b : 0 <= b < 128 -> scalar b.
Proof. unfold scalar. lia. Qed.
Lemma utf8_ascii b : 0 <= b < 128 -> utf8 b = [b].
Proof. intros H. unfold utf8. now replace (b <? 128) with true by lia. Qed.
Lemma scalar_circle : scalar 9676.
Proof. unfold scalar. lia. Qed.

Lemma split_at (c : Z) : forall e1 e2 r1 r2, ~ In c e1 -> ~ In c e2 ->
  e1 ++ c :: r1 = e2 ++ c :: r2 -> e1 = e2 /\ r1 = r2.
Proof.
  induction e1 as [|x e1 IH]; intros [|y e2] r1 r2 N1 N2 E; cbn in E.
  - now injection E.
  - injection E as <- E. exfalso. apply N2. now left.
  - injection E as -> E. exfalso. apply N1. now left.
  - injection E as <- E. apply IH in E as [-> ->]; auto.
    + intros H. apply N1. now right.
    + intros H. apply N2. now right.
Qed.

(** What follows a '<' does not complete an escape. *)
Lemma no_escape e vs r : (2 <= List.length e)%nat -> ~ In 60 e -> Forall (fun b => 0 <= b < 128) e ->
  Forall scalar vs -> (List.length vs <= 2)%nat ->
  flat_map (display uc) vs <> e ++ 62 :: r.
Proof.
  intros Le N Fe Fv Lv E. destruct e as [|e1 [|e2 e]]; cbn [List.length] in Le; try lia.
  apply Forall_cons_iff in Fe as [F1 Fe]. apply Forall_cons_iff in Fe as [F2 Fe].
  assert (forall v b rest rest', scalar v -> 0 <= b < 128 -> b <> 60 -> display uc v ++ rest = b :: rest' ->
            rest = rest') as Hstep.
  { intros v b rest rest' S B Nb H.
    destruct (display_cases v S) as [(x & D & _)|[(_ & _ & D)|(_ & _ & D)]]; rewrite D in H.
    - cbn in H. injection H as <- _. congruence.
    - rewrite <- app_assoc in H. change (b :: rest') with ([b] ++ rest') in H. rewrite <- (utf8_ascii b B) in H.
      apply utf8_app_inv in H as [H _]; [lia|apply scalar_circle|now apply scalar_ascii].
    - change (b :: rest') with ([b] ++ rest') in H. rewrite <- (utf8_ascii b B) in H.
      apply utf8_app_inv in H as [_ H]; [exact H|exact S|now apply scalar_ascii]. }
  destruct vs as [|v1 vs]; [discriminate E|]. apply Forall_cons_iff in Fv as [S1 Fv]. cbn [flat_map app] in E.
  apply Hstep in E; auto; [|intros ->; apply N; now left].
  destruct vs as [|v2 vs]; [discriminate E|]. apply Forall_cons_iff in Fv as [S2 Fv]. cbn [flat_map app] in E.
  apply Hstep in E; auto; [|intros ->; apply N; right; now left].
  destruct vs as [|v3 vs]; [|cbn in Lv; lia]. cbn in E. now destruct e.
Qed.

(** What follows a dotted circle is not a bare combining mark. *)
Lemma no_mark y vs r : scalar y -> is_combining uc y = true -> is_combining uc 9676 = false -> 128 <= y ->
  Forall scalar vs -> flat_map (display uc) vs <> utf8 y ++ r.
Proof.
  intros Sy Cy C0 Ly Fv E. destruct vs as [|v vs].
  { cbn in E. symmetry in E. apply app_eq_nil in E as [E _]. now apply utf8_nonempty in E. }
  apply Forall_cons_iff in Fv as [S1 Fv]. cbn [flat_map] in E.
  destruct (display_cases v S1) as [(x & D & _)|[(Cv & _ & D)|(Cv & _ & D)]]; rewrite D in E.
  - cbn [app] in E. match type of E with 60 :: ?t = _ => change (60 :: t) with ([60] ++ t) in E end.
    rewrite <- (utf8_ascii 60) in E by lia. apply utf8_app_inv in E as [E _]; auto; [lia|apply scalar_ascii; lia].
  - rewrite <- app_assoc in E. apply utf8_app_inv in E as [<- _]; auto; [congruence|apply scalar_circle].
  - apply utf8_app_inv in E as [<- _]; auto. congruence.
Qed.

Lemma keys_inj a : forall b, (List.length a <= 3)%nat -> List.length a = List.length b ->
  Forall scalar a -> Forall scalar b ->
  flat_map (display uc) a = flat_map (display uc) b -> a = b.
Proof.
  assert (forall x y a b, scalar x -> scalar y -> (List.length a <= 2)%nat -> (List.length b <= 2)%nat ->
    Forall scalar a -> Forall scalar b ->
    display uc x ++ flat_map (display uc) a = display uc y ++ flat_map (display uc) b ->
    x = y /\ flat_map (display uc) a = flat_map (display uc) b) as Hstep.
  { intros x y a0 b Sx Sy La Lb Fa Fb E.
    destruct (display_cases x Sx) as [(e1 & D1 & L1 & N1 & M1 & A1 & V1)|[(C1 & B1 & D1)|(C1 & B1 & D1)]];
    destruct (display_cases y Sy) as [(e2 & D2 & L2 & N2 & M2 & A2 & V2)|[(C2 & B2 & D2)|(C2 & B2 & D2)]];
    rewrite D1, D2 in E.
    - cbn [app] in E. injection E as E. rewrite <- !app_assoc in E. cbn [app] in E.
      apply split_at in E as [<- E]; auto. split; [|exact E].
      destruct V1 as [(-> & ->)|(X1 & (_ & F1 & H1))], V2 as [(-> & E2)|(X2 & (_ & F2 & H2))]; auto.
      + exfalso. apply Forall_cons_iff in F2 as [[F _] _]. discriminate F.
      + exfalso. rewrite E2 in F1. apply Forall_cons_iff in F1 as [[F _] _]. discriminate F.
      + congruence.
    - exfalso. cbn [app] in E. match type of E with 60 :: ?t = _ => change (60 :: t) with ([60] ++ t) in E end.
      rewrite <- (utf8_ascii 60) in E by lia. rewrite <- !app_assoc in E.
      apply utf8_app_inv in E as [E _]; [lia|apply scalar_ascii; lia|apply scalar_circle].
    - cbn [app] in E. match type of E with 60 :: ?t = _ => change (60 :: t) with ([60] ++ t) in E end.
      rewrite <- (utf8_ascii 60) in E by lia.
      apply utf8_app_inv in E as [_ E]; [|apply scalar_ascii; lia|exact Sy].
      exfalso. symmetry in E. rewrite <- !app_assoc in E. cbn [app] in E. eapply (no_escape e1 b); eauto.
    - exfalso. cbn [app] in E. match type of E with _ = 60 :: ?t => change (60 :: t) with ([60] ++ t) in E end.
      rewrite <- (utf8_ascii 60) in E by lia. rewrite <- !app_assoc in E.
      apply utf8_app_inv in E as [E _]; [lia|apply scalar_circle|apply scalar_ascii; lia].
    - rewrite <- !app_assoc in E. apply app_inv_head in E. now apply utf8_app_inv in E.
    - exfalso. rewrite <- !app_assoc in E. apply utf8_app_inv in E as [<- E]; [|apply scalar_circle|exact Sy].
      symmetry in E. eapply (no_mark x b); eauto.
    - cbn [app] in E. match type of E with _ = 60 :: ?t => change (60 :: t) with ([60] ++ t) in E end.
      rewrite <- (utf8_ascii 60) in E by lia.
      apply utf8_app_inv in E as [_ E]; [|exact Sx|apply scalar_ascii; lia].
      exfalso. rewrite <- !app_assoc in E. cbn [app] in E. eapply (no_escape e2 a0); eauto.
    - exfalso. rewrite <- !app_assoc in E. apply utf8_app_inv in E as [-> E]; [|exact Sx|apply scalar_circle].
      eapply (no_mark y a0); eauto.
    - now apply utf8_app_inv in E. }
  induction a as [|x a IH]; intros [|y b] L3 Ll Fa Fb E; try discriminate Ll; [reflexivity|].
  cbn [List.length] in *. injection Ll as Ll. apply Forall_cons_iff in Fa as [Sx Fa]. apply Forall_cons_iff in Fb as [Sy Fb].
  cbn [flat_map] in E. apply Hstep in E as [-> E]; auto; try lia. f_equal. apply IH; auto. lia.
Qed.
End Keys.
