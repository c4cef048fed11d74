(** C79: the layout of reports.

    Hypotheses used below: [reportable], [wreportable], [ereportable]: the data of a report (AccrptSpec.v, WacrptSpec.v, EdoSpec.v);
    [pct_ok fmt]: printf("%8.2f") takes 8 columns for a percentage between 0 and 100 (shown for binary64 in C67);
    [permutes order]: a table is listed in some order (C05). *)
From Coq Require Import String Sorted Permutation.
From Verif Require Import Base CLib Utf8Model TextModel TextSpec AccModel AccSpec ReportSpec AccrptModel AccrptSpec AccrptProof AccrptTop AccrptProps WacModel WacrptModel WacrptSpec WacrptProof WacrptTop
  EdoModel EdoSpec EdoProof LayoutSpec LayoutProof.
Local Open Scope Z_scope.
Local Open Scope list_scope.

(** The lines of an accuracy report, with what they show in which columns. *)
Theorem C79_accuracy : forall uc fmt order d f, nul_hidden uc -> pct_ok fmt -> permutes order -> reportable d -> below 100000000 d ->
  write_accrpt uc fmt order d = Ok f -> exists lines, accuracy_report uc d lines /\ file_shows fmt lines f.
Proof. intros uc fmt order d f N F O R B E. eapply accuracy_layout; eauto. Qed.
Print Assumptions C79_accuracy.

(** Of a word accuracy report. *)
Theorem C79_wordacc : forall fmt order d f, pct_ok fmt -> permutes_terms order -> wreportable d -> wbelow 100000000 d ->
  write_wacrpt fmt order d = Ok f -> exists lines, word_report d lines /\ file_shows fmt lines f.
Proof. intros fmt order d f F O R B E. eapply word_layout; eauto. Qed.
Print Assumptions C79_wordacc.

(** Of a report of edit operations. *)
Theorem C79_editop : forall fmt d f, ereportable d -> ebelow 100000000 d ->
  write_edorpt d = Ok f -> exists lines, edit_report d lines /\ file_shows fmt lines f.
Proof.
  intros fmt d f R B E. rewrite (write_edorpt_text d (er_size d R)) in E. injection E as <-. now apply edit_layout.
Qed.
Print Assumptions C79_editop.

(** The description leaves nothing open: there is only one file with given lines, *)
Lemma value_snoc s c : fold_left (fun v c => 10 * v + (c - 48)) (s ++ [c]) 0 = 10 * fold_left (fun v c => 10 * v + (c - 48)) s 0 + (c - 48).
Proof. now rewrite fold_left_app. Qed.
Lemma value_nonneg s : Forall (fun c => 48 <= c <= 57) s -> 0 <= fold_left (fun v c => 10 * v + (c - 48)) s 0.
Proof.
  induction s as [|c s IH] using rev_ind; intros F; [cbn; lia|]. rewrite value_snoc. apply Forall_app in F as [F G]. apply Forall_cons_iff in G as [G _]. specialize (IH F). lia.
Qed.
Lemma value_pos s : s <> [] -> hd 0 s <> 48 -> Forall (fun c => 48 <= c <= 57) s -> 0 < fold_left (fun v c => 10 * v + (c - 48)) s 0.
Proof.
  induction s as [|c s IH] using rev_ind; intros N H F; [congruence|]. rewrite value_snoc. apply Forall_app in F as [F G]. apply Forall_cons_iff in G as [G _]. pose proof (value_nonneg s F).
  destruct s as [|b s]; [cbn in *; lia|]. specialize (IH ltac:(discriminate) H F). lia.
Qed.
Lemma numeral_unique n s : forall s', numeral n s -> numeral n s' -> s = s'.
Proof.
  revert n. induction s as [|c s IH] using rev_ind; intros n s' (N1 & F1 & V1 & Z1) (N2 & F2 & V2 & Z2); [congruence|].
  destruct s' as [|c' s' _] using rev_ind; [congruence|]. rewrite value_snoc in V1, V2. apply Forall_app in F1 as [F1 G1]. apply Forall_app in F2 as [F2 G2].
  apply Forall_cons_iff in G1 as [G1 _]. apply Forall_cons_iff in G2 as [G2 _].
  set (v1 := fold_left _ s 0) in *. set (v2 := fold_left _ s' 0) in *. assert (v1 = v2 /\ c = c') as [Ev ->] by lia. f_equal.
  assert (s <> [] -> 0 < v1) as P1.
  { intros N. apply value_pos; [exact N| |exact F1]. destruct s as [|b s]; [congruence|]. cbn in *. intros ->. specialize (Z1 eq_refl). destruct s; discriminate Z1. }
  assert (s' <> [] -> 0 < v2) as P2.
  { intros N. apply value_pos; [exact N| |exact F2]. destruct s' as [|b s']; [congruence|]. cbn in *. intros ->. specialize (Z2 eq_refl). destruct s'; discriminate Z2. }
  destruct s as [|a s], s' as [|b s'].
  - reflexivity.
  - specialize (P2 ltac:(discriminate)). assert (v1 = 0) by reflexivity. lia.
  - specialize (P1 ltac:(discriminate)). assert (v2 = 0) by reflexivity. lia.
  - apply (IH v1); (split; [discriminate|split; [assumption|split; [|]]]).
    + reflexivity.
    + intros E. cbn in E, Z1. subst a. specialize (Z1 eq_refl). destruct s; discriminate Z1.
    + symmetry. exact Ev.
    + intros E. cbn in E, Z2. subst b. specialize (Z2 eq_refl). destruct s'; discriminate Z2.
Qed.

Theorem C79_exact : forall fmt lines f f', file_shows fmt lines f -> file_shows fmt lines f' -> f = f'.
Proof.
  assert (forall fmt p x y, is_part fmt p x -> is_part fmt p y -> x = y) as Hp.
  { intros fmt [c n|c w|c t|c n d|n d t] x y; cbn [is_part]; try congruence. intros (s & N & ->) (s' & N' & ->). now rewrite (numeral_unique n s s' N N'). }
  assert (forall fmt ps xs ys, Forall2 (is_part fmt) ps xs -> Forall2 (is_part fmt) ps ys -> xs = ys) as Hps.
  { intros fmt ps xs ys F. revert ys. induction F as [|p x ps xs H F IH]; intros ys G; inversion G; subst; [reflexivity|]. f_equal; eauto. }
  assert (forall c xs l l', laid_out c xs l -> laid_out c xs l' -> l = l') as Hl.
  { intros c xs l l' L. revert l'. induction L as [|c a t xs l La L IH]; intros l' L'; inversion L'; subst; [reflexivity|]. f_equal. f_equal. now apply IH. }
  intros fmt lines f f' (ls & -> & F) (ls' & -> & F'). f_equal. revert ls' F'. induction F as [|ps l lines ls H F IH]; intros ls' F'; inversion F' as [|? l' ? ls2 H' F2]; subst; [reflexivity|].
  f_equal; [|now apply IH]. destruct H as (_ & xs & A & B), H' as (_ & ys & A' & B'). rewrite (Hps _ _ _ _ A A') in B. eapply Hl; eauto.
Qed.
Print Assumptions C79_exact.

(** and no other lines: the lines of a file are determined. *)
Theorem C79_lines : forall ls ls' : list (list Z), Forall (fun l => ~ In 10 l) ls -> Forall (fun l => ~ In 10 l) ls' ->
  flat_map (fun l => l ++ [10]) ls = flat_map (fun l => l ++ [10]) ls' -> ls = ls'.
Proof.
  induction ls as [|l ls IH]; intros [|l' ls'] F F' E; auto.
  - destruct l'; discriminate E.
  - destruct l; discriminate E.
  - apply Forall_cons_iff in F as [Fl F]. apply Forall_cons_iff in F' as [Fl' F']. cbn [flat_map] in E. rewrite <- !app_assoc in E. cbn [app] in E.
    assert (l = l' /\ flat_map (fun l => l ++ [10]) ls = flat_map (fun l => l ++ [10]) ls') as [-> E'].
    { clear IH F F'. revert l' Fl' E. induction l as [|a l IH]; intros [|b l'] Fl' E; cbn [app] in E.
      - injection E as E. auto.
      - injection E as <- _. exfalso. apply Fl'. now left.
      - injection E as -> _. exfalso. apply Fl. now left.
      - injection E as -> E. destruct (IH ltac:(intros I; apply Fl; now right) l' ltac:(intros I; apply Fl'; now right) E) as [-> Q]. auto. }
    f_equal. now apply IH.
Qed.
Print Assumptions C79_lines.

(** Figures of nine digits push the columns out of line. *)
Definition many_insertions : edodata := mkedo 100000000 0 0 (repeat 0 101).
Lemma laid_le c a t xs l : laid_out c ((a, t) :: xs) l -> c <= a.
Proof. intros B. now inversion B. Qed.
Theorem C79_wide_refuted : exists d f, ereportable d /\ write_edorpt d = Ok f /\ forall fmt lines, edit_report d lines -> ~ file_shows fmt lines f.
Proof.
  exists many_insertions. eexists. split; [|split; [reflexivity|]].
  - constructor; [reflexivity|reflexivity| |reflexivity]. intros [| | |i]; cbn [efig many_insertions insertions deletions total_moves moves]; try lia.
    unfold entry. destruct (znth (repeat 0 101) i) as [n|] eqn:E; [|lia]. assert (In n (repeat 0 101)) as I by (unfold znth in E; destruct (i <? 0); [discriminate E|]; now apply nth_error_In in E).
    apply repeat_spec in I. lia.
  - intros fmt lines [(lengths & _ & ->)] (ls & E & F). cbn [total_moves many_insertions Z.ltb Z.compare app insertions deletions] in F.
    inversion F as [|? l1 ? ls1 _ F1]; subst. inversion F1 as [|? l2 ? ls2 _ F2]; subst. inversion F2 as [|? l3 ? ls3 H3 F3]; subst. destruct H3 as (N3 & xs & A & B).
    inversion A as [|? x ? xs' Hx A']; subst. destruct Hx as (s & Ns & ->). apply laid_le in B.
    assert (zlen s = 9) as L9. { rewrite (numeral_unique 100000000 s (dec 100000000) Ns (numeral_dec 100000000 ltac:(lia))). reflexivity. }
    lia.
Qed.
Print Assumptions C79_wide_refuted.

(** The data of a page with two moves of three characters and one insertion. *)
Definition some_edits : edodata := mkedo 1 0 2 ([0; 0; 0; 2] ++ repeat 0 97).
Example C79_ex : ereportable some_edits /\ ebelow 100000000 some_edits /\
  write_edorpt some_edits = Ok (bytes "ocreval Edit Operation Report Version 7.0" ++ [10] ++ bytes "-----------------------------------------" ++ [10] ++
    bytes "       1   Insertions" ++ [10] ++ bytes "       0   Deletions" ++ [10] ++ bytes "       2   Moves" ++ [10] ++ [10] ++
    bytes "Moves" ++ [10] ++ bytes "   Count   Length" ++ [10] ++ bytes "       2        3" ++ [10]).
Proof.
  assert (forall x, 0 <= efig x some_edits < 100000000) as Q.
  { intros [| | |i]; cbn [efig some_edits insertions deletions total_moves moves]; try lia. unfold entry. destruct (znth _ i) as [n|] eqn:E; [|lia].
    assert (In n ([0; 0; 0; 2] ++ repeat 0 97)) as I by (unfold znth in E; destruct (i <? 0); [discriminate E|]; now apply nth_error_In in E).
    apply in_app_iff in I as [I|I]; [cbn in I; lia|]. apply repeat_spec in I. lia. }
  split; [|split].
  - constructor; [reflexivity|reflexivity|intros x; apply Q|reflexivity].
  - intros x. apply Q.
  - reflexivity.
Qed.
