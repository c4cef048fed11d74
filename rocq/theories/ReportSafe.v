(** Reading arbitrary files. *)
From Coq Require Import String.
From Verif Require Import Base CLib CLibProof TextModel TextIO ReportModel ReportSpec ReportProof.
Local Open Scope Z_scope.
Local Open Scope list_scope.

Lemma fgets_takes f : f <> [] -> takes f (fst (fgets_bytes 98 f)) (snd (fgets_bytes 98 f)).
Proof.
  intros H. pose proof (fgets_bytes_app 98 f) as A. pose proof (fgets_bytes_len 98 f) as L.
  pose proof (fgets_bytes_pos 98 f ltac:(lia) H) as P.
  assert (forall room f, let '(l, rest) := fgets_bytes room f in
    (exists body, l = body ++ [10] /\ ~ In 10 body) \/ (~ In 10 l /\ (List.length l = room \/ rest = []))) as G.
  { clear. induction room as [|r IH]; intros [|c f]; cbn [fgets_bytes]; try (right; split; [easy|auto]; fail).
    destruct (Z.eqb_spec c 10) as [->|N]; [left; exists []; auto|].
    specialize (IH f). destruct (fgets_bytes r f) as [l rest]. destruct IH as [(body & -> & NB)|[NL E]].
    - left. exists (c :: body). split; [reflexivity|]. intros [?|?]; auto.
    - right. split; [intros [?|?]; auto|]. destruct E; [left; cbn; lia|auto]. }
  specialize (G 98%nat f). destruct (fgets_bytes 98 f) as [l rest]. cbn [fst snd] in *.
  repeat split; auto; [unfold zlen; lia|]. destruct G as [G|[G1 [G2|G2]]]; auto.
  right. split; [exact G1|]. left. unfold zlen. lia.
Qed.

Lemma takes_fgets f l rest : takes f l rest -> fgets_bytes 98 f = (l, rest).
Proof.
  intros (-> & N & L & [(body & -> & NB)|[NL E]]).
  - rewrite <- app_assoc. apply fgets_line; auto. rewrite zlen_app in L. unfold zlen in L. cbn in L. lia.
  - destruct E as [E| ->].
    + assert (forall room l, List.length l = room -> ~ In 10 l -> fgets_bytes room (l ++ rest) = (l, rest)) as G.
      { clear. induction room as [|r IH]; intros [|c l] Hl Hn; cbn in Hl; try discriminate Hl.
        - cbn. now destruct rest.
        - cbn [app fgets_bytes]. replace (c =? 10) with false
            by (symmetry; apply Z.eqb_neq; intros ->; apply Hn; now left).
          rewrite IH; auto. intros ?; apply Hn; now right. }
      apply G; [|exact NL]. unfold zlen in E. lia.
    + rewrite app_nil_r. apply fgets_rest; auto. unfold zlen in L. lia.
Qed.

Lemma takes_fun f l rest l' rest' : takes f l rest -> takes f l' rest' -> l = l' /\ rest = rest'.
Proof. intros H H'. apply takes_fgets in H, H'. rewrite H in H'. now injection H'. Qed.

Lemma text_cutnul l : text_of l (cutnul l).
Proof.
  induction l as [|x l (N & E)]; cbn [cutnul]; [split; auto|].
  destruct (Z.eqb_spec x 0) as [->|X]; [split; [easy|right; eexists; reflexivity]|].
  split; [intros [?|?]; auto|]. destruct E as [E|(r & E)]; [left; congruence|right; exists r; cbn; congruence].
Qed.

Lemma text_fun l s : text_of l s -> s = cutnul l.
Proof.
  intros (N & [->|(r & ->)]).
  - now rewrite cutnul_id.
  - induction s as [|x s IH]; cbn; [reflexivity|].
    destruct (Z.eqb_spec x 0) as [->|]; [exfalso; apply N; now left|].
    f_equal. apply IH. intros ?. apply N. now right.
Qed.

(** A line, read into any buffer. *)
Lemma read_line_takes b f : line_buffer b ->
  (f = [] /\ read_line (b, f) = Ok (false, (b, f))) \/
  (exists l rest b', takes f l rest /\ read_line (b, f) = Ok (true, (b', rest)) /\ holds b' l /\
     cstr b' 0 = Ok (cutnul l)).
Proof.
  intros B. destruct f as [|c f]; [left; auto|]. right.
  pose proof (fgets_takes (c :: f) ltac:(discriminate)) as T.
  destruct (fgets_bytes 98 (c :: f)) as [l rest] eqn:E. cbn [fst snd] in T.
  destruct (store_buffer b l B) as (b' & Es & H); [apply T|].
  exists l, rest, b'. split; [exact T|]. split.
  - unfold read_line, fgets. cbn [fst snd]. change (Z.to_nat (99 - 1)) with 98%nat. rewrite E, Es. reflexivity.
  - split; [exact H|]. destruct H as [_ (tl & ->)]. now rewrite cstr0, upto_nul_spec.
Qed.

Lemma takes_shorter f l rest : takes f l rest -> (List.length rest < List.length f)%nat.
Proof. intros (-> & N & _). rewrite app_length. destruct l; [congruence|cbn; lia]. Qed.

(** Scanning numbers. *)
Lemma skip_space_split s : exists sp, s = sp ++ skip_space s /\ Forall blank_char sp.
Proof.
  induction s as [|c s (sp & E & F)]; [exists []; auto|]. cbn [skip_space].
  destruct (is_space c) eqn:S; [|exists []; auto].
  exists (c :: sp). split; [cbn; congruence|]. constructor; [|exact F]. unfold is_space in S. unfold blank_char. lia.
Qed.

Lemma span_split p s : let '(a, b) := span p s in s = a ++ b /\ Forall (fun c => p c = true) a /\
  match b with [] => True | c :: _ => p c = false end.
Proof.
  induction s as [|c s IH]; cbn [span]; [auto|]. destruct (p c) eqn:P.
  - destruct (span p s) as [a b]. destruct IH as (-> & F & H). auto.
  - auto.
Qed.

Lemma is_digit_spec c : is_digit c = true <-> digit_char c.
Proof. unfold is_digit, digit_char. lia. Qed.

Lemma scan_long_numbers s k :
  (forall v rest, scan_long s = Some (v, rest) -> numbers k rest -> numbers (S k) s) /\
  (numbers (S k) s -> exists v rest, scan_long s = Some (v, rest) /\ numbers k rest).
Proof.
  split.
  - intros v rest. unfold scan_long. destruct (skip_space_split s) as (sp & Es & Fs).
    assert (exists sign, skip_space s = sign ++ snd (scan_sign (skip_space s)) /\
      (sign = [] \/ sign = [43] \/ sign = [45])) as (sign & Eg & Hg).
    { destruct (skip_space s) as [|c t]; cbn [scan_sign]; [exists []; auto|].
      destruct (Z.eqb_spec c 45) as [->|]; [exists [45]; auto|].
      destruct (Z.eqb_spec c 43) as [->|]; [exists [43]; auto|]. exists []. auto. }
    destruct (scan_sign (skip_space s)) as [neg s2]. cbn [snd] in Eg.
    pose proof (span_split is_digit s2) as Sp. destruct (span is_digit s2) as [ds r].
    destruct Sp as (-> & Fd & Hr). destruct ds as [|d ds]; [discriminate|].
    intros [= _ <-] N. rewrite Es, Eg. apply numbers_more; auto.
    + discriminate.
    + eapply Forall_impl; [|exact Fd]. intros c. apply is_digit_spec.
    + destruct r; auto. rewrite <- is_digit_spec, Hr. discriminate.
  - intros N. inversion N as [|k' sp sign ds rest Fs Hg Hd Fd Hr N']; subst. clear N.
    unfold scan_long.
    assert (forall t, match t with [] => True | c :: _ => is_space c = false end ->
             skip_space (sp ++ t) = t) as SS.
    { intros t Ht. induction Fs as [|c sp Hc Fs IH]; cbn [app].
      - destruct t; cbn; [reflexivity|]. now rewrite Ht.
      - cbn [skip_space]. unfold blank_char in Hc. replace (is_space c) with true by (unfold is_space; lia). exact IH. }
    destruct ds as [|d ds]; [congruence|]. apply Forall_cons_iff in Fd as [Hd' Fd].
    assert (is_space d = false /\ (d =? 45) = false /\ (d =? 43) = false) as (D1 & D2 & D3)
      by (unfold digit_char in Hd'; unfold is_space; lia).
    assert (span is_digit ((d :: ds) ++ rest) = (d :: ds, rest)) as Esp.
    { apply span_all.
      - constructor; [now apply is_digit_spec|]. eapply Forall_impl; [|exact Fd]. intros c. apply is_digit_spec.
      - destruct rest; auto. rewrite <- is_digit_spec in Hr. now destruct (is_digit z). }
    rewrite SS by (destruct Hg as [->|[->| ->]]; cbn [app]; [exact D1|reflexivity|reflexivity]).
    assert (exists neg, scan_sign (sign ++ (d :: ds) ++ rest) = (neg, (d :: ds) ++ rest)) as (neg & ->).
    { destruct Hg as [->|[->| ->]]; [exists false|exists false|exists true]; cbn [app scan_sign];
        rewrite ?D2, ?D3; reflexivity. }
    rewrite Esp. eauto.
Qed.

Lemma scan_one_numbers s : scan_one s <> None <-> numbers 1 s.
Proof.
  destruct (scan_long_numbers s 0) as [H1 H2]. unfold scan_one. split.
  - destruct (scan_long s) as [[v r]|]; cbn; [|congruence]. intros _. apply (H1 v r); auto. constructor.
  - intros N. destruct (H2 N) as (v & r & -> & _). discriminate.
Qed.

Lemma scan_two_numbers s : scan_two s <> None <-> numbers 2 s.
Proof.
  unfold scan_two. split.
  - destruct (scan_long s) as [[v r]|] eqn:E1; [|congruence].
    destruct (scan_long r) as [[v2 r2]|] eqn:E2; [|congruence]. intros _.
    apply (proj1 (scan_long_numbers s 1) v r E1). apply (proj1 (scan_long_numbers r 0) v2 r2 E2). constructor.
  - intros N. apply (proj2 (scan_long_numbers s 1)) in N as (v & r & -> & N).
    apply (proj2 (scan_long_numbers r 0)) in N as (v2 & r2 & -> & _). discriminate.
Qed.

Lemma scan_four_numbers s : scan_four s <> None <-> numbers 4 s.
Proof.
  unfold scan_four. split.
  - destruct (scan_long s) as [[v r]|] eqn:E1; [|congruence].
    destruct (scan_long r) as [[v2 r2]|] eqn:E2; [|congruence].
    destruct (scan_long r2) as [[v3 r3]|] eqn:E3; [|congruence].
    destruct (scan_long r3) as [[v4 r4]|] eqn:E4; [|congruence]. intros _.
    apply (proj1 (scan_long_numbers s 3) v r E1). apply (proj1 (scan_long_numbers r 2) v2 r2 E2).
    apply (proj1 (scan_long_numbers r2 1) v3 r3 E3). apply (proj1 (scan_long_numbers r3 0) v4 r4 E4). constructor.
  - intros N. apply (proj2 (scan_long_numbers s 3)) in N as (v & r & -> & N).
    apply (proj2 (scan_long_numbers r 2)) in N as (v2 & r2 & -> & N).
    apply (proj2 (scan_long_numbers r2 1)) in N as (v3 & r3 & -> & N).
    apply (proj2 (scan_long_numbers r3 0)) in N as (v4 & r4 & -> & _). discriminate.
Qed.

(** A file that fails to meet one more requirement. *)
Lemma shaped_cons w ws f l rest : takes f l rest ->
  (shaped (w :: ws) f <-> meets w l /\ shaped ws rest).
Proof.
  intros T. split.
  - intros (ls & r & Ta & F). inversion F as [|w' l' ws' ls' M F' E1 E2]; subst.
    inversion Ta as [|f' l2 rest2 ls2 r2 T2 Ta2]; subst.
    destruct (takes_fun _ _ _ _ _ T T2) as [-> ->]. split; [exact M|]. exists ls', r. auto.
  - intros (M & ls & r & Ta & F). exists (l :: ls), r. split; [econstructor; eauto|]. constructor; auto.
Qed.

Lemma shaped_eof w ws : ~ shaped (w :: ws) [].
Proof.
  intros (ls & r & Ta & F). inversion F as [|w' l' ws' ls' M F' E1 E2]; subst.
  inversion Ta as [|f' l2 rest2 ls2 r2 T2 Ta2]; subst. destruct T2 as (E & N & _).
  symmetry in E. apply app_eq_nil in E as [E _]. congruence.
Qed.

Lemma shaped_nil f : shaped [] f.
Proof. exists [], f. split; constructor. Qed.

(** The steps of the conjunction: either the requirement is not met and the result is the
    error, or it is met. *)
Definition step_ok {A} (w : want) (f : list Z) (r : outcome A) (k : list Z -> list Z -> A -> Prop) : Prop :=
  (r = invalid /\ forall ws, ~ shaped (w :: ws) f) \/
  (exists l rest x, takes f l rest /\ meets w l /\ r = Ok x /\ k l rest x).

Lemma need_line_any b f : line_buffer b ->
  step_ok Any f (need_line (b, f)) (fun l rest st => exists b', st = (b', rest) /\ holds b' l).
Proof.
  intros B. unfold need_line. destruct (read_line_takes b f B) as [[-> ->]|(l & rest & b' & T & -> & H & _)].
  - left. split; [reflexivity|]. intros ws. apply shaped_eof.
  - right. exists l, rest, (b', rest). split; [exact T|]. split; [exact I|]. split; [reflexivity|]. exists b'. auto.
Qed.

Lemma need_scan_any {A} (scan : list Z -> option A) k b f : line_buffer b ->
  (forall s, scan s <> None <-> numbers k s) ->
  step_ok (Numbers k) f (need_scan scan (b, f))
    (fun l rest r => exists x b', r = (x, (b', rest)) /\ holds b' l /\ scan (cutnul l) = Some x).
Proof.
  intros B S. unfold need_scan, read_scan.
  destruct (read_line_takes b f B) as [[-> ->]|(l & rest & b' & T & -> & H & C)].
  - left. split; [reflexivity|]. intros ws. apply shaped_eof.
  - cbn [obind fst]. rewrite C. cbn [obind]. destruct (scan (cutnul l)) as [x|] eqn:E.
    + right. exists l, rest, (x, (b', rest)). split; [exact T|]. split; [|split; [reflexivity|]].
      * exists (cutnul l). split; [apply text_cutnul|]. apply S. congruence.
      * exists x, b'. auto.
    + left. split; [reflexivity|]. intros ws W. apply (shaped_cons _ ws f l rest T) in W as [(s & Ts & N) _].
      apply text_fun in Ts. subst s. apply S in N. congruence.
Qed.

Lemma strneq_app p s q : strneq s (p ++ q) (List.length p) = true <-> exists r, s = p ++ r.
Proof.
  revert s. induction p as [|x p IH]; intros s; cbn [List.length app strneq]; [split; eauto|].
  destruct s as [|y s]; [split; [discriminate|intros (r & E); discriminate E]|].
  rewrite andb_true_iff, Z.eqb_eq, IH. split.
  - intros (-> & r & ->). eexists. reflexivity.
  - intros (r & [= -> ->]). eauto.
Qed.

Lemma need_title_any p q b f : line_buffer b -> List.length q = 2%nat ->
  step_ok (Starts p) f (need_title (p ++ q) (b, f)) (fun l rest st => exists b', st = (b', rest) /\ holds b' l).
Proof.
  intros B Q. unfold need_title. rewrite app_length, Q.
  replace (List.length p + 2 - 2)%nat with (List.length p) by lia.
  destruct (read_line_takes b f B) as [[-> ->]|(l & rest & b' & T & -> & H & C)].
  - left. split; [reflexivity|]. intros ws. apply shaped_eof.
  - cbn [obind fst]. rewrite C. cbn [obind]. pose proof (strneq_app p (cutnul l) q) as S.
    destruct (strneq (cutnul l) (p ++ q) (List.length p)).
    + right. exists l, rest, (b', rest). destruct (proj1 S eq_refl) as (r & E).
      split; [exact T|]. split; [|split; [reflexivity|]].
      * exists (cutnul l), r. split; [apply text_cutnul|exact E].
      * exists b'. auto.
    + left. split; [reflexivity|]. intros ws W.
      apply (shaped_cons _ ws f l rest T) in W as [(s & r & Ts & ->) _]. apply text_fun in Ts.
      assert (false = true) by (apply S; eauto). discriminate.
Qed.

Lemma need_divider_any d b f : line_buffer b ->
  step_ok (Is d) f (need_divider d (b, f)) (fun l rest st => exists b', st = (b', rest) /\ holds b' l).
Proof.
  intros B. unfold need_divider.
  destruct (read_line_takes b f B) as [[-> ->]|(l & rest & b' & T & -> & H & C)].
  - left. split; [reflexivity|]. intros ws. apply shaped_eof.
  - cbn [obind fst]. rewrite C. cbn [obind]. pose proof (streq_spec (cutnul l) d) as S.
    destruct (streq (cutnul l) d).
    + right. exists l, rest, (b', rest). split; [exact T|]. split; [|split; [reflexivity|]].
      * cbn [meets]. rewrite <- (proj1 S eq_refl). apply text_cutnul.
      * exists b'. auto.
    + left. split; [reflexivity|]. intros ws W. apply (shaped_cons _ ws f l rest T) in W as [W _].
      cbn [meets] in W. apply text_fun in W. assert (false = true) by (apply S; auto). discriminate.
Qed.

(** Any position of the buffer holds a string. *)
Lemma cstr_total b off : line_buffer b -> 0 <= off <= 99 -> exists s, cstr b off = Ok s /\ off + zlen s <= 99.
Proof.
  intros [L Z99] O. unfold cstr. replace ((0 <=? off) && (off <=? zlen b)) with true by lia.
  assert (forall l n, nth_error l n = Some 0 -> exists s, upto_nul l = Ok s /\ (List.length s <= n)%nat) as H.
  { clear. induction l as [|x l IH]; intros [|n] E; try discriminate E.
    - injection E as ->. exists []. cbn. auto.
    - cbn in E. cbn [upto_nul]. destruct (x =? 0); [exists []; cbn; split; [reflexivity|lia]|].
      destruct (IH n E) as (s & -> & Ls). exists (x :: s). cbn. split; [reflexivity|lia]. }
  destruct (H (skipn (Z.to_nat off) b) (99 - Z.to_nat off)%nat) as (s & Es & Ls).
  - assert (nth_error b 99 = Some 0) as E by (rewrite <- znth_nth; exact Z99).
    assert (Z.to_nat off <= 99)%nat as Ho by lia. revert Ho E. generalize (Z.to_nat off). clear.
    intros n Hn E. rewrite <- (firstn_skipn n b) in E.
    assert (List.length b > 99)%nat.
    { rewrite firstn_skipn in E. apply nth_error_Some. rewrite E. discriminate. }
    rewrite nth_error_app2 in E by (rewrite firstn_length; lia). rewrite firstn_length in E.
    rewrite <- E. f_equal. lia.
  - exists s. split; [exact Es|]. unfold zlen. lia.
Qed.
