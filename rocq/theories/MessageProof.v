(** Proofs about the meaning of messages. *)
From Coq Require Import String.
From Verif Require Import Base CLib Utf8Model TextModel TextSpec Utf8Proof TextProof TextIO TextProps ReportSpec AccrptSpec WacrptSpec EdoSpec ReportModel ReportProof
  UtilModel MainModel MainIoModel CrashSpec CrashProof ExitModel ExitSpec ExitProof MessageSpec.
Local Open Scope Z_scope.
Local Open Scope list_scope.

(** ** Texts *)
Lemma class_leads b : is_byte b -> utf8class b <> 0 -> leads b (utf8class b).
Proof.
  unfold is_byte, utf8class, leads. intros B. destruct (Z.ltb_spec b 128), (Z.ltb_spec b 192), (Z.ltb_spec b 224), (Z.ltb_spec b 240), (Z.ltb_spec b 248); lia.
Qed.
Lemma step_message b f fm m buf s fu : Forall is_byte (b :: f) -> buf4 buf ->
  (forall c rest, scalar c -> b :: f <> utf8 c ++ rest) ->
  exists msg, read_contents (S fu) (b :: f) fm m buf s = Fail msg /\ malformed msg (b :: f).
Proof.
  intros Hf [Hbl Hb] N.
  destruct buf as [|x0 [|x1 [|x2 [|x3 [|]]]]]; try discriminate Hbl. clear Hbl.
  apply Forall_cons_iff in Hb as [B0 Hb]. apply Forall_cons_iff in Hb as [B1 Hb].
  apply Forall_cons_iff in Hb as [B2 Hb]. apply Forall_cons_iff in Hb as [B3 _].
  apply Forall_cons_iff in Hf as [F0 Hf].
  assert (forall y1 y2 y3 rest n,
            is_byte y1 -> is_byte y2 -> is_byte y3 ->
            utf8class b = Z.of_nat n -> (1 <= n <= 4)%nat ->
            b :: f = firstn n [b; y1; y2; y3] ++ rest ->
            read_contents (S fu) (b :: f) fm m [x0; x1; x2; x3] s =
            (let! (status, code_point) := iterate [b; y1; y2; y3] 4 in
             if negb (status =? utf8class b) then Fail "Invalid UTF-8 string was supplied"
             else if fm && (code_point =? m)
             then read_contents fu rest fm m [b; y1; y2; y3] true
             else let! r := read_contents fu rest fm m [b; y1; y2; y3] false in
                  Ok (mkchar s code_point :: r)) ->
            exists msg, read_contents (S fu) (b :: f) fm m [x0; x1; x2; x3] s = Fail msg /\ malformed msg (b :: f)) as Hmain.
  { intros y1 y2 y3 rest n Y1 Y2 Y3 Hn Hn1 Ef Er.
    destruct (iterate_total b y1 y2 y3 []) as (st & c & It).
    rewrite It in Er. cbn [obind] in Er.
    destruct (Z.eqb_spec st (utf8class b)) as [Es|Es]; cbn [negb] in Er.
    - exfalso. destruct (iterate_sound b y1 y2 y3 st c) as (Hc & Hst & _ & Hfn); auto; [lia|].
      apply (N c rest Hc). rewrite <- Hfn, Es, Hn, Nat2Z.id. exact Ef.
    - eexists. split; [exact Er|]. apply Bad_bytes with (n := utf8class b).
      + apply class_leads; [exact F0|lia].
      + rewrite Hn. apply (f_equal (@List.length Z)) in Ef. rewrite app_length, firstn_length in Ef. unfold zlen. cbn [List.length] in *. lia.
      + intros c' Hc' E. apply (N c' (skipn (Z.to_nat (utf8class b)) (b :: f)) Hc'). rewrite E. now rewrite firstn_skipn. }
  destruct (utf8class_cases b) as [K|[K|[K|[K|K]]]].
  - eexists. split; [cbn [read_contents]; rewrite K; reflexivity|]. constructor.
    unfold utf8class in K. unfold is_byte in F0. destruct (Z.ltb_spec b 128), (Z.ltb_spec b 192), (Z.ltb_spec b 224), (Z.ltb_spec b 240), (Z.ltb_spec b 248); lia.
  - apply (Hmain x1 x2 x3 f 1%nat); auto; try lia.
    cbn [read_contents]. rewrite K. reflexivity.
  - destruct f as [|f1 f].
    { eexists. split; [cbn [read_contents]; rewrite K; reflexivity|]. apply Cut_short with (n := utf8class b); [apply class_leads; [exact F0|lia]|rewrite K; cbn; lia]. }
    apply Forall_cons_iff in Hf as [F1 Hf].
    apply (Hmain f1 x2 x3 f 2%nat); auto; try lia.
    cbn [read_contents]. rewrite K. reflexivity.
  - destruct f as [|f1 [|f2 f]].
    1, 2: eexists; split; [cbn [read_contents]; rewrite K; reflexivity|]; apply Cut_short with (n := utf8class b); [apply class_leads; [exact F0|lia]|rewrite K; cbn; lia].
    apply Forall_cons_iff in Hf as [F1 Hf]. apply Forall_cons_iff in Hf as [F2 Hf].
    apply (Hmain f1 f2 x3 f 3%nat); auto; try lia.
    cbn [read_contents]. rewrite K. reflexivity.
  - destruct f as [|f1 [|f2 [|f3 f]]].
    1, 2, 3: eexists; split; [cbn [read_contents]; rewrite K; reflexivity|]; apply Cut_short with (n := utf8class b); [apply class_leads; [exact F0|lia]|rewrite K; cbn; lia].
    apply Forall_cons_iff in Hf as [F1 Hf]. apply Forall_cons_iff in Hf as [F2 Hf].
    apply Forall_cons_iff in Hf as [F3 Hf].
    apply (Hmain f1 f2 f3 f 4%nat); auto; try lia.
    cbn [read_contents]. rewrite K. reflexivity.
Qed.
Lemma contents_message fu : forall f fm m buf s msg, Forall is_byte f -> buf4 buf -> (List.length f <= fu)%nat ->
  read_contents fu f fm m buf s = Fail msg -> bad_bytes msg f.
Proof.
  induction fu as [|fu IH]; intros f fm m buf s msg Hf Hb Hl E.
  - destruct f; [discriminate E|cbn in Hl; lia].
  - destruct f as [|b f]; [discriminate E|].
    destruct (read_step b f fm m buf s fu Hf Hb) as [(c & rest & buf' & Hc & Ef & Hb' & Er)|[Hno _]].
    + assert (Forall is_byte rest) as Hr by (rewrite Ef in Hf; apply Forall_app in Hf; tauto).
      assert (List.length rest <= fu)%nat as Hl'.
      { apply (f_equal (@List.length Z)) in Ef. rewrite app_length in Ef. cbn in Ef, Hl.
        pose proof (utf8_nonempty c). destruct (utf8 c); [congruence|]. cbn in Ef. lia. }
      assert (bad_bytes msg rest) as (cs & r & H1 & H2 & H3).
      { rewrite Er in E. destruct (fm && (c =? m)); [exact (IH _ _ _ _ _ _ Hr Hb' Hl' E)|].
        destruct (read_contents fu rest fm m buf' false) as [x|x|x|] eqn:E2; cbn [obind] in E; try discriminate E. injection E as ->.
        exact (IH _ _ _ _ _ _ Hr Hb' Hl' E2). }
      exists (c :: cs), r. split; [now constructor|]. split; [|exact H3].
      rewrite Ef, H2. change (utf8s (c :: cs)) with (utf8 c ++ utf8s cs). now rewrite app_assoc.
    + destruct (step_message b f fm m buf s fu Hf Hb Hno) as (msg' & E' & M). assert (msg' = msg) as -> by congruence.
      exists [], (b :: f). split; [constructor|]. split; [reflexivity|exact M].
Qed.
Lemma text_message uc junk junk4 opt text f msg : junk_ok junk junk4 -> Forall is_byte f ->
  read_text uc junk junk4 opt text f = Fail msg -> bad_text (find_header opt) msg f.
Proof.
  assert (forall opt f, find_header opt = false -> junk_ok junk junk4 -> Forall is_byte f -> read_text uc junk junk4 opt text f = Fail msg -> bad_bytes msg f) as H.
  { clear opt f. intros opt f Hh [_ Hb] Hf E. unfold read_text in E. rewrite Hh in E. cbn [obind] in E.
    destruct (read_contents _ _ _ _ _ _) as [x|x|x|] eqn:Er; cbn [obind] in E; try discriminate E.
    - destruct (normalize opt); [|discriminate E]. destruct (compress_spacing_ok uc text x) as (new & C & _). rewrite C in E. discriminate E.
    - injection E as ->. exact (contents_message _ _ _ _ _ _ _ Hf Hb (le_n _) Er). }
  intros J Hf E. destruct (find_header opt) eqn:Hh; [|left; eapply H; eauto].
  destruct (read_header_total junk f (proj1 J)) as (found & a & b & Ef & Er).
  rewrite (read_text_header uc junk junk4 opt text f found b Hh Er) in E.
  destruct (read_text uc junk junk4 (no_header opt) text b) as [[t h]|x|x|] eqn:Et; cbn [obind] in E; try discriminate E. injection E as ->.
  assert (bad_bytes msg b) as B.
  { eapply H; [|exact J| |exact Et]; [reflexivity|]. rewrite Ef in Hf. apply Forall_app in Hf. tauto. }
  assert (starts_with title_start f \/ ~ starts_with title_start f) as [S|S].
  { pose proof (title_match title_start [] f (List.length title_start) title_start_chars ltac:(lia)) as T.
    destruct (strneq _ _ _); [left|right]; intuition congruence. }
  - right. eauto 10.
  - left. rewrite (read_header_no junk f (proj1 J) S) in Er. injection Er as _ <-. exact B.
Qed.
(** What is malformed is not a character and determines the message. *)
Lemma leads_fun b n n' : leads b n -> leads b n' -> n = n'.
Proof. unfold leads. lia. Qed.
Lemma malformed_fun msg msg' r : malformed msg r -> malformed msg' r -> msg = msg'.
Proof.
  intros H H'. inversion H as [b r0 B|b r0 n L K|b r0 n L K N]; subst; inversion H' as [b' r0' B'|b' r0' n' L' K'|b' r0' n' L' K' N']; subst; try reflexivity; exfalso.
  1,2: unfold leads in L'; lia.
  1,3: unfold leads in L; lia.
  - rewrite (leads_fun _ _ _ L L') in K. lia.
  - rewrite (leads_fun _ _ _ L L') in K. lia.
Qed.
Lemma utf8_leads c b r : scalar c -> utf8 c = b :: r -> leads b (zlen (b :: r)).
Proof.
  intros Hc E. destruct (iterate_complete c [0; 0; 0; 0] Hc) as (B & _ & b0 & t & E0 & E1). pose proof (utf8_length c Hc).
  rewrite E in E0. injection E0 as <- <-. rewrite <- E, <- E1. apply class_leads; [|lia].
  rewrite E in B. now apply Forall_cons_iff in B.
Qed.
Lemma malformed_no_char msg c r : scalar c -> ~ malformed msg (utf8 c ++ r).
Proof.
  intros Hc M. destruct (utf8 c) as [|b u] eqn:E; [now apply (utf8_nonempty c)|].
  pose proof (utf8_leads c b u Hc E) as L. inversion M as [b' r0 B|b' r0 n L' K|b' r0 n L' K N]; subst.
  - unfold leads in L. lia.
  - rewrite (leads_fun _ _ _ L' L) in K. cbn [app] in K. rewrite !zlen_cons, zlen_app in K. rewrite zlen_cons in *. pose proof (zlen_nonneg r). lia.
  - apply (N c Hc). rewrite E, (leads_fun _ _ _ L' L). unfold zlen. rewrite Nat2Z.id. change (b :: u ++ r) with ((b :: u) ++ r).
    now rewrite firstn_app, Nat.sub_diag, firstn_all, firstn_O, app_nil_r.
Qed.
Lemma malformed_nonempty msg : ~ malformed msg [].
Proof. intros M. inversion M. Qed.
Lemma bad_fun msg msg' f : bad_bytes msg f -> bad_bytes msg' f -> msg = msg'.
Proof.
  intros (cs & r & S1 & E1 & M1) (cs' & r' & S2 & E2 & M2). revert cs' f S2 E1 E2. induction cs as [|c cs IH]; intros cs' f S2 E1 E2.
  - cbn in E1. subst f. destruct cs' as [|c' cs']; [cbn in E2; subst r'; eapply malformed_fun; eauto|].
    exfalso. apply Forall_cons_iff in S2 as [Hc _]. change (utf8s (c' :: cs')) with (utf8 c' ++ utf8s cs') in E2. rewrite <- app_assoc in E2.
    subst r. eapply malformed_no_char; eauto.
  - apply Forall_cons_iff in S1 as [Hc S1]. change (utf8s (c :: cs)) with (utf8 c ++ utf8s cs) in E1. rewrite <- app_assoc in E1.
    destruct cs' as [|c' cs'].
    + exfalso. cbn in E2. subst f. subst r'. eapply malformed_no_char; eauto.
    + apply Forall_cons_iff in S2 as [Hc' S2]. change (utf8s (c' :: cs')) with (utf8 c' ++ utf8s cs') in E2. rewrite <- app_assoc in E2.
      rewrite E1 in E2. apply utf8_app_inv in E2 as [_ E2]; auto. exact (IH S1 cs' (utf8s cs ++ r) S2 eq_refl E2).
Qed.
Lemma bad_not_text msg f cs : bad_bytes msg f -> Forall scalar cs -> f <> utf8s cs.
Proof.
  intros (cs' & r & S1 & E1 & M). revert cs f E1. induction cs' as [|c' cs' IH]; intros cs f E1 S E.
  - cbn in E1. subst f. destruct cs as [|c cs]; [cbn in E; subst r; exact (malformed_nonempty _ M)|].
    apply Forall_cons_iff in S as [Hc _]. subst r. change (utf8s (c :: cs)) with (utf8 c ++ utf8s cs) in M. eapply malformed_no_char; eauto.
  - apply Forall_cons_iff in S1 as [Hc' S1]. change (utf8s (c' :: cs')) with (utf8 c' ++ utf8s cs') in E1. rewrite <- app_assoc in E1.
    destruct cs as [|c cs].
    + cbn in E. subst f. apply app_eq_nil in E. now destruct (utf8_nonempty c').
    + apply Forall_cons_iff in S as [Hc S]. change (utf8s (c :: cs)) with (utf8 c ++ utf8s cs) in E. rewrite E1 in E.
      apply utf8_app_inv in E as [_ E]; auto. exact (IH S1 cs _ eq_refl S E).
Qed.

(** ** Programs *)
Section System.
Variable sys : system.
Definition explains {A} (R : reason) (done : list (list Z)) (m : px A) (Q : list (list Z) -> A -> Prop) : Prop :=
  match snd m with
  | Got a => Q (done ++ files_read (fst (fst m))) a
  | Error msg => R (done ++ files_read (fst (fst m))) (fst msg) (snd msg)
  | _ => True
  end.
Lemma explains_bind {A B} R done (m : px A) (k : A -> px B) (P : list (list Z) -> A -> Prop) (Q : list (list Z) -> B -> Prop) : explains R done m P -> (forall d a, P d a -> explains R d (k a) Q) -> explains R done (pbind m k) Q.
Proof.
  destruct m as [[acts ws] e]. unfold explains at 1. cbn [fst snd]. intros H K. unfold explains, pbind. destruct e as [a|msg|msg|]; cbn [fst snd]; auto.
  specialize (K _ a H). unfold explains in K. destruct (k a) as [[acts2 ws2] e2]. cbn [fst snd] in *. unfold files_read in *. rewrite flat_map_app, app_assoc. exact K.
Qed.
Lemma explains_call_on {A} (R : reason) done strings (o : outcome A) (Q : list (list Z) -> A -> Prop) : (forall msg, o = Fail msg -> R done msg (shown_with msg strings)) ->
  (forall a, o = Ok a -> Q done a) -> explains R done (call_on strings o) Q.
Proof. intros F H. destruct o; cbn; rewrite ?app_nil_r; auto. Qed.
(** Most calls are followed by something. *)
Lemma explains_then {A B} (R : reason) done strings (o : outcome A) (k : A -> px B) (Q : list (list Z) -> B -> Prop) : (forall msg, o = Fail msg -> R done msg (shown_with msg strings)) ->
  (forall a, o = Ok a -> explains R done (k a) Q) -> explains R done (pbind (call_on strings o) k) Q.
Proof.
  intros F H. apply (explains_bind R done _ k (fun d a => d = done /\ o = Ok a)); [apply explains_call_on; auto|]. intros d a [-> E]. auto.
Qed.
Lemma explains_safe {A B} R done (o : outcome A) (k : A -> px B) (Q : list (list Z) -> B -> Prop) : no_fail o ->
  (forall a, o = Ok a -> explains R done (k a) Q) -> explains R done (pbind (call o) k) Q.
Proof. intros N H. apply explains_then; auto. intros msg E. now apply N in E. Qed.
Lemma explains_error {A} (R : reason) done msg (Q : list (list Z) -> A -> Prop) : R done msg None -> explains R done (error msg) Q.
Proof. intros H. unfold explains, error. cbn. now rewrite app_nil_r. Qed.
Lemma explains_open (R : reason) done n {B} (k : list Z -> px B) (Q : list (list Z) -> B -> Prop) : (contents sys n = None -> R done "unable to open file"%string (Some n)) ->
  (forall f, contents sys n = Some f -> explains R (done ++ [n]) (k f) Q) -> explains R done (pbind (open_px sys n) k) Q.
Proof.
  intros M H. apply (explains_bind R done _ k (fun d f => d = done ++ [n] /\ contents sys n = Some f)).
  - unfold open_px. destruct (contents sys n) as [f|]; [cbn; auto|]. unfold explains, error_string. cbn. rewrite app_nil_r. auto.
  - intros d f [-> E]. auto.
Qed.
Lemma explains_write (R : reason) done d c : (forall n, d = Some n -> writable sys n = false -> R done "unable to create file"%string (Some n)) -> no_fail c ->
  explains R done (write_px sys d c) (fun _ _ => True).
Proof.
  intros W N. unfold write_px. destruct d as [n|].
  - destruct (writable sys n) eqn:E.
    + destruct c as [x|x| |]; cbn; auto. exfalso. exact (N x eq_refl).
    + unfold explains, error_string. cbn. rewrite app_nil_r. auto.
  - destruct c as [x|x| |]; cbn; auto. exfalso. exact (N x eq_refl).
Qed.
Lemma explains_say (R : reason) done b {B} (k : unit -> px B) (Q : list (list Z) -> B -> Prop) : explains R done (k tt) Q -> explains R done (pbind (say_px b) k) Q.
Proof.
  intros H. apply (explains_bind R done _ k (fun d _ => d = done)).
  - unfold explains, say_px. cbn. now rewrite app_nil_r.
  - intros d [] ->. exact H.
Qed.
Lemma explains_warn (R : reason) done l {B} (k : unit -> px B) (Q : list (list Z) -> B -> Prop) : explains R done (k tt) Q -> explains R done (pbind (warn l) k) Q.
Proof.
  intros H. apply (explains_bind R done _ k (fun d _ => d = done)).
  - unfold explains, warn. cbn. now rewrite app_nil_r.
  - intros d [] ->. exact H.
Qed.
(** A loop over names: [I done s] holds when the names [done] have been read. *)
Lemma explains_fold {S} (R : reason) (step : S -> list Z -> px S) (I : list (list Z) -> S -> Prop) names : forall done st,
  (forall before n later st, done ++ names = before ++ n :: later -> I before st -> explains R before (step st n) (fun d s => d = before ++ [n] /\ I d s)) ->
  I done st -> explains R done (pxfold step names st) (fun d s => d = done ++ names /\ I d s).
Proof.
  induction names as [|n names IH]; intros done st H Hi; cbn [pxfold]; [cbn; rewrite !app_nil_r; auto|].
  eapply explains_bind; [apply (H done n names st eq_refl Hi)|]. intros d s [-> Hs]. cbv beta in Hs.
  replace (done ++ n :: names) with ((done ++ [n]) ++ names) by now rewrite <- app_assoc.
  apply IH; [|exact Hs]. intros before m later s' E. apply (H before m later s'). rewrite <- E. now rewrite <- app_assoc.
Qed.
(** Reading all files. *)
Lemma explains_all {S B} (R : reason) (step : S -> list Z -> outcome S) (I : list (list Z) -> S -> Prop) names st (k : S -> px B) (Q : list (list Z) -> B -> Prop) :
  (forall before n later, names = before ++ n :: later -> contents sys n = None -> R before "unable to open file"%string (Some n)) ->
  I [] st ->
  (forall before n later f s, names = before ++ n :: later -> contents sys n = Some f -> I before s ->
     (forall s', step s f = Ok s' -> I (before ++ [n]) s') /\
     forall msg, step s f = Fail msg -> R (before ++ [n]) msg (shown_with msg (about n))) ->
  (forall s, I names s -> explains R names (k s) Q) ->
  explains R [] (pbind (pxfold (reading_px sys step) names st) k) Q.
Proof.
  intros M H0 Hs K. eapply explains_bind.
  - apply (explains_fold R (reading_px sys step) I names [] st); [|exact H0]. cbn [app]. intros before n later s E Hi.
    unfold reading_px. apply explains_open; [eauto|]. intros f Ef. destruct (Hs before n later f s E Ef Hi) as [H1 H2].
    apply explains_call_on; auto.
  - cbn [app]. intros d s [-> Hi]. auto.
Qed.

Lemma process_why usage table argv name (body : list (list Z) -> list var -> px unit) reasons :
  (let! n := rd "argv[0]" argv 0 in basefilename n) = Ok name ->
  (forall args vars, explains (reasons args vars) [] (body args vars) (fun _ _ => True)) ->
  says_why table reasons argv name (run_px usage table argv body).
Proof.
  intros En H. unfold says_why, run_px. rewrite En. destruct (parse_args _ _ _ _) as [[args vars| |arg|arg]|m|m|] eqn:Ep; cbn; try discriminate.
  - specialize (H args vars). destruct (body args vars) as [[acts ws] e]. unfold explains in H. cbn [fst snd app] in H.
    destruct e as [|[msg arg]| |]; cbn; try discriminate. intros _. exists (flat_map (line_of name) ws), msg, arg. rewrite line_said. auto.
  - intros _. now rewrite line_said.
  - intros _. now rewrite line_said.
  - intros _. exact (parse_no_fail _ _ _ _ Ep).
Qed.
End System.
