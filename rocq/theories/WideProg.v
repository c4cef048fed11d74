(** The programs that read reports, with checked counters. *)
From Coq Require Import String Permutation.
From Verif Require Import Base CLib Utf8Model TextModel CharclassModel AccModel AccSpec SumProof ReportModel ReportSpec
  AccrptModel AccrptSpec AccrptFig AccrptProof AccrptTop WacModel WacrptModel WacrptSpec WacrptTop DoubleModel DistModel CiModel
  GroupModel WordModel StopModel WideModel WideProof WideRead WideWord WideSumModel WideSumProof NonstopModel.
Local Open Scope Z_scope.
Local Open Scope list_scope.
#[local] Opaque all_values sum_to.

Lemma diff64_ok x y n : upto n x -> upto n y -> n <= TOP -> diff64 x y = Ok (x - y).
Proof. unfold upto, TOP. intros X Y L. unfold diff64. rewrite is_long_true by lia. reflexivity. Qed.

(** ** dist.c *)
Lemma add_counts64_agree acc c n : 0 <= c -> n + c <= TOP -> forall fuel i a,
  (forall j x, znth a j = Some x -> upto (if j <? i then n + c else n) x) ->
  agree (fun a' => forall j x, znth a' j = Some x -> upto (n + c) x)
    (add_counts64 fuel i acc c a) (add_counts fuel i acc c a).
Proof.
  intros C L. induction fuel as [|fuel IH]; intros i a H; cbn [add_counts64 add_counts].
  - split; [reflexivity|]. intros r X. discriminate X.
  - destruct (fle (of_int i) acc).
    + unfold rd. destruct (znth a i) as [x|] eqn:E; cbn [obind]; [|split; [reflexivity|intros r X; discriminate X]].
      pose proof (H i x E) as Hx. rewrite Z.ltb_irrefl in Hx. unfold upto, TOP in *.
      rewrite is_long_true by lia. cbn [long obind].
      unfold wr. destruct (zset a i (x + c)) as [a'|] eqn:Es; cbn [obind]; [|split; [reflexivity|intros r X; discriminate X]].
      apply IH. intros j y Ey. rewrite (zset_znth _ _ _ _ Es) in Ey. destruct (Z.eqb_spec j i) as [->|N].
      * injection Ey as <-. destruct (Z.ltb_spec i (i + 1)); lia.
      * pose proof (H j y Ey) as Hy. destruct (Z.ltb_spec j i), (Z.ltb_spec j (i + 1)); lia.
    + apply agree_ok. intros j x E. pose proof (H j x E) as Hx. unfold upto in *. destruct (j <? i); lia.
Qed.

Definition dist_upto n (t : dist) : Prop :=
  (forall j x, znth (DistModel.counts t) j = Some x -> upto n x) /\ upto n (total_count t).
Lemma dist_upto_more n k t : dist_upto n t -> 0 <= k -> dist_upto (n + k) t.
Proof. intros [H1 H2] K. split; [intros j x E; pose proof (H1 j x E)|]; unfold upto in *; lia. Qed.

Lemma update_dist64_agree t c m n : dist_upto n t -> upto 100000000 c -> upto 100000000 m -> 0 <= n -> n + 100000000 <= TOP ->
  agree (dist_upto (n + 100000000)) (update_dist64 t c m) (update_dist t c m).
Proof.
  intros [H1 H2] C M N L. unfold update_dist64, update_dist. destruct (c =? 0).
  - apply agree_ok. apply dist_upto_more; [split; assumption|lia].
  - unfold upto, TOP in *. rewrite (is_long_true (c - m)) by lia. cbn [long obind].
    eapply agree_bind.
    + apply (add_counts64_agree _ c n); [lia|unfold TOP; lia|]. intros j x E. pose proof (H1 j x E). unfold upto. destruct (j <? 0); lia.
    + intros a Ha. rewrite is_long_true by lia. cbn [long obind]. apply agree_ok. split; cbn [DistModel.counts total_count].
      * intros j x E. pose proof (Ha j x E). unfold upto in *. lia.
      * unfold upto. lia.
Qed.

(** ** ci.c *)
Lemma accuracy64_ok c m n : upto n c -> upto n m -> n <= TOP -> accuracy64 c m = accuracy c m.
Proof. unfold upto, TOP. intros C M L. unfold accuracy64, accuracy. rewrite is_long_true by lia. reflexivity. Qed.

Definition obs_upto tc tm (l : list obs) : Prop := Forall (fun o => upto tc (fst o) /\ upto tm (snd o)) l.
Lemma pseudovalues64_ok tc tm n nt l : obs_upto tc tm l -> tc <= TOP -> tm <= TOP ->
  forall s, pseudovalues64 tc tm n nt l s = pseudovalues tc tm n nt l s.
Proof.
  intros F Lc Lm. induction F as [|[c m] l [C M] F IH]; intros s; cbn [pseudovalues64 pseudovalues]; [reflexivity|].
  cbn [fst snd] in *. unfold upto in *.
  rewrite (diff64_ok tc c TOP) by (unfold upto; lia). rewrite (diff64_ok tm m TOP) by (unfold upto; lia). cbn [obind].
  rewrite (accuracy64_ok _ _ TOP) by (unfold upto; lia).
  destruct (accuracy (tc - c) (tm - m)) as [th|e|e|]; cbn [obind]; [|reflexivity..]. rewrite IH. reflexivity.
Qed.

(** The totals that append_obs keeps. *)
Definition obs_state (st : list obs * Z * Z) (l : list obs) (n : Z) : Prop :=
  st = (l, obs_count l, obs_missed l) /\ obs_upto (obs_count l) (obs_missed l) l /\
  upto n (obs_count l) /\ upto n (obs_missed l).

Lemma append_obs64_ok st l n c m : obs_state st l n -> upto 100000000 c -> upto 100000000 m -> n + 100000000 <= TOP ->
  exists st', append_obs64 st c m = Ok st' /\ obs_state st' (l ++ [(c, m)]) (n + 100000000).
Proof.
  intros (-> & F & U1 & U2) C M L. unfold append_obs64, upto, TOP in *. rewrite !is_long_true by lia. cbn [long obind].
  assert (E1 : obs_count (l ++ [(c, m)]) = obs_count l + c) by (unfold obs_count; now rewrite fold_left_app).
  assert (E2 : obs_missed (l ++ [(c, m)]) = obs_missed l + m) by (unfold obs_missed; now rewrite fold_left_app).
  eexists. split; [reflexivity|]. unfold obs_state. rewrite E1, E2. split; [reflexivity|]. split.
  - apply Forall_app. split.
    + eapply Forall_impl; [|exact F]. cbn. unfold upto. lia.
    + constructor; [|constructor]. cbn. unfold upto. lia.
  - unfold upto. lia.
Qed.

Lemma ci_results64_ok fmt14 fmtd items missing st l n c m : obs_state st l n -> upto n c -> upto n m -> n <= TOP ->
  ci_results64 fmt14 fmtd items missing st c m = CiModel.write_results fmt14 fmtd items missing l c m.
Proof.
  intros (-> & F & U1 & U2) C M L. unfold ci_results64, CiModel.write_results, compute_ci64, compute_ci. cbn [fst].
  destruct (negb (valid_obslist l)); [reflexivity|].
  rewrite (accuracy64_ok _ _ n U1 U2 L). destruct (accuracy (obs_count l) (obs_missed l)) as [th|e|e|]; cbn [obind]; [|reflexivity..].
  rewrite pseudovalues64_ok; [|exact F|unfold upto, TOP in *; lia|unfold upto, TOP in *; lia].
  match goal with |- context [pseudovalues ?a ?b ?c ?d ?e ?s] => destruct (pseudovalues a b c d e s) as [[js sum]|x|x|] end;
    cbn [obind]; [|reflexivity..].
  rewrite (diff64_ok c m n C M L). reflexivity.
Qed.

(** ** Programs that go through the reports *)
Section Pages.
Context {A : Type} (rd64 rd0 : list Z -> A -> list Z -> outcome (A * list Z)) (cnt mis : A -> Z).
Variable Inv : Z -> A -> list Z -> Prop.
Variable report : list Z -> Prop.
Hypothesis step : forall n b D f, report f -> Inv n D b -> 0 <= n -> n + 100000000 <= TOP ->
  exists D' b', rd64 b D f = Ok (D', b') /\ rd0 b D f = Ok (D', b') /\ Inv (n + 100000000) D' b' /\
    upto 100000000 (cnt D' - cnt D) /\ upto 100000000 (mis D' - mis D).
Hypothesis bounds : forall n D b, Inv n D b -> upto n (cnt D) /\ upto n (mis D).

Definition page64 (st : (A * list Z) * dist) (f : list Z) : outcome ((A * list Z) * dist) :=
  let '((d, line), t) := st in
  let count := cnt d in
  let missed := mis d in
  let! (d, line) := rd64 line d f in
  let! count := diff64 (cnt d) count in
  let! missed := diff64 (mis d) missed in
  let! t := update_dist64 t count missed in
  Ok ((d, line), t).
Definition page0 (st : (A * list Z) * dist) (f : list Z) : outcome ((A * list Z) * dist) :=
  let '((d, line), t) := st in
  let count := cnt d in
  let missed := mis d in
  let! (d, line) := rd0 line d f in
  let! t := update_dist t (cnt d - count) (mis d - missed) in
  Ok ((d, line), t).

Lemma pages_agree fs : Forall report fs -> forall n D b t, Inv n D b -> dist_upto n t -> 0 <= n ->
  n + 100000000 * zlen fs <= TOP -> ofold page64 fs ((D, b), t) = ofold page0 fs ((D, b), t).
Proof.
  induction 1 as [|f fs Hf F IH]; intros n D b t I U N L; [reflexivity|].
  rewrite zlen_cons in L. pose proof (zlen_nonneg fs) as Z0. cbn [ofold page64 page0].
  destruct (step n b D f Hf I N ltac:(lia)) as (D' & b' & E64 & E0 & I' & C & M). rewrite E64, E0. cbn [obind].
  destruct (bounds _ _ _ I) as [B1 B2]. destruct (bounds _ _ _ I') as [B3 B4].
  rewrite (diff64_ok _ _ (n + 100000000)) by (unfold upto in *; lia). cbn [obind].
  rewrite (diff64_ok _ _ (n + 100000000)) by (unfold upto in *; lia). cbn [obind].
  destruct (update_dist64_agree t _ _ n U C M N ltac:(lia)) as [-> Ht].
  destruct (update_dist t (cnt D' - cnt D) (mis D' - mis D)) as [t'|e|e|]; cbn [obind]; [|reflexivity..].
  apply (IH (n + 100000000)); auto; lia.
Qed.

Definition obs64 (st : (A * list Z) * (list obs * Z * Z)) (f : list Z) : outcome ((A * list Z) * (list obs * Z * Z)) :=
  let '((d, line), l) := st in
  let count := cnt d in
  let missed := mis d in
  let! (d, line) := rd64 line d f in
  let! count := diff64 (cnt d) count in
  let! missed := diff64 (mis d) missed in
  let! l := append_obs64 l count missed in
  Ok ((d, line), l).
Definition obs0 (st : (A * list Z) * list obs) (f : list Z) : outcome ((A * list Z) * list obs) :=
  let '((d, line), l) := st in
  let count := cnt d in
  let missed := mis d in
  let! (d, line) := rd0 line d f in
  Ok ((d, line), l ++ [(cnt d - count, mis d - missed)]).

Lemma obs_agree fs : Forall report fs -> forall n D b st l, Inv n D b -> obs_state st l n -> 0 <= n ->
  n + 100000000 * zlen fs <= TOP ->
  exists n' D' b' st' l', ofold obs64 fs ((D, b), st) = Ok ((D', b'), st') /\
    ofold obs0 fs ((D, b), l) = Ok ((D', b'), l') /\ obs_state st' l' n' /\ Inv n' D' b' /\ n' <= TOP.
Proof.
  induction 1 as [|f fs Hf F IH]; intros n D b st l I U N L.
  - exists n, D, b, st, l. change (zlen (@nil (list Z))) with 0 in L. repeat (split; [first [reflexivity|assumption]|]). lia.
  - rewrite zlen_cons in L. pose proof (zlen_nonneg fs) as Z0. cbn [ofold obs64 obs0].
    destruct (step n b D f Hf I N ltac:(lia)) as (D' & b' & E64 & E0 & I' & C & M). rewrite E64, E0. cbn [obind].
    destruct (bounds _ _ _ I) as [B1 B2]. destruct (bounds _ _ _ I') as [B3 B4].
    rewrite (diff64_ok _ _ (n + 100000000)) by (unfold upto in *; lia). cbn [obind].
    rewrite (diff64_ok _ _ (n + 100000000)) by (unfold upto in *; lia). cbn [obind].
    destruct (append_obs64_ok st l n _ _ U C M ltac:(lia)) as (st' & -> & U'). cbn [obind].
    apply (IH (n + 100000000)); auto; lia.
Qed.
End Pages.

(** ** The two kinds of reports *)
Lemma acc_step uc fmt : nul_hidden uc -> marks_wide uc -> pct_ok fmt ->
  forall n b D f, (exists d, report_of uc fmt d f) -> (line_buffer b /\ reportable D /\ all_upto n D) ->
  0 <= n -> n + 100000000 <= TOP ->
  exists D' b', read_accrpt64 b D f = Ok (D', b') /\ read_accrpt b D f = Ok (D', b') /\
    (line_buffer b' /\ reportable D' /\ all_upto (n + 100000000) D') /\
    upto 100000000 (characters D' - characters D) /\ upto 100000000 (errors D' - errors D).
Proof.
  intros N W F n b D f (d & Hd) (B & R & U) Hn L.
  destruct (read_one uc fmt N W F b D d f B Hd R) as (D' & b' & E & B' & R' & Fi).
  pose proof Hd as (Rd & Bd & order & O & Wd).
  destruct (write_accrpt_text uc fmt N order d Rd O) as (a & P & Wt & _).
  assert (f = report_text uc fmt d a) as -> by congruence.
  destruct (read_report64 uc fmt N W F b D d a n B Rd Bd P U Hn ltac:(lia)) as (b2 & B2 & E2 & U2).
  assert (same : read_accrpt64 b D (report_text uc fmt d a) = read_accrpt b D (report_text uc fmt d a)).
  { destruct (so_read_accrpt b D (report_text uc fmt d a)) as [X|X]; [exact X|]. rewrite E2 in X. discriminate X. }
  exists D', b'. rewrite same. split; [exact E|]. split; [exact E|].
  assert (D' = merged D d a) as -> by congruence. split; [auto|].
  pose proof (Fi FCharacters) as X1. pose proof (Fi FErrors) as X2.
  pose proof (fig_bounds d FCharacters Rd Bd) as Y1. pose proof (fig_bounds d FErrors Rd Bd) as Y2.
  cbn [fig] in *. unfold upto. lia.
Qed.
Lemma acc_bounds n D b : (line_buffer b /\ reportable D /\ all_upto n D) -> upto n (characters D) /\ upto n (errors D).
Proof. intros (_ & _ & ((? & ? & _) & _)). auto. Qed.
Lemma acc_start : reportable acc_empty /\ all_upto 0 acc_empty.
Proof.
  split; [exact acc_empty_reportable|]. split; [|split]; [repeat split; cbn; lia|repeat split; cbn; lia|constructor].
Qed.

Lemma wac_step fmt : pct_ok fmt ->
  forall n b D f, (exists d, wreport_of fmt d f) -> (line_buffer b /\ wreportable D /\ forall x, wfig x D <= n) ->
  0 <= n -> n + 100000000 <= TOP ->
  exists D' b', read_wacrpt64 b D f = Ok (D', b') /\ read_wacrpt b D f = Ok (D', b') /\
    (line_buffer b' /\ wreportable D' /\ forall x, wfig x D' <= n + 100000000) /\
    upto 100000000 (wcount (wtotal D') - wcount (wtotal D)) /\ upto 100000000 (wmissed (wtotal D') - wmissed (wtotal D)).
Proof.
  intros F n b D f (d & Hd) (B & R & U) Hn L.
  destruct (wread_one64 fmt b D d f n F B Hd R U L) as (D' & b' & E64 & E & B' & R' & Fi & U').
  exists D', b'. split; [exact E64|]. split; [exact E|]. split; [auto|].
  destruct Hd as (Rd & Bd & _). pose proof (wr_total d Rd) as S. unfold sane in S.
  pose proof (Bd (WWords false)) as Y. pose proof (Fi (WWords false)) as X1. pose proof (Fi (WWords true)) as X2.
  cbn [wfig wcell] in *. unfold upto. lia.
Qed.
Lemma wac_bounds n D b : (line_buffer b /\ wreportable D /\ forall x, wfig x D <= n) ->
  upto n (wcount (wtotal D)) /\ upto n (wmissed (wtotal D)).
Proof.
  intros (_ & R & U). pose proof (wr_total D R) as S. unfold sane in S.
  pose proof (U (WWords false)) as X. cbn [wfig wcell] in X. unfold upto. lia.
Qed.

(** ** groupacc.c *)
Lemma write_chars64_agree uc fmt8 d n vs : (forall v, upto n (ccount (small d v)) /\ upto n (cmissed (small d v))) ->
  0 <= n -> forall tc tm, 0 <= tc -> 0 <= tm -> tc + n * zlen vs <= TOP -> tm + n * zlen vs <= TOP ->
  agree (fun r => upto TOP (fst (snd r)) /\ upto TOP (snd (snd r)))
    (write_chars64 uc fmt8 d vs tc tm) (write_chars uc fmt8 d vs tc tm).
Proof.
  intros U Hn. induction vs as [|v vs IH]; intros tc tm T1 T2 L1 L2; cbn [write_chars64 write_chars].
  - apply agree_ok. cbn. change (zlen (@nil Z)) with 0 in *. unfold upto. lia.
  - rewrite zlen_cons in L1, L2. pose proof (zlen_nonneg vs) as Z0. pose proof (Z.mul_nonneg_nonneg n (zlen vs) Hn Z0) as Z1.
    destruct (negb _); [split; [reflexivity|intros r X; discriminate X]|].
    destruct ((0 <? ccount (small d v)) && negb (v =? BLANK) && negb (v =? NEWLINE)).
    + destruct (U v) as [Uc Um]. unfold write_line64. rewrite (diff64_ok _ _ n Uc Um) by lia. cbn [obind].
      destruct (char_string uc v) as [s|e|e|]; cbn [obind]; try (split; [reflexivity|intros r X; discriminate X]).
      unfold upto in Uc, Um. rewrite !is_long_true by (unfold TOP in *; lia). cbn [long obind].
      eapply agree_bind; [apply IH; lia|]. intros [out totals] H. apply agree_ok. exact H.
    + apply IH; lia.
Qed.

(** ** nonstopacc.c *)
Lemma find_stopword64_ok table w cm n : terms_upto 100000000 table ->
  - n <= fst cm <= 100000000 -> - n <= snd cm <= 100000000 -> 0 <= n -> n + 100000000 <= TOP ->
  find_stopword64 table w cm = Ok (find_stopword table w cm) /\
  - (n + 100000000) <= fst (find_stopword table w cm) <= 100000000 /\
  - (n + 100000000) <= snd (find_stopword table w cm) <= 100000000.
Proof.
  intros [_ U] C M N L. unfold find_stopword64, find_stopword, diff64.
  destruct (find _ table) as [t|] eqn:E; [|cbn; split; [reflexivity|lia]].
  apply find_some in E as [I _]. rewrite Forall_forall in U. destruct (U t I) as [U1 U2]. unfold upto, TOP in *.
  rewrite !is_long_true by lia. cbn [long obind fst snd]. split; [reflexivity|lia].
Qed.

Lemma stop_words64_ok fmt6 d words : terms_upto 100000000 (stop_terms d) -> terms_upto 100000000 (non_terms d) ->
  forall k cm n, - n <= fst cm <= 100000000 -> - n <= snd cm <= 100000000 -> 0 <= n ->
  n + 200000000 * (zlen words + 1) <= TOP -> 0 <= k -> k + zlen words <= TOP ->
  stop_words64 fmt6 d words k cm = Ok (NonstopModel.write_words fmt6 d words k cm).
Proof.
  intros U1 U2. induction words as [|w words IH]; intros k cm n C M N L K Lk; cbn [stop_words64 NonstopModel.write_words]; [reflexivity|].
  rewrite zlen_cons in L, Lk. pose proof (zlen_nonneg words) as Z0.
  destruct (find_stopword64_ok (stop_terms d) w cm n U1 C M N ltac:(lia)) as (-> & C1 & M1). cbn [obind].
  destruct (find_stopword64_ok (non_terms d) w (find_stopword (stop_terms d) w cm) (n + 100000000) U2 C1 M1 ltac:(lia) ltac:(lia))
    as (-> & C2 & M2). cbn [obind].
  set (cm2 := find_stopword (non_terms d) w (find_stopword (stop_terms d) w cm)) in *.
  destruct (fst cm2 =? 0); [reflexivity|]. unfold stop_line64, diff64. unfold TOP in *.
  rewrite (is_long_true (fst cm2 - snd cm2)) by lia. rewrite (is_long_true (k + 1)) by lia. cbn [long obind].
  rewrite (IH (k + 1) cm2 (n + 200000000)); [reflexivity|lia..].
Qed.
