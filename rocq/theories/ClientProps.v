(** C71: tables as counters. *)
From Coq Require Import String Permutation.
From Verif Require Import Base CLib CLibProof TextIO ListModel ListProof TableModel TableSpec TableProof CompareModel AccModel AccSpec WacModel NgramModel VoteModel VoteSelModel
  LcsModel StopModel EdoProof SynctextProof ClientModel ClientSpec ClientProof.
From Verif Require ArgsProps LcsTop.
Local Open Scope Z_scope.
Local Open Scope list_scope.

Lemma streq_neq a b : a <> b -> streq a b = false.
Proof. intros N. destruct (streq a b) eqn:E; [apply streq_spec in E; contradiction|reflexivity]. Qed.
Lemma streq_refl a : streq a a = true.
Proof. now apply streq_spec. Qed.

(** ** Confusions *)

Definition conf_entry (x : conf) : list Z * (Z * Z) := (ckey x, (cerrors x, cmarked x)).

Lemma conf_add_found l1 x l2 e m : ~ In (ckey x) (map ckey l1) ->
  conf_add (l1 ++ x :: l2) (ckey x) e m = l1 ++ mkconf (ckey x) (cerrors x + e) (cmarked x + m) :: l2.
Proof.
  induction l1 as [|y l1 IH]; intros N; cbn [app conf_add]; [now rewrite streq_refl|].
  rewrite streq_neq by (intros E; apply N; now left). rewrite IH; [reflexivity|]. intros I. apply N. now right.
Qed.
Lemma conf_add_new l key e m : ~ In key (map ckey l) -> conf_add l key e m = l ++ [mkconf key e m].
Proof.
  induction l as [|y l IH]; intros N; cbn [app conf_add]; [reflexivity|].
  rewrite streq_neq by (intros E; apply N; now left). rewrite IH; [reflexivity|]. intros I. apply N. now right.
Qed.

Lemma add_conf_refines malloc c l m key e k : distinct_blocks malloc -> cinv malloc c (map conf_entry l) m ->
  unless_no_memory (add_conf_entry malloc c key e k) (fun c' => exists m', cinv malloc c' (map conf_entry (conf_add l key e k)) m').
Proof.
  intros D I. unfold add_conf_entry.
  destruct (find_or_insert malloc D c _ m key (e, k) I) as [(l1 & v & l2 & El & N1 & Lk & Nn & Ev & W)|(N & Lk & [F|(c' & F & _ & I' & _)])].
  - rewrite Lk. cbn [obind]. destruct (Z.eqb_spec (malloc (zlen l1)) NULL); [contradiction|]. cbn [negb].
    right. eexists. split; [reflexivity|]. exists m. rewrite Ev.
    apply map_eq_app in El as (x1 & x2' & -> & <- & E2). destruct x2' as [|x x2]; [discriminate E2|]. cbn [map] in E2.
    unfold conf_entry at 1 in E2. injection E2 as <- <- <-. rewrite conf_add_found by (rewrite map_map in N1; exact N1).
    rewrite map_app. apply W.
  - rewrite Lk. cbn [obind negb Z.eqb]. rewrite F. now left.
  - rewrite Lk. cbn [obind negb Z.eqb]. rewrite F. right. eexists. split; [reflexivity|]. eexists.
    rewrite conf_add_new by (rewrite map_map in N; exact N). rewrite map_app. exact I'.
Qed.

(** C71: add_conf.  After any calls the table contains what AccModel takes as its contents. *)
Theorem C71_confusions : forall malloc h ks fs calls, distinct_blocks malloc ->
  unless_no_memory (ofold (fun c (x : list Z * (Z * Z)) => add_conf_entry malloc c (fst x) (fst (snd x)) (snd (snd x))) calls (new_client h ks fs))
    (fun c => contains c (map conf_entry (fold_left (fun l (x : list Z * (Z * Z)) => conf_add l (fst x) (fst (snd x)) (snd (snd x))) calls []))).
Proof.
  intros malloc h ks fs calls D.
  destruct (calls_refine malloc (fun c (x : list Z * (Z * Z)) => add_conf_entry malloc c (fst x) (fst (snd x)) (snd (snd x)))
    (fun l x => conf_add l (fst x) (fst (snd x)) (snd (snd x))) (map conf_entry)
    (fun c st m x I => add_conf_refines malloc c st m _ _ _ D I) calls (new_client h ks fs) [] [] (cinv_new malloc h ks fs)) as [E|(c & E & m & I)]; [now left|].
  right. exists c. split; [exact E|]. eapply cinv_contains; eauto.
Qed.
Print Assumptions C71_confusions.

(** ** Terms *)

Definition term_entry (x : term) : list Z * wac := (tkey x, twac x).

Lemma add_term_found l1 x l2 n k : ~ In (tkey x) (map tkey l1) ->
  add_term (l1 ++ x :: l2) (tkey x) n k = l1 ++ mkterm (tkey x) (increment_wac (twac x) n k) :: l2.
Proof.
  induction l1 as [|y l1 IH]; intros N; cbn [app add_term]; [now rewrite streq_refl|].
  rewrite streq_neq by (intros E; apply N; now left). rewrite IH; [reflexivity|]. intros I. apply N. now right.
Qed.
Lemma add_term_new l key n k : ~ In key (map tkey l) -> add_term l key n k = l ++ [mkterm key (increment_wac no_wac n k)].
Proof.
  induction l as [|y l IH]; intros N; cbn [app add_term]; [reflexivity|].
  rewrite streq_neq by (intros E; apply N; now left). rewrite IH; [reflexivity|]. intros I. apply N. now right.
Qed.

Lemma add_term_refines malloc c l m key n k : distinct_blocks malloc -> cinv malloc c (map term_entry l) m ->
  unless_no_memory (add_term_entry malloc c key n k) (fun c' => exists m', cinv malloc c' (map term_entry (add_term l key n k)) m').
Proof.
  intros D I. unfold add_term_entry.
  destruct (find_or_insert malloc D c _ m key no_wac I) as [(l1 & v & l2 & El & N1 & Lk & Nn & Ev & W)|(N & Lk & [F|(c' & F & Ev & _ & W)])].
  - rewrite Lk. cbn [obind]. destruct (Z.eqb_spec (malloc (zlen l1)) NULL); [contradiction|]. cbn [obind].
    right. eexists. split; [reflexivity|]. exists m. rewrite Ev.
    apply map_eq_app in El as (x1 & x2' & -> & <- & E2). destruct x2' as [|x x2]; [discriminate E2|]. cbn [map] in E2.
    unfold term_entry at 1 in E2. injection E2 as <- <- <-. rewrite add_term_found by (rewrite map_map in N1; exact N1).
    rewrite map_app. apply W.
  - rewrite Lk. cbn [obind Z.eqb]. rewrite F. now left.
  - rewrite Lk. cbn [obind Z.eqb]. rewrite F. cbn [obind]. right. eexists. split; [reflexivity|]. eexists. rewrite Ev.
    rewrite add_term_new by (rewrite map_map in N; exact N). rewrite map_app. apply W.
Qed.

(** C71: add_term, of wordacc, wordaccsum, nonstopacc and wordfreq. *)
Theorem C71_terms : forall malloc h ks fs calls, distinct_blocks malloc ->
  unless_no_memory (ofold (fun c (x : list Z * (Z * Z)) => add_term_entry malloc c (fst x) (fst (snd x)) (snd (snd x))) calls (new_client h ks fs))
    (fun c => contains c (map term_entry (fold_left (fun l (x : list Z * (Z * Z)) => add_term l (fst x) (fst (snd x)) (snd (snd x))) calls []))).
Proof.
  intros malloc h ks fs calls D.
  destruct (calls_refine malloc (fun c (x : list Z * (Z * Z)) => add_term_entry malloc c (fst x) (fst (snd x)) (snd (snd x)))
    (fun l x => add_term l (fst x) (fst (snd x)) (snd (snd x))) (map term_entry)
    (fun c st m x I => add_term_refines malloc c st m _ _ _ D I) calls (new_client h ks fs) [] [] (cinv_new malloc h ks fs)) as [E|(c & E & m & I)]; [now left|].
  right. exists c. split; [exact E|]. eapply cinv_contains; eauto.
Qed.
Print Assumptions C71_terms.

(** C71: what the table contains in the end are the sums of what the calls were given, for each key
    that was given. *)
Theorem C71_totals : forall malloc h ks fs calls, distinct_blocks malloc ->
  unless_no_memory (ofold (fun c (x : list Z * (Z * Z)) => add_term_entry malloc c (fst x) (fst (snd x)) (snd (snd x))) calls (new_client h ks fs))
    (fun c => exists l, contains c l /\ forall key w, In (key, w) l <->
       In key (map fst calls) /\
       w = mkwac (total_for key (map (fun x => (fst x, fst (snd x))) calls)) (total_for key (map (fun x => (fst x, snd (snd x))) calls))).
Proof.
  intros malloc h ks fs calls D. destruct (C71_terms malloc h ks fs calls D) as [E|(c & E & C)]; [now left|]. right. exists c. split; [exact E|].
  eexists. split; [exact C|]. clear c E C D malloc h ks fs.
  set (step := fun l (x : list Z * (Z * Z)) => add_term l (fst x) (fst (snd x)) (snd (snd x))).
  assert (Cs : forall l key n k, (exists l1 x l2, l = l1 ++ x :: l2 /\ tkey x = key /\ ~ In key (map tkey l1) /\
      add_term l key n k = l1 ++ mkterm key (increment_wac (twac x) n k) :: l2) \/
      ~ In key (map tkey l) /\ add_term l key n k = l ++ [mkterm key (increment_wac no_wac n k)]).
  { intros l key n k. destruct (in_dec (list_eq_dec Z.eq_dec) key (map tkey l)) as [I|N]; [left|right; split; [exact N|now apply add_term_new]].
    revert I. induction l as [|y l IH]; intros I; [destruct I|]. destruct (list_eq_dec Z.eq_dec (tkey y) key) as [<-|Ny].
    - exists [], y, l. split; [reflexivity|]. split; [reflexivity|]. split; [intros []|]. cbn [add_term app]. now rewrite streq_refl.
    - destruct IH as (l1 & x & l2 & -> & Ex & N1 & E1); [destruct I; [contradiction|assumption]|].
      exists (y :: l1), x, l2. split; [reflexivity|]. split; [exact Ex|]. split; [intros [|]; auto|].
      cbn [add_term app]. rewrite streq_neq by exact Ny. now rewrite E1. }
  assert (Tot : forall key y z, total_for key (y ++ z) = total_for key y + total_for key z).
  { intros key y z. unfold total_for. rewrite filter_app, map_app, fold_right_app. generalize (fold_right Z.add 0 (map snd (filter (fun p : list Z * Z => if list_eq_dec Z.eq_dec (fst p) key then true else false) z))).
    intros t. induction (map snd (filter (fun p : list Z * Z => if list_eq_dec Z.eq_dec (fst p) key then true else false) y)) as [|a r IH]; cbn; [lia|]. rewrite IH. lia. }
  assert (T1 : forall key k' n, total_for key [(k', n)] = if list_eq_dec Z.eq_dec k' key then n else 0).
  { intros key k' n. unfold total_for. cbn [filter fst]. destruct (list_eq_dec Z.eq_dec k' key); cbn; lia. }
  enough (NoDup (map tkey (fold_left step calls [])) /\ forall key w, In (key, w) (map term_entry (fold_left step calls [])) <->
       In key (map fst calls) /\
       w = mkwac (total_for key (map (fun x => (fst x, fst (snd x))) calls)) (total_for key (map (fun x => (fst x, snd (snd x))) calls))) as H by apply H.
  induction calls as [|x calls IH] using rev_ind.
  - cbn. split; [constructor|]. intros key w. split; [intros []|intros [[] _]].
  - rewrite fold_left_app. cbn [fold_left]. destruct IH as [Nd IH]. set (l := fold_left step calls []) in *. destruct x as [key0 [n k]].
    change (step l (key0, (n, k))) with (add_term l key0 n k).
    destruct (Cs l key0 n k) as [(l1 & x & l2 & El & Ex & N1 & E)|(Nl & E)]; rewrite E.
    + assert (K : map tkey l = map tkey (l1 ++ mkterm key0 (increment_wac (twac x) n k) :: l2)).
      { rewrite El, !map_app. cbn [map tkey]. now rewrite Ex. }
      rewrite <- K. split; [exact Nd|]. intros key w. rewrite !map_app. cbn [map fst snd]. rewrite !Tot, !T1.
      pose proof (proj1 (IH key0 (twac x))) as IH0. rewrite El, map_app in IH0. cbn [map] in IH0.
      destruct IH0 as [I0 Ew]; [apply in_or_app; right; left; unfold term_entry; now rewrite Ex|].
      rewrite El in Nd. rewrite map_app in Nd. cbn [map] in Nd. rewrite Ex in Nd. apply NoDup_remove_2 in Nd. rewrite in_app_iff in Nd.
      rewrite in_app_iff. cbn [map In term_entry tkey twac]. destruct (list_eq_dec Z.eq_dec key0 key) as [<-|Nk].
      * split.
        -- intros [I|[I|I]].
           ++ exfalso. apply Nd. left. apply in_map_iff in I as (y & Ey & I). injection Ey as Ey _. apply in_map_iff. exists y. auto.
           ++ injection I as <-. rewrite Ew. split; [apply in_or_app; now left|]. reflexivity.
           ++ exfalso. apply Nd. right. apply in_map_iff in I as (y & Ey & I). injection Ey as Ey _. apply in_map_iff. exists y. auto.
        -- intros [_ ->]. right. left. rewrite Ew. reflexivity.
      * rewrite !Z.add_0_r. rewrite in_app_iff. cbn [In]. specialize (IH key w). rewrite El, map_app, in_app_iff in IH. cbn [map In] in IH.
        unfold term_entry at 2 in IH. rewrite Ex in IH. split.
        -- intros H. assert (In (key, w) (map term_entry l1) \/ (key0, twac x) = (key, w) \/ In (key, w) (map term_entry l2)) as H' by (destruct H as [|[H|]]; auto; unfold term_entry in H; cbn [tkey twac] in H; congruence).
           apply IH in H' as [A ->]. auto.
        -- intros [[A|[A|[]]] B]; [|congruence]. destruct (proj2 IH (conj A B)) as [|[|]]; auto. congruence.
    + split.
      { rewrite map_app. cbn [map tkey]. eapply Permutation_NoDup; [apply Permutation_cons_append|]. constructor; assumption. }
      intros key w. rewrite !map_app. cbn [map fst snd]. rewrite !Tot, !T1, !in_app_iff. cbn [In].
      unfold term_entry at 2. cbn [tkey twac].
      destruct (list_eq_dec Z.eq_dec key0 key) as [<-|Nk].
      * assert (Z0 : forall f, total_for key0 (map (fun x : list Z * (Z * Z) => (fst x, f x)) calls) = 0).
        { intros f. unfold total_for. assert (X : ~ In key0 (map fst calls)).
          { intros I. apply Nl. destruct (in_map_iff term_entry l (key0, mkwac (total_for key0 (map (fun x => (fst x, fst (snd x))) calls)) (total_for key0 (map (fun x => (fst x, snd (snd x))) calls)))) as [X _].
            destruct X as (y & Ey & Iy); [apply IH; auto|]. injection Ey as Ey _. apply in_map_iff. exists y. auto. }
          clear -X. induction calls as [|y calls IH]; [reflexivity|]. cbn [map filter fst]. destruct (list_eq_dec Z.eq_dec (fst y) key0) as [E|N]; [exfalso; apply X; now left|].
          apply IH. intros I. apply X. now right. }
        rewrite !Z0. split.
        -- intros [I|[I|[]]]; [exfalso; apply Nl; apply in_map_iff in I as (y & Ey & I); injection Ey as Ey _; apply in_map_iff; exists y; auto|].
           injection I as <-. auto.
        -- intros [_ ->]. right. now left.
      * rewrite !Z.add_0_r. specialize (IH key w). split.
        -- intros [I|[I|[]]]; [apply IH in I as [A B]; auto|congruence].
        -- intros [[A|[A|[]]] B]; [left; now apply IH|congruence].
Qed.
Print Assumptions C71_totals.

(** ** Sequences of ngram *)

Lemma add_ngram_refines malloc c t m key value susp : distinct_blocks malloc -> cinv malloc c (NgramModel.entries t) m ->
  unless_no_memory (add_ngram_entry malloc c key value susp) (fun c' => exists m', cinv malloc c' (NgramModel.entries (NgramModel.add_sequence t key value susp)) m').
Proof.
  intros D I. unfold add_ngram_entry. pose proof (cinv_contains malloc c _ m I) as (Nd & _).
  assert (B : forall s, (let s := mkseq (svalue s) (scount s + 1) (ssuspect s) in if susp then mkseq (svalue s) (scount s) (ssuspect s + 1) else s) = NgramModel.bump susp s).
  { intros s. unfold NgramModel.bump. destruct susp; [reflexivity|]. cbn. now rewrite Z.add_0_r. }
  unfold NgramModel.add_sequence. cbn [NgramModel.entries].
  destruct (find_or_insert malloc D c _ m key (mkseq value 0 0) I) as [(l1 & v & l2 & El & N1 & Lk & Nn & Ev & W)|(N & Lk & [F|(c' & F & Ev & _ & W)])].
  - rewrite Lk. cbn [obind]. destruct (Z.eqb_spec (malloc (zlen l1)) NULL); [contradiction|]. cbn [obind].
    right. eexists. split; [reflexivity|]. exists m. rewrite Ev, B, El.
    assert (X : existsb (has_key key) (l1 ++ (key, v) :: l2) = true).
    { apply existsb_exists. exists (key, v). split; [apply in_or_app; right; now left|]. unfold has_key. cbn [fst]. now destruct (list_eq_dec Z.eq_dec key key). }
    rewrite X, map_app. cbn [map]. rewrite El, map_app in Nd. cbn [map fst] in Nd.
    apply NoDup_remove_2 in Nd. rewrite in_app_iff in Nd.
    assert (U : forall l : list NgramModel.entry, ~ In key (map fst l) -> map (fun e => if has_key key e then (fst e, NgramModel.bump susp (snd e)) else e) l = l).
    { intros l Nl. rewrite <- (map_id l) at 2. apply map_ext_in. intros e Ie. unfold has_key. destruct (list_eq_dec Z.eq_dec key (fst e)) as [E|]; [|reflexivity].
      exfalso. apply Nl. rewrite E. now apply in_map. }
    rewrite !U by tauto. unfold has_key at 1. cbn [fst snd]. destruct (list_eq_dec Z.eq_dec key key); [|contradiction]. apply W.
  - rewrite Lk. cbn [obind Z.eqb]. rewrite F. now left.
  - rewrite Lk. cbn [obind Z.eqb]. rewrite F. cbn [obind]. right. eexists. split; [reflexivity|]. eexists. rewrite Ev, B.
    assert (X : existsb (has_key key) (NgramModel.entries t) = false).
    { destruct (existsb (has_key key) (NgramModel.entries t)) eqn:E; [|reflexivity]. apply existsb_exists in E as (e & Ie & He). unfold has_key in He.
      destruct (list_eq_dec Z.eq_dec key (fst e)) as [E|]; [|discriminate He]. exfalso. apply N. rewrite E. now apply in_map. }
    rewrite X. apply W.
Qed.

(** C71: add_sequence of ngram. *)
Theorem C71_ngrams : forall malloc h ks fs calls, distinct_blocks malloc ->
  unless_no_memory (ofold (fun c (x : list Z * list Z * bool) => add_ngram_entry malloc c (fst (fst x)) (snd (fst x)) (snd x)) calls (new_client h ks fs))
    (fun c => contains c (NgramModel.entries (fold_left (fun t (x : list Z * list Z * bool) =>
                NgramModel.add_sequence t (fst (fst x)) (snd (fst x)) (snd x)) calls (mktable [] 0 0)))).
Proof.
  intros malloc h ks fs calls D.
  destruct (calls_refine malloc (fun c (x : list Z * list Z * bool) => add_ngram_entry malloc c (fst (fst x)) (snd (fst x)) (snd x))
    (fun t x => NgramModel.add_sequence t (fst (fst x)) (snd (fst x)) (snd x)) NgramModel.entries
    (fun c st m x I => add_ngram_refines malloc c st m _ _ _ D I) calls (new_client h ks fs) (mktable [] 0 0) [] (cinv_new malloc h ks fs)) as [E|(c & E & m & I)]; [now left|].
  right. exists c. split; [exact E|]. eapply cinv_contains; eauto.
Qed.
Print Assumptions C71_ngrams.

(** ** Sequences of vote *)

(** Calls on states of any kind, related by [R]. *)
Lemma runs_refine {C A S} (R : C -> S -> Prop) (call : C -> A -> outcome C) (step : S -> A -> outcome S) (Q : A -> Prop) :
  (forall c st x, Q x -> R c st -> unless_no_memory (call c x) (fun c' => exists st', step st x = Ok st' /\ R c' st')) ->
  forall calls c st, Forall Q calls -> R c st ->
  unless_no_memory (ofold call calls c) (fun c' => exists st', ofold step calls st = Ok st' /\ R c' st').
Proof.
  intros H. induction calls as [|x calls IH]; intros c st F I; [right; exists c; split; [reflexivity|exists st; auto]|].
  inversion F as [|? ? Qx F']; subst. cbn [ofold]. destruct (H c st x Qx I) as [->|(c' & -> & st' & -> & I')]; [now left|]. cbn [obind]. now apply IH.
Qed.

Definition vote_entry (x : vseq) : list Z * (list Z * bool) := (vkey x, (vcount x, vreject x)).

Lemma bump_ok (s : vseq) index : zlen (vcount s) = MAX_VOTERS -> 0 <= index < MAX_VOTERS ->
  exists n count, rd "count[index]" (vcount s) index = Ok n /\ wr "count[index]" (vcount s) index (n + 1) = Ok count /\ zlen count = MAX_VOTERS /\
    VoteSelModel.bump index s = Ok (mkvseq (vkey s) count (vreject s)).
Proof.
  intros L B. destruct (znth_lt_Some (vcount s) index) as [n En]; [now rewrite L|].
  destruct (zset_lt_Some (vcount s) index (n + 1)) as [count Ec]; [now rewrite L|].
  exists n, count. unfold VoteSelModel.bump, rd, wr. rewrite En. cbn [obind]. rewrite Ec. cbn [obind].
  repeat split. rewrite (zset_zlen _ _ _ _ Ec). exact L.
Qed.
Lemma vote_add_found l1 x l2 r i : ~ In (vkey x) (map vkey l1) ->
  VoteSelModel.add_sequence (l1 ++ x :: l2) (vkey x) r i = (let! s := VoteSelModel.bump i x in Ok (l1 ++ s :: l2)).
Proof.
  induction l1 as [|y l1 IH]; intros N; cbn [app VoteSelModel.add_sequence].
  - destruct (list_eq_dec Z.eq_dec (vkey x) (vkey x)); [reflexivity|contradiction].
  - destruct (list_eq_dec Z.eq_dec (vkey x) (vkey y)) as [E|]; [exfalso; apply N; left; auto|]. rewrite IH by (intros I; apply N; now right).
    now destruct (VoteSelModel.bump i x).
Qed.
Lemma vote_add_new l key r i : ~ In key (map vkey l) ->
  VoteSelModel.add_sequence l key r i = (let! s := VoteSelModel.bump i (mkvseq key (repeat 0 (Z.to_nat MAX_VOTERS)) r) in Ok (l ++ [s])).
Proof.
  induction l as [|y l IH]; intros N; cbn [app VoteSelModel.add_sequence]; [reflexivity|].
  destruct (list_eq_dec Z.eq_dec key (vkey y)) as [E|]; [exfalso; apply N; left; auto|]. rewrite IH by (intros I; apply N; now right).
  now destruct (VoteSelModel.bump i (mkvseq key (repeat 0 (Z.to_nat MAX_VOTERS)) r)).
Qed.

Definition vote_related malloc (c : client (list Z * bool)) (t : list vseq) : Prop :=
  Forall (fun s => zlen (vcount s) = MAX_VOTERS) t /\ exists m, cinv malloc c (map vote_entry t) m.

Lemma add_vote_refines malloc c t key reject index : distinct_blocks malloc -> 0 <= index < MAX_VOTERS -> vote_related malloc c t ->
  unless_no_memory (add_vote_entry malloc c key reject index)
    (fun c' => exists t', VoteSelModel.add_sequence t key reject index = Ok t' /\ vote_related malloc c' t').
Proof.
  intros D B (F & m & I). unfold add_vote_entry.
  destruct (find_or_insert malloc D c _ m key (repeat 0 (Z.to_nat MAX_VOTERS), reject) I) as [(l1 & v & l2 & El & N1 & Lk & Nn & Ev & W)|(N & Lk & [Fa|(c' & Fa & Ev & _ & W)])].
  - rewrite Lk. cbn [obind]. destruct (Z.eqb_spec (malloc (zlen l1)) NULL); [contradiction|]. cbn [obind]. rewrite Ev.
    apply map_eq_app in El as (x1 & x2' & -> & <- & E2). destruct x2' as [|x x2]; [discriminate E2|]. cbn [map] in E2.
    unfold vote_entry at 1 in E2. injection E2 as <- <- <-. cbn [fst snd].
    apply Forall_app in F as [F1 F2]. inversion F2 as [|? ? Lx F2']; subst.
    destruct (bump_ok x index Lx B) as (n' & count & -> & Hw & Lc & Hb). cbn [obind]. rewrite Hw. cbn [obind].
    right. eexists. split; [reflexivity|]. eexists. rewrite vote_add_found by (rewrite map_map in N1; exact N1). rewrite Hb. cbn [obind].
    split; [reflexivity|]. split; [apply Forall_app; split; [exact F1|constructor; assumption]|].
    exists m. rewrite map_app. apply W.
  - rewrite Lk. cbn [obind Z.eqb]. rewrite Fa. now left.
  - rewrite Lk. cbn [obind Z.eqb]. rewrite Fa. cbn [obind]. change (NULL =? NULL) with true. cbn [obind]. rewrite Ev. cbn [fst snd].
    destruct (bump_ok (mkvseq key (repeat 0 (Z.to_nat MAX_VOTERS)) reject) index eq_refl B) as (n' & count & Hr & Hw & Lc & Hb). cbn [vcount vkey vreject] in *.
    rewrite Hr. cbn [obind]. rewrite Hw. cbn [obind].
    right. eexists. split; [reflexivity|]. eexists. rewrite vote_add_new by (rewrite map_map in N; exact N). rewrite Hb. cbn [obind].
    split; [reflexivity|]. split; [apply Forall_app; split; [exact F|repeat constructor; assumption]|].
    eexists. rewrite map_app. apply W.
Qed.

(** C71: add_sequence of vote. *)
Theorem C71_votes : forall malloc h ks fs calls, distinct_blocks malloc -> Forall (fun x : list Z * bool * Z => 0 <= snd x < MAX_VOTERS) calls ->
  unless_no_memory (ofold (fun c (x : list Z * bool * Z) => add_vote_entry malloc c (fst (fst x)) (snd (fst x)) (snd x)) calls (new_client h ks fs))
    (fun c => exists t, ofold (fun t (x : list Z * bool * Z) => VoteSelModel.add_sequence t (fst (fst x)) (snd (fst x)) (snd x)) calls [] = Ok t /\
       contains c (map vote_entry t)).
Proof.
  intros malloc h ks fs calls D F.
  destruct (runs_refine (vote_related malloc) (fun c (x : list Z * bool * Z) => add_vote_entry malloc c (fst (fst x)) (snd (fst x)) (snd x))
    (fun t (x : list Z * bool * Z) => VoteSelModel.add_sequence t (fst (fst x)) (snd (fst x)) (snd x)) (fun x => 0 <= snd x < MAX_VOTERS)
    (fun c st x B I => add_vote_refines malloc c st _ _ _ D B I) calls (new_client h ks fs) [] F) as [E|(c & E & t & Et & _ & m & I)].
  - split; [constructor|]. exists []. apply cinv_new.
  - now left.
  - right. exists c. split; [exact E|]. exists t. split; [exact Et|]. eapply cinv_contains; eauto.
Qed.
Print Assumptions C71_votes.

(** ** Stopwords *)

Definition stop_entries (s : stopwords) : list (list Z * unit) := map (fun k => (k, tt)) (rev (StopModel.keys s)).
Definition stop_related malloc (st : client unit * list (list Z)) (s : stopwords) : Prop :=
  snd st = StopModel.warnings s /\ exists m, cinv malloc (fst st) (stop_entries s) m.

Lemma save_stopword_refines malloc st s key : distinct_blocks malloc -> stop_related malloc st s ->
  unless_no_memory (save_stopword_entry malloc st key) (fun st' => exists s', Ok (save_stopword s key) = Ok s' /\ stop_related malloc st' s').
Proof.
  intros D (Ew & m & I). destruct st as [c ws]. cbn [fst snd] in *. subst ws. unfold save_stopword_entry, save_stopword.
  assert (Kin : forall k, In k (map fst (stop_entries s)) <-> In k (StopModel.keys s)).
  { intros k. unfold stop_entries. rewrite map_map. cbn [fst]. rewrite map_id. symmetry. apply in_rev. }
  assert (Lk : StopModel.lookup s key = true <-> In key (map fst (stop_entries s))).
  { rewrite Kin. unfold StopModel.lookup. rewrite existsb_exists. split; [intros (k & Ik & E); apply streq_spec in E; now subst|intros Ik; exists key; split; [exact Ik|apply streq_refl]]. }
  destruct (find_or_insert malloc D c _ m key tt I) as [(l1 & v & l2 & El & N1 & L & Nn & Ev & W)|(N & L & [F|(c' & F & Ev & I' & W)])].
  - rewrite L. cbn [obind]. destruct (Z.eqb_spec (malloc (zlen l1)) NULL); [contradiction|]. cbn [negb].
    right. eexists. split; [reflexivity|]. eexists. split; [reflexivity|].
    rewrite (proj2 Lk) by (rewrite El, map_app; apply in_or_app; right; now left). split; [reflexivity|]. exists m. exact I.
  - rewrite L. cbn [obind negb Z.eqb]. rewrite F. now left.
  - rewrite L. cbn [obind negb Z.eqb]. rewrite F. right. eexists. split; [reflexivity|]. eexists. split; [reflexivity|].
    destruct (StopModel.lookup s key); [exfalso; apply N, Lk; reflexivity|]. split; [reflexivity|]. eexists. unfold stop_entries. cbn [StopModel.keys rev fst]. rewrite map_app. exact I'.
Qed.

Lemma ofold_pure {S A} (f : S -> A -> S) l : forall s, ofold (fun s x => Ok (f s x)) l s = Ok (fold_left f l s).
Proof. induction l as [|x l IH]; intros s; [reflexivity|]. cbn [ofold fold_left obind]. apply IH. Qed.

(** C71: the table of stopwords.  After any calls of save_stopword a word is found iff it was saved
    and there is a warning for each word saved again. *)
Theorem C71_stopwords : forall malloc h ks fs words, distinct_blocks malloc ->
  unless_no_memory (ofold (save_stopword_entry malloc) words (new_client h ks fs, []))
    (fun st => let s := fold_left save_stopword words at_start in
       (forall w, exists e, lookup_entry (fst st) w = Ok e /\ (e <> NULL <-> In w words) /\ (e <> NULL <-> StopModel.lookup s w = true)) /\
       snd st = StopModel.warnings s).
Proof.
  intros malloc h ks fs words D.
  destruct (runs_refine (stop_related malloc) (save_stopword_entry malloc) (fun s k => Ok (save_stopword s k)) (fun _ => True)
    (fun st s k _ I => save_stopword_refines malloc st s k D I) words (new_client h ks fs, []) at_start) as [E|(st & E & s & Es & Ew & m & I)].
  - now apply Forall_forall.
  - split; [reflexivity|]. exists []. apply cinv_new.
  - now left.
  - right. exists st. split; [exact E|]. rewrite ofold_pure in Es. injection Es as <-. cbv zeta. split; [|exact Ew].
    set (s := fold_left save_stopword words at_start) in *. destruct (cinv_contains malloc _ _ m I) as (_ & C1 & C2 & _).
    assert (Kin : forall k, In k (map fst (stop_entries s)) <-> In k (StopModel.keys s)).
    { intros k. unfold stop_entries. rewrite map_map. cbn [fst]. rewrite map_id. symmetry. apply in_rev. }
    assert (Lk : forall s w, StopModel.lookup s w = true <-> In w (StopModel.keys s)).
    { intros s' w. unfold StopModel.lookup. rewrite existsb_exists. split; [intros (k & Ik & X); apply streq_spec in X; now subst|intros Ik; exists w; split; [exact Ik|apply streq_refl]]. }
    assert (Kw : forall w, In w (StopModel.keys s) <-> In w words).
    { intros w. assert (G : forall ws s0, In w (StopModel.keys (fold_left save_stopword ws s0)) <-> In w ws \/ In w (StopModel.keys s0)).
      { induction ws as [|k ws IH]; intros s0; cbn [fold_left In]; [tauto|]. rewrite IH. unfold save_stopword. destruct (StopModel.lookup s0 k) eqn:El; cbn [StopModel.keys In].
        - apply Lk in El. split; [tauto|]. intros [[<-|]|]; tauto.
        - tauto. }
      unfold s. rewrite G. cbn [at_start StopModel.keys In]. tauto. }
    intros w. destruct (in_dec (list_eq_dec Z.eq_dec) w (map fst (stop_entries s))) as [Iw|Nw].
    + apply in_map_iff in Iw as Iw'. destruct Iw' as ([k u] & <- & Ik). destruct (C1 _ _ Ik) as (e & Le & Ne & _). exists e.
      split; [exact Le|]. rewrite <- Kw, Lk, <- Kin. tauto.
    + exists NULL. split; [now apply C2|]. rewrite <- Kw, Lk, <- Kin. tauto.
Qed.
Print Assumptions C71_stopwords.

(** C71: the assumption of other theorems about the order in which a table is listed.  Whatever a
    table contains, what table_in_array lists is an order of its contents, so those theorems hold
    of it. *)
Theorem C71_order : forall (A V : Type) (entry_of : A -> list Z * V) (dec : forall x y : A, {x = y} + {x <> y}) c l,
  contains c (map entry_of l) ->
  exists order : list A -> list A, (forall x, Permutation (order x) x) /\ entries_in_array c = Ok (map entry_of (order l)).
Proof.
  intros A V entry_of dec c l (_ & _ & _ & a & E & P). apply Permutation_map_inv in P as (l' & -> & P).
  exists (fun x => if list_eq_dec dec x l then l' else x). split.
  - intros x. destruct (list_eq_dec dec x l) as [->|]; [now symmetry|apply Permutation_refl].
  - destruct (list_eq_dec dec l l); [exact E|contradiction].
Qed.
Print Assumptions C71_order.

(** ** Words of wordacc *)

Lemma id_of_here l1 : forall w v (l2 : idtable) i, ~ In w (map fst l1) -> id_of (l1 ++ (w, v) :: l2) w i = Some (i + zlen l1).
Proof.
  induction l1 as [|[k u] l1 IH]; intros w v l2 i N; cbn [app id_of]; [rewrite streq_refl; f_equal; cbn; lia|].
  rewrite streq_neq by (intros E; apply N; now left). rewrite IH by (intros I; apply N; now right). rewrite zlen_cons. f_equal. lia.
Qed.
Lemma id_of_absent (l : idtable) : forall w i, ~ In w (map fst l) -> id_of l w i = None.
Proof.
  induction l as [|[k u] l IH]; intros w i N; cbn [id_of]; [reflexivity|].
  rewrite streq_neq by (intros E; apply N; now left). apply IH. intros I. apply N. now right.
Qed.
Lemma set_mid {A} msg (a : list A) x b y : wr msg (a ++ x :: b) (zlen a) y = Ok (a ++ y :: b).
Proof.
  destruct (zset_lt_Some (a ++ x :: b) (zlen a) y) as [l' E].
  { rewrite zlen_app, zlen_cons. pose proof (zlen_nonneg a). pose proof (zlen_nonneg b). lia. }
  unfold wr. rewrite E. f_equal. unfold zset in E. destruct (zlen a <? 0); [discriminate E|]. unfold zlen in E. rewrite Nat2Z.id in E. clear -E.
  revert l' E. induction a as [|z a IH]; intros l' E; cbn in E; [now injection E as <-|].
  destruct (set_nth (a ++ x :: b) (List.length a) y) as [r|] eqn:F; [|discriminate E]. injection E as <-. cbn [app]. f_equal. apply IH. reflexivity.
Qed.

Lemma znth_split {A} (l : list A) : forall n e, znth l n = Some e -> exists l1 l2, l = l1 ++ e :: l2 /\ zlen l1 = n.
Proof.
  induction l as [|x l IH]; intros n e H; [apply znth_In in H; destruct H|]. apply znth_Some_lt in H as B.
  destruct (Z.eq_dec n 0) as [->|Nn]; [injection H as <-; exists [], l; auto|].
  rewrite znth_cons_S in H by lia. destruct (IH _ _ H) as (l1 & l2 & -> & L). exists (x :: l1), l2. split; [reflexivity|]. rewrite zlen_cons. lia.
Qed.

Definition ids_related malloc (before : list Z) (words : list (list Z)) (st : client (bool * bool) * list addr) (s : idtable * list Z) : Prop :=
  snd st = map malloc (snd s) /\ Forall2 (fun i w => exists v, znth (fst s) i = Some (w, v)) (before ++ snd s) words /\
  exists m, cinv malloc (fst st) (fst s) m.

Lemma setup_word_refines malloc side before words st s w : distinct_blocks malloc -> ids_related malloc before words st s ->
  unless_no_memory (setup_word_entry malloc side st w) (fun st' => exists s', setup_word side s w = Ok s' /\ ids_related malloc before (words ++ [w]) st' s').
Proof.
  intros D (Ea & F & m & I). destruct st as [c symbols], s as [t ids]. cbn [fst snd] in *. subst symbols.
  unfold setup_word_entry, setup_word.
  destruct (find_or_insert malloc D c _ m w (false, false) I) as [(l1 & v & l2 & El & N1 & L & Nn & Ev & W)|(N & L & [Fa|(c' & Fa & Ev & I' & W)])].
  - rewrite L. cbn [obind]. destruct (Z.eqb_spec (malloc (zlen l1)) NULL); [contradiction|]. cbn [obind]. rewrite Ev.
    right. eexists. split; [reflexivity|]. rewrite El, id_of_here by exact N1. rewrite Z.add_0_l.
    rewrite (proj2 (rd_Ok _ _ _ (w, v))) by (rewrite znth_app2 by lia; now replace (zlen l1 - zlen l1) with 0 by lia).
    cbn [obind fst snd]. rewrite set_mid. cbn [obind]. eexists. split; [reflexivity|]. split; [cbn [fst snd]; now rewrite map_app|]. cbn [fst snd].
    split; [|exists m; apply W]. subst t. rewrite app_assoc. apply Forall2_app.
    + eapply ArgsProps.Forall2_weaken; [|exact F]. intros i w' (v' & E).
      destruct (Z.eq_dec i (zlen l1)) as [->|Ni].
      * rewrite znth_app2 in E by lia. replace (zlen l1 - zlen l1) with 0 in E by lia. injection E as -> ->.
        exists (mark_found side v'). rewrite znth_app2 by lia. now replace (zlen l1 - zlen l1) with 0 by lia.
      * exists v'. destruct (Z.lt_ge_cases i (zlen l1)) as [Hi|Hi].
        -- rewrite znth_app1 in E |- * by lia. exact E.
        -- rewrite znth_app2 in E |- * by lia. rewrite znth_cons_S in E |- * by lia. exact E.
    + constructor; [|constructor]. exists (mark_found side v). rewrite znth_app2 by lia. now replace (zlen l1 - zlen l1) with 0 by lia.
  - rewrite L. cbn [obind Z.eqb]. rewrite Fa. now left.
  - rewrite L. cbn [obind Z.eqb]. rewrite Fa. change (NULL =? NULL) with true. cbn [obind]. rewrite Ev.
    right. eexists. split; [reflexivity|]. rewrite id_of_absent by exact N.
    rewrite (proj2 (rd_Ok _ _ _ (w, (false, false)))) by (rewrite znth_app2 by lia; now replace (zlen t - zlen t) with 0 by lia).
    cbn [obind fst snd]. rewrite set_mid. cbn [obind]. eexists. split; [reflexivity|]. split; [cbn [fst snd]; now rewrite map_app|]. cbn [fst snd].
    split; [|eexists; apply W]. rewrite app_assoc. apply Forall2_app.
    + eapply ArgsProps.Forall2_weaken; [|exact F]. intros i w' (v' & E). exists v'. apply znth_Some_lt in E as B. rewrite znth_app1 by lia. exact E.
    + constructor; [|constructor]. exists (mark_found side (false, false)). rewrite znth_app2 by lia. now replace (zlen t - zlen t) with 0 by lia.
Qed.

Lemma setup_words_refine malloc side before words : forall todo st s, distinct_blocks malloc -> ids_related malloc before words st s ->
  unless_no_memory (ofold (setup_word_entry malloc side) todo st)
    (fun st' => exists s', ofold (setup_word side) todo s = Ok s' /\ ids_related malloc before (words ++ todo) st' s').
Proof.
  intros todo st s D. revert words st s. induction todo as [|w todo IH]; intros words st s I.
  - right. exists st. split; [reflexivity|]. exists s. now rewrite app_nil_r.
  - cbn [ofold]. destruct (setup_word_refines malloc side before words st s w D I) as [->|(st' & -> & s' & -> & I')]; [now left|].
    cbn [obind]. destruct (IH _ _ _ I') as [->|(st2 & -> & s2 & E2 & I2)]; [now left|]. right. exists st2. split; [reflexivity|]. exists s2.
    split; [exact E2|]. rewrite <- app_assoc in I2. exact I2.
Qed.

(** C71: the words of two texts.  The symbols (pointers to entries) of two words, of one text or of
    both, are equal iff the words are equal; they are what LcsModel represents by numbers. *)
Theorem C71_words : forall malloc h ks fs words0 words1, distinct_blocks malloc ->
  unless_no_memory (let! (c, symbols0) := ofold (setup_word_entry malloc false) words0 (new_client h ks fs, []) in
                    let! (c, symbols1) := ofold (setup_word_entry malloc true) words1 (c, []) in
                    Ok (c, symbols0, symbols1))
    (fun r => let '(c, symbols0, symbols1) := r in
       (forall i j a b v w, znth (symbols0 ++ symbols1) i = Some a -> znth (symbols0 ++ symbols1) j = Some b ->
          znth (words0 ++ words1) i = Some v -> znth (words0 ++ words1) j = Some w -> (a = b <-> v = w)) /\
       zlen symbols0 = zlen words0 /\ zlen symbols1 = zlen words1 /\
       exists t t' ids0 ids1, ofold (setup_word false) words0 ([], []) = Ok (t, ids0) /\
         ofold (setup_word true) words1 (t, []) = Ok (t', ids1) /\ contains c t' /\
         symbols0 = map malloc ids0 /\ symbols1 = map malloc ids1).
Proof.
  intros malloc h ks fs words0 words1 D.
  destruct (setup_words_refine malloc false [] [] words0 (new_client h ks fs, []) ([], []) D) as [->|([c s0] & -> & [t ids0] & E0 & Q0 & F0 & m0 & I0)].
  - split; [reflexivity|]. split; [constructor|]. exists []. apply cinv_new.
  - now left.
  - cbn [fst snd app obind] in *.
    destruct (setup_words_refine malloc true ids0 words0 words1 (c, []) (t, []) D) as [->|([c' s1] & -> & [t' ids1] & E1 & Q1 & F1 & m1 & I1)].
    + split; [reflexivity|]. cbn [fst snd]. rewrite app_nil_r. split; [exact F0|]. eauto.
    + now left.
    + cbn [fst snd obind] in *. right. eexists. split; [reflexivity|]. cbv beta iota.
      assert (LF : forall {A B} (P : A -> B -> Prop) l m, Forall2 P l m -> zlen l = zlen m).
      { intros A B P l m H. induction H; [reflexivity|]. rewrite !zlen_cons. lia. }
      assert (L0 : zlen s0 = zlen words0) by (subst s0; rewrite zlen_map; eapply LF, F0).
      assert (L1 : zlen s1 = zlen words1).
      { apply LF in F1. rewrite !zlen_app in F1. rewrite Q0, zlen_map in L0. rewrite Q1, zlen_map. lia. }
      split; [|split; [exact L0|split; [exact L1|]]].
      * intros i j a b v w Hi Hj Vi Vj. rewrite Q0, Q1, <- map_app in Hi, Hj.
        assert (Z2 : forall k x y, znth (ids0 ++ ids1) k = Some x -> znth (words0 ++ words1) k = Some y -> exists u, znth t' x = Some (y, u)).
        { clear -F1. revert F1. generalize (ids0 ++ ids1) (words0 ++ words1). intros l0 m0 F1. induction F1 as [|x y l m P H IH]; intros k x' y' Hx Hy; [apply znth_In in Hx; destruct Hx|].
          apply znth_Some_lt in Hx as B. destruct (Z.eq_dec k 0) as [->|Nk].
          - injection Hx as <-. injection Hy as <-. exact P.
          - rewrite znth_cons_S in Hx by lia. rewrite znth_cons_S in Hy by lia. eapply IH; eauto. }
        assert (M : forall k x, znth (map malloc (ids0 ++ ids1)) k = Some x -> exists n, x = malloc n /\ znth (ids0 ++ ids1) k = Some n).
        { intros k x H. rewrite znth_map in H. destruct (znth (ids0 ++ ids1) k) as [n|]; [|discriminate H]. injection H as <-. eauto. }
        apply M in Hi as (x & -> & Hi), Hj as (y & -> & Hj).
        destruct (Z2 _ _ _ Hi Vi) as (u1 & T1), (Z2 _ _ _ Hj Vj) as (u2 & T2).
        pose proof (cinv_contains malloc c' t' m1 I1) as (Nd & _).
        assert (Real : forall n e, znth t' n = Some e -> malloc n <> NULL).
        { intros n e Hn. apply znth_Some_lt in Hn as B. destruct (znth_split t' n e Hn) as (l1 & l2 & El & Ln). destruct e as [k u].
          destruct (lookup_found malloc c' t' m1 k u l1 l2 I1 El) as (_ & X & _). now rewrite <- Ln. }
        split.
        -- intros E. pose proof (D x y E (Real _ _ T1)). subst y. rewrite T1 in T2. congruence.
        -- intros ->. f_equal. eapply (LcsTop.NoDup_znth (map fst t')); [exact Nd| |]; rewrite znth_map.
           ++ rewrite T1. reflexivity.
           ++ rewrite T2. reflexivity.
      * exists t, t', ids0, ids1. repeat split; try assumption; eapply cinv_contains; eauto.
Qed.
Print Assumptions C71_words.

(** A case: memory for three entries, keys of which two hash to one slot. *)
Definition ex_malloc (n : Z) : addr := if n <? 3 then 10 + n else NULL.
Definition ex_calls : list (list Z * (Z * Z)) := [([97; 98], (2, 1)); ([98; 97], (3, 0)); ([97; 98], (4, 2)); ([99], (1, 1)); ([98; 97], (1, 1))].
Example C71_ex :
  distinct_blocks ex_malloc /\ table_index [97; 98] = table_index [98; 97] /\
  match ofold (fun c (x : list Z * (Z * Z)) => add_term_entry ex_malloc c (fst x) (fst (snd x)) (snd (snd x))) ex_calls (new_client (fun _ => mknode 7 8) (fun _ => [1]) (fun _ => mkwac 9 9)) with
  | Ok c => lookup_entry c [97; 98] = Ok 10 /\ lookup_entry c [98; 97] = Ok 11 /\ lookup_entry c [98] = Ok NULL /\
      cfields c 10 = mkwac 6 3 /\ cfields c 11 = mkwac 4 1 /\ callocs c = 3 /\
      add_term_entry ex_malloc c [100] 1 1 = Fail "unable to allocate memory"
  | _ => False
  end /\
  match ofold (setup_word_entry ex_malloc false) [[97; 98]; [99]; [97; 98]] (new_client (fun _ => mknode 7 8) (fun _ => [1]) (fun _ => (true, true)), []) with
  | Ok (c, s) => s = [10; 11; 10] /\
      match ofold (setup_word_entry ex_malloc true) [[98; 97]; [99]] (c, []) with
      | Ok (c, s) => s = [12; 11] /\ map (cfields c) [10; 11; 12] = [(true, false); (true, true); (false, true)]
      | _ => False
      end
  | _ => False
  end.
Proof.
  split; [|split; [reflexivity|]].
  - intros i j. unfold ex_malloc, NULL. destruct (Z.ltb_spec i 3), (Z.ltb_spec j 3); intros; lia.
  - split; vm_compute; repeat split.
Qed.
