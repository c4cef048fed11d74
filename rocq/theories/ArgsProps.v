(** C56: command lines. *)
From Coq Require Import String.
From Verif Require Import Base CLib CLibProof TextIO UtilModel UtilProps.
Local Open Scope Z_scope.
Local Open Scope list_scope.

(** Specification.  A command line, after the name of the program, is made of plain arguments
    and options: flags -c, and options with a value, attached to it or following. *)
Inductive item :=
| Plain (a : list Z)
| Flag (c : Z)
| Attached (c : Z) (v : list Z)
| Separate (c : Z) (v : list Z).
Definition written (it : item) : list (list Z) :=
  match it with
  | Plain a => [a]
  | Flag c => [[45; c]]
  | Attached c v => [45 :: c :: v]
  | Separate c v => [[45; c]; v]
  end.
Definition option_char (it : item) : option Z :=
  match it with Plain _ => None | Flag c => Some c | Attached c _ => Some c | Separate c _ => Some c end.
(** An argument that looks like an option starts with '-' and is longer than that. *)
Definition dashed (a : list Z) : Prop := exists c v, a = 45 :: c :: v.
(** "-h", "-he", ..., "-help" *)
Definition asks_help (a : list Z) : Prop := dashed a /\ exists rest, bytes "-help" = a ++ rest.

(** The options of a program: characters of flags, and of options with a value. *)
Definition flag_option (table : list entry) (c : Z) : Prop := In (mkentry c false true) table.
Definition value_option (table : list entry) (c : Z) : Prop := In (mkentry c true false) table.
Definition good_table (table : list entry) : Prop :=
  NoDup (map ename table) /\
  forall e, In e table -> ename e <> 0 /\ (flag_option table (ename e) \/ value_option table (ename e)).

(** Items that may occur. *)
Definition allowed (table : list entry) (it : item) : Prop :=
  match it with
  | Plain a => ~ dashed a
  | Flag c => flag_option table c /\ ~ asks_help [45; c]
  | Attached c v => value_option table c /\ v <> [] /\ ~ asks_help (45 :: c :: v)
  | Separate c _ => value_option table c /\ ~ asks_help [45; c]
  end.
Definition option_chars (items : list item) : list Z :=
  flat_map (fun it => match option_char it with Some c => [c] | None => [] end) items.
Definition no_repeats (items : list item) : Prop := NoDup (option_chars items).

Definition plain_args (items : list item) : list (list Z) :=
  flat_map (fun it => match it with Plain a => [a] | _ => [] end) items.
(** The variables of the options hold what the items say. *)
Definition var_ok (items : list item) (e : entry) (v : var) : Prop :=
  (forall s, fst v = Some s <-> In (Attached (ename e) s) items \/ In (Separate (ename e) s) items) /\
  (snd v = true <-> In (Flag (ename e)) items).
Definition vars_ok (table : list entry) (items : list item) (vars : list var) : Prop :=
  Forall2 (var_ok items) table vars.

(** Arguments of the operating system: bytes without NUL. *)
Definition real_args (argv : list (list Z)) : Prop := Forall (Forall (fun c => c <> 0)) argv.

(** What may follow the items that are read. *)
Inductive ending (table : list entry) (items : list item) : list (list Z) -> parsed -> Prop :=
| all_read vars : vars_ok table items vars -> ending table items [] (Args (plain_args items) vars)
| help a rest : asks_help a -> ending table items (a :: rest) Usage
| invalid a rest : dashed a -> ~ asks_help a ->
    (forall it more, a :: rest = written it ++ more -> ~ allowed table it) ->
    ending table items (a :: rest) (InvalidOption a)
| repeated a rest it other more : a :: rest = written it ++ more -> allowed table it ->
    In other items -> option_char other <> None -> option_char other = option_char it ->
    ending table items (a :: rest) (DuplicateOption a).

Lemma strneq_prefix b : forall a, Forall (fun c => c <> 0) b ->
  strneq a b (List.length b) = true <-> exists r, a = b ++ r.
Proof.
  induction b as [|y b IH]; intros a F; cbn [List.length strneq].
  - split; [intros _; exists a; reflexivity|reflexivity].
  - apply Forall_cons_iff in F as [_ F]. destruct a as [|x a].
    + split; [discriminate|]. intros (r & E). discriminate E.
    + split.
      * intros H. apply andb_prop in H as [E H]. apply Z.eqb_eq in E as ->. apply (IH a F) in H as (r & ->). exists r. reflexivity.
      * intros (r & E). cbn in E. injection E as -> ->. rewrite Z.eqb_refl. apply (IH (b ++ r) F). eauto.
Qed.

Lemma find_entry_ok table c i : find_entry table c = Some i -> exists e, nth_error table i = Some e /\ ename e = c.
Proof.
  revert i. induction table as [|e table IH]; intros i H; [discriminate|]. cbn [find_entry] in H.
  destruct (Z.eqb_spec c (ename e)).
  - injection H as <-. exists e. split; [reflexivity|congruence].
  - destruct (find_entry table c) as [j|]; [|discriminate]. injection H as <-. apply (IH j eq_refl).
Qed.
Lemma find_entry_none table c : find_entry table c = None -> forall e, In e table -> ename e <> c.
Proof.
  induction table as [|x table IH]; intros H e He; [destruct He|]. cbn [find_entry] in H.
  destruct (Z.eqb_spec c (ename x)); [discriminate|].
  destruct (find_entry table c); [discriminate|]. destruct He as [<-|He]; [congruence|]. now apply IH.
Qed.

Lemma nth_znth {A} (l : list A) i x : nth_error l i = Some x -> znth l (Z.of_nat i) = Some x.
Proof. intros H. unfold znth. destruct (Z.ltb_spec (Z.of_nat i) 0); [lia|]. now rewrite Nat2Z.id. Qed.

Lemma name_unique table e f : NoDup (map ename table) -> In e table -> In f table -> ename e = ename f -> e = f.
Proof.
  induction table as [|x table IH]; intros N He Hf E; [destruct He|]. cbn [map] in N. inversion N as [|? ? N1 N2]; subst.
  destruct He as [->|He], Hf as [->|Hf]; auto.
  - exfalso. apply N1. rewrite E. now apply in_map.
  - exfalso. apply N1. rewrite <- E. now apply in_map.
Qed.

Lemma Forall2_weaken {A B} (P Q : A -> B -> Prop) l m : (forall x y, P x y -> Q x y) -> Forall2 P l m -> Forall2 Q l m.
Proof. intros H. induction 1; constructor; auto. Qed.
Lemma Forall2_nth {A B} (P : A -> B -> Prop) l m : Forall2 P l m -> forall i x y,
  nth_error l i = Some x -> nth_error m i = Some y -> P x y.
Proof. induction 1 as [|x y l m H F IH]; intros [|i] a b E1 E2; try discriminate; cbn in *; first [congruence|eauto]. Qed.
Lemma Forall2_nth_exists {A B} (P : A -> B -> Prop) l m : Forall2 P l m -> forall i x,
  nth_error l i = Some x -> exists y, nth_error m i = Some y.
Proof. induction 1 as [|x y l m H F IH]; intros [|i] a E1; try discriminate; cbn in *; eauto. Qed.

(** Updating the variable of one option for a new item. *)
Lemma vars_update table items vars it i e v v' vars' :
  NoDup (map ename table) -> vars_ok table items vars ->
  nth_error table i = Some e -> nth_error vars i = Some v -> zset vars (Z.of_nat i) v' = Some vars' ->
  option_char it = Some (ename e) ->
  (var_ok items e v -> var_ok (items ++ [it]) e v') ->
  vars_ok table (items ++ [it]) vars'.
Proof.
  intros N F E1 E2 E3 O U.
  assert (forall table vars i, NoDup (map ename table) -> (forall f, In f table -> ename f = ename e -> f = e) ->
    Forall2 (var_ok items) table vars ->
    nth_error table i = Some e -> nth_error vars i = Some v -> set_nth vars i v' = Some vars' -> Forall2 (var_ok (items ++ [it])) table vars') as G.
  { clear E1 E2 E3 N F table vars i. intros table. revert vars'. induction table as [|f table IH]; intros vars' vars i N Un F E1 E2 E3; [destruct i; discriminate|].
    inversion F as [|? w ? vs Hw F']; subst. cbn [map] in N. inversion N as [|? ? N1 N2]; subst.
    assert (K : forall table vs, (forall f, In f table -> ename f <> ename e) -> Forall2 (var_ok items) table vs -> Forall2 (var_ok (items ++ [it])) table vs).
    { clear - O. intros table vs H F. induction F as [|f w table vs Hw F IH]; constructor.
      - assert (ename f <> ename e) as Ne by (apply H; now left). destruct Hw as [A B]. split.
        + intros s. rewrite A, !in_app_iff. cbn [In]. split; [tauto|].
          intros [[X|[X|[]]]|[X|[X|[]]]]; auto; subst it; cbn in O; congruence.
        + rewrite B, in_app_iff. cbn [In]. split; [tauto|]. intros [X|[X|[]]]; auto. subst it. cbn in O. congruence.
      - apply IH. intros g Hg. apply H. now right. }
    destruct i as [|i]; cbn in E1, E2, E3.
    - injection E1 as ->. injection E2 as ->. injection E3 as <-. constructor; [now apply U|].
      apply K; [|exact F']. intros f Hf Ef. apply N1. rewrite <- Ef. now apply in_map.
    - destruct (set_nth vs i v') as [vs'|] eqn:Es; [|discriminate]. injection E3 as <-. constructor.
      + assert (ename f <> ename e) as Ne.
        { intros Ef. apply N1. rewrite Ef. apply in_map. now apply nth_error_In with i. }
        assert (Forall2 (var_ok (items ++ [it])) [f] [w]) as Z by (apply K; [intros g [<-|[]]; exact Ne|constructor; [exact Hw|constructor]]).
        inversion Z; assumption.
      + apply (IH vs' vs i); auto. intros g Hg. apply Un. now right. }
  unfold zset in E3. destruct (Z.ltb_spec (Z.of_nat i) 0); [lia|]. rewrite Nat2Z.id in E3.
  apply (G table vars i); auto. intros f Hf Ef. apply (name_unique table); auto. now apply nth_error_In with i.
Qed.

Lemma option_chars_app a b : option_chars (a ++ b) = option_chars a ++ option_chars b.
Proof. apply flat_map_app. Qed.
Lemma plain_args_app a b : plain_args (a ++ b) = plain_args a ++ plain_args b.
Proof. apply flat_map_app. Qed.
Lemma option_chars_In items c : In c (option_chars items) <-> exists it, In it items /\ option_char it = Some c.
Proof.
  unfold option_chars. rewrite in_flat_map. split; intros (it & I & H); exists it; (split; [exact I|]).
  - destruct (option_char it); [destruct H as [->|[]]; reflexivity|destruct H].
  - rewrite H. now left.
Qed.
Lemma no_repeats_snoc items it : no_repeats items ->
  (forall c, option_char it = Some c -> ~ In c (option_chars items)) -> no_repeats (items ++ [it]).
Proof.
  intros N H. unfold no_repeats. rewrite option_chars_app. unfold option_chars at 2. cbn [flat_map]. rewrite app_nil_r.
  destruct (option_char it) as [c|]; [|now rewrite app_nil_r].
  specialize (H c eq_refl). unfold no_repeats in N. clear - N H. induction (option_chars items) as [|x l IH]; cbn [app].
  - constructor; [intros []|constructor].
  - inversion N as [|? ? N1 N2]; subst. constructor.
    + rewrite in_app_iff. cbn [In] in *. intros [X|[X|[]]]; auto.
    + apply IH; [exact N2|]. intros X. apply H. now right.
Qed.

(** Which argument looks like an option. *)
Lemma dashed_test a : Forall (fun c => c <> 0) a -> (at_ a 0 =? 45) && negb (at_ a 1 =? 0) = true <-> dashed a.
Proof.
  intros F. unfold at_, dashed. split.
  - intros H. apply andb_prop in H as [H1 H2]. apply Z.eqb_eq in H1. apply negb_true_iff, Z.eqb_neq in H2.
    destruct a as [|x [|c v]]; cbn [nth] in *; [lia|lia|]. exists c, v. now subst x.
  - intros (c & v & ->). cbn [nth]. apply Forall_cons_iff in F as [_ F]. apply Forall_cons_iff in F as [Hc _].
    cbn [Z.eqb Pos.eqb andb]. apply negb_true_iff, Z.eqb_neq. exact Hc.
Qed.

Lemma loop_ok table : good_table table -> forall fuel items rest argv vars i j argc,
  skipn i argv = rest -> firstn j argv = plain_args items -> (j < i <= argc)%nat -> List.length argv = argc -> Z.of_nat argc <= 32767 ->
  (List.length rest < fuel)%nat -> no_repeats items -> Forall (allowed table) items -> vars_ok table items vars -> real_args rest ->
  exists more rest' r, parse_loop fuel table (Z.of_nat argc) argv vars (Z.of_nat i) (Z.of_nat j) = Ok r /\
    rest = List.concat (map written more) ++ rest' /\ Forall (allowed table) more /\ no_repeats (items ++ more) /\
    ending table (items ++ more) rest' r.
Proof.
  intros [GN GE]. induction fuel as [|fuel IH]; intros items rest argv vars i j argc Er Ej Hij La Lc Hf NR AI VO RA; [lia|].
  cbn [parse_loop].
  assert (Lr : List.length rest = (argc - i)%nat) by (rewrite <- Er, skipn_length; lia).
  destruct rest as [|a rest].
  { cbn [List.length] in Lr. replace (Z.of_nat i <? Z.of_nat argc) with false by lia.
    exists [], [], (Args (firstn j argv) vars). rewrite Nat2Z.id. split; [reflexivity|]. split; [reflexivity|].
    split; [constructor|]. rewrite app_nil_r. split; [exact NR|]. rewrite Ej. now constructor. }
  cbn [List.length] in Lr, Hf. replace (Z.of_nat i <? Z.of_nat argc) with true by lia.
  assert (Ea : nth_error argv i = Some a /\ skipn (S i) argv = rest).
  { clear - Er. revert i Er. induction argv as [|x argv IHa]; intros [|i] E; try discriminate E; cbn in *.
    - injection E as -> ->. auto.
    - now apply IHa. }
  destruct Ea as [Ea Er']. unfold rd at 1. rewrite (nth_znth _ _ _ Ea). cbn [obind].
  apply Forall_cons_iff in RA as [Fa RA].
  (* going on after an item that uses this argument, or this and the next *)
  assert (Next : forall it used vars', allowed table it -> (forall c, option_char it = Some c -> ~ In c (option_chars items)) ->
    vars_ok table (items ++ [it]) vars' -> plain_args [it] = [] ->
    match used with false => written it = [a] | true => exists n rest2, rest = n :: rest2 /\ written it = [a; n] end ->
    exists more rest' r, parse_loop fuel table (Z.of_nat argc) argv vars' (wrap16 ((if used then wrap16 (Z.of_nat i + 1) else Z.of_nat i) + 1)) (Z.of_nat j) = Ok r /\
      a :: rest = List.concat (map written more) ++ rest' /\ Forall (allowed table) more /\ no_repeats (items ++ more) /\
      ending table (items ++ more) rest' r).
  { intros it used vars' Al Nr Vo Pl Wr.
    assert (NR' : no_repeats (items ++ [it])) by (now apply no_repeats_snoc).
    assert (AI' : Forall (allowed table) (items ++ [it])) by (apply Forall_app; auto).
    assert (Ej' : firstn j argv = plain_args (items ++ [it])) by (now rewrite plain_args_app, Pl, app_nil_r).
    destruct used.
    - destruct Wr as (n & rest2 & -> & Wr). cbn [List.length] in Lr, Hf.
      rewrite (wrap16_id (Z.of_nat i + 1)) by lia. rewrite wrap16_id by lia.
      replace (Z.of_nat i + 1 + 1) with (Z.of_nat (S (S i))) by lia.
      apply Forall_cons_iff in RA as [_ RA].
      destruct (IH (items ++ [it]) rest2 argv vars' (S (S i)) j argc) as (more & rest' & r & E & W & A & N & D); auto; try lia.
      { clear - Er'. revert i Er'. induction argv as [|x argv IHa]; intros [|i] E; try discriminate E.
        - cbn in *. destruct argv; [discriminate|]. cbn. congruence.
        - cbn in *. now apply IHa. }
      exists (it :: more), rest', r. split; [exact E|]. split; [cbn [map List.concat]; rewrite Wr, W, <- app_assoc; reflexivity|].
      split; [now constructor|]. rewrite <- app_assoc in N, D. auto.
    - rewrite wrap16_id by lia. replace (Z.of_nat i + 1) with (Z.of_nat (S i)) by lia.
      destruct (IH (items ++ [it]) rest argv vars' (S i) j argc) as (more & rest' & r & E & W & A & N & D); auto; try lia.
      exists (it :: more), rest', r. split; [exact E|]. split; [cbn [map List.concat]; rewrite Wr, W, <- app_assoc; reflexivity|].
      split; [now constructor|]. rewrite <- app_assoc in N, D. auto. }
  assert (Stop : forall r, ending table items (a :: rest) r -> exists more rest' r', Ok r = Ok r' /\
    a :: rest = List.concat (map written more) ++ rest' /\ Forall (allowed table) more /\ no_repeats (items ++ more) /\
    ending table (items ++ more) rest' r').
  { intros r D. exists [], (a :: rest), r. rewrite app_nil_r. split; [reflexivity|]. split; [reflexivity|]. split; [constructor|]. auto. }
  destruct ((at_ a 0 =? 45) && negb (at_ a 1 =? 0)) eqn:T.
  2: { (* a plain argument *)
    assert (Nd : ~ dashed a) by (rewrite <- (dashed_test a Fa), T; discriminate).
    assert (Hj : (j < List.length argv)%nat) by lia.
    destruct (zset_lt_Some argv (Z.of_nat j) a) as (argv' & Es); [unfold zlen; lia|]. unfold wr. rewrite Es. cbn [obind].
    rewrite !wrap16_id by lia. replace (Z.of_nat i + 1) with (Z.of_nat (S i)) by lia. replace (Z.of_nat j + 1) with (Z.of_nat (S j)) by lia.
    assert (Sk : skipn (S i) argv' = rest /\ firstn (S j) argv' = firstn j argv ++ [a] /\ List.length argv' = argc).
    { unfold zset in Es. destruct (Z.ltb_spec (Z.of_nat j) 0); [lia|]. rewrite Nat2Z.id in Es.
      assert (G : forall l l' j i, set_nth l j a = Some l' -> (j < i)%nat -> skipn i l' = skipn i l /\ firstn (S j) l' = firstn j l ++ [a] /\ List.length l' = List.length l).
      { clear. induction l as [|x l IHl]; intros l' [|j] i E H; try discriminate E; cbn in E.
        - injection E as <-. destruct i; [lia|]. auto.
        - destruct (set_nth l j a) as [l1|] eqn:E1; [|discriminate]. injection E as <-. destruct i as [|i]; [lia|].
          destruct (IHl l1 j i E1) as (A & B & C); [lia|]. split; [exact A|]. split; [|cbn; congruence].
          change (firstn (S (S j)) (x :: l1)) with (x :: firstn (S j) l1). rewrite B. reflexivity. }
      destruct (G argv argv' j (S i) Es) as (A & B & C); [lia|]. rewrite A, C. auto. }
    destruct Sk as (S1 & S2 & S3).
    destruct (IH (items ++ [Plain a]) rest argv' vars (S i) (S j) argc) as (more & rest' & r & E & W & A & N & D); auto; try lia.
    - rewrite S2, Ej, plain_args_app. reflexivity.
    - apply no_repeats_snoc; [exact NR|]. discriminate.
    - apply Forall_app. split; [exact AI|]. constructor; [exact Nd|constructor].
    - eapply Forall2_weaken; [|exact VO]. intros e v [A B]. split.
      + intros s. rewrite A, !in_app_iff. cbn [In]. split; [tauto|]. intros [[X|[X|[]]]|[X|[X|[]]]]; auto; discriminate X.
      + rewrite B, in_app_iff. cbn [In]. split; [tauto|]. intros [X|[X|[]]]; auto. discriminate X.
    - exists (Plain a :: more), rest', r. split; [exact E|]. split; [cbn [map List.concat written app]; now rewrite W|].
      split; [now constructor|]. rewrite <- app_assoc in N, D. auto. }
  assert (Hd : dashed a) by (now apply (dashed_test a Fa)).
  destruct (strneq (bytes "-help") a (List.length a)) eqn:Hh.
  { apply Stop. constructor. split; [exact Hd|]. now apply (strneq_prefix a (bytes "-help") Fa). }
  assert (Nh : ~ asks_help a).
  { intros [_ X]. apply (strneq_prefix a (bytes "-help") Fa) in X. congruence. }
  assert (Enext : (if Z.of_nat i + 1 <? Z.of_nat argc then obind (rd "argv[i + 1]" argv (Z.of_nat i + 1)) (fun b => Ok (Some b)) else Ok None) =
    Ok match rest with [] => None | n :: _ => Some n end).
  { destruct rest as [|n rest2]; cbn [List.length] in Lr.
    - replace (Z.of_nat i + 1 <? Z.of_nat argc) with false by lia. reflexivity.
    - replace (Z.of_nat i + 1 <? Z.of_nat argc) with true by lia. replace (Z.of_nat i + 1) with (Z.of_nat (S i)) by lia.
      assert (nth_error argv (S i) = Some n) as Hn.
      { clear - Er'. revert Er'. generalize (S i). intros k. revert k. induction argv as [|x argv IHa]; intros [|k] E; try discriminate E; cbn in *; [congruence|now apply IHa]. }
      unfold rd. rewrite (nth_znth _ _ _ Hn). reflexivity. }
  rewrite Enext. cbn [obind]. clear Enext.
  destruct Hd as (c & v & Ha). subst a. unfold split_option.
  apply Forall_cons_iff in Fa as [_ Fa]. apply Forall_cons_iff in Fa as [Hc Fv].
  change (at_ (45 :: c :: v) 1) with c.
  destruct (find_entry table c) as [k|] eqn:Fe.
  2: { cbn [obind]. apply Stop. pose proof (find_entry_none table c Fe) as Ne.
    constructor; [exists c, v; reflexivity|exact Nh|]. intros it more E Al.
    destruct it as [b|c'|c' v'|c' v']; cbn [written app] in E; injection E as E; subst; cbn [allowed] in Al.
    - apply Al. exists c, v. reflexivity.
    - destruct Al as [Al _]. now apply (Ne _ Al).
    - destruct Al as [Al _]. now apply (Ne _ Al).
    - destruct Al as [Al _]. now apply (Ne _ Al). }
  destruct (find_entry_ok table c k Fe) as (e & Et & En).
  destruct (Forall2_nth_exists _ _ _ VO k e Et) as (w & Ew).
  pose proof (Forall2_nth _ _ _ VO k e w Et Ew) as Vw.
  pose proof (nth_error_In _ _ Et) as Ie.
  unfold rd. rewrite (nth_znth _ _ _ Et), (nth_znth _ _ _ Ew). cbn [obind]. cbv zeta.
  assert (Hk : (k < List.length vars)%nat) by (apply nth_error_Some; congruence).
  destruct (GE e Ie) as [_ Kind]. rewrite En in Kind.
  assert (Kinds : e = mkentry c false true \/ e = mkentry c true false).
  { destruct Kind as [K|K]; [left|right]; apply (name_unique table e _ GN Ie K); exact En. }
  assert (Excl : flag_option table c -> value_option table c -> False).
  { intros A B. assert (mkentry c false true = mkentry c true false) by (apply (name_unique table _ _ GN A B); reflexivity). discriminate. }
  destruct Vw as [V1 V2]. rewrite En in V1, V2.
  destruct Kinds as [-> | ->]; cbn [estring eboolean andb].
  - (* a flag *)
    destruct v as [|x v].
    + change (at_ [45; c] 2) with 0. cbn [Z.eqb negb]. destruct (snd w) eqn:Sw.
      * cbn [obind]. apply Stop. apply (repeated _ _ _ _ (Flag c) (Flag c) rest); [reflexivity|split; [exact Ie|exact Nh]|now apply V2|discriminate|reflexivity].
      * destruct (zset_lt_Some vars (Z.of_nat k) (fst w, true)) as (vars' & Es); [unfold zlen; lia|]. unfold wr. rewrite Es. cbn [obind].
        apply (Next (Flag c) false vars'); [split; [exact Ie|exact Nh]| | |reflexivity|reflexivity].
        -- intros c' [= <-] I. apply option_chars_In in I as (it & I & O). destruct it as [b|c2|c2 v2|c2 v2]; cbn in O; try discriminate; injection O as ->.
           ++ apply V2 in I. congruence.
           ++ rewrite Forall_forall in AI. apply (Excl Ie). apply (AI _ I).
           ++ rewrite Forall_forall in AI. apply (Excl Ie). apply (AI _ I).
        -- eapply vars_update; eauto. intros _. split; cbn [fst snd ename].
           ++ intros s. rewrite V1, !in_app_iff. cbn [In]. split; [tauto|]. intros [[X|[X|[]]]|[X|[X|[]]]]; auto; discriminate X.
           ++ split; [|reflexivity]. intros _. apply in_or_app. right. now left.
    + apply Forall_cons_iff in Fv as [Hx _]. change (at_ (45 :: c :: x :: v) 2) with x. replace (x =? 0) with false by lia. cbn [negb obind].
      apply Stop. constructor; [exists c, (x :: v); reflexivity|exact Nh|]. intros it more E Al.
      destruct it as [b|c'|c' v'|c' v']; cbn [written app] in E; cbn [allowed] in Al.
      * injection E as <- _. apply Al. exists c, (x :: v). reflexivity.
      * discriminate E.
      * injection E as <- <- _. apply (Excl Ie). apply Al.
      * discriminate E.
  - (* an option with a value *)
    assert (Dup : forall s it more, fst w = Some s -> (45 :: c :: v) :: rest = written it ++ more -> allowed table it -> option_char it = Some c ->
      ending table items ((45 :: c :: v) :: rest) (DuplicateOption (45 :: c :: v))).
    { intros s it more E W A O. apply V1 in E. destruct E as [E|E].
      - apply (repeated _ _ _ _ it (Attached c s) more); auto; try discriminate; now rewrite O.
      - apply (repeated _ _ _ _ it (Separate c s) more); auto; try discriminate; now rewrite O. }
    destruct v as [|x v].
    + change (at_ [45; c] 2) with 0. cbn [Z.eqb negb orb]. destruct rest as [|n rest2].
      * cbn [obind]. apply Stop. constructor; [exists c, []; reflexivity|exact Nh|]. intros it more E Al.
        destruct it as [b|c'|c' v'|c' v']; cbn [written app] in E; cbn [allowed] in Al.
        -- injection E as <- _. apply Al. exists c, []. reflexivity.
        -- injection E as <- _. destruct Al as [Al _]. now apply (Excl Al).
        -- injection E as <- <- _. destruct Al as (_ & Al & _). now apply Al.
        -- discriminate E.
      * destruct (fst w) as [s|] eqn:Fw.
        -- cbn [obind]. apply Stop. apply (Dup s (Separate c n) rest2); auto. split; [exact Ie|exact Nh].
        -- destruct (zset_lt_Some vars (Z.of_nat k) (Some n, snd w)) as (vars' & Es); [unfold zlen; lia|]. unfold wr. rewrite Es. cbn [obind].
           apply (Next (Separate c n) true vars'); [split; [exact Ie|exact Nh]| | |reflexivity|exists n, rest2; auto].
           ++ intros c' [= <-] I. apply option_chars_In in I as (it & I & O). destruct it as [b|c2|c2 v2|c2 v2]; cbn in O; try discriminate; injection O as ->.
              ** rewrite Forall_forall in AI. destruct (AI _ I) as [Al' _]. exact (Excl Al' Ie).
              ** assert (None = Some v2) by (apply V1; now left). discriminate.
              ** assert (None = Some v2) by (apply V1; now right). discriminate.
           ++ eapply vars_update; eauto. intros _. split; cbn [fst snd ename].
              ** intros s. rewrite !in_app_iff. cbn [In]. split.
                 --- intros [= ->]. right. right. now left.
                 --- intros [[X|[X|[]]]|[X|[X|[]]]]; try discriminate X; [| |congruence].
                     +++ assert (None = Some s) by (apply V1; now left). discriminate.
                     +++ assert (None = Some s) by (apply V1; now right). discriminate.
              ** rewrite V2, in_app_iff. cbn [In]. split; [tauto|]. intros [X|[X|[]]]; auto. discriminate X.
    + pose proof Fv as Fv'. apply Forall_cons_iff in Fv' as [Hx _]. change (at_ (45 :: c :: x :: v) 2) with x. replace (x =? 0) with false by lia. cbn [negb orb].
      assert (Al : allowed table (Attached c (x :: v))) by (split; [exact Ie|split; [discriminate|exact Nh]]).
      destruct (fst w) as [s|] eqn:Fw.
      * cbn [obind]. apply Stop. apply (Dup s (Attached c (x :: v)) rest); auto.
      * change (skipn 2 (45 :: c :: x :: v)) with (x :: v).
        destruct (zset_lt_Some vars (Z.of_nat k) (Some (x :: v), snd w)) as (vars' & Es); [unfold zlen; lia|]. unfold wr. rewrite Es. cbn [obind].
        apply (Next (Attached c (x :: v)) false vars'); [exact Al| | |reflexivity|reflexivity].
        -- intros c' [= <-] I. apply option_chars_In in I as (it & I & O). destruct it as [b|c2|c2 v2|c2 v2]; cbn in O; try discriminate; injection O as ->.
           ++ rewrite Forall_forall in AI. destruct (AI _ I) as [Al' _]. exact (Excl Al' Ie).
           ++ assert (None = Some v2) by (apply V1; now left). discriminate.
           ++ assert (None = Some v2) by (apply V1; now right). discriminate.
        -- eapply vars_update; eauto. intros _. split; cbn [fst snd ename].
           ++ intros s. rewrite !in_app_iff. cbn [In]. split.
              ** intros [= <-]. left. right. now left.
              ** intros [[X|[X|[]]]|[X|[X|[]]]]; try discriminate X; [|congruence|].
                 --- assert (None = Some s) by (apply V1; now left). discriminate.
                 --- assert (None = Some s) by (apply V1; now right). discriminate.
           ++ rewrite V2, in_app_iff. cbn [In]. split; [tauto|]. intros [X|[X|[]]]; auto. discriminate X.
Qed.

(** C56: every command line of at most 32766 arguments is read item by item as far as possible,
    and the program goes on or ends accordingly. *)
Theorem C56_parse_partial : forall usage_when_no_args table program arguments,
  good_table table -> real_args arguments -> zlen arguments <= 32766 ->
  exists r, parse_args usage_when_no_args table (program :: arguments) (repeat (None, false) (List.length table)) = Ok r /\
    (arguments = [] /\ usage_when_no_args = true /\ r = Usage \/
     ~ (arguments = [] /\ usage_when_no_args = true) /\
     exists items rest, arguments = List.concat (map written items) ++ rest /\
       Forall (allowed table) items /\ no_repeats items /\ ending table items rest r).
Proof.
  intros u table program arguments G R L. unfold parse_args.
  assert (VO0 : vars_ok table [] (repeat (None, false) (List.length table))).
  { clear. induction table as [|e table IH]; constructor; [|exact IH]. split; [split; [discriminate|intros [[]|[]]]|split; [discriminate|intros []]]. }
  rewrite zlen_cons. pose proof (zlen_nonneg arguments).
  destruct (Z.eqb_spec (zlen arguments + 1) 1) as [E|E].
  - assert (arguments = []) as -> by (destruct arguments; [reflexivity|]; rewrite zlen_cons in E; pose proof (zlen_nonneg arguments); lia).
    cbn [andb]. destruct u.
    + exists Usage. split; [reflexivity|]. left. auto.
    + destruct (loop_ok table G 2 [] [] [program] (repeat (None, false) (List.length table)) 1 0 1) as (more & rest & r & Er & W & A & N & D);
        [reflexivity|reflexivity|lia|reflexivity|lia|cbn [List.length]; lia|constructor|constructor|exact VO0|exact R|].
      exists r. split; [exact Er|]. right. split; [intros [_ X]; discriminate|]. exists more, rest. cbn [app] in *. auto.
  - cbn [andb].
    destruct (loop_ok table G (S (S (List.length arguments))) [] arguments (program :: arguments) (repeat (None, false) (List.length table)) 1 0 (S (List.length arguments)))
      as (more & rest & r & Er & W & A & N & D);
      [reflexivity|reflexivity|lia|reflexivity|unfold zlen in L; lia|lia|constructor|constructor|exact VO0|exact R|].
    exists r. split; [|right; split; [intros [-> _]; apply E; reflexivity|exists more, rest; cbn [app] in *; auto]].
    rewrite <- Er. f_equal. unfold zlen. lia.
Qed.
Print Assumptions C56_parse_partial.

Lemma allowed_first table it1 it2 m1 m2 : good_table table -> allowed table it1 -> allowed table it2 ->
  written it1 ++ m1 = written it2 ++ m2 -> it1 = it2 /\ m1 = m2.
Proof.
  intros [GN GE] A1 A2 E.
  assert (Excl : forall c, flag_option table c -> value_option table c -> False).
  { intros c A B. assert (mkentry c false true = mkentry c true false) by (apply (name_unique table _ _ GN A B); reflexivity). discriminate. }
  assert (P : forall c v, ~ ~ dashed (45 :: c :: v)) by (intros c v X; apply X; exists c, v; reflexivity).
  destruct it1 as [a|c|c v|c v], it2 as [a'|c'|c' v'|c' v']; cbn [written app] in E; cbn [allowed] in A1, A2; injection E as E; subst;
    try (exfalso; eapply P; eassumption); auto.
  - exfalso. destruct A2 as (_ & X & _). now apply X.
  - exfalso. destruct A1 as [A1 _], A2 as [A2 _]. now apply (Excl c').
  - exfalso. destruct A1 as (_ & X & _). now apply X.
  - exfalso. destruct A1 as (_ & X & _). now apply X.
  - exfalso. destruct A1 as [A1 _], A2 as [A2 _]. now apply (Excl c').
  - exfalso. destruct A2 as (_ & X & _). now apply X.
Qed.

(** C56: in particular a command line made of allowed items, no option twice, is accepted: the
    plain arguments remain, in order, and the options are set as they say. *)
Theorem C56_accepted : forall usage_when_no_args table program items,
  good_table table -> Forall (allowed table) items -> no_repeats items ->
  let arguments := List.concat (map written items) in
  real_args arguments -> zlen arguments <= 32766 -> arguments <> [] \/ usage_when_no_args = false ->
  exists vars, parse_args usage_when_no_args table (program :: arguments) (repeat (None, false) (List.length table)) =
    Ok (Args (plain_args items) vars) /\ vars_ok table items vars.
Proof.
  intros u table program items G A N arguments R L Ne.
  destruct (C56_parse_partial u table program arguments G R L) as (r & E & [(X & Y & _)|(_ & items' & rest & W & A' & N' & D)]).
  { exfalso. destruct Ne; congruence. }
  assert (Same : items' = items /\ rest = []).
  { subst arguments. clear E R L Ne u program.
    assert (forall items pre items', Forall (allowed table) items -> Forall (allowed table) items' ->
      no_repeats (pre ++ items) ->
      List.concat (map written items) = List.concat (map written items') ++ rest -> ending table (pre ++ items') rest r ->
      items' = items /\ rest = []) as H; [|apply (H items [] items'); auto].
    clear - G. induction items as [|it items IH]; intros pre items' A A' N W D.
    - destruct items' as [|it' items']; [now destruct rest|]. exfalso. destruct it'; discriminate W.
    - apply Forall_cons_iff in A as [Ai A]. destruct items' as [|it' items'].
      + exfalso. cbn [map List.concat app] in W. rewrite app_nil_r in D. destruct D as [vars V|a rest Hh|a rest Hd Hn Hi|a rest it2 other more W2 A2 Io O1 O2].
        * destruct it; discriminate W.
        * destruct it as [b|c|c v|c v]; cbn [written app] in W; cbn [allowed] in Ai; injection W as W; subst.
          -- apply Ai. apply Hh.
          -- now apply Ai.
          -- now apply Ai.
          -- now apply Ai.
        * exact (Hi it (List.concat (map written items)) (eq_sym W) Ai).
        * rewrite W2 in W. destruct (allowed_first table it it2 _ _ G Ai A2 W) as [-> _].
          destruct (option_char other) as [c|] eqn:Oc; [|contradiction].
          unfold no_repeats in N. rewrite option_chars_app in N.
          assert (In c (option_chars pre)) as I1 by (apply option_chars_In; eauto).
          assert (In c (option_chars (it2 :: items))) as I2 by (apply option_chars_In; exists it2; split; [now left|congruence]).
          clear - N I1 I2. induction (option_chars pre) as [|x l IH]; [destruct I1|]. cbn [app] in N. inversion N as [|? ? N1 N2]; subst.
          destruct I1 as [->|I1]; [apply N1, in_or_app; now right|now apply IH].
      + apply Forall_cons_iff in A' as [Ai' A']. cbn [map List.concat] in W. rewrite <- app_assoc in W.
        destruct (allowed_first table it it' _ _ G Ai Ai' W) as [<- W'].
        destruct (IH (pre ++ [it]) items') as [-> ->]; auto; rewrite <- app_assoc; assumption. }
  destruct Same as [-> ->]. inversion D as [vars V| | |]; subst. exists vars. auto.
Qed.
Print Assumptions C56_accepted.

(** C56 refuted for more arguments: with plain arguments only, the counter of type short runs
    over. *)
Theorem C56_many_refuted : forall usage_when_no_args table program arguments vars,
  Forall (fun a => a = []) arguments -> 32767 <= zlen arguments ->
  parse_args usage_when_no_args table (program :: arguments) vars = UB "argv[i]".
Proof.
  intros u table program arguments vars F L. unfold parse_args. rewrite zlen_cons.
  replace (zlen arguments + 1 =? 1) with false by lia. cbn [andb].
  assert (forall fuel argv i j, zlen argv = zlen arguments + 1 -> (forall k, i <= k < zlen argv -> znth argv k = Some []) ->
    0 <= j < i -> i <= 32767 -> 32767 < Z.of_nat fuel + i - 1 ->
    parse_loop fuel table (zlen arguments + 1) argv vars i j = UB "argv[i]") as H.
  { clear - L. induction fuel as [|fuel IH]; intros argv i j La Ha Hj Hi Hf; [lia|]. cbn [parse_loop].
    replace (i <? zlen arguments + 1) with true by lia. unfold rd. rewrite (Ha i) by lia. cbn [obind].
    change ((at_ [] 0 =? 45) && negb (at_ [] 1 =? 0)) with false. cbv iota.
    destruct (zset_lt_Some argv j []) as (argv' & Es); [lia|]. unfold wr. rewrite Es. cbn [obind].
    destruct (Z.eq_dec i 32767) as [->|Ni].
    - change (wrap16 (32767 + 1)) with (-32768). destruct fuel as [|fuel]; [lia|]. cbn [parse_loop].
      replace (-32768 <? zlen arguments + 1) with true by lia. reflexivity.
    - rewrite !wrap16_id by lia. apply IH; try lia.
      + rewrite (zset_zlen _ _ _ _ Es). exact La.
      + intros k Hk. rewrite (zset_znth _ _ _ _ Es). destruct (Z.eqb_spec k j); [lia|]. apply Ha. rewrite (zset_zlen _ _ _ _ Es) in Hk. lia. }
  apply H; try lia.
  - rewrite zlen_cons. lia.
  - intros k Hk. rewrite zlen_cons in Hk. unfold znth. destruct (Z.ltb_spec k 0); [lia|].
    replace (Z.to_nat k) with (S (Z.to_nat (k - 1))) by lia. cbn [nth_error].
    destruct (nth_error arguments (Z.to_nat (k - 1))) as [a|] eqn:E.
    + apply nth_error_In in E. rewrite Forall_forall in F. f_equal. now apply F.
    + apply nth_error_None in E. unfold zlen in *. lia.
  - cbn [List.length]. unfold zlen in L. lia.
Qed.
Print Assumptions C56_many_refuted.

(** The options of vote. *)
Definition vote_table : list entry :=
  [mkentry 68 false true; mkentry 79 false true; mkentry 111 true false; mkentry 115 true false; mkentry 119 true false].
Example C56_ex :
  good_table vote_table /\
  (let items := [Plain (bytes "a"); Separate 111 (bytes "-x"); Plain (bytes "-"); Flag 79; Attached 115 (bytes "1/2")] in
   Forall (allowed vote_table) items /\ no_repeats items /\
   parse_args true vote_table (map bytes ["vote"; "a"; "-o"; "-x"; "-"; "-O"; "-s1/2"]%string) (repeat (None, false) 5) =
     Ok (Args [bytes "a"; bytes "-"] [(None, false); (None, true); (Some (bytes "-x"), false); (Some (bytes "1/2"), false); (None, false)])) /\
  parse_args true vote_table (map bytes ["vote"; "-O"; "-O"]%string) (repeat (None, false) 5) = Ok (DuplicateOption (bytes "-O")) /\
  parse_args true vote_table (map bytes ["vote"; "-Ox"]%string) (repeat (None, false) 5) = Ok (InvalidOption (bytes "-Ox")) /\
  parse_args true vote_table (map bytes ["vote"; "a"; "-he"]%string) (repeat (None, false) 5) = Ok Usage /\
  parse_args true vote_table (map bytes ["vote"]%string) (repeat (None, false) 5) = Ok Usage.
Proof.
  assert (NH : forall a, ~ (exists r, bytes "-help" = a ++ r) -> ~ asks_help a) by (intros a H [_ X]; contradiction).
  split; [|split; [cbv zeta; split; [|split]|repeat split; vm_compute; reflexivity]].
  - split.
    + cbn. repeat constructor; cbn; intuition discriminate.
    + intros e He. cbn in He. unfold flag_option, value_option, vote_table. cbn [In].
      destruct He as [<-|[<-|[<-|[<-|[<-|[]]]]]]; cbn [ename]; (split; [discriminate|]); tauto.
  - unfold flag_option, value_option, vote_table. constructor; [|constructor; [|constructor; [|constructor; [|constructor; [|constructor]]]]]; cbn [allowed].
    + intros (c & v & E). discriminate E.
    + split; [unfold value_option, vote_table; cbn [In]; tauto|]. apply NH. intros (r & E). discriminate E.
    + intros (c & v & E). discriminate E.
    + split; [unfold flag_option, vote_table; cbn [In]; tauto|]. apply NH. intros (r & E). discriminate E.
    + split; [unfold value_option, vote_table; cbn [In]; tauto|]. split; [discriminate|]. apply NH. intros (r & E). discriminate E.
  - unfold no_repeats. cbn. repeat constructor; cbn; intuition discriminate.
  - vm_compute. reflexivity.
Qed.
