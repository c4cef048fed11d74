(** Proofs about messages and exit status. *)
From Coq Require Import String.
From Verif Require Import Base CLib UtilModel UtilProps MainModel MainIoModel CrashSpec ExitModel ExitSpec.
Local Open Scope Z_scope.
Local Open Scope list_scope.

(** *** The programs with messages and those without *)

Definition forgets {A} (m : px A) (o : io A) : Prop :=
  fst (fst m) = fst o /\
  snd o = match snd m with Got a => Ok a | Error msg => Fail (fst msg) | Undefined msg => UB msg | Endless => OutOfFuel end.

Lemma forgets_call {A} l (o : outcome A) : forgets (call_on l o) (lift o).
Proof. destruct o; split; reflexivity. Qed.
Lemma forgets_call0 {A} (o : outcome A) : forgets (call o) (lift o).
Proof. apply forgets_call. Qed.
Lemma forgets_error {A} msg : forgets (@error A msg) (lift (Fail msg)).
Proof. split; reflexivity. Qed.
Lemma forgets_bind {A B} (m : px A) (k : A -> px B) o k' : forgets m o -> (forall a, forgets (k a) (k' a)) ->
  forgets (pbind m k) (ibind o k').
Proof.
  destruct m as [[acts ws] e]. destruct o as [oa oe]. intros [H1 H2] K. cbn [fst snd] in H1, H2. subst oa oe.
  unfold pbind, ibind. cbn [fst snd]. destruct e as [a| | |]; try (split; reflexivity).
  destruct (K a) as [K1 K2]. destruct (k a) as [[acts2 ws2] e2]. cbn [fst snd] in *. split; cbn [fst snd]; [now rewrite K1|exact K2].
Qed.
Lemma forgets_warn {A} l (k : px A) o : forgets k o -> forgets (let% _ := warn l in k) o.
Proof. destruct k as [[acts ws] e]. intros [H1 H2]. split; [exact H1|exact H2]. Qed.
Lemma forgets_fold {A S} (step : S -> A -> px S) step' : (forall s x, forgets (step s x) (step' s x)) ->
  forall l s, forgets (pxfold step l s) (iofold step' l s).
Proof. intros H. induction l as [|x l IH]; intros s; [split; reflexivity|]. cbn [pxfold iofold]. apply forgets_bind; auto. Qed.
Lemma forgets_say b : forgets (say_px b) (say b).
Proof. split; reflexivity. Qed.

Section System.
Variable sys : system.
Lemma forgets_open n : forgets (open_px sys n) (open_io sys n).
Proof. unfold open_px, open_io. destruct (contents sys n); split; reflexivity. Qed.
Lemma forgets_reading {S} (step : S -> list Z -> outcome S) s n : forgets (reading_px sys step s n) (reading_io sys step s n).
Proof. apply forgets_bind; [apply forgets_open|]. intros. apply forgets_call. Qed.
Lemma forgets_all {S} (step : S -> list Z -> outcome S) l s : forgets (pxfold (reading_px sys step) l s) (iofold (reading_io sys step) l s).
Proof. apply forgets_fold. apply forgets_reading. Qed.
Lemma forgets_write n c : forgets (write_px sys n c) (write_io sys n c).
Proof.
  unfold write_px, write_io. destruct n as [n|].
  - destruct (writable sys n); [|split; reflexivity]. destruct c; split; reflexivity.
  - destruct c; split; reflexivity.
Qed.
Lemma forgets_print c : forgets (print_px sys c) (print_io sys c).
Proof. apply forgets_write. Qed.

(** *** What is read, warned about and blamed *)

Definition dup (w : list Z) : message := ("duplicate stopword"%string, Some w).
Definition exist (l : list (list Z)) : Prop := Forall (fun n => exists f, contents sys n = Some f) l.

(** A computation that only reads files, those of the plan from where it has got; the shown strings are right. *)
Definition tells {A} (p : plan) (done : list (list Z)) (m : px A) (post : A -> list (list Z) -> Prop) : Prop :=
  exists l, fst (fst m) = map Reads l /\ exist l /\ (exists later, reading p = (done ++ l) ++ later) /\ snd (fst m) = [] /\
    match snd m with Got a => post a (done ++ l) | Error msg => blames sys p (done ++ l) (fst msg) (snd msg) | _ => True end.
(** A whole program: nothing is said of one that has begun to write. *)
Definition fin (p : plan) (warns : list (list Z) -> Prop) (done : list (list Z)) (m : px unit) : Prop :=
  exists keys, snd (fst m) = map dup keys /\
    match snd m with
    | Got _ => warns keys
    | Error msg => (keys = [] \/ warns keys) /\ ((exists d, In (Opens d) (fst (fst m))) \/
        exists l shown, fst (fst m) = map Reads l ++ map (Puts None) shown /\ (List.length shown <= 1)%nat /\
          exist l /\ (exists later, reading p = (done ++ l) ++ later) /\ blames sys p (done ++ l) (fst msg) (snd msg))
    | _ => True
    end.
Definition none : list (list Z) -> Prop := fun ws => ws = [].
(** The end of a program, after the last file has been read. *)
Definition quiet (p : plan) (done : list (list Z)) (m : px unit) : Prop :=
  snd (fst m) = [] /\
  match snd m with
  | Error msg => (exists d, In (Opens d) (fst (fst m))) \/ fst (fst m) = [] /\ blames sys p done (fst msg) (snd msg)
  | _ => True
  end.

Section Plan.
Variable p : plan.

Lemma tells_call_on {A} done strings (o : outcome A) (post : A -> list (list Z) -> Prop) : (exists later, reading p = done ++ later) ->
  Forall (fun x => blames sys p done (fst x) (Some (snd x))) strings ->
  (forall a, o = Ok a -> post a done) -> tells p done (call_on strings o) post.
Proof.
  intros R F H. exists []. rewrite app_nil_r.
  assert (forall msg, blames sys p done msg (shown_with msg strings)) as B.
  { intros msg. clear -F. induction strings as [|[m s] l IH]; cbn [shown_with]; [exact I|].
    apply Forall_cons_iff in F as [F1 F2]. destruct (string_dec msg m) as [->|]; auto. }
  destruct o; cbn [call_on give fst snd map]; repeat (split; [first [reflexivity|constructor|exact R|congruence]|]); auto.
Qed.
Lemma tells_call {A} done (o : outcome A) (post : A -> list (list Z) -> Prop) : (exists later, reading p = done ++ later) ->
  (forall a, o = Ok a -> post a done) -> tells p done (call o) post.
Proof. intros R H. apply tells_call_on; auto. Qed.
Lemma tells_open done n (post : list Z -> list (list Z) -> Prop) : (exists later, reading p = done ++ n :: later) ->
  (forall f, contents sys n = Some f -> post f (done ++ [n])) -> tells p done (open_px sys n) post.
Proof.
  intros [later R] H. unfold open_px. destruct (contents sys n) as [f|] eqn:E.
  - exists [n]. cbn [fst snd map]. split; [reflexivity|]. split; [constructor; [eauto|constructor]|].
    split; [exists later; now rewrite <- app_assoc|]. split; [reflexivity|auto].
  - exists []. cbn [error_string fst snd map]. rewrite app_nil_r. split; [reflexivity|]. split; [constructor|].
    split; [eauto|]. split; [reflexivity|]. left. eauto.
Qed.
Lemma tells_bind {A B} done (m : px A) (k : A -> px B) (post : A -> list (list Z) -> Prop) (post' : B -> list (list Z) -> Prop) : tells p done m post ->
  (forall a done', (exists later, reading p = done' ++ later) -> post a done' -> tells p done' (k a) post') ->
  tells p done (pbind m k) post'.
Proof.
  destruct m as [[acts ws] e]. intros (l & H1 & H2 & H3 & H4 & H6) K. cbn [fst snd] in *. subst acts ws.
  unfold pbind. destruct e as [a|msg|msg|]; try (exists l; cbn [fst snd]; auto 10; fail).
  destruct (K a (done ++ l) H3 H6) as (l2 & K1 & K2 & K3 & K4 & K6).
  destruct (k a) as [[acts2 ws2] e2]. cbn [fst snd] in *. subst acts2 ws2.
  exists (l ++ l2). cbn [fst snd app]. rewrite !map_app, !app_assoc.
  split; [reflexivity|]. split; [apply Forall_app; auto|]. split; [exact K3|]. split; [reflexivity|exact K6].
Qed.
Lemma tells_fold {S} (step : S -> list Z -> px S) : forall names done later st,
  reading p = done ++ names ++ later ->
  (forall st n done later, reading p = done ++ n :: later -> tells p done (step st n) (fun _ done' => done' = done ++ [n])) ->
  tells p done (pxfold step names st) (fun _ done' => done' = done ++ names).
Proof.
  induction names as [|n names IH]; intros done later st R H; cbn [pxfold].
  - exists []. rewrite !app_nil_r. cbn [give fst snd map]. repeat (split; [first [reflexivity|constructor|congruence|eauto]|]); auto.
  - eapply tells_bind; [apply (H st n done (names ++ later)); exact R|]. cbv beta. intros a done' R' ->.
    destruct (IH (done ++ [n]) later a) as (l & K); [now rewrite <- app_assoc|exact H|].
    exists l. rewrite <- (app_assoc done [n] names) in K. exact K.
Qed.
Lemma tells_reading {S} (step : S -> list Z -> outcome S) st n done later : reading p = done ++ n :: later ->
  tells p done (reading_px sys step st n) (fun _ done' => done' = done ++ [n]).
Proof.
  intros R. unfold reading_px. eapply tells_bind; [apply (tells_open done n (fun _ d => d = done ++ [n])); eauto|].
  intros f done' R' ->. apply tells_call_on; auto. unfold about.
  constructor; [|constructor; [|constructor]]; cbn [fst snd blames]; right; right; left; eauto.
Qed.
Lemma tells_all {S} (step : S -> list Z -> outcome S) names done later st : reading p = done ++ names ++ later ->
  tells p done (pxfold (reading_px sys step) names st) (fun _ done' => done' = done ++ names).
Proof. intros R. eapply tells_fold; [exact R|]. intros. eapply tells_reading; eauto. Qed.

Lemma fin_bind {A} W done (m : px A) (k : A -> px unit) (post : A -> list (list Z) -> Prop) : tells p done m post ->
  (forall a done', (exists later, reading p = done' ++ later) -> post a done' -> fin p W done' (k a)) ->
  fin p W done (pbind m k).
Proof.
  destruct m as [[acts ws] e]. intros (l & H1 & H2 & H3 & H4 & H6) K. cbn [fst snd] in *. subst acts ws.
  unfold pbind. destruct e as [a|msg|msg|]; try (exists []; cbn [fst snd]; split; [reflexivity|]; exact I).
  2:{ exists []. cbn [fst snd]. split; [reflexivity|]. split; [now left|]. right. exists l, []. cbn [map List.length]. rewrite app_nil_r. auto 10. }
  destruct (K a (done ++ l) H3 H6) as (keys2 & K1 & K3).
  destruct (k a) as [[acts2 ws2] e2]. cbn [fst snd] in *. subst ws2.
  exists keys2. cbn [fst snd app]. split; [reflexivity|].
  destruct e2 as [|msg| |]; auto. destruct K3 as [K2 [[d D]|(l2 & shown & K3 & K4 & K5 & K6 & K7)]]; (split; [exact K2|]).
  - left. exists d. apply in_or_app. now right.
  - right. exists (l ++ l2), shown. rewrite K3, map_app, !app_assoc. rewrite <- app_assoc. rewrite app_assoc.
    split; [reflexivity|]. split; [exact K4|]. split; [apply Forall_app; auto|]. split; [exact K6|exact K7].
Qed.
Lemma fin_warn (W : list (list Z) -> Prop) done l k : W l -> fin p none done k ->
  fin p W done (let% _ := warn (map (fun key => ("duplicate stopword"%string, key)) l) in k).
Proof.
  intros HW (keys & K1 & K2). destruct k as [[acts ws] e]. cbn [fst snd] in *. subst ws. unfold pbind, warn. cbn [app].
  rewrite map_map. cbn [fst snd]. exists (l ++ keys). cbn [fst snd]. rewrite map_app. split; [reflexivity|].
  destruct e as [|msg| |]; auto.
  - rewrite K2, app_nil_r. exact HW.
  - destruct K2 as [K2 K3]. split; [|exact K3]. right. assert (keys = []) as -> by now destruct K2. now rewrite app_nil_r.
Qed.
Lemma fin_quiet done m : (exists later, reading p = done ++ later) -> quiet p done m -> fin p none done m.
Proof.
  intros R [Q1 Q2]. exists []. split; [exact Q1|]. destruct (snd m) as [|msg| |]; auto; [reflexivity|]. split; [now left|].
  destruct Q2 as [Q2|[Q2 Q3]]; [now left|]. right. exists [], []. rewrite (app_nil_r done). cbn [map List.length app].
  split; [exact Q2|]. split; [lia|]. split; [constructor|]. split; [exact R|exact Q3].
Qed.
Lemma fin_say done b k : (exists later, reading p = done ++ later) -> quiet p done k -> fin p none done (let% _ := say_px b in k).
Proof.
  intros R [Q1 Q2]. destruct k as [[acts ws] e]. cbn [fst snd] in *. subst ws. unfold pbind, say_px. exists []. cbn [fst snd app map].
  split; [reflexivity|]. destruct e as [|msg| |]; auto; [reflexivity|]. split; [now left|].
  destruct Q2 as [[d D]|[Q2 Q3]]; [left; exists d; now right|]. right. exists [], [b]. rewrite (app_nil_r done). subst acts. cbn [map List.length app].
  split; [reflexivity|]. split; [lia|]. split; [constructor|]. split; [exact R|exact Q3].
Qed.
Lemma quiet_call {A} done (o : outcome A) k : (forall a, o = Ok a -> quiet p done (k a)) -> quiet p done (pbind (call o) k).
Proof.
  intros H. destruct o as [a| | |]; cbn [call call_on give pbind]; try (split; cbn; auto; fail).
  specialize (H a eq_refl). destruct (k a) as [[acts ws] e]. exact H.
Qed.
Lemma quiet_write done d c : destination p = d -> quiet p done (write_px sys d c).
Proof.
  intros D. unfold write_px. destruct d as [n|].
  - destruct (writable sys n) eqn:W.
    + destruct c; (split; [reflexivity|]); cbn; auto. left. exists (Some n). now left.
    + split; [reflexivity|]. cbn. right. split; [reflexivity|]. right. left. auto.
  - destruct c; (split; [reflexivity|]); cbn; auto. left. exists None. now left.
Qed.
Lemma fin_write done d c : (exists later, reading p = done ++ later) -> destination p = d -> fin p none done (write_px sys d c).
Proof. intros R D. apply fin_quiet; [exact R|]. now apply quiet_write. Qed.
Lemma fin_error W done msg : (exists later, reading p = done ++ later) -> fin p W done (error msg).
Proof.
  intros R. exists []. split; [reflexivity|]. split; [now left|]. right. exists [], []. rewrite (app_nil_r done). cbn [error fst snd map List.length app blames].
  split; [reflexivity|]. split; [lia|]. split; [constructor|]. split; [exact R|exact I].
Qed.

Lemma fin_call_on {A} W done strings (o : outcome A) k : (exists later, reading p = done ++ later) ->
  (forall msg, o = Fail msg -> blames sys p done msg (shown_with msg strings)) ->
  (forall a, o = Ok a -> fin p W done (k a)) -> fin p W done (pbind (call_on strings o) k).
Proof.
  intros R F H. apply (fin_bind W done _ _ (fun a d => o = Ok a /\ d = done)).
  - exists []. rewrite app_nil_r. destruct o; cbn [call_on give fst snd map]; (split; [reflexivity|]); (split; [constructor|]); auto 10.
  - intros a d _ [E ->]. auto.
Qed.
Lemma fin_call {A} W done (o : outcome A) k : (exists later, reading p = done ++ later) ->
  (forall a, o = Ok a -> fin p W done (k a)) -> fin p W done (pbind (call o) k).
Proof. intros R H. apply fin_call_on; auto. intros msg _. exact I. Qed.
Lemma fin_open W done n k : (exists later, reading p = done ++ n :: later) ->
  (forall f, contents sys n = Some f -> fin p W (done ++ [n]) (k f)) -> fin p W done (pbind (open_px sys n) k).
Proof.
  intros R H. apply (fin_bind W done _ _ (fun f d => contents sys n = Some f /\ d = done ++ [n])).
  - apply tells_open; auto.
  - intros f d _ [E ->]. auto.
Qed.
Lemma fin_about {A} W done n (o : outcome A) k : (exists later, reading p = (done ++ [n]) ++ later) ->
  (forall a, o = Ok a -> fin p W (done ++ [n]) (k a)) -> fin p W (done ++ [n]) (pbind (call_on (about n) o) k).
Proof.
  intros R H. apply fin_call_on; auto. intros msg _. unfold about. cbn [shown_with].
  destruct (string_dec msg _) as [->|]; [right; right; left; eauto|]. destruct (string_dec msg _) as [->|]; [right; right; left; eauto|exact I].
Qed.
Lemma fin_all {S} W (step : S -> list Z -> outcome S) names st k : reading p = names ->
  (forall st, fin p W names (k st)) -> fin p W [] (pbind (pxfold (reading_px sys step) names st) k).
Proof.
  intros R H. eapply fin_bind; [apply (tells_all step names [] [] st); now rewrite app_nil_r|].
  cbv beta. intros a d _ ->. apply H.
Qed.
End Plan.

(** *** Whole programs *)

Lemma line_said name msg arg : line_of name (msg, arg) = said name msg arg.
Proof. unfold line_of, said. cbn [fst snd]. destruct arg; [|reflexivity]. change (bytes " ") with [32]. now rewrite <- !app_assoc. Qed.
Lemma warnings_said name keys : flat_map (line_of name) (map dup keys) = flat_map (fun w => said name "duplicate stopword" (Some w)) keys.
Proof. induction keys as [|k keys IH]; [reflexivity|]. cbn [map flat_map]. rewrite IH. unfold dup. now rewrite line_said. Qed.

Ltac out S := let K := fresh in first [discriminate S | match type of S with _ /\ _ => destruct S as [K _]; discriminate K end].
Lemma process_ok usage table argv name body body' given warns main :
  (let! n := rd "argv[0]" argv 0 in basefilename n) = Ok name ->
  (forall msg, parse_args true table argv (repeat (None, false) (List.length table)) <> Fail msg) ->
  (forall args vars, forgets (body args vars) (body' args vars)) ->
  (forall args vars, fin (given args vars) (warns vars) [] (body args vars)) ->
  same_end sys (run_io table argv body') main -> harmless_failure sys (run_io table argv body') ->
  ends_well sys usage table given warns argv name (run_px usage table argv body) main.
Proof.
  intros En Np F T S H. unfold run_px. rewrite En.
  assert (exists nm, rd "argv[0]" argv 0 = Ok nm /\ basefilename nm = Ok name) as (nm & E1 & E2).
  { destruct (rd "argv[0]" argv 0) as [nm| | |]; cbn [obind] in En; try discriminate En. eauto. }
  unfold run_io in S, H. rewrite E1 in S, H. unfold ibind at 1 2 3, lift at 1 2 3 in S. cbn [fst snd app] in S. rewrite E2 in S. cbn [fst snd app] in S.
  unfold ibind at 1 2 3, lift at 1 2 3 in H. cbn [fst snd app] in H. rewrite E2 in H. cbn [fst snd app] in H.
  destruct (parse_args true table argv _) as [q|msg|msg|] eqn:Ep.
  2:{ exfalso. exact (Np msg eq_refl). }
  2:{ cbn [fst snd] in S. unfold same_end in S. destruct main as [[r|pp]| | |]; cbn in S; try (out S). injection S as <-. reflexivity. }
  2:{ cbn [fst snd] in S. unfold same_end in S. destruct main as [[r|pp]| | |]; cbn in S; try (out S). reflexivity. }
  destruct q as [args vars| |arg|arg].
  2,3,4: (cbn [fst snd lift app] in S; unfold same_end in S; destruct main as [[r|pp]| | |]; cbn in S; try (out S);
    injection S as <-; unfold ends_well; rewrite ?line_said; reflexivity).
  specialize (F args vars). specialize (T args vars). destruct (body args vars) as [[acts ws] e].
  destruct T as (keys & T1 & T3). destruct F as [F1 F2]. cbn [fst snd] in *. subst ws. rewrite warnings_said.
  unfold ibind in S, H. cbn [fst snd lift] in S, H. destruct (body' args vars) as [oa oe]. cbn [fst snd] in *. subst oa oe.
  destruct e as [[]|[msg arg]|msg|]; cbn [fst snd] in *; rewrite ?app_nil_r in *.
  - unfold same_end in S. destruct main as [[r|pp]| | |]; cbn [fst snd] in S; try (out S).
    destruct S as [_ S]. cbn [ends_well exits actions standard_error]. split; [reflexivity|]. split; [exact S|]. exists args, vars, keys. auto.
  - unfold same_end in S. destruct main as [[r|pp]|m| |]; cbn [fst snd] in S; try (out S).
    injection S as <-. cbn [ends_well exits actions standard_error]. split; [reflexivity|].
    destruct T3 as [T2 [[d D]|(l & shown & K1 & K2 & K3 & K4 & K5)]].
    { exfalso. destruct (H msg eq_refl) as [N _]. exact (N d D). }
    exists args, vars, keys, arg, l, shown. cbn [app] in *. rewrite line_said.
    split; [exact Ep|]. split; [reflexivity|]. split; [exact T2|]. split; [exact K1|]. split; [exact K2|]. split; [exact K3|]. split; [exact K4|exact K5].
  - unfold same_end in S. destruct main as [[r|pp]|m| |]; cbn [fst snd] in S; try (out S). injection S as <-. reflexivity.
  - unfold same_end in S. destruct main as [[r|pp]|m| |]; cbn [fst snd] in S; try (out S). reflexivity.
Qed.

Lemma split_no_fail table arg next vars msg : split_option table arg next vars <> Fail msg.
Proof.
  intros N. unfold split_option in N. destruct (find_entry _ _) as [i|]; [|discriminate N].
  unfold rd, wr in N. destruct (znth table _) as [e|]; [|discriminate N]. cbn [obind] in N. destruct (znth vars _) as [v|] eqn:V; [|discriminate N].
  cbn [obind] in N. destruct (_ && _); [destruct (fst v); [discriminate N|]|destruct (_ && _); [destruct (snd v); [discriminate N|]|discriminate N]].
  all: match type of N with context [zset ?l ?i ?x] => destruct (zset l i x) end; discriminate N.
Qed.
Lemma parse_no_fail table vars msg argv : parse_args true table argv vars <> Fail msg.
Proof.
  unfold parse_args. destruct (_ && _); [intros N; discriminate N|].
  assert (forall fuel argc argv vars i j, parse_loop fuel table argc argv vars i j <> Fail msg) as H; [|apply H].
  induction fuel as [|fuel IH]; intros argc av vs i j N; cbn [parse_loop] in N; [discriminate N|].
  destruct (i <? argc); [|discriminate N]. unfold rd in N. destruct (znth av i) as [arg|]; [|discriminate N]. cbn [obind] in N.
  destruct (_ && _).
  - destruct (strneq _ _ _); [discriminate N|].
    destruct (i + 1 <? argc).
    + destruct (znth av (i + 1)) as [nx|]; [|discriminate N]. cbn [obind] in N.
      destruct (split_option table arg (Some nx) vs) as [[q|[vs' u]]|m| |] eqn:E; try discriminate N; [exact (IH _ _ _ _ _ N)|exact (split_no_fail _ _ _ _ _ E)].
    + cbn [obind] in N.
      destruct (split_option table arg None vs) as [[q|[vs' u]]|m| |] eqn:E; try discriminate N; [exact (IH _ _ _ _ _ N)|exact (split_no_fail _ _ _ _ _ E)].
  - unfold wr in N. destruct (zset _ _ _); [|discriminate N]. exact (IH _ _ _ _ _ N).
Qed.

Lemma rd_0 {A} m (a : A) l : rd m (a :: l) 0 = Ok a.
Proof. reflexivity. Qed.
Lemma rd_1 {A} m (a b : A) l : rd m (a :: b :: l) 1 = Ok b.
Proof. reflexivity. Qed.
Lemma call_ok {A B} (a : A) (k : A -> px B) : pbind (call (Ok a)) k = k a.
Proof. unfold pbind, call, call_on, give. destruct (k a) as [[acts ws] e]. reflexivity. Qed.
End System.

(** *** A system where something is missing *)
Section Follows.
Variables sys sys' : system.
Variable a : action.
Variable msg : string.
Variable n : list Z.
Definition follows {A} (m m' : px A) : Prop :=
  (~ In a (fst (fst m')) /\ m = m') \/
  exists before after ws rest, fst (fst m') = before ++ a :: after /\ ~ In a before /\ snd (fst m') = ws ++ rest /\
    m = (before, ws, Error (msg, Some n)).
Lemma follows_same {A} (m : px A) : ~ In a (fst (fst m)) -> follows m m.
Proof. intros H. left. auto. Qed.
Lemma follows_call {A} l (o : outcome A) : follows (call_on l o) (call_on l o).
Proof. apply follows_same. destruct o; intros []. Qed.
Lemma follows_call0 {A} (o : outcome A) : follows (call o) (call o).
Proof. apply follows_call. Qed.
Lemma follows_error {A} m : follows (@error A m) (error m).
Proof. apply follows_same. intros []. Qed.
Lemma follows_warn l : follows (warn l) (warn l).
Proof. apply follows_same. intros []. Qed.
Lemma follows_bind {A B} (m m' : px A) (k k' : A -> px B) : follows m m' -> (forall x, follows (k x) (k' x)) -> follows (pbind m k) (pbind m' k').
Proof.
  intros [[N ->]|(before & after & ws & rest & H1 & H2 & H3 & ->)] K.
  - destruct m' as [[acts w] e]. cbn [fst snd] in N. destruct e as [x|x|x|]; try (left; split; [exact N|reflexivity]).
    cbn [pbind]. destruct (K x) as [[N' E]|(before & after & ws & rest & H1 & H2 & H3 & E)].
    + left. rewrite E. destruct (k' x) as [[acts2 w2] e2]. cbn [fst snd] in *. split; [|reflexivity]. intros I. apply in_app_or in I as [I|I]; auto.
    + right. rewrite E. destruct (k' x) as [[acts2 w2] e2]. cbn [fst snd] in *. subst acts2 w2.
      exists (acts ++ before), after, (w ++ ws), rest. rewrite <- !app_assoc. split; [reflexivity|].
      split; [intros I; apply in_app_or in I as [I|I]; auto|]. split; reflexivity.
  - right. destruct m' as [[acts w] e]. cbn [fst snd] in *. subst acts w. cbn [pbind].
    destruct e as [x|x|x|]; try (exists before, after, ws, rest; cbn [fst snd]; auto; fail).
    destruct (k' x) as [[acts2 w2] e2]. exists before, (after ++ acts2), ws, (rest ++ w2). cbn [fst snd]. rewrite <- !app_assoc. auto.
Qed.
Lemma follows_fold {A S} (step step' : S -> A -> px S) : (forall s x, follows (step s x) (step' s x)) -> forall l s, follows (pxfold step l s) (pxfold step' l s).
Proof.
  intros H. induction l as [|x l IH]; intros s; cbn [pxfold]; [apply follows_same; intros []|]. apply follows_bind; auto.
Qed.
Hypothesis opening : forall m, follows (open_px sys m) (open_px sys' m).
Lemma follows_reading {S} (step : S -> list Z -> outcome S) s m : follows (reading_px sys step s m) (reading_px sys' step s m).
Proof. apply follows_bind; [apply opening|]. intros x. apply follows_call. Qed.
Lemma follows_all {S} (step : S -> list Z -> outcome S) l s : follows (pxfold (reading_px sys step) l s) (pxfold (reading_px sys' step) l s).
Proof. apply follows_fold. intros. apply follows_reading. Qed.

Lemma process_follows usage table argv name body body' :
  (let! n := rd "argv[0]" argv 0 in basefilename n) = Ok name ->
  (forall args vars, follows (body args vars) (body' args vars)) ->
  stops_at a msg n name (run_px usage table argv body) (run_px usage table argv body').
Proof.
  intros En F. unfold run_px. rewrite En. destruct (parse_args _ _ _ _) as [[args vars| |arg|arg]|m|m|]; try (left; split; [intros []|reflexivity]).
  destruct (F args vars) as [[N E]|(before & after & ws & rest & H1 & H2 & H3 & E)]; rewrite E.
  - left. destruct (body' args vars) as [[acts w] e]. cbn [fst] in N. split; [|reflexivity]. destruct e; exact N.
  - right. destruct (body' args vars) as [[acts w] e]. cbn [fst snd] in *. subst acts w.
    exists before, after, (flat_map (line_of name) ws), (flat_map (line_of name) rest ++ match e with Error m => line_of name m | _ => [] end).
    rewrite <- line_said, app_assoc, <- flat_map_app. destruct e; cbn [actions standard_error]; rewrite ?app_nil_r; auto.
Qed.
End Follows.

Section Missing.
Variables sys sys' : system.
Variable n : list Z.
Lemma missing_open : without sys sys' n -> forall m, follows (Reads n) "unable to open file" n (open_px sys m) (open_px sys' m).
Proof.
  intros (M1 & M2 & M3) m. unfold open_px. destruct (list_eq_dec Z.eq_dec m n) as [->|N].
  - rewrite M1. destruct (contents sys' n) as [f|]; [|apply follows_same; intros []].
    right. exists [], [], [], []. repeat split; auto.
  - rewrite (M2 m N). apply follows_same. destruct (contents sys' m); [|intros []]. intros [E|[]]. injection E as E. contradiction.
Qed.
Lemma missing_write : without sys sys' n -> forall d c, follows (Reads n) "unable to open file" n (write_px sys d c) (write_px sys' d c).
Proof.
  intros (M1 & M2 & M3) d c. unfold write_px. replace (match d with Some nm => if writable sys nm then _ else _ | None => _ end) with (write_px sys' d c).
  - apply follows_same. unfold write_px. destruct d as [d|]; [destruct (writable sys' d)|]; destruct c; cbn [call call_on give error_string pbind app fst];
      intros I; repeat destruct I as [I|I]; try discriminate I; exact I.
  - unfold write_px. destruct d as [d|]; [|reflexivity]. now rewrite M3.
Qed.
Lemma locked_open : locked sys sys' n -> forall m, follows (Opens (Some n)) "unable to create file" n (open_px sys m) (open_px sys' m).
Proof.
  intros (M1 & M2 & M3) m. unfold open_px. rewrite M3. apply follows_same. destruct (contents sys' m); [|intros []]. intros [E|[]]. discriminate E.
Qed.
Lemma locked_write : locked sys sys' n -> forall d c, follows (Opens (Some n)) "unable to create file" n (write_px sys d c) (write_px sys' d c).
Proof.
  intros (M1 & M2 & M3) d c. unfold write_px. destruct d as [d|].
  - destruct (list_eq_dec Z.eq_dec d n) as [->|N].
    + rewrite M1. destruct (writable sys' n); [|apply follows_same; intros []]. right.
      destruct c as [x|x|x|]; cbn [call call_on give pbind app]; [exists [], [Puts (Some n) x], [], []|exists [], [], [], []..]; repeat split; auto.
    + rewrite (M2 d N). apply follows_same. destruct (writable sys' d); [|intros []].
      destruct c; cbn [call call_on give pbind app fst]; intros I; repeat destruct I as [I|I]; try discriminate I; try exact I; injection I as I; contradiction.
  - apply follows_same. destruct c; cbn [call call_on give pbind app fst]; intros I; repeat destruct I as [I|I]; try discriminate I; exact I.
Qed.
End Missing.

(** *** Messages about a report *)
Definition report_message (msg : string) : Prop := msg = "invalid format in"%string \/ msg = "invalid character in"%string.
Section Cites.
Variable sys : system.
Definition reads_all (acts : list action) : Prop := exists l, acts = map Reads l.
(** A message about a report comes with a name, and after only reading. *)
Definition cites {A} (m : px A) : Prop :=
  forall msg arg, snd m = Error (msg, arg) -> report_message msg ->
    (exists d, In (Opens d) (fst (fst m))) \/ arg <> None /\ reads_all (fst (fst m)).
Lemma cites_ok {A} (m : px A) : (forall msg, snd m <> Error msg) -> cites m.
Proof. intros H msg arg E. exfalso. exact (H _ E). Qed.
Lemma cites_call {A} (o : outcome A) : (forall msg, report_message msg -> o <> Fail msg) -> cites (call o).
Proof. intros H msg arg E R. destruct o as [|m| |]; try discriminate E. injection E as <- <-. exfalso. exact (H _ R eq_refl). Qed.
Lemma cites_error {A} m : ~ report_message m -> cites (@error A m).
Proof. intros H msg arg E R. injection E as <- _. contradiction. Qed.
Lemma cites_open n : cites (open_px sys n).
Proof.
  unfold open_px. intros msg arg E R. destruct (contents sys n); [discriminate E|]. injection E as <- _. destruct R as [R|R]; discriminate R.
Qed.
Lemma cites_about {A} n (o : outcome A) : cites (call_on (about n) o).
Proof.
  intros msg arg E R. destruct o as [|m| |]; try discriminate E. cbn [call_on snd] in E. injection E as <- <-. right. split; [|now exists []].
  unfold about. destruct R as [-> | ->]; discriminate.
Qed.
Lemma cites_bind {A B} (m : px A) (k : A -> px B) : reads_all (fst (fst m)) -> cites m -> (forall a, cites (k a)) -> cites (pbind m k).
Proof.
  intros [l R] H K. destruct m as [[acts ws] e]. cbn [fst] in R. subst acts. intros msg arg E Q. destruct e as [a|x|x|]; cbn [pbind] in *; try discriminate E.
  - destruct (k a) as [[acts2 ws2] e2] eqn:Ek. cbn [snd] in E. destruct (K a msg arg) as [[d D]|[N [l2 L]]]; [rewrite Ek; exact E|exact Q| |]; rewrite Ek in *; cbn [fst] in *.
    + left. exists d. apply in_or_app. now right.
    + right. split; [exact N|]. exists (l ++ l2). rewrite L. now rewrite map_app.
  - cbn [snd] in E. injection E as ->. exact (H msg arg eq_refl Q).
Qed.
Lemma reads_bind {A B} (m : px A) (k : A -> px B) : reads_all (fst (fst m)) -> (forall a, reads_all (fst (fst (k a)))) -> reads_all (fst (fst (pbind m k))).
Proof.
  intros [l R] K. destruct m as [[acts ws] e]. cbn [fst] in R. subst acts. destruct e as [a| | |]; try (exists l; reflexivity).
  cbn [pbind]. destruct (K a) as [l2 L]. destruct (k a) as [[acts2 ws2] e2]. cbn [fst] in *. subst. exists (l ++ l2). now rewrite map_app.
Qed.
Lemma reads_open n : reads_all (fst (fst (open_px sys n))).
Proof. unfold open_px. destruct (contents sys n); [now exists [n]|now exists []]. Qed.
Lemma reads_call {A} l (o : outcome A) : reads_all (fst (fst (call_on l o))).
Proof. exists []. destruct o; reflexivity. Qed.
Lemma reads_files {S} (step : S -> list Z -> outcome S) : forall l s, reads_all (fst (fst (pxfold (reading_px sys step) l s))) /\ cites (pxfold (reading_px sys step) l s).
Proof.
  induction l as [|n l IH]; intros s; cbn [pxfold]; [split; [now exists []|apply cites_ok; intros msg N; discriminate N]|].
  assert (reads_all (fst (fst (reading_px sys step s n)))) as R by (apply reads_bind; [apply reads_open|intros; apply reads_call]).
  split; [apply reads_bind; [exact R|]; intros; apply IH|]. apply cites_bind; [exact R| |intros; apply IH].
  apply cites_bind; [apply reads_open|apply cites_open|intros; apply cites_about].
Qed.
Lemma cites_write d c : cites (write_px sys d c).
Proof.
  intros msg arg E R. unfold write_px in *. destruct d as [n|].
  - destruct (writable sys n).
    + destruct c; cbn in *; try discriminate E. left. eexists. now left.
    + cbn in E. injection E as <- _. destruct R as [R|R]; discriminate R.
  - destruct c; cbn in *; try discriminate E. left. eexists. now left.
Qed.

Lemma process_cites usage table argv name body body' given main msg :
  (let! n := rd "argv[0]" argv 0 in basefilename n) = Ok name ->
  (forall args vars, forgets (body args vars) (body' args vars)) ->
  (forall args vars, fin sys (given args vars) none [] (body args vars)) -> (forall args vars m, option_value (given args vars) m = None) ->
  (forall args vars, cites (body args vars)) ->
  same_end sys (run_io table argv body') main -> harmless_failure sys (run_io table argv body') ->
  main = Fail msg -> report_message msg ->
  exists before n, run_px usage table argv body = mkfinal (map Reads (before ++ [n])) (said name msg (Some n)) (Status 1).
Proof.
  intros En F T V C S H -> R. unfold run_px. rewrite En.
  assert (exists nm, rd "argv[0]" argv 0 = Ok nm /\ basefilename nm = Ok name) as (nm & E1 & E2).
  { destruct (rd "argv[0]" argv 0) as [nm| | |]; cbn [obind] in En; try discriminate En. eauto. }
  unfold run_io in S, H. rewrite E1 in S, H. unfold ibind at 1 2 3, lift at 1 2 3 in S. cbn [fst snd app] in S. rewrite E2 in S. cbn [fst snd app] in S.
  unfold ibind at 1 2 3, lift at 1 2 3 in H. cbn [fst snd app] in H. rewrite E2 in H. cbn [fst snd app] in H.
  destruct (parse_args true table argv _) as [q|m|m|] eqn:Ep.
  2:{ exfalso. exact (parse_no_fail _ _ _ _ Ep). }
  2,3: cbn in S; discriminate S.
  destruct q as [args vars| |arg|arg].
  2,3,4: cbn in S; discriminate S.
  specialize (F args vars). specialize (T args vars). specialize (C args vars). specialize (V args vars). destruct (body args vars) as [[acts ws] e].
  destruct T as (keys & T1 & T3). destruct F as [F1 F2]. cbn [fst snd] in *. subst ws.
  unfold ibind in S, H. cbn [fst snd lift] in S, H. destruct (body' args vars) as [oa oe]. cbn [fst snd] in *. subst oa oe.
  destruct e as [[]|[m arg]|m|]; cbn [same_end fst snd] in *; try discriminate S. injection S as ->.
  destruct T3 as [T2 [[d D]|(l & shown & K1 & K2 & K3 & K4 & K5)]]; [exfalso; destruct (H msg eq_refl) as [N _]; exact (N d D)|].
  assert (keys = []) as -> by now destruct T2.
  destruct (C msg arg eq_refl R) as [[d D]|[N [l' L]]]; [exfalso; destruct (H msg eq_refl) as [N _]; exact (N d D)|].
  cbn [fst] in L. destruct arg as [s|]; [|congruence]. cbn [blames fst snd app] in K5.
  assert (shown = []) as ->.
  { destruct shown as [|b sh]; [reflexivity|]. exfalso. rewrite L in K1. assert (In (Puts None b) (map Reads l')) as I by (rewrite K1; apply in_or_app; right; now left).
    apply in_map_iff in I as (x & X & _). discriminate X. }
  cbn [map] in K1. rewrite app_nil_r in K1. rewrite V in K5.
  destruct K5 as [[K5 _]|[[K5 _]|[[_ (before & ->)]|K5]]]; [subst msg; destruct R as [R|R]; discriminate R|subst msg; destruct R as [R|R]; discriminate R| |discriminate K5].
  exists before, s. rewrite K1. cbn [map flat_map app]. now rewrite line_said.
Qed.
End Cites.
