(** C42: stopwords. *)
From Coq Require Import String.
From Verif Require Import Base CLib Utf8Model TextIO TextModel WordModel StopModel.
Local Open Scope Z_scope.
Local Open Scope list_scope.

Lemma lookup_spec s w : lookup s w = true <-> In w (keys s).
Proof.
  unfold lookup. rewrite existsb_exists. split.
  - intros (k & I & E). apply streq_spec in E. subst. assumption.
  - intros I. exists w. split; [assumption|]. apply streq_spec. reflexivity.
Qed.

Lemma save_keys ws : forall s w,
  In w (keys (fold_left save_stopword ws s)) <-> In w (keys s) \/ In w ws.
Proof.
  induction ws as [|k ws IH]; intros s w; cbn [fold_left]; [cbn [In]; tauto|].
  rewrite IH. unfold save_stopword. destruct (lookup s k) eqn:E.
  - cbn [keys In]. apply lookup_spec in E. split; [intuition|].
    intros [H|[<-|H]]; auto.
  - cbn [keys In]. tauto.
Qed.

Lemma save_nodup ws : forall s, NoDup (keys s) ->
  NoDup (keys (fold_left save_stopword ws s)) /\
  (NoDup ws -> (forall w, In w ws -> ~ In w (keys s)) ->
   warnings (fold_left save_stopword ws s) = warnings s /\
   zlen (keys (fold_left save_stopword ws s)) = zlen (keys s) + zlen ws).
Proof.
  induction ws as [|k ws IH]; intros s N; cbn [fold_left].
  - split; [assumption|]. intros _ _. split; [reflexivity|]. change (zlen (@nil (list Z))) with 0. lia.
  - unfold save_stopword at 2 4 6. destruct (lookup s k) eqn:E.
    + destruct (IH (mkstop (initialized s) (keys s) (warnings s ++ [k])) N) as [A _].
      split; [assumption|]. intros _ H. exfalso. apply lookup_spec in E.
      apply (H k); [left; reflexivity|assumption].
    + assert (N' : NoDup (k :: keys s)).
      { constructor; [|assumption]. rewrite <- lookup_spec. congruence. }
      destruct (IH (mkstop (initialized s) (k :: keys s) (warnings s)) N') as [A B].
      split; [assumption|]. intros Hd H. inversion Hd as [|? ? H1 H2]; subst.
      destruct B as [B1 B2]; [assumption| |].
      * intros w Hw [X|X]; [subst; contradiction|]. apply (H w); [right; assumption|assumption].
      * split; [assumption|]. rewrite B2. cbn [keys]. rewrite !zlen_cons. lia.
Qed.

Lemma init_ok uc NFC j j4 file ws :
  match file with Some f => words_in uc NFC j j4 (mkopt false false 0 true true) f = Ok ws
                | None => ws = default_stopword end ->
  exists s, init_stopwords uc NFC j j4 at_start file = Ok s /\ initialized s = true /\
  forall w, lookup s w = true <-> In w ws.
Proof.
  intros H. unfold init_stopwords, stopword_opt. cbn [initialized at_start].
  assert (E : match file with Some f => words_in uc NFC j j4 (mkopt false false 0 true true) f
              | None => Ok default_stopword end = Ok ws)
    by (destruct file; [assumption|subst; reflexivity]).
  rewrite E. cbn [obind]. eexists. split; [reflexivity|]. split; [reflexivity|].
  intros w. rewrite lookup_spec. cbn [keys]. rewrite save_keys. cbn [keys at_start In]. tauto.
Qed.

Lemma run_queries uc NFC j j4 s qs : initialized s = true -> forall calls,
  run uc NFC j j4 s (map Query qs ++ calls) =
  obind (run uc NFC j j4 s calls) (fun bs => Ok (map (lookup s) qs ++ bs)).
Proof.
  intros Hi calls. induction qs as [|q qs IH]; cbn [map app].
  - destruct (run uc NFC j j4 s calls); reflexivity.
  - cbn [run]. unfold is_stopword. rewrite Hi. cbn [negb obind]. rewrite IH.
    destruct (run uc NFC j j4 s calls); reflexivity.
Qed.

(** The words with which the table is initialised: those of the file, or the default. *)
Definition initial_words uc NFC j j4 (file : option (list Z)) : outcome (list (list Z)) :=
  match file with
  | Some f => words_in uc NFC j j4 (mkopt false false 0 true true) f
  | None => Ok default_stopword
  end.

(** C42: after initialisation the queries are answered by membership in the words. *)
Theorem C42_stopwords : forall uc NFC j j4 file ws qs,
  initial_words uc NFC j j4 file = Ok ws ->
  run uc NFC j j4 at_start (Init file :: map Query qs) =
  Ok (map (fun q => if in_dec (list_eq_dec Z.eq_dec) q ws then true else false) qs).
Proof.
  intros uc NFC j j4 file ws qs H.
  destruct (init_ok uc NFC j j4 file ws) as (s & E & Hi & Hl).
  { unfold initial_words in H. destruct file; [assumption|congruence]. }
  cbn [run]. rewrite E. cbn [obind].
  rewrite <- (app_nil_r (map Query qs)), run_queries by assumption. cbn [run obind].
  rewrite app_nil_r. f_equal. apply map_ext. intros q.
  destruct (in_dec _ q ws) as [I|I].
  - apply Hl. assumption.
  - destruct (lookup s q) eqn:Eq; [|reflexivity]. exfalso. apply I. apply Hl. assumption.
Qed.
Print Assumptions C42_stopwords.

(** A second initialisation is an error, whatever was asked before. *)
Theorem C42_initialised_twice : forall uc NFC j j4 file ws qs file' calls,
  initial_words uc NFC j j4 file = Ok ws ->
  run uc NFC j j4 at_start (Init file :: map Query qs ++ Init file' :: calls) =
  Fail "stopwords already initialized".
Proof.
  intros uc NFC j j4 file ws qs file' calls H.
  destruct (init_ok uc NFC j j4 file ws) as (s & E & Hi & _).
  { unfold initial_words in H. destruct file; [assumption|congruence]. }
  cbn [run]. rewrite E. cbn [obind]. rewrite run_queries by assumption.
  cbn [run]. unfold init_stopwords. rewrite Hi. reflexivity.
Qed.
Print Assumptions C42_initialised_twice.

(** A query before initialisation is an error. *)
Theorem C42_not_initialised : forall uc NFC j j4 q calls,
  run uc NFC j j4 at_start (Query q :: calls) = Fail "stopwords not initialized".
Proof. reflexivity. Qed.
Print Assumptions C42_not_initialised.

(** A file that cannot be read ends the program with that error. *)
Theorem C42_unreadable : forall uc NFC j j4 f calls,
  (forall ws, words_in uc NFC j j4 (mkopt false false 0 true true) f <> Ok ws) ->
  match words_in uc NFC j j4 (mkopt false false 0 true true) f with
  | Ok _ => False
  | Fail m => run uc NFC j j4 at_start (Init (Some f) :: calls) = Fail m
  | UB m => run uc NFC j j4 at_start (Init (Some f) :: calls) = UB m
  | OutOfFuel => run uc NFC j j4 at_start (Init (Some f) :: calls) = OutOfFuel
  end.
Proof.
  intros uc NFC j j4 f calls H. cbn [run]. unfold init_stopwords, stopword_opt. cbn [initialized at_start].
  destruct (words_in uc NFC j j4 (mkopt false false 0 true true) f) eqn:E; try reflexivity.
  exfalso. apply (H a). reflexivity.
Qed.
Print Assumptions C42_unreadable.

(** Every history is one of those covered. *)
Theorem C42_histories : forall calls : list call,
  calls = [] \/ (exists q l, calls = Query q :: l) \/
  (exists f qs, calls = Init f :: map Query qs) \/
  (exists f qs f' l, calls = Init f :: map Query qs ++ Init f' :: l).
Proof.
  intros [|[f|q] l]; [left; reflexivity| |right; left; eauto].
  right. right. induction l as [|[f'|q] l IH].
  - left. exists f, []. reflexivity.
  - right. exists f, [], f', l. reflexivity.
  - destruct IH as [(g & qs & E)|(g & qs & f' & l' & E)]; injection E as <- ->.
    + left. exists f, (q :: qs). reflexivity.
    + right. exists f, (q :: qs), f', l'. reflexivity.
Qed.
Print Assumptions C42_histories.

(** The default list has 110 different words; none is warned about. *)
Theorem C42_default : NoDup default_stopword /\ zlen default_stopword = 110 /\
  exists s, init_stopwords (mkuc (fun _ => CN) (fun c => c)) (fun s => s) [] [] at_start None = Ok s /\
  zlen (keys s) = 110 /\ warnings s = [].
Proof.
  assert (N : NoDup default_stopword).
  { assert (E : nodup (list_eq_dec Z.eq_dec) default_stopword = default_stopword)
      by (vm_compute; reflexivity).
    rewrite <- E. apply NoDup_nodup. }
  split; [assumption|]. split; [reflexivity|].
  eexists. split; [reflexivity|]. cbn [keys warnings].
  destruct (save_nodup default_stopword at_start (NoDup_nil _)) as [_ H].
  destruct H as [H1 H2]; [assumption|cbn; tauto|].
  rewrite H1, H2. auto.
Qed.
Print Assumptions C42_default.

Example C42_ex :
  let uc := mkuc (fun c => if c =? 32 then ZS else LL) (fun c => if (65 <=? c) && (c <=? 90) then c + 32 else c) in
  initial_words uc (fun s => s) [] [0; 0; 0; 0] (Some (bytes "The cat the")) =
    Ok [bytes "the"; bytes "cat"; bytes "the"] /\
  run uc (fun s => s) [] [0; 0; 0; 0] at_start
    [Init (Some (bytes "The cat the")); Query (bytes "the"); Query (bytes "The")] =
    Ok [true; false] /\
  run uc (fun s => s) [] [] at_start
    [Init None; Query (bytes "the"); Query (bytes "cat"); Query (bytes "")] =
    Ok [true; false; false].
Proof. repeat split; vm_compute; reflexivity. Qed.
