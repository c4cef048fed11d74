(** Proofs about interrupted and failing runs. *)
From Coq Require Import String Permutation.
From Verif Require Import Base CLib CLibProof Utf8Model Utf8Proof TextModel TextSpec TextProof TextIO TextProps ReadProof SortModel SortProps SyncModel CompareModel DoubleModel WordModel
  UtilModel CharclassModel CharclassProof CharclassProps AccModel AccSpec ReportModel AccrptModel
  StopModel WacModel WacrptModel EdoModel EditopModel EditopDebugModel FreqModel NgramModel SynctextModel GroupModel NonstopModel DistModel CiModel
  VoteModel VoteSelModel MainModel MainIoModel CrashSpec.
Local Open Scope Z_scope.
Local Open Scope list_scope.

(** ** Computations that do not end with an error message *)
Definition no_fail {A} (x : outcome A) : Prop := forall msg, x <> Fail msg.
Lemma nf_ok {A} (a : A) : no_fail (Ok a). Proof. intros m E. discriminate E. Qed.
Lemma nf_ub {A} m : no_fail (@UB A m). Proof. intros m' E. discriminate E. Qed.
Lemma nf_fuel {A} : no_fail (@OutOfFuel A). Proof. intros m' E. discriminate E. Qed.
Lemma nf_bind {A B} (x : outcome A) (k : A -> outcome B) : no_fail x -> (forall a, x = Ok a -> no_fail (k a)) -> no_fail (obind x k).
Proof. intros H K m. destruct x as [a|m'| |]; cbn [obind]; [now apply K|exfalso; now apply (H m')|discriminate|discriminate]. Qed.
Lemma nf_rd {A} s (l : list A) i : no_fail (rd s l i).
Proof. unfold rd. destruct (znth l i); [apply nf_ok|apply nf_ub]. Qed.
Lemma nf_wr {A} s (l : list A) i x : no_fail (wr s l i x).
Proof. unfold wr. destruct (zset l i x); [apply nf_ok|apply nf_ub]. Qed.
Lemma nf_ofold {A S} (f : S -> A -> outcome S) l : (forall s x, In x l -> no_fail (f s x)) -> forall s, no_fail (ofold f l s).
Proof.
  induction l as [|x l IH]; intros H s; [apply nf_ok|]. cbn [ofold]. apply nf_bind; [apply H; now left|].
  intros a _. apply IH. intros; apply H; now right.
Qed.
Lemma nf_oconcat {A} (f : A -> outcome (list Z)) l : (forall x, In x l -> no_fail (f x)) -> no_fail (oconcat f l).
Proof. intros H. apply nf_ofold. intros s x I. apply nf_bind; [now apply H|]. intros; apply nf_ok. Qed.
Lemma nf_upto l : no_fail (upto_nul l).
Proof. induction l as [|x l IH]; cbn [upto_nul]; [apply nf_ub|]. destruct (x =? 0); [apply nf_ok|]. apply nf_bind; [exact IH|intros; apply nf_ok]. Qed.
Lemma nf_cstr b i : no_fail (cstr b i).
Proof. unfold cstr. destruct (_ && _); [apply nf_upto|apply nf_ub]. Qed.

Lemma sort_perm {A} (cmp : A -> A -> Z) a : exists a', sort cmp (zlen a) a = Ok a' /\ Permutation a a'.
Proof. destruct (C06_sort A cmp a) as (a' & E & P & _). eauto. Qed.
Lemma nf_sort {A} (cmp : A -> A -> Z) a : no_fail (sort cmp (zlen a) a).
Proof. destruct (sort_perm cmp a) as (a' & -> & _). apply nf_ok. Qed.

(** ** Characters that can be written *)
Definition codable (v : Z) : Prop := 0 <= v <= 1114111.
Lemma nf_encode v : codable v -> no_fail (encode_or_die v).
Proof. intros H. rewrite encode_or_die_ok by exact H. apply nf_ok. Qed.
Lemma nf_char_to_string uc b v fake : codable v -> no_fail (char_to_string uc b v fake).
Proof.
  intros H. unfold char_to_string. apply nf_bind; [destruct b; [apply nf_encode; unfold codable, SUSPECT_MARKER; lia|apply nf_ok]|].
  intros mark _. destruct (v =? NEWLINE); [apply nf_ok|]. destruct (is_graphic uc v).
  - apply nf_bind; [destruct (is_combining uc v); [apply nf_encode; unfold codable, DOTTED_CIRCLE; lia|apply nf_ok]|].
    intros base _. apply nf_bind; [now apply nf_encode|intros; apply nf_ok].
  - destruct (v <? 256); apply nf_ok.
Qed.
Lemma nf_char_out uc c : codable (value c) -> no_fail (char_out uc c).
Proof.
  intros H. apply nf_bind; [now apply nf_char_to_string|]. intros s _. destruct (_ <=? _); [apply nf_cstr|apply nf_ub].
Qed.
Lemma nf_char_string uc v : codable v -> no_fail (char_string uc v).
Proof.
  intros H. apply nf_bind; [now apply nf_char_to_string|]. intros s _. destruct (_ <=? _); [apply nf_cstr|apply nf_ub].
Qed.
Definition codable_text (t : list char) : Prop := Forall (fun c => codable (value c)) t.
Lemma nf_write_text uc t h : codable_text t -> no_fail (write_text uc t h).
Proof.
  intros H. apply nf_bind; [|intros; apply nf_ok]. apply nf_ofold. intros s x I.
  apply nf_bind; [|intros; apply nf_ok]. apply nf_char_out. unfold codable_text in H. rewrite Forall_forall in H. now apply H.
Qed.
Lemma codable_read uc line buf opt f t h : junk_ok line buf -> Forall is_byte f ->
  (case_insensitive opt = true -> forall c, scalar c -> scalar (tolower uc c)) ->
  read_text uc line buf opt [] f = Ok (t, h) -> codable_text t.
Proof.
  intros J B L R. pose proof (read_text_scalar uc line buf opt f t h J B L R) as T. unfold text_ok in T.
  eapply Forall_impl; [|exact T]. intros c [Hc _]. exact Hc.
Qed.

(** ** Reports *)
Lemma in_zrange x : forall n k, In x (zrange k n) -> k <= x < k + Z.of_nat n.
Proof.
  induction n as [|n IH]; intros k I; [contradiction|]. cbn [zrange] in I. destruct I as [->|I]; [lia|]. apply IH in I. lia.
Qed.

Ltac bad E := try match type of E with
  | Fail _ = Ok _ => discriminate E
  | UB _ = Ok _ => discriminate E
  | OutOfFuel = Ok _ => discriminate E
  end.

(** Only classes with names have figures. *)
Definition named (d : accdata) : Prop := forall k, ccount (large d k) <> 0 -> exists name, charclass_name k = Ok name.
Lemma charclass_named v k : charclass v = Ok k -> exists name, charclass_name k = Ok name.
Proof.
  intros E. destruct (Z.lt_ge_cases v 0) as [L|L]; [|destruct (Z.lt_ge_cases v 1114111) as [L'|L']].
  2: { destruct (C32_class_name v ltac:(lia)) as (c & name & Ec & _ & En & _). exists name. congruence. }
  all: exfalso; unfold charclass in E; destruct initialize_charclass; cbn [obind] in E; bad E; unfold NUM_CHARVALUES in E;
    replace ((0 <=? v) && (v <? 1114111)) with false in E by lia; discriminate E.
Qed.
Lemma named_empty : named acc_empty.
Proof. intros k H. cbn in H. congruence. Qed.
Lemma named_add d v c m d' : named d -> add_class d v c m = Ok d' -> named d'.
Proof.
  intros N E. unfold add_class in E. destruct (charclass v) as [k| | |] eqn:Ek; cbn [obind] in E; bad E.
  destruct (_ && _); [|discriminate E]. injection E as <-. intros j. cbn [large]. unfold upd.
  destruct (Z.eqb_spec j k) as [->|Nj]; [intros _; eapply charclass_named; exact Ek|apply N].
Qed.
Lemma named_same d d' : large d' = large d -> named d -> named d'.
Proof. intros E N k. rewrite E. apply N. Qed.
Lemma ofold_keeps {A S} (P : S -> Prop) (f : S -> A -> outcome S) : (forall s x s', P s -> f s x = Ok s' -> P s') ->
  forall l s s', P s -> ofold f l s = Ok s' -> P s'.
Proof.
  intros H. induction l as [|x l IH]; intros s s' Hs E; cbn [ofold] in E; [congruence|].
  destruct (f s x) as [s1| | |] eqn:Ef; cbn [obind] in E; bad E. eauto.
Qed.

Lemma named_accuracy uc t0 t1 d : accuracy_data uc t0 t1 = Ok d -> named d.
Proof.
  unfold accuracy_data. destruct (fastukk_sync _ _) as [l| | |]; cbn [obind]; try (intros X; discriminate X).
  apply ofold_keeps; [|apply named_empty]. clear. intros d it d' N E. unfold process_item in E.
  destruct (isubs it) as [|s0 [|s1 ss]]; bad E.
  destruct (sub_chars t0 s0) as [cs0| | |]; cbn [obind] in E; bad E.
  destruct (count_correct _ cs0 d) as [[[d1 ch] wild]| | |] eqn:Ec; cbn [obind] in E; bad E.
  assert (N1 : named d1).
  { change (named (fst (fst (d1, ch, wild)))). revert Ec. apply (ofold_keeps (fun st => named (fst (fst st)))); [|exact N].
    intros [[d0 ch0] w0] c st' N0 E0. unfold count_correct_step in E0. destruct (value c =? REJECT); [injection E0 as <-; exact N0|].
    destruct (add_class _ _ _ _) as [d2| | |] eqn:Ea; cbn [obind] in E0; bad E0. injection E0 as <-. cbn [fst] in *.
    eapply named_add; eauto. }
  destruct (sub_chars t1 s1) as [cs1| | |]; cbn [obind] in E; bad E.
  destruct (count_generated cs1) as [re su].
  destruct (match inum it with Some _ => true | None => false end).
  { injection E as <-. exact N1. }
  destruct (0 <? _); [|injection E as <-; exact N1].
  destruct (make_key _ _ _) as [key| | |]; cbn [obind] in E; bad E.
  destruct (0 <? re + su); injection E as <-; exact N1.
Qed.

Lemma named_conf_rows : forall fuel d st d' st', named d -> conf_rows fuel d st = Ok (d', st') -> named d'.
Proof.
  induction fuel as [|fuel IH]; intros d st d' st' N E; cbn [conf_rows] in E;
    destruct (read_scan _ _) as [[[[v1 v2]|] st1]| | |]; cbn [obind] in E; bad E; try (match type of E with Ok _ = Ok _ => injection E as <- <-; exact N end);
    destruct (cstr _ _); cbn [obind] in E; bad E. eapply IH; [|exact E]. exact N.
Qed.
Lemma named_class_rows : forall fuel d st d' st', named d -> class_rows fuel d st = Ok (d', st') -> named d'.
Proof.
  induction fuel as [|fuel IH]; intros d st d' st' N E; cbn [class_rows] in E;
    destruct (read_scan _ _) as [[[[v1 v2]|] st1]| | |]; cbn [obind] in E; bad E; try (match type of E with Ok _ = Ok _ => injection E as <- <-; exact N end);
    destruct (read_char _ _) as [v3| | |]; cbn [obind] in E; bad E; destruct (v3 =? _); bad E;
    destruct (add_class _ _ _ _) as [d1| | |] eqn:Ea; cbn [obind] in E; bad E.
  eapply IH; [|exact E]. eapply named_add; eauto.
Qed.
Lemma named_read line d f d' line' : named d -> read_accrpt line d f = Ok (d', line') -> named d'.
Proof.
  intros N E. unfold read_accrpt in E.
  repeat match type of E with
  | obind (if _ then _ else _) _ = _ => fail 1
  | obind ?e _ = _ => let X := fresh "X" in destruct e as [X| | |]; cbn [obind] in E; bad E; try (destruct X as [? X])
  end.
  match type of E with obind ?e _ = _ => destruct e as [[d1 st1]| | |] eqn:E1; cbn [obind] in E; bad E end.
  assert (N1 : named d1).
  { destruct (0 <? _); [|injection E1 as <- <-; exact N]. destruct (read_line _) as [[ok st2]| | |]; cbn [obind] in E1; bad E1.
    destruct ok; [|injection E1 as <- <-; exact N]. eapply named_conf_rows; [|exact E1]. exact N. }
  match type of E with obind ?e _ = _ => destruct e as [[d2 st2]| | |] eqn:E2; cbn [obind] in E; bad E end.
  assert (d' = d2) as -> by congruence. clear E.
  destruct (0 <? z); [|replace d2 with d1 by congruence; exact N1]. destruct (read_line st1) as [[ok st3]| | |]; cbn [obind] in E2; bad E2.
  destruct ok; [|replace d2 with d1 by congruence; exact N1]. eapply named_class_rows; [|exact E2]. exact N1.
Qed.

Lemma nf_accrpt uc fmt order d : named d -> no_fail (write_accrpt uc fmt order d).
Proof.
  intros N. unfold write_accrpt. apply nf_bind.
  { apply nf_oconcat. intros i _. unfold write_large. destruct (Z.ltb_spec 0 (ccount (large d i))); [|apply nf_ok].
    destruct (N i ltac:(lia)) as (name & ->). apply nf_ok. }
  intros classes _. apply nf_bind.
  { destruct (0 <? errors d); [|apply nf_ok]. apply nf_bind; [apply nf_sort|intros; apply nf_ok]. }
  intros confs _. apply nf_bind; [|intros; apply nf_ok].
  destruct (0 <? characters d); [|apply nf_ok]. apply nf_bind; [|intros; apply nf_ok].
  apply nf_oconcat. intros i I. apply in_zrange in I. unfold write_small. destruct (0 <? _); [|apply nf_ok].
  apply nf_bind; [|intros; apply nf_ok]. apply nf_char_string. unfold codable, NUM_CHARVALUES in *. lia.
Qed.

Lemma nf_group uc fmt8 d vs : no_fail (GroupModel.write_report uc fmt8 d vs).
Proof.
  apply nf_bind; [|intros [out tot] _; apply nf_ok]. generalize 0 at 1 as a. generalize 0 as b.
  induction vs as [|v vs IH]; intros b a; cbn [write_chars]; [apply nf_ok|].
  destruct ((0 <=? v) && (v <? NUM_CHARVALUES)) eqn:B; cbn [negb]; [|apply nf_ub].
  destruct (_ && negb (v =? NEWLINE)); [|apply IH]. apply nf_bind; [apply nf_char_string; unfold codable, NUM_CHARVALUES in *; lia|].
  intros s _. apply nf_bind; [apply IH|intros [out tot] _; apply nf_ok].
Qed.

Lemma nf_numbers fmt ws limit title e t : no_fail (write_numbers fmt ws limit title e t).
Proof.
  unfold write_numbers. apply nf_bind.
  { apply nf_oconcat. intros i _. apply nf_bind; [apply nf_rd|]. intros w _. destruct (0 <? wcount w); apply nf_ok. }
  intros rows _. apply nf_bind.
  { destruct e; [|apply nf_ok]. apply nf_bind; [apply nf_rd|]. intros w _. destruct (0 <? wcount w); apply nf_ok. }
  intros more _. apply nf_bind; [|intros; apply nf_ok]. destruct t; [|apply nf_ok]. apply nf_bind; [apply nf_rd|intros; apply nf_ok].
Qed.
Lemma nf_wacrpt fmt order d : no_fail (write_wacrpt fmt order d).
Proof.
  unfold write_wacrpt. do 3 (apply nf_bind; [apply nf_numbers|intros ? _]). apply nf_bind; [|intros; apply nf_ok].
  unfold WacrptModel.write_words. destruct (0 <? _); [|apply nf_ok]. apply nf_bind; [apply nf_numbers|intros ps _].
  apply nf_bind; [apply nf_rd|intros sw _].
  assert (T : forall l title, no_fail (write_terms fmt order l title)).
  { intros l title. unfold write_terms. apply nf_bind; [apply nf_sort|intros; apply nf_ok]. }
  apply nf_bind; [destruct (0 <? _); [apply T|apply nf_ok]|intros ss _]. apply nf_bind; [apply nf_rd|intros nsw _].
  apply nf_bind; [destruct (0 <? _); [apply T|apply nf_ok]|intros; apply nf_ok].
Qed.
Lemma nf_edorpt d : no_fail (write_edorpt d).
Proof.
  unfold write_edorpt. destruct (0 <? _); [|apply nf_ok]. apply nf_bind; [|intros; apply nf_ok].
  apply nf_oconcat. intros i _. apply nf_bind; [apply nf_rd|]. intros n _. destruct (0 <? n); apply nf_ok.
Qed.
Lemma nf_costs d : no_fail (EdoModel.write_results d).
Proof.
  unfold EdoModel.write_results. apply nf_bind; [|intros [[a b] c] _; apply nf_ok].
  apply nf_ofold. intros [[out ins] mov] i _. apply nf_bind; [apply nf_rd|intros; apply nf_ok].
Qed.
Lemma nf_dist fmt6 d : no_fail (write_dist fmt6 d).
Proof.
  unfold write_dist. destruct (_ =? 0); [apply nf_ok|]. apply nf_oconcat. intros i _. apply nf_bind; [apply nf_rd|intros; apply nf_ok].
Qed.
Lemma nf_freq order t : no_fail (FreqModel.write_report order t).
Proof. apply nf_bind; [apply nf_sort|intros a _]. apply nf_bind; [apply nf_sort|intros; apply nf_ok]. Qed.
Lemma nf_ngram order t : no_fail (NgramModel.write_report order t).
Proof. apply nf_bind; [apply nf_sort|intros a _]. apply nf_bind; [apply nf_sort|intros; apply nf_ok]. Qed.
Lemma nf_ci fmt14 fmtd a b l c m v : compute_ci l = Ok v -> no_fail (CiModel.write_results fmt14 fmtd a b l c m).
Proof. intros E. unfold CiModel.write_results. rewrite E. destruct v. apply nf_ok. Qed.

(** *** synctext *)
Lemma sub_chars_in t s cs : sub_chars t s = Ok cs -> incl cs t.
Proof.
  apply (ofold_keeps (fun acc => incl acc t)); [|intros x []].
  intros acc i acc' I E. destruct (rd _ t i) as [c| | |] eqn:Ec; cbn [obind] in E; bad E. injection E as <-.
  apply incl_app; [exact I|]. intros x [<-|[]]. apply rd_Ok in Ec. eapply znth_In; exact Ec.
Qed.
Lemma codable_in t c : codable_text t -> In c t -> codable (value c).
Proof. unfold codable_text. rewrite Forall_forall. auto. Qed.
Lemma nf_written uc show cs t : codable_text t -> incl cs t -> no_fail (oconcat (write_char uc show) cs).
Proof. intros C I. apply nf_oconcat. intros x Hx. apply nf_char_out. cbn [value]. eapply codable_in; [exact C|]. now apply I. Qed.
Lemma nf_transposed uc show l t : codable_text t -> no_fail (write_transposed uc show l t).
Proof.
  intros C. unfold write_transposed. apply nf_bind; [|intros; apply nf_ok]. apply nf_oconcat. intros it _.
  apply nf_bind; [destruct (isubs it); [apply nf_ub|apply nf_ok]|]. intros s _.
  apply nf_bind; [apply nf_ofold; intros acc i _; apply nf_bind; [apply nf_rd|intros; apply nf_ok]|].
  intros cs E. apply sub_chars_in in E. apply nf_bind; [eapply nf_written; eauto|]. intros body _. destruct (inum it); apply nf_ok.
Qed.
Lemma nf_suspect texts : forall ss i, no_fail (any_suspect texts ss i).
Proof.
  induction texts as [|t texts IH]; intros ss i; cbn [any_suspect]; [apply nf_ok|]. destruct ss as [|s ss]; [apply nf_ub|].
  apply nf_bind; [apply nf_rd|]. intros c _. destruct (suspect c); [apply nf_ok|apply IH].
Qed.
Lemma nf_matches uc show l texts : Forall codable_text texts -> no_fail (write_matches uc show l texts).
Proof.
  intros C. unfold write_matches. apply nf_bind; [|intros; apply nf_ok]. generalize 0. induction l as [|it l IH]; intros n; cbn [match_loop]; [apply nf_ok|].
  destruct (inum it).
  2: { apply nf_bind; [apply IH|intros; apply nf_ok]. }
  destruct texts as [|t texts]; [apply nf_ub|]. cbn [obind].
  destruct (isubs it) as [|s0 ss] eqn:Es; [apply nf_ub|]. cbn [obind].
  apply nf_bind.
  { apply nf_oconcat. intros i _. apply nf_bind; [destruct show; [apply nf_suspect|apply nf_ok]|]. intros b _.
    apply nf_bind; [apply nf_rd|]. intros c Ec. apply nf_char_out. cbn [value]. apply rd_Ok in Ec. eapply codable_in; [|eapply znth_In; exact Ec].
    now inversion C. }
  intros out _. apply nf_bind; [apply IH|intros; apply nf_ok].
Qed.
Lemma nf_differences uc show l nts : Forall (fun nt => codable_text (snd nt)) nts -> no_fail (write_differences uc show l nts).
Proof.
  intros C. unfold write_differences. destruct (_ <? _); [apply nf_ub|]. generalize (fold_left (fun m nt => Z.max m (zlen (fst nt))) nts 0) as w. intros w.
  generalize 0. induction l as [|it l IH]; intros n; cbn [difference_loop]; [apply nf_ok|]. destruct (inum it); [apply IH|].
  apply nf_bind; [|intros out _; apply nf_bind; [apply IH|intros; apply nf_ok]].
  generalize (isubs it). clear IH. induction C as [|[nm t] nts Ct C IHn]; intros ss; cbn [difference_texts]; [apply nf_ok|].
  destruct ss as [|s ss]; [apply nf_ub|]. apply nf_bind; [|intros out _; apply nf_bind; [apply IHn|intros; apply nf_ok]].
  unfold write_difference. cbn [snd fst]. apply nf_bind; [apply nf_ofold; intros acc i _; apply nf_bind; [apply nf_rd|intros; apply nf_ok]|].
  intros cs E. apply sub_chars_in in E. apply nf_bind; [|intros; apply nf_ok]. apply nf_oconcat. intros c Hc.
  apply nf_bind; [|intros; apply nf_ok]. apply nf_char_out. cbn [value]. eapply codable_in; [exact Ct|]. now apply E.
Qed.

(** *** vote *)
Definition codable_vote (x : option char * Z) : Prop := match fst x with Some c => codable (value c) | None => True end.
Lemma votes_codable c n : forall cs room cs', Forall codable_vote cs -> codable_vote (c, n) -> add_votes cs room c n = Ok cs' -> Forall codable_vote cs'.
Proof.
  induction cs as [|[x k] cs IH]; intros room cs' F H E; cbn [add_votes] in E.
  - destruct (0 <? room); [|discriminate E]. injection E as <-. now constructor.
  - inversion F; subst. destruct (same_vote c x); [injection E as <-; constructor; assumption|].
    destruct (add_votes cs (room - 1) c n) as [cs1| | |] eqn:E1; cbn [obind] in E; bad E. injection E as <-.
    constructor; [assumption|]. eapply IH; eauto.
Qed.
Lemma place_codable st cs c cs' : Forall codable_vote cs -> codable_vote (c, 0) -> place_vote st cs c = Ok cs' -> Forall codable_vote cs'.
Proof.
  intros F H E. unfold place_vote in E. destruct c as [c|]; [destruct (value c =? REJECT); [congruence|]|];
    eapply votes_codable; try exact E; try exact F; exact H.
Qed.
Lemma places_codable st : forall n input subs cs cs' subs', Forall codable_text input -> Forall codable_vote cs ->
  place_votes st input subs n cs = Ok (cs', subs') -> Forall codable_vote cs'.
Proof.
  induction n as [|n IH]; intros input subs cs cs' subs' Ci Cc E; cbn [place_votes] in E; [congruence|].
  destruct (rd _ input 0) as [text| | |] eqn:Et; cbn [obind] in E; bad E.
  destruct (rd _ subs 0) as [s| | |]; cbn [obind] in E; bad E.
  assert (Ct : codable_text text). { apply rd_Ok in Et. apply znth_In in Et. rewrite Forall_forall in Ci. now apply Ci. }
  assert (Ct' : Forall codable_text (tl input)) by (destruct input; [constructor|now inversion Ci]).
  destruct (SyncModel.start s <=? stop s).
  - destruct (rd _ text (SyncModel.start s)) as [c| | |] eqn:Ec; cbn [obind] in E; bad E.
    destruct (place_vote st cs (Some c)) as [cs1| | |] eqn:E1; cbn [obind] in E; bad E.
    destruct (place_votes st (tl input) (tl subs) n cs1) as [[cs2 subs2]| | |] eqn:E2; cbn [obind] in E; bad E.
    injection E as <- <-. eapply IH; [exact Ct'| |exact E2]. eapply place_codable; [exact Cc| |exact E1].
    unfold codable_vote. cbn [fst]. apply rd_Ok in Ec. apply znth_In in Ec. eapply codable_in; eauto.
  - destruct (place_vote st cs None) as [cs1| | |] eqn:E1; cbn [obind] in E; bad E.
    destruct (place_votes st (tl input) (tl subs) n cs1) as [[cs2 subs2]| | |] eqn:E2; cbn [obind] in E; bad E.
    injection E as <- <-. eapply IH; [exact Ct'| |exact E2]. eapply place_codable; [exact Cc| |exact E1]. exact I.
Qed.
Lemma leader_in : forall cs x, In (find_leader cs x) (x :: cs).
Proof.
  induction cs as [|y cs IH]; intros x; cbn [find_leader]; [now left|]. destruct (snd x <? snd y).
  - right. apply IH.
  - destruct (IH x) as [E|E]; [left; exact E|right; right; exact E].
Qed.
Lemma winner_codable st cs c : Forall codable_vote cs -> winner st cs = Some c -> codable (value c).
Proof.
  intros F E. destruct cs as [|x cs]; cbn [winner] in E; [injection E as <-; unfold codable, REJECT; cbn; lia|].
  pose proof (leader_in cs x) as L. destruct (find_leader cs x) as [c0 votes]. rewrite Forall_forall in F. apply F in L.
  destruct c0 as [c0|]; [|discriminate E]. injection E as <-. exact L.
Qed.
Lemma item_codable st : forall fuel input subs out, Forall codable_text input -> vote_item st fuel input subs = Ok out -> codable_text out.
Proof.
  induction fuel as [|fuel IH]; intros input subs out Ci E; cbn [vote_item] in E; [discriminate E|].
  destruct (place_votes st input subs _ []) as [[cs subs1]| | |] eqn:E1; cbn [obind] in E; bad E.
  pose proof (places_codable st _ _ _ _ _ _ Ci (Forall_nil _) E1) as Cc.
  destruct (winner st cs) as [c|] eqn:W; [|injection E as <-; constructor].
  destruct (vote_item st fuel input subs1) as [o| | |] eqn:E2; cbn [obind] in E; bad E. injection E as <-.
  constructor; [exact (winner_codable st cs c Cc W)|]. eapply IH; eauto.
Qed.
Lemma perform_codable st fuel input : Forall codable_text input -> forall l out, perform_vote st fuel input l = Ok out -> codable_text out.
Proof.
  intros Ci. induction l as [|it l IH]; intros out E; cbn [perform_vote] in E; [injection E as <-; constructor|].
  destruct (vote_item st fuel input (isubs it)) as [o| | |] eqn:E1; cbn [obind] in E; bad E.
  destruct (perform_vote st fuel input l) as [o2| | |]; cbn [obind] in E; bad E. injection E as <-.
  apply Forall_app. split; [eapply item_codable; eauto|now apply IH].
Qed.
Lemma texts_codable st input out : Forall codable_text input -> vote_texts st input = Ok out -> codable_text out.
Proof.
  intros Ci E. unfold vote_texts in E. destruct (synchronize _) as [l| | |]; cbn [obind] in E; bad E.
  eapply perform_codable; eauto.
Qed.

(** ** The shape of a run: it reads files and prints, then opens its destination and writes *)
Section Shape.
Variable sys : system.

Definition calm (names : list Z -> Prop) (a : action) : Prop :=
  match a with Reads n => names n | Opens _ => False | Puts d _ => d = None end.
Definition reader (names : list Z -> Prop) {A} (m : io A) : Prop := Forall (calm names) (fst m).
Definition shape (names : list Z -> Prop) (dest : option (list Z)) {A} (m : io A) : Prop :=
  exists pre, Forall (calm names) pre /\
    (fst m = pre \/
     (exists a c, m = (pre ++ [Opens dest; Puts dest c], Ok a)) \/
     (fst m = pre ++ [Opens dest] /\ (forall a, snd m <> Ok a) /\ no_fail (snd m))).

Lemma reader_lift names {A} (o : outcome A) : reader names (lift o).
Proof. constructor. Qed.
Lemma reader_bind names {A B} (m : io A) (k : A -> io B) : reader names m -> (forall a, snd m = Ok a -> reader names (k a)) -> reader names (ibind m k).
Proof.
  unfold reader, ibind. intros H K. destruct (snd m) as [a| | |] eqn:E; cbn [fst]; auto. apply Forall_app. auto.
Qed.
Lemma reader_open (names : list Z -> Prop) n : names n -> reader names (open_io sys n).
Proof. intros H. unfold open_io. destruct (contents sys n); [constructor; [exact H|constructor]|apply reader_lift]. Qed.
Lemma reader_say names b : reader names (say b).
Proof. constructor; [reflexivity|constructor]. Qed.
Lemma reader_fold (names : list Z -> Prop) {A S} (step : S -> A -> io S) l : (forall s x, In x l -> reader names (step s x)) -> forall s, reader names (iofold step l s).
Proof.
  induction l as [|x l IH]; intros H s; [apply reader_lift|]. cbn [iofold]. apply reader_bind; [apply H; now left|].
  intros a _. apply IH. intros; apply H; now right.
Qed.
Lemma reader_reading (names : list Z -> Prop) {S} (step : S -> list Z -> outcome S) s n : names n -> reader names (reading_io sys step s n).
Proof. intros H. apply reader_bind; [now apply reader_open|]. intros; apply reader_lift. Qed.
Lemma reader_all (names : list Z -> Prop) {S} (step : S -> list Z -> outcome S) l s : (forall n, In n l -> names n) -> reader names (iofold (reading_io sys step) l s).
Proof. intros H. apply reader_fold. intros st n I. apply reader_reading. auto. Qed.

Lemma shape_reader names dest {A} (m : io A) : reader names m -> shape names dest m.
Proof. intros H. exists (fst m). split; [exact H|]. now left. Qed.
Lemma shape_bind names dest {A B} (m : io A) (k : A -> io B) : reader names m -> (forall a, snd m = Ok a -> shape names dest (k a)) -> shape names dest (ibind m k).
Proof.
  intros H K. unfold ibind. destruct (snd m) as [a| | |] eqn:E; try (apply shape_reader; exact H).
  destruct (K a eq_refl) as (pre & F & [S|[(b & c & S)|(S1 & S2)]]); exists (fst m ++ pre); (split; [apply Forall_app; auto|]); cbn [fst snd].
  - left. now rewrite S.
  - right. left. exists b, c. rewrite S. cbn [fst snd]. now rewrite app_assoc.
  - right. right. rewrite S1, app_assoc. auto.
Qed.
Lemma shape_write names dest content : no_fail content -> shape names dest (write_io sys dest content).
Proof.
  intros N. unfold write_io.
  assert (H : shape names dest (let* _ := ([Opens dest], Ok tt) in let* c := lift content in ([Puts dest c], Ok tt))).
  { exists []. split; [constructor|]. unfold ibind, lift. cbn [fst snd app].
    destruct content as [c|m|m|]; cbn [fst snd app]; [right; left; eauto|exfalso; now apply (N m)|right; right|right; right];
      (split; [reflexivity|]); (split; [intros a E; discriminate E|intros m' E; discriminate E]). }
  destruct dest as [name|]; [|exact H]. destruct (writable sys name); [exact H|]. apply shape_reader, reader_lift.
Qed.
Lemma shape_print names content : no_fail content -> shape names None (print_io sys content).
Proof. apply shape_write. Qed.
(** The end of main *)
Lemma shape_end names dest (m : io unit) : shape names dest m -> shape names dest (let* _ := m in lift (Ok Completed)).
Proof.
  intros (pre & F & H). exists pre. split; [exact F|]. unfold ibind. destruct H as [S|[(b & c & S)|(S1 & S2 & S3)]].
  - left. destruct (snd m); cbn [fst lift]; rewrite ?app_nil_r; exact S.
  - right. left. exists Completed, c. rewrite S. cbn [fst snd lift]. now rewrite app_nil_r.
  - right. right. destruct (snd m) as [a|msg|msg|]; cbn [fst snd]; [exfalso; now apply (S2 a)|exfalso; now apply (S3 msg)| |];
      (split; [exact S1|]); (split; [intros a E; discriminate E|intros m' E; discriminate E]).
Qed.

(** *** What the shape says *)
Lemma put_app d a b : put d (a ++ b) = put d a ++ put d b.
Proof. unfold put. apply flat_map_app. Qed.
Lemma prefix_refl l : prefix l l. Proof. exists []. now rewrite app_nil_r. Qed.
Lemma prefix_trans a b c : prefix a b -> prefix b c -> prefix a c.
Proof. intros [q ->] [q' ->]. exists (q ++ q'). now rewrite app_assoc. Qed.
Lemma prefix_app a b : prefix a (a ++ b). Proof. now exists b. Qed.

Lemma shape_opens names dest {A} (m : io A) d : shape names dest m -> In (Opens d) (fst m) -> d = dest.
Proof.
  intros (pre & F & H) I. rewrite Forall_forall in F. assert (P : ~ In (Opens d) pre) by (intros J; exact (F _ J)).
  destruct H as [S|[(b & c & S)|(S & _)]]; rewrite S in I; cbn [fst] in I; [contradiction| |];
    apply in_app_or in I as [I|I]; try contradiction; cbn [In] in I; destruct I as [I|I]; try congruence; try contradiction.
  destruct I as [I|I]; [discriminate I|contradiction].
Qed.

Lemma shape_interruptible names dest (run : io finish) : shape names dest run -> interruptible sys (fun n => dest = Some n) run.
Proof.
  intros Sh r (done & rest & E & So & Fi). split.
  - intros r' _ [L _]. rewrite L, E, put_app. eapply prefix_trans; [exact So|apply prefix_app].
  - intros n. destruct (Fi n) as [[_ H]|[I (p & Ep & Pp)]]; [now left|]. right. split.
    { symmetry. eapply shape_opens; [exact Sh|]. rewrite E. apply in_or_app. now left. }
    exists p. split; [exact Ep|]. intros r' _ [_ L]. exists (put (Some n) (fst run)).
    split; [apply L; rewrite E; apply in_or_app; now left|]. rewrite E, put_app. eapply prefix_trans; [exact Pp|apply prefix_app].
Qed.

Lemma shape_failure names dest (run : io finish) : shape names dest run -> harmless_failure sys run.
Proof.
  intros (pre & F & H) msg E. rewrite Forall_forall in F.
  assert (P : forall d, ~ In (Opens d) (fst run)).
  { intros d J. destruct H as [S|[(b & c & S)|(_ & _ & S)]]; [rewrite S in J; exact (F _ J)|rewrite S in E; discriminate E|exact (S msg E)]. }
  split; [exact P|]. intros r [[_ L]|(done & rest & Ea & _ & Fi)] n.
  - destruct (L n) as [_ L2]. apply L2, P.
  - destruct (Fi n) as [[_ X]|[I _]]; [exact X|]. exfalso. apply (P (Some n)). rewrite Ea. apply in_or_app. now left.
Qed.

Lemma shape_reads names dest (run : io finish) : shape names dest run -> reads_only names run.
Proof.
  intros (pre & F & H). rewrite Forall_forall in F. split.
  - intros n I. destruct H as [S|[(b & c & S)|(S & _)]]; rewrite S in I; cbn [fst] in I; [exact (F _ I)| |];
      (apply in_app_or in I as [I|I]; [exact (F _ I)|]); destruct I as [I|I]; try discriminate I; try contradiction.
    destruct I as [I|I]; [discriminate I|contradiction].
  - intros before d after E n I.
    assert (P : forall l, (forall n, ~ In (Reads n) l) -> pre ++ l = before ++ Opens d :: after -> False).
    { intros l Hl El. destruct (app_eq_app _ _ _ _ El) as (m & [[E1 E2]|[E1 E2]]).
      - subst pre. destruct m as [|a m]; cbn [app] in E2.
        + subst l. apply (Hl n). now right.
        + injection E2 as <- E2. apply (F (Opens d)). apply in_or_app. right. now left.
      - subst l. apply (Hl n). apply in_or_app. right. now right. }
    destruct H as [S|[(b & c & S)|(S & _)]]; rewrite S in E; cbn [fst] in E.
    + rewrite <- (app_nil_r pre) in E. apply (P [] (fun n => in_nil (a := Reads n)) E).
    + refine (P _ _ E). intros k [X|[X|[]]]; discriminate X.
    + refine (P _ _ E). intros k [X|[]]; discriminate X.
Qed.
End Shape.
