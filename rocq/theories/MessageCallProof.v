(** Proofs for MessageProps: calls that do not fail, or only for the stated reason. *)
From Coq Require Import String Permutation.
From Verif Require Import Base CLib CLibProof Utf8Model TextModel TextSpec TextIO CharclassModel SyncModel SortModel SortProof CompareModel WordModel AccModel AccrptModel AccSpec AccProof
  AccrptSafe StopModel LcsModel LcsSpec WacModel WacProps WacrptModel EdoModel EditopModel EditopDebugModel EditopProps TraceProps TransProps FreqModel NgramModel
  SynctextModel GroupModel NonstopModel DistModel CiModel VoteModel VoteSelModel VoteProps FastukkProps HeurProps CrashSpec CrashProof CrashProps ExitProps ReproProps MessageReadProof.
Local Open Scope Z_scope.
Local Open Scope list_scope.

(** ** Words *)
Lemma nf_boundary_loop fuel : forall l p, no_fail (boundary_loop fuel l p).
Proof.
  induction fuel as [|fu IH]; intros [|a [|b l]] p; cbn [boundary_loop]; try apply nf_ub; try apply nf_ok; try apply nf_fuel.
  cbv zeta. match goal with |- no_fail (if ?c then _ else _) => destruct c end; [apply IH|apply nf_ok].
Qed.
Lemma nf_boundary l : no_fail (find_next_boundary l).
Proof. unfold find_next_boundary. destruct l; [apply nf_ok|]. apply nf_bind; [apply nf_boundary_loop|intros; apply nf_ok]. Qed.
Lemma nf_between : forall l after, no_fail (encode_between l after).
Proof.
  induction l as [|c l IH]; intros after; cbn [encode_between]; match goal with |- no_fail (if ?b then _ else _) => destruct b end; try apply nf_ok; try apply nf_ub.
  cbv zeta. destruct (0 <? _); [|apply nf_ub]. apply nf_bind; [apply IH|intros; apply nf_ok].
Qed.
Lemma nf_append_word NFC l last : no_fail (append_word NFC l last).
Proof. unfold append_word. destruct last; [apply nf_ub|]. apply nf_bind; [apply nf_between|intros; apply nf_ok]. Qed.
Lemma nf_words_from uc NFC fuel : forall l ws, no_fail (find_words_from uc NFC fuel l ws).
Proof.
  induction fuel as [|fu IH]; intros l ws; cbn [find_words_from]; (apply nf_bind; [apply nf_boundary|]); intros [|a last] _; try apply nf_ok; try apply nf_fuel.
  apply nf_bind; [apply nf_rd|]. intros v _. apply nf_bind; [|intros; apply IH].
  destruct (is_word_start _ _); [|apply nf_ok]. apply nf_bind; [apply nf_append_word|intros; apply nf_ok].
Qed.
Lemma nf_find_words uc NFC ws t : no_fail (find_words uc NFC ws t).
Proof. apply nf_words_from. Qed.
Lemma words_fail uc NFC junk junk4 opt f msg : words_in uc NFC junk junk4 opt f = Fail msg -> read_text uc junk junk4 opt [] f = Fail msg.
Proof.
  unfold words_in. destruct (read_text _ _ _ _ _ _) as [[t h]|m| |]; cbn [obind]; intros E; try congruence. now apply nf_find_words in E.
Qed.

(** ** accuracy *)
Lemma nf_key_side uc : forall vs b, Forall codable vs -> no_fail (key_side uc b vs).
Proof.
  induction vs as [|v vs IH]; intros b C; cbn [key_side]; [apply nf_ok|]. apply Forall_cons_iff in C as [Cv C].
  apply nf_bind; [now apply nf_char_string|]. intros s _. unfold append. destruct (_ <? _).
  - destruct (_ <=? _); [apply nf_ok|apply nf_ub].
  - apply nf_bind; [destruct (_ <=? _); [apply nf_ok|apply nf_ub]|]. intros; now apply IH.
Qed.
Lemma sub_codable t s cs : codable_text t -> sub_chars t s = Ok cs -> Forall codable (map value cs).
Proof.
  intros C E. apply Forall_map. revert E. unfold sub_chars. apply (ofold_keeps (fun cs : list char => Forall (fun c => codable (value c)) cs)); [|constructor].
  intros acc i acc' Ca E. destruct (rd _ t i) as [c| | |] eqn:Er; cbn [obind] in E; bad E. injection E as <-. apply Forall_app. split; [exact Ca|].
  constructor; [|constructor]. apply rd_Ok in Er. apply znth_In in Er. unfold codable_text in C. rewrite Forall_forall in C. now apply C.
Qed.
Lemma nf_sub_chars t s : no_fail (sub_chars t s).
Proof. apply nf_ofold. intros acc i _. apply nf_bind; [apply nf_rd|intros; apply nf_ok]. Qed.
Lemma nf_process_item uc t0 t1 d it : codable_text t0 -> codable_text t1 -> no_fail (process_item uc t0 t1 d it).
Proof.
  intros C0 C1. unfold process_item. destruct (isubs it) as [|s0 [|s1 r]]; try apply nf_ub. cbv zeta.
  apply nf_bind; [apply nf_sub_chars|]. intros cs0 E0. apply nf_bind.
  { apply nf_ofold. intros [[d' ch] wild] c _. unfold count_correct_step. destruct (_ =? _); [apply nf_ok|]. apply nf_bind; [apply nf_add_class|intros; apply nf_ok]. }
  intros [[d' ch] wild] _. apply nf_bind; [apply nf_sub_chars|]. intros cs1 E1. destruct (count_generated cs1) as [re su].
  match goal with |- no_fail (if ?b then _ else _) => destruct b end; [apply nf_ok|]. match goal with |- no_fail (if ?b then _ else _) => destruct b end; [|apply nf_ok].
  apply nf_bind.
  - unfold make_key. apply nf_bind; [apply nf_key_side; eapply sub_codable; [|exact E0]; assumption|]. intros b0 _. apply nf_bind; [apply nf_key_side; eapply sub_codable; [|exact E1]; assumption|].
    intros b1 _. cbv zeta. destruct (_ <=? _); [apply nf_ok|apply nf_ub].
  - intros k _. match goal with |- no_fail (if ?b then _ else _) => destruct b end; apply nf_ok.
Qed.
Lemma accuracy_fail uc t0 t1 msg : codable_text t0 -> codable_text t1 -> accuracy_data uc t0 t1 = Fail msg ->
  msg = "text stream is too long"%string /\ 9223372036854775807 < zlen (map value t0).
Proof.
  intros C0 C1 E. unfold accuracy_data in E. pose proof (C20_fastukk_safe (map value t0) (map value t1)) as S. unfold MAX_F in S.
  destruct (Z.leb_spec (zlen (map value t0)) 9223372036854775807).
  - destruct (fastukk_sync _ _) as [l| | |]; try discriminate S. cbn [obind] in E. exfalso. revert E. apply nf_ofold. intros. now apply nf_process_item.
  - rewrite S in E. cbn [obind] in E. injection E as <-. auto.
Qed.

(** ** wordacc *)
Lemma nf_increment ws i c m : no_fail (increment_at ws i c m).
Proof. apply nf_bind; [apply nf_rd|intros; apply nf_wr]. Qed.
Lemma nf_process_term st t : no_fail (process_term st t).
Proof.
  destruct st as [[total len] occ]. unfold process_term. cbv zeta. apply nf_bind; [apply nf_increment|intros]. apply nf_bind; [apply nf_increment|intros].
  destruct occ; [|apply nf_ok]. apply nf_bind; [apply nf_increment|intros]. apply nf_bind; [apply nf_increment|intros; apply nf_ok].
Qed.
Lemma nf_phrases marks i : forall k r j ps, no_fail (phrases_from r marks i j k ps).
Proof.
  induction k as [|k IH]; intros r j ps; cbn [phrases_from]; [apply nf_ok|]. destruct (_ <? _); [|apply nf_ok].
  apply nf_bind; [apply nf_rd|]. intros b _. cbv zeta. apply nf_bind; [apply nf_increment|]. intros; apply IH.
Qed.
Lemma wordacc_fail stop order w0 w1 msg : wordacc stop order w0 w1 = Fail msg -> msg = "text stream is too long"%string /\ 65535 < zlen (shared w0 w1).
Proof.
  intros E. unfold wordacc in E. assert (zlen (shared w0 w1) <= 65535 \/ 65535 < zlen (shared w0 w1)) as [H|H] by lia.
  - destruct (C37_longest_common_subsequence w0 w1 H) as (marks & Em & _). rewrite Em in E. cbn [obind] in E. exfalso. revert E.
    unfold determine_wacdata. cbv zeta. destruct (fold_left _ _ _) as [st ns].
    apply nf_bind; [apply nf_ofold; intros; apply nf_process_term|]. intros [[total sw] o] _.
    apply nf_bind; [apply nf_ofold; intros; apply nf_process_term|]. intros [[total' nsw] o'] _.
    apply nf_bind; [apply nf_ofold; intros; apply nf_phrases|intros; apply nf_ok].
  - rewrite (C37_too_long w0 w1 H) in E. cbn [obind] in E. injection E as <-. auto.
Qed.

(** ** Distributions and intervals *)
Lemma nf_add_counts fuel : forall i a c l, no_fail (DistModel.add_counts fuel i a c l).
Proof.
  induction fuel as [|fu IH]; intros; cbn [DistModel.add_counts]; [apply nf_fuel|]. destruct (DoubleModel.fle _ _); [|apply nf_ok].
  apply nf_bind; [apply nf_rd|]. intros x _. apply nf_bind; [apply nf_wr|]. intros; apply IH.
Qed.
Lemma nf_update_dist d c m : no_fail (update_dist d c m).
Proof. unfold update_dist. destruct (_ =? _); [apply nf_ok|]. cbv zeta. apply nf_bind; [apply nf_add_counts|intros; apply nf_ok]. Qed.
Lemma nf_accuracy c m : no_fail (CiModel.accuracy c m).
Proof. unfold CiModel.accuracy. destruct (_ =? _); [apply nf_ub|apply nf_ok]. Qed.
Lemma nf_pseudo tc tm n nt : forall l sum, no_fail (pseudovalues tc tm n nt l sum).
Proof.
  induction l as [|[c m] l IH]; intros sum; cbn [pseudovalues]; [apply nf_ok|]. apply nf_bind; [apply nf_accuracy|]. intros th _. cbv zeta.
  apply nf_bind; [apply IH|]. intros [js s] _. apply nf_ok.
Qed.
Lemma count_some (l : list (Z * Z)) n : fold_left (fun n o => if 0 <? fst o then n + 1 else n) l n = n + zlen (filter (fun n => 0 <? n) (map fst l)).
Proof.
  revert n. induction l as [|[c m] l IH]; intros n; cbn [fold_left map filter fst]; [cbn; lia|]. rewrite IH. destruct (0 <? c); [rewrite zlen_cons|]; lia.
Qed.
Lemma ci_fail l msg : compute_ci l = Fail msg -> msg = "not enough observations"%string /\ zlen (filter (fun n => 0 <? n) (map fst l)) < 2.
Proof.
  intros E. unfold compute_ci in E. destruct (valid_obslist l) eqn:V; cbn [negb] in E.
  - exfalso. revert E. cbv zeta. apply nf_bind; [apply nf_accuracy|]. intros th _. apply nf_bind; [apply nf_pseudo|]. intros [js s] _. apply nf_ok.
  - injection E as <-. split; [reflexivity|]. unfold valid_obslist in V. rewrite count_some in V. lia.
Qed.

(** ** editop *)
Lemma loop_fail debug fuel msg : forall l d, moves_loop_shown debug fuel l d = Fail msg -> moves_loop fuel l d = Fail msg.
Proof.
  induction fuel as [|fu IH]; intros l d; cbn [moves_loop_shown moves_loop]; (destruct (1 <? zlen l); [|intros E; discriminate E]); [intros E; discriminate E|].
  destruct (find_candidates l) as [c|m| |]; cbn [obind]; try (intros E; congruence).
  destruct (find_move l c) as [s|m| |]; cbn [obind]; try (intros E; congruence).
  unfold perform_move_shown. destruct (perform_move l c s d) as [[l1 d1]|m| |]; cbn [obind]; try (intros E; congruence).
  intros E. match type of E with obind ?m _ = _ => assert (m = Fail msg \/ exists o, m = Ok (l1, d1, o)) as [N|[o Eo]] end.
  { destruct debug; [|right; eexists; reflexivity]. cbv zeta in E |- *. destruct (_ <=? _); [right; eexists; reflexivity|discriminate E]. }
  { exfalso. revert N. destruct debug; [cbv zeta; destruct (_ <=? _)|]; intros N; discriminate N. }
  rewrite Eo in E. cbn [obind] in E. unfold combine_adjacent_shown in E. destruct (combine_adjacent l1) as [l2|m| |]; cbn [obind] in E |- *; try congruence.
  destruct (moves_loop_shown debug fu l2 d1) as [[[l3 d3] o3]|m| |] eqn:El; cbn [obind] in E; try discriminate E. injection E as ->. now apply IH.
Qed.
Lemma nf_edit_operations debug t1 t2 : no_fail (edit_operations_shown debug t1 t2).
Proof.
  intros msg E. destruct (C23_transpose t1 t2) as (l1 & l2 & Et & _). destruct (C43_counts t1 t2 l1 l2 Et) as (d & Ed & _).
  unfold edit_operations_shown in E. unfold edit_operations in Ed. rewrite Et in E, Ed. cbn [obind] in E, Ed.
  destruct (count_insertions l1 t1 0) as [ins| | |]; cbn [obind] in *; try discriminate Ed.
  destruct (count_deletions l2 0) as [[del bs]| | |]; cbn [obind] in *; try discriminate Ed.
  unfold count_moves_shown, combine_adjacent_shown in E. unfold count_moves in Ed. destruct (combine_adjacent bs) as [l| | |]; cbn [obind] in *; try discriminate Ed.
  destruct (moves_loop_shown _ _ _ _) as [[[l3 d3] o3]|m| |] eqn:El; cbn [obind] in E; try discriminate E. apply loop_fail in El. rewrite El in Ed. discriminate Ed.
Qed.
Lemma nf_decrement d d2 : no_fail (decrement_edodata d d2).
Proof.
  apply nf_bind; [|intros; apply nf_ok]. apply nf_ofold. intros ms i _. apply nf_bind; [apply nf_rd|]. intros x _. apply nf_bind; [apply nf_rd|]. intros y _. apply nf_wr.
Qed.

(** ** ngram *)
Lemma get_n_fail v msg : get_n v = Fail msg -> msg = "invalid value"%string /\ exists s, v = Some s /\ s <> bytes "1" /\ s <> bytes "2" /\ s <> bytes "3".
Proof.
  unfold get_n. destruct v as [s|]; [|intros E; discriminate E]. intros E. assert (msg = "invalid value"%string) as ->.
  { revert E. unfold rd. destruct (znth _ 0); cbn [obind]; [|intros E; discriminate E]. destruct (_ && _); [|intros E; congruence].
    destruct (znth _ 1); cbn [obind]; [|intros E; discriminate E]. destruct (_ =? _); intros E; congruence. }
  split; [reflexivity|]. exists s. split; [reflexivity|]. repeat split; intros ->; discriminate E.
Qed.
Lemma nf_sequence uc : forall n l key v susp, codable_text l -> no_fail (sequence_at uc n l key v susp).
Proof.
  induction n as [|n IH]; intros l key v susp C; cbn [sequence_at]; [apply nf_ok|]. destruct l as [|c l]; [apply nf_ok|].
  apply Forall_cons_iff in C as [Cc C]. apply nf_bind; [now apply nf_char_string|]. intros s _. destruct (_ <=? _); [now apply IH|apply nf_ub].
Qed.
Lemma nf_process_text uc n : forall l t, codable_text l -> no_fail (process_text uc n t l).
Proof.
  induction l as [|c l IH]; intros t C; cbn [process_text]; [apply nf_ok|]. apply nf_bind; [now apply nf_sequence|].
  intros [[[k v] s]|] _; [|apply nf_ok]. apply IH. now apply Forall_cons_iff in C.
Qed.

(** ** vote *)
Lemma options_fail signed n opt s w msg : set_options signed n opt s w = Fail msg ->
  (msg = "invalid weight"%string /\ exists v, w = Some v /\ ~ exists m n, fraction v m n) \/
  (msg = "invalid threshold"%string /\ exists v, s = Some v /\ ~ exists m n, fraction v m n).
Proof.
  intros E. assert (forall v, valid_fraction signed v = Ok None -> ~ exists m n, fraction v m n) as V.
  { intros v Ev (m & k & F). rewrite (fraction_valid signed _ _ _ F) in Ev. discriminate Ev. }
  assert (forall v m, valid_fraction signed v <> Fail m) as NV by (intros v m; apply valid_no_fail).
  unfold set_options in E. cbv zeta in E. destruct w as [w|].
  - destruct (valid_fraction signed w) as [[[m k]|]|m| |] eqn:Ew; cbn [obind] in E; try discriminate E.
    + right. destruct s as [s|]; [|discriminate E]. destruct (valid_fraction signed s) as [[[m' k']|]|m'| |] eqn:Es; cbn [obind] in E; try discriminate E.
      * injection E as <-. eauto.
      * now apply NV in Es.
    + left. injection E as <-. eauto.
    + now apply NV in Ew.
  - right. cbn [obind] in E. destruct s as [s|]; [|discriminate E]. destruct (valid_fraction signed s) as [[[m' k']|]|m'| |] eqn:Es; cbn [obind] in E; try discriminate E.
    + injection E as <-. eauto.
    + now apply NV in Es.
Qed.
Lemma options_voters signed n opt s w st : set_options signed n opt s w = Ok st -> actual_voters st = if negb opt || (n <? 3) then n else 3.
Proof.
  unfold set_options. cbv zeta. intros E. match type of E with obind ?m _ = _ => destruct m as [[sw uw]| | |]; cbn [obind] in E; bad E end.
  destruct s as [s|]; [|now injection E as <-]. destruct (valid_fraction signed s) as [[[m' k']|]|m'| |]; cbn [obind] in E; try discriminate E. now injection E as <-.
Qed.
Lemma nf_pair uc : forall n l key r, codable_text l -> no_fail (pair_at uc n l key r).
Proof.
  induction n as [|n IH]; intros l key r C; cbn [pair_at]; [apply nf_ok|]. destruct l as [|c l]; [apply nf_ok|].
  apply Forall_cons_iff in C as [Cc C]. apply nf_bind; [now apply nf_char_string|]. intros s _. destruct (_ <=? _); [now apply IH|apply nf_ub].
Qed.
Lemma nf_bump i s : no_fail (VoteSelModel.bump i s).
Proof. apply nf_bind; [apply nf_rd|]. intros c _. apply nf_bind; [apply nf_wr|intros; apply nf_ok]. Qed.
Lemma nf_add_sequence key r i : forall t, no_fail (VoteSelModel.add_sequence t key r i).
Proof.
  induction t as [|s t IH]; cbn [VoteSelModel.add_sequence]; [apply nf_bind; [apply nf_bump|intros; apply nf_ok]|].
  destruct (list_eq_dec _ _ _); (apply nf_bind; [|intros; apply nf_ok]); [apply nf_bump|exact IH].
Qed.
Lemma nf_count_sequences uc i : forall l t, codable_text l -> no_fail (count_sequences uc t i l).
Proof.
  induction l as [|c l IH]; intros t C; cbn [count_sequences]; [apply nf_ok|]. apply nf_bind; [now apply nf_pair|].
  intros [[k r]|] _; [|apply nf_ok]. apply nf_bind; [apply nf_add_sequence|]. intros t' _. apply IH. now apply Forall_cons_iff in C.
Qed.
Lemma collects {A B} (f : A -> outcome B) : forall l acc r, ofold (fun acc x => let! y := f x in Ok (acc ++ [y])) l acc = Ok r -> zlen r = zlen acc + zlen l.
Proof.
  induction l as [|x l IH]; intros acc r E; cbn [ofold] in E; [injection E as <-; cbn; lia|].
  destruct (f x) as [y| | |]; cbn [obind] in E; bad E. apply IH in E. rewrite zlen_app, !zlen_cons in *. change (zlen (@nil B)) with 0 in E. lia.
Qed.
Lemma zlen_zrange lo n : zlen (zrange lo n) = Z.of_nat n.
Proof. revert lo. induction n as [|n IH]; intros lo; cbn [zrange]; [reflexivity|]. rewrite zlen_cons, IH. lia. Qed.
Lemma nf_median n s : 0 <= n -> no_fail (compute_median n s).
Proof.
  intros N. unfold compute_median. destruct (vreject s); [apply nf_ok|]. apply nf_bind.
  - apply nf_ofold. intros acc i _. apply nf_bind; [apply nf_rd|intros; apply nf_ok].
  - intros count E. apply (collects (fun i => rd "count[i]" (vcount s) i)) in E. rewrite zlen_zrange in E. change (zlen (@nil Z)) with 0 in E.
    replace n with (zlen count) by lia. apply nf_bind; [apply nf_sort|]. intros c _.
    destruct (Z.odd _); repeat (apply nf_bind; [apply nf_rd|intros]); apply nf_ok.
Qed.
Lemma nf_distance a i : no_fail (compute_distance a i).
Proof. apply nf_ofold. intros d s _. apply nf_bind; [apply nf_rd|]. intros c _. apply nf_ok. Qed.
Lemma nf_rank uc order voters : Forall codable_voter voters -> no_fail (rank_voters uc order voters).
Proof.
  intros C. unfold rank_voters. cbv zeta. apply nf_bind.
  { apply nf_ofold. intros t i _. apply nf_bind; [apply nf_rd|]. intros v Ev. apply nf_count_sequences. apply rd_Ok in Ev. apply znth_In in Ev.
    rewrite Forall_forall in C. exact (C v Ev). }
  intros table _. apply nf_bind.
  { apply nf_ofold. intros acc s _. apply nf_bind; [apply nf_median, zlen_nonneg|intros; apply nf_ok]. }
  intros array _. apply nf_bind.
  { apply nf_ofold. intros acc i _. apply nf_bind; [apply nf_rd|]. intros v _. apply nf_bind; [apply nf_distance|intros; apply nf_ok]. }
  intros vs Ev. assert (zlen vs = zlen voters) as L.
  { rewrite (ofold_ext _ (fun acc i => let! y := (let! v := rd "voter[index]" voters i in let! d := compute_distance array i in Ok (mkvoter (argnum v) (filename v) (vtext v) d)) in Ok (acc ++ [y]))) in Ev.
    - apply collects in Ev. rewrite zlen_zrange in Ev. change (zlen (@nil voter)) with 0 in Ev. pose proof (zlen_nonneg voters). lia.
    - intros acc i. rewrite !obind_assoc. destruct (rd _ voters i); cbn [obind]; try reflexivity. destruct (compute_distance array i); reflexivity. }
  rewrite <- L. apply nf_sort.
Qed.
Lemma nf_select uc order debug opt n voters : Forall codable_voter voters -> no_fail (select_voters uc order debug opt n voters).
Proof.
  intros C. unfold select_voters. apply nf_bind.
  { destruct opt; [|apply nf_ok]. apply nf_bind; [now apply nf_rank|intros; apply nf_ok]. }
  intros [p vs] _. apply nf_bind; [|intros; apply nf_ok]. apply nf_ofold. intros acc i _. apply nf_bind; [apply nf_rd|intros; apply nf_ok].
Qed.
Lemma select_number uc order debug opt n voters p input : 0 <= n -> select_voters uc order debug opt n voters = Ok (p, input) -> zlen input = n.
Proof.
  intros N E. unfold select_voters in E. match type of E with obind ?m _ = _ => destruct m as [[p' vs]| | |]; cbn [obind] in E; bad E end.
  match type of E with obind ?m _ = _ => destruct m as [inp| | |] eqn:Ei; cbn [obind] in E; bad E end. injection E as _ <-.
  rewrite (ofold_ext _ (fun acc i => let! y := (let! v := rd "voter[i]" vs i in Ok (vtext v)) in Ok (acc ++ [y]))) in Ei.
  - apply collects in Ei. rewrite zlen_zrange in Ei. change (zlen (@nil (list char))) with 0 in Ei. lia.
  - intros acc i. rewrite obind_assoc. destruct (rd _ vs i); reflexivity.
Qed.
Lemma nf_add_votes c v : forall cs room, no_fail (add_votes cs room c v).
Proof.
  induction cs as [|[x n] cs IH]; intros room; cbn [add_votes]; [destruct (_ <? _); [apply nf_ok|apply nf_ub]|].
  destruct (same_vote _ _); [apply nf_ok|]. apply nf_bind; [apply IH|intros; apply nf_ok].
Qed.
Lemma nf_place st cs c : no_fail (place_vote st cs c).
Proof. unfold place_vote. destruct c as [x|]; [destruct (_ =? _); [apply nf_ok|]|]; apply nf_add_votes. Qed.
Lemma nf_places st : forall n input subs cs, no_fail (place_votes st input subs n cs).
Proof.
  induction n as [|n IH]; intros input subs cs; cbn [place_votes]; [apply nf_ok|]. apply nf_bind; [apply nf_rd|]. intros t _. apply nf_bind; [apply nf_rd|]. intros s _.
  destruct (_ <=? _).
  - apply nf_bind; [apply nf_rd|]. intros c _. apply nf_bind; [apply nf_place|]. intros cs' _. apply nf_bind; [apply IH|]. intros [x y] _. apply nf_ok.
  - apply nf_bind; [apply nf_place|]. intros cs' _. apply nf_bind; [apply IH|]. intros [x y] _. apply nf_ok.
Qed.
Lemma nf_vote_item st : forall fuel input subs, no_fail (vote_item st fuel input subs).
Proof.
  induction fuel as [|fu IH]; intros input subs; cbn [vote_item]; [apply nf_fuel|]. apply nf_bind; [apply nf_places|]. intros [cs s] _.
  destruct (winner st cs); [|apply nf_ok]. apply nf_bind; [apply IH|intros; apply nf_ok].
Qed.
Lemma nf_perform st fuel input : forall l, no_fail (perform_vote st fuel input l).
Proof.
  induction l as [|x l IH]; cbn [perform_vote]; [apply nf_ok|]. apply nf_bind; [apply nf_vote_item|]. intros o _. apply nf_bind; [exact IH|intros; apply nf_ok].
Qed.
Lemma nf_vote_texts st input : 2 <= zlen input <= 16 -> no_fail (vote_texts st input).
Proof.
  intros N. unfold vote_texts. apply nf_bind; [|intros; apply nf_perform]. pose proof (C21_synchronize (map (map value) input)) as S.
  replace (zlen (map (map value) input)) with (zlen input) in S by (unfold zlen; now rewrite map_length).
  replace ((2 <=? zlen input) && (zlen input <=? 16)) with true in S by lia. destruct S as (l & -> & _). apply nf_ok.
Qed.
