(** Command lines, files and texts for whole programs. *)
From Coq Require Import String.
From Verif Require Import Base CLib CLibProof Utf8Model TextModel TextSpec TextProof TextIO TextProps ReadProof ReportProof UtilModel UtilProps ArgsProps
  AccSpec AccrptModel WordModel WordSpec WordProps SynctextProof MainModel MainSpec.
Local Open Scope Z_scope.
Local Open Scope list_scope.

(** ** Command lines *)
Lemma written_not_nil items : items <> [] -> List.concat (map written items) <> [].
Proof. destruct items as [|[]]; cbn; try congruence; intros _; discriminate. Qed.

Lemma run_main_items table items argv body :
  good_table table -> command_line table items argv ->
  exists vars, vars_ok table items vars /\
    run_main table argv body = let! r := body (plain_args items) vars in Ok (Done r).
Proof.
  intros G (program & -> & Lp & Ne & A & N & R & L).
  destruct (C56_accepted true table program items G A N R L) as (vars & E & V).
  { left. now apply written_not_nil. }
  exists vars. split; [exact V|]. unfold run_main.
  change (rd "argv[0]" (program :: List.concat (map written items)) 0) with (Ok program). cbn [obind].
  destruct (C57_base_partial program Lp) as (base & Eb & _). rewrite Eb. cbn [obind]. rewrite E. reflexivity.
Qed.

Lemma Forall2_get {A B} (P : A -> B -> Prop) l l' : Forall2 P l l' -> forall i x, znth l i = Some x ->
  exists y, znth l' i = Some y /\ P x y.
Proof.
  induction 1 as [|x y l l' H F IH]; intros i z E.
  - apply znth_Some_lt in E. unfold zlen in E. cbn [List.length] in E. lia.
  - pose proof (znth_Some_lt _ _ _ E) as Bi. destruct (Z.eq_dec i 0) as [->|N].
    + rewrite znth_cons_0 in E. rewrite znth_cons_0. injection E as <-. eauto.
    + rewrite znth_cons_S in E by lia. rewrite znth_cons_S by lia. auto.
Qed.
Lemma utf8s_bytes cs : Forall scalar cs -> Forall is_byte (utf8s cs).
Proof.
  induction 1 as [|c cs S F IH]; [constructor|]. cbn [utf8s flat_map]. apply Forall_app. split; [|exact IH].
  destruct (Utf8Proof.iterate_complete c [] S) as (B & _). exact B.
Qed.
Lemma vars_at table items vars i e : vars_ok table items vars -> znth table i = Some e ->
  exists v, rd "option" vars i = Ok v /\ var_ok items e v.
Proof.
  intros V E. destruct (Forall2_get _ _ _ V i e E) as (v & Ev & H). exists v. split; [|exact H]. now apply rd_Ok.
Qed.
Lemma flag_at table items vars i c : vars_ok table items vars -> znth table i = Some (MainModel.flag_option c) ->
  exists b, flag_of vars i = Ok b /\ says_flag items c b.
Proof.
  intros V E. destruct (vars_at table items vars i _ V E) as (v & Ev & _ & H). unfold flag_of. rewrite Ev. eexists. split; [reflexivity|exact H].
Qed.
Lemma value_at table items vars i c : vars_ok table items vars -> znth table i = Some (string_option c) ->
  exists v, string_of vars i = Ok v /\ says_value items c v.
Proof.
  intros V E. destruct (vars_at table items vars i _ V E) as (v & Ev & H & _). unfold string_of. rewrite Ev. eexists. split; [reflexivity|exact H].
Qed.

(** Flags and values are determined by the command line. *)
Lemma says_flag_fun items c b b' : says_flag items c b -> says_flag items c b' -> b = b'.
Proof. unfold says_flag. intros H H'. destruct b, b'; intuition congruence. Qed.
Lemma says_value_fun items c v v' : says_value items c v -> says_value items c v' -> v = v'.
Proof.
  unfold says_value. intros H H'. destruct v as [s|], v' as [s'|]; [|specialize (H s)|specialize (H' s')|reflexivity].
  - specialize (H s'). specialize (H' s'). intuition congruence.
  - specialize (H' s). intuition congruence.
  - specialize (H s'). intuition congruence.
Qed.

Lemma good_flags table : NoDup (map ename table) ->
  Forall (fun e => ename e <> 0 /\ (e = MainModel.flag_option (ename e) \/ e = string_option (ename e))) table -> good_table table.
Proof.
  intros N F. split; [exact N|]. rewrite Forall_forall in F. intros e He. destruct (F e He) as (Z0 & [E|E]);
    (split; [exact Z0|]); rewrite E in He; [left|right]; exact He.
Qed.

(** ** Files *)
Lemma open_file sys name f : has_file sys name f -> open_read sys name = Ok f.
Proof. intros H. unfold open_read. now rewrite H. Qed.

Lemma reading_all {S} sys (step : S -> list Z -> outcome S) names files : Forall2 (has_file sys) names files ->
  forall st, ofold (reading sys step) names st = ofold step files st.
Proof.
  induction 1 as [|n f names files H F IH]; intros st; [reflexivity|]. cbn [ofold]. unfold reading at 1.
  rewrite (open_file sys n f H). cbn [obind]. destruct (step st f); cbn [obind]; auto.
Qed.

Lemma write_delivered sys dest printed c : can_deliver sys dest ->
  exists r, write_to sys dest printed (Ok c) = Ok r /\ delivered sys dest printed c r.
Proof.
  unfold write_to, delivered, can_deliver. destruct dest as [name|].
  - intros ->. cbn [obind]. eexists. split; [reflexivity|]. cbn [standard_output files_after]. unfold update. split; [reflexivity|]. split.
    + destruct (list_eq_dec Z.eq_dec name name); [reflexivity|contradiction].
    + intros n Hn. destruct (list_eq_dec Z.eq_dec n name); [contradiction|reflexivity].
  - intros _. cbn [obind]. eexists. split; [reflexivity|]. auto.
Qed.

Lemma third_with n0 n1 dest : third (with_third [n0; n1] dest) = dest.
Proof. destruct dest; reflexivity. Qed.
Lemma zlen_with_third n0 n1 dest : (zlen (with_third [n0; n1] dest) <? 2) || (3 <? zlen (with_third [n0; n1] dest)) = false.
Proof. destruct dest; reflexivity. Qed.

(** ** Texts *)
Lemma read_stands_for uc line buf lower body t : junk_ok line buf ->
  stands_for uc lower body t -> read_text uc line buf (mkopt false true 0 true lower) [] body = Ok (t, false).
Proof.
  intros J (cs & raw & norm & S & E & M & N & Et).
  assert (Hf : Forall is_byte body). { subst body. apply utf8s_bytes. exact S. }
  destruct J as [J1 J2].
  destruct (read_text_ok uc line buf (mkopt false true 0 true lower) [] body eq_refl Hf J2) as [(cs' & S' & E' & R)|[Nn _]].
  2: { exfalso. now apply (Nn cs). }
  assert (cs' = cs) as -> by (apply utf8s_inj; congruence).
  rewrite R. unfold post. cbn [normalize case_insensitive find_markers].
  change (marker_of (mkopt false true 0 true lower)) with 94.
  apply marked_fun in M. apply normalised_cl in N. subst t norm raw. cbn [app]. now destruct lower.
Qed.

Lemma read_file_text uc line buf lower f h t : junk_ok line buf -> Forall is_byte f ->
  file_text uc lower f h t -> read_text uc line buf (mkopt true true 0 true lower) [] f = Ok (t, h).
Proof.
  intros J Hf (body & B & T). pose proof (read_stands_for uc line buf lower body t J T) as R.
  destruct h; cbn [body_of] in B.
  - destruct B as (title & lines & E & H1 & H2 & H3 & H4). subst f.
    rewrite (C13_header uc line buf (mkopt true true 0 true lower) [] title lines body J Hf eq_refl H1 H2 H3 H4).
    cbn [find_markers suspect_marker normalize case_insensitive]. rewrite R. reflexivity.
  - destruct B as [B ->]. rewrite (C13_no_header uc line buf (mkopt true true 0 true lower) [] f J eq_refl B). exact R.
Qed.

Lemma title_dec f : starts_with title_start f \/ ~ starts_with title_start f.
Proof.
  pose proof (title_match title_start [] f (List.length title_start) title_start_chars ltac:(lia)) as T.
  destruct (strneq _ _ _); [left|right]; intuition congruence.
Qed.

(** Only a file that starts with the title has a header. *)
Lemma read_flag uc line buf opt f t h : junk_ok line buf -> find_header opt = true ->
  read_text uc line buf opt [] f = Ok (t, h) -> (h = true <-> starts_with title_start f).
Proof.
  intros [J1 J2] Hh R. destruct (title_dec f) as [St|St].
  - destruct (read_header_yes line f J1 St) as (l & _ & E).
    unfold read_text in R. rewrite Hh, E in R. destruct (skip_header _ _ _ _); cbn [obind] in R; try discriminate R.
    destruct (read_contents _ _ _ _ _ _); cbn [obind] in R; try discriminate R.
    destruct (if normalize opt then _ else _); cbn [obind] in R; try discriminate R.
    injection R as _ <-. tauto.
  - unfold read_text in R. rewrite Hh, (read_header_no line f J1 St) in R. cbn [obind] in R.
    destruct (read_contents _ _ _ _ _ _); cbn [obind] in R; try discriminate R.
    destruct (if normalize opt then _ else _); cbn [obind] in R; try discriminate R.
    injection R as _ <-. split; [discriminate|contradiction].
Qed.

(** Without a header, what is read is what the file stands for. *)
Lemma read_without_header uc line buf lower f t : junk_ok line buf -> Forall is_byte f ->
  read_text uc line buf (mkopt true true 0 true lower) [] f = Ok (t, false) -> file_text uc lower f false t.
Proof.
  intros J Hf R. pose proof (read_flag uc line buf (mkopt true true 0 true lower) f t false J eq_refl R) as Fl.
  assert (Hs : ~ starts_with title_start f) by (intros St; apply Fl in St; discriminate St).
  exists f. split; [split; [exact Hs|reflexivity]|].
  rewrite (C13_no_header uc line buf (mkopt true true 0 true lower) [] f J eq_refl Hs) in R.
  cbn [find_markers suspect_marker normalize case_insensitive] in R. destruct J as [J1 J2].
  destruct (read_text_ok uc line buf (mkopt false true 0 true lower) [] f eq_refl Hf J2) as [(cs & S & E & R')|[_ [msg E]]];
    [|congruence].
  rewrite R' in R. injection R as <-. unfold post. cbn [normalize case_insensitive find_markers app].
  change (marker_of (mkopt false true 0 true lower)) with 94.
  exists cs, (tag true 94 false cs), (cl false false (blanks_to_blank uc (tag true 94 false cs))).
  split; [exact S|]. split; [exact E|]. split; [apply tag_marked|]. split; [apply cl_normalised|]. now destruct lower.
Qed.

(** ** Reports *)
Lemma value_line n name : 0 <= n -> ~ In 10 name ->
  exists l, write_value n name = l ++ [10] /\ ~ In 10 l /\ number_line n name l.
Proof.
  intros Hn Hname. unfold write_value, dec8, pad, dec. destruct (Z.ltb_spec n 0); [lia|].
  set (ds := map dec_digit (digits 10 n)).
  exists (repeat 32 (8 - List.length ds) ++ ds ++ bytes "   " ++ name).
  pose proof (dec_digits n Hn) as D. fold ds in D.
  assert (Dr : Forall (fun c => 48 <= c <= 57) ds).
  { eapply Forall_impl; [|exact D]. intros c Hc. cbv beta in Hc. unfold is_digit in Hc. lia. }
  split; [now rewrite <- !app_assoc|]. split.
  - intros I. apply in_app_or in I as [I|I]; [apply repeat_spec in I; discriminate I|].
    apply in_app_or in I as [I|I]; [rewrite Forall_forall in Dr; specialize (Dr 10 I); lia|].
    apply in_app_or in I as [I|I]; [|contradiction]. cbn in I. intuition lia.
  - exists (8 - List.length ds)%nat, ds. split; [|split; [exact Dr|split; [|split; [lia|reflexivity]]]].
    + unfold ds. intros E. apply map_eq_nil in E. revert E. apply digits_nonempty.
    + pose proof (dec_value n Hn) as V. fold ds in V. rewrite <- V. unfold decimal_value. clear.
      unfold of_digits. generalize 0. induction ds as [|c ds IH]; intros m; [reflexivity|]. cbn [fold_left map].
      replace (10 * m + (c - 48)) with (m * 10 + (c - 48)) by lia. apply IH.
Qed.

Lemma read_cases uc line buf lower f : junk_ok line buf -> regular_file f ->
  (exists t h, file_text uc lower f h t /\ read_text uc line buf (mkopt true true 0 true lower) [] f = Ok (t, h)) \/
  ((forall t h, ~ file_text uc lower f h t) /\ exists msg, read_text uc line buf (mkopt true true 0 true lower) [] f = Fail msg).
Proof.
  intros J (Hf & body & h & B).
  assert (Hb : Forall is_byte body).
  { destruct h; cbn [body_of] in B; [|destruct B as [_ ->]; exact Hf].
    destruct B as (title & lines & -> & _). rewrite !Forall_app in Hf. tauto. }
  destruct J as [J1 J2].
  destruct (read_text_ok uc line buf (mkopt false true 0 true lower) [] body eq_refl Hb J2) as [(cs & S & E & R)|[No [msg E]]].
  - left. eexists. exists h. assert (T : stands_for uc lower body (post uc (mkopt false true 0 true lower) (tag true 94 false cs))).
    { exists cs, (tag true 94 false cs), (cl false false (blanks_to_blank uc (tag true 94 false cs))).
      split; [exact S|]. split; [exact E|]. split; [apply tag_marked|]. split; [apply cl_normalised|]. now destruct lower. }
    assert (FT : file_text uc lower f h (post uc (mkopt false true 0 true lower) (tag true 94 false cs))) by (exists body; auto).
    split; [exact FT|]. apply read_file_text; [split; assumption|exact Hf|exact FT].
  - right.
    assert (Rd : exists msg, read_text uc line buf (mkopt true true 0 true lower) [] f = Fail msg).
    { destruct h; cbn [body_of] in B.
      - destruct B as (title & lines & E' & H1 & H2 & H3 & H4). subst f.
        rewrite (C13_header uc line buf (mkopt true true 0 true lower) [] title lines body (conj J1 J2) Hf eq_refl H1 H2 H3 H4).
        cbn [find_markers suspect_marker normalize case_insensitive]. rewrite E. cbn [obind]. eauto.
      - destruct B as [B ->]. rewrite (C13_no_header uc line buf (mkopt true true 0 true lower) [] f (conj J1 J2) eq_refl B).
        cbn [find_markers suspect_marker normalize case_insensitive]. eauto. }
    split; [|exact Rd]. intros t h' FT. destruct Rd as [msg' Rd].
    pose proof (read_file_text uc line buf lower f h' t (conj J1 J2) Hf FT). congruence.
Qed.

Lemma with_third_dec args : (zlen args <? 2) || (3 <? zlen args) = false -> exists n0 n1 dest, args = with_third [n0; n1] dest.
Proof.
  intros H. destruct args as [|a [|b [|c [|d args]]]]; try (cbn in H; discriminate H).
  - exists a, b, None. reflexivity.
  - exists a, b, (Some c). reflexivity.
  - exfalso. rewrite !zlen_cons in H. pose proof (zlen_nonneg args). lia.
Qed.
Lemma with_third_inj n0 n1 dest m0 m1 dest' : with_third [n0; n1] dest = with_third [m0; m1] dest' -> n0 = m0 /\ n1 = m1 /\ dest = dest'.
Proof. destruct dest, dest'; cbn; intros E; inversion E; auto. Qed.

Lemma text_words_found uc NFC t words : text_ok t -> text_words uc NFC t words -> find_words uc NFC [] (map value t) = Ok words.
Proof.
  intros T (X & segments & C & E & ->). rewrite (WordProps.C36_words uc NFC [] (map value t) segments); auto.
  rewrite Forall_map. exact T.
Qed.

Lemma read_stop_file uc NFC line buf f words : junk_ok line buf -> (forall c, scalar c -> scalar (tolower uc c)) ->
  stop_file_words uc NFC f words -> StopModel.words_in uc NFC line buf (mkopt false false 0 true true) f = Ok words.
Proof.
  intros J Low (cs & norm & S & E & N & W).
  assert (Hf : Forall is_byte f) by (subst f; apply utf8s_bytes; exact S).
  unfold StopModel.words_in.
  assert (R : read_text uc line buf (mkopt false false 0 true true) [] f =
              Ok (map (fun c => mkchar (suspect c) (tolower uc (value c))) norm, false)).
  { destruct J as [J1 J2].
    destruct (read_text_ok uc line buf (mkopt false false 0 true true) [] f eq_refl Hf J2) as [(cs' & S' & E' & R)|[No _]];
      [|exfalso; now apply (No cs)].
    assert (cs' = cs) as -> by (apply utf8s_inj; congruence). rewrite R. cbn [app]. unfold post.
    cbn [normalize case_insensitive find_markers]. rewrite tag_off.
    replace (match cs with [] => [] | c :: t => mkchar false c :: map (mkchar false) t end) with (map (mkchar false) cs) by now destruct cs.
    apply normalised_cl in N. subst norm. reflexivity. }
  rewrite R. cbn [obind]. apply text_words_found; [|exact W].
  apply (read_text_scalar uc line buf (mkopt false false 0 true true) f _ false J Hf); auto.
Qed.
