(** C93: character errors and misrecognized words. *)
From Coq Require Import String Permutation.
From Verif Require Import Base CLib CLibProof Utf8Model TextModel TextSpec TextIO TextProps ReadProof CompareModel SyncModel SyncSpec EditProof
  AccModel AccSpec AccProof AccProps AccrptModel AccrptSpec AccrptTop WacrptProof WacrptTop LcsTop ReportSpec LcsSpec WordTable WordModel WordSpec WordProof WordProps StopModel StopProps WacModel WacSpec WacProps
  UtilModel ArgsProps MainModel MainSpec MainProof MainProps MainWacProps MetricSpec MetricProof MetricProps WordErrSpec WordErrProof.
Local Open Scope Z_scope.
Local Open Scope list_scope.

(** C93: [n] edits of a text leave all but 3 [n] of its words, in order, among the words of the edited text. *)
Theorem C93_words : forall uc NFC a b n wa wb, separators uc -> Forall scalar a -> Forall scalar b -> edits a b n ->
  find_words uc NFC [] a = Ok wa -> find_words uc NFC [] b = Ok wb ->
  exists kept, subseq kept wa /\ subseq kept wb /\ zlen wa - zlen kept <= 3 * n.
Proof.
  intros uc NFC a b n wa wb S Sa Sb E Fa Fb. apply (edits_three uc NFC (fun c => c) a b n wa wb S); rewrite ?map_id; try assumption; now apply scalars.
Qed.
Print Assumptions C93_words.

(** Whatever the categories of the characters are, all but 5 [n]. *)
Theorem C93_words_any : forall uc NFC a b n wa wb, Forall scalar a -> Forall scalar b -> edits a b n ->
  find_words uc NFC [] a = Ok wa -> find_words uc NFC [] b = Ok wb ->
  exists kept, subseq kept wa /\ subseq kept wb /\ zlen wa - zlen kept <= 5 * n.
Proof.
  intros uc NFC a b n wa wb Sa Sb E Fa Fb. apply (edits_five uc NFC (fun c => c) a b n wa wb); rewrite ?map_id; try assumption; now apply scalars.
Qed.
Print Assumptions C93_words_any.

(** C93: the figures.  wordacc counts at most three words as misrecognized for each error that accuracy
    counts for the same two texts (wordacc has them in lower case). *)
Theorem C93_figures : forall uc NFC stop order t0 t1 w0 w1 e m, separators uc -> (forall c, scalar c -> scalar (tolower uc c)) ->
  inputs_ok uc t0 t1 -> no_reject t0 -> errors_between uc t0 t1 e ->
  find_words uc NFC [] (map (fun c => tolower uc (value c)) t0) = Ok w0 ->
  find_words uc NFC [] (map (fun c => tolower uc (value c)) t1) = Ok w1 ->
  (forall l, Permutation (order l) l) -> words_ok w0 w1 -> misses_between stop order w0 w1 m ->
  0 <= m <= 3 * e.
Proof.
  intros uc NFC stop order t0 t1 w0 w1 e m S Low I N E F0 F1 Ord Wo M. rewrite (between_lev uc t0 t1 e I N E).
  destruct (misses_lcs _ _ _ _ _ Ord Wo M) as (c & C0 & C1 & -> & Mc). pose proof (subseq_zlen _ _ C0).
  destruct I as (_ & T0 & T1 & _).
  assert (P : forall t, text_ok t -> points (map (tolower uc) (map value t))).
  { intros t T. apply scalars. rewrite map_map, Forall_map. eapply Forall_impl; [|exact T]. cbv beta. intros x. apply Low. }
  rewrite <- (map_map value (tolower uc)) in F0, F1.
  destruct (edits_three uc NFC (tolower uc) _ _ _ w0 w1 S (P t0 T0) (P t1 T1) (proj1 (lev_distance _ _)) F0 F1) as (k & K0 & K1 & K).
  specialize (Mc k K0 K1). lia.
Qed.
Print Assumptions C93_figures.

(** C93: the programs.  accuracy and wordacc, run on the same two files. *)
Theorem C93_programs : forall sys uc NFC line buf order torder fmt items argv witems wargv n0 n1 dest wdest f0 f1 h t0 t1 w0 w1 stopname ws,
  nul_hidden uc -> marks_wide uc -> separators uc -> (forall c, scalar c -> scalar (tolower uc c)) ->
  pct_ok fmt -> permutes order -> permutes_terms torder -> junk_ok line buf ->
  command_line [] items argv -> plain_args items = with_third [n0; n1] dest ->
  command_line [string_option 83] witems wargv -> plain_args witems = with_third [n0; n1] wdest ->
  says_value witems 83 stopname -> stopwords_of sys uc NFC stopname ws ->
  has_file sys n0 f0 -> has_file sys n1 f1 -> Forall is_byte f0 -> Forall is_byte f1 ->
  file_text uc false f0 false t0 -> file_text uc false f1 h t1 ->
  ~ In 1114111 (map value t0) -> no_reject t0 -> zlen t0 <= MAX_F -> zlen t0 + zlen t1 < 100000000 ->
  text_words uc NFC (map (fun c => mkchar (suspect c) (tolower uc (value c))) t0) w0 ->
  text_words uc NFC (map (fun c => mkchar (suspect c) (tolower uc (value c))) t1) w1 ->
  zlen (shared w0 w1) <= 65535 -> zlen w0 < 99999999 ->
  (forall w, In w w0 -> 1 <= zlen w <= 50 /\ ~ In 10 w /\ Forall (fun c => 0 < c < 256) w) ->
  can_deliver sys dest -> can_deliver sys wdest ->
  exists r report r' report' e m,
    accuracy_main sys uc line buf order fmt argv = Ok (Done r) /\ delivered sys dest [] report r /\
    shows report 3 (bytes "Errors") e /\
    wordacc_main sys uc NFC line buf torder fmt wargv = Ok (Done r') /\ delivered sys wdest [] report' r' /\
    shows report' 3 (bytes "Misrecognized") m /\
    0 <= m <= 3 * e.
Proof.
  intros sys uc NFC line buf order torder fmt items argv witems wargv n0 n1 dest wdest f0 f1 h t0 t1 w0 w1 stopname ws
    N W S Low P O O' J CL PA CL' PA' SV SW F0 F1 B0 B1 T0 T1 Tab Nr Lm Ls W0 W1 Sh Lw Hw D D'.
  assert (G : forall f k t, file_text uc false f k t -> file_text uc true f k (map (fun c => mkchar (suspect c) (tolower uc (value c))) t)).
  { intros f k t (body & Bo & cs & raw & norm & A1 & A2 & A3 & A4 & ->). exists body. split; [exact Bo|]. exists cs, raw, norm. auto. }
  destruct (C62_accuracy sys uc line buf order fmt items argv n0 n1 dest f0 f1 t0 t1 h N W P O J CL PA F0 F1 B0 B1 T0 T1 Tab Lm Ls D)
    as (r & report & d & R1 & R2 & _ & _ & _ & e & Se & He).
  destruct (C63_wordacc sys uc NFC line buf torder fmt witems wargv n0 n1 wdest f0 f1 h w0 w1 stopname ws P O' J Low CL' PA' SV SW F0 F1 B0 B1)
    as (r' & report' & marks & d' & stop & R1' & R2' & _ & _ & Lc & _ & _ & _ & Sm); auto.
  { exists (map (fun c => mkchar (suspect c) (tolower uc (value c))) t0). auto. }
  { exists (map (fun c => mkchar (suspect c) (tolower uc (value c))) t1). auto. }
  exists r, report, r', report', e, (zlen w0 - zlen (select marks w0)).
  split; [exact R1|]. split; [exact R2|]. split; [exact Se|]. split; [exact R1'|]. split; [exact R2'|]. split; [exact Sm|].
  destruct (He _ (lev_distance (map value t0) (map value t1))) as [_ He']. rewrite (He' Nr).
  destruct Lc as (_ & L1 & L2).
  pose proof (read_file_text uc line buf true f0 false _ J B0 (G _ _ _ T0)) as R0.
  pose proof (read_file_text uc line buf true f1 h _ J B1 (G _ _ _ T1)) as R3.
  apply (read_text_scalar uc line buf (mkopt true true 0 true true) f0 _ false J B0 (fun _ => Low)) in R0.
  apply (read_text_scalar uc line buf (mkopt true true 0 true true) f1 _ h J B1 (fun _ => Low)) in R3.
  pose proof (text_words_found _ _ _ _ R0 W0) as X0. pose proof (text_words_found _ _ _ _ R3 W1) as X1.
  assert (M : forall t, map value (map (fun c => mkchar (suspect c) (tolower uc (value c))) t) = map (tolower uc) (map value t)).
  { intros t. rewrite !map_map. reflexivity. }
  assert (Q : forall t, text_ok (map (fun c => mkchar (suspect c) (tolower uc (value c))) t) -> points (map (tolower uc) (map value t))).
  { intros t T. rewrite <- M. apply scalars. rewrite Forall_map. exact T. }
  rewrite M in X0, X1.
  destruct (edits_three uc NFC (tolower uc) _ _ _ w0 w1 S (Q t0 R0) (Q t1 R3) (proj1 (lev_distance _ _)) X0 X1) as (k & K0 & K1 & K).
  specialize (L2 k K0 K1). assert (zlen (select marks w0) <= zlen w0) by (apply subseq_zlen, subseq_select). lia.
Qed.
Print Assumptions C93_programs.

(** Three words for one error: a character written without blanks (category LO, here U+6F22) between two
    words is lost, and the words are joined. *)
Definition err_uc : unicode_data :=
  mkuc (fun c => if (97 <=? c) && (c <=? 122) then LL else if c =? 28450 then LO else if c =? 0 then CC else PO) (fun c => c).

Theorem C93_three_needed : exists a b wa wb, Forall scalar a /\ Forall scalar b /\ edits a b 1 /\
  find_words err_uc (fun s => s) [] a = Ok wa /\ find_words err_uc (fun s => s) [] b = Ok wb /\
  forall kept, subseq kept wa -> subseq kept wb -> zlen wa - zlen kept = 3.
Proof.
  exists [97; 28450; 98], [97; 98], [[97]; [230; 188; 162]; [98]], [[97; 98]].
  split; [repeat constructor; unfold scalar; lia|]. split; [repeat constructor; unfold scalar; lia|].
  split. { apply edits_keep; [discriminate|]. apply (edits_delete 28450 [98] [98] 0). apply edits_keep; [discriminate|]. constructor. }
  split; [vm_compute; reflexivity|]. split; [vm_compute; reflexivity|].
  intros kept K0 K1. destruct kept as [|k kept]; [reflexivity|]. exfalso.
  assert (In k [[97]; [230; 188; 162]; [98]]) as I0 by (apply (subseq_In _ _ _ K0); now left).
  assert (In k [[97; 98]]) as I1 by (apply (subseq_In _ _ _ K1); now left).
  destruct I1 as [<-|[]]. destruct I0 as [Z|[Z|[Z|[]]]]; discriminate Z.
Qed.
Print Assumptions C93_three_needed.

(** Five words for one error, if every character may start a word: "a: :b" and "a:c:b". *)
Theorem C93_five_needed : exists uc a b wa wb, Forall scalar a /\ Forall scalar b /\ edits a b 1 /\
  find_words uc (fun s => s) [] a = Ok wa /\ find_words uc (fun s => s) [] b = Ok wb /\
  forall kept, subseq kept wa -> subseq kept wb -> zlen wa - zlen kept = 5.
Proof.
  exists (mkuc (fun _ => LL) (fun c => c)), [97; 58; 32; 58; 98], [97; 58; 99; 58; 98], [[97]; [58]; [32]; [58]; [98]], [[97; 58; 99; 58; 98]].
  split; [repeat constructor; unfold scalar; lia|]. split; [repeat constructor; unfold scalar; lia|].
  split. { do 2 (apply edits_keep; [discriminate|]). apply (edits_subst 32 99 [58; 98] [58; 98] 0). do 2 (apply edits_keep; [discriminate|]). constructor. }
  split; [vm_compute; reflexivity|]. split; [vm_compute; reflexivity|].
  intros kept K0 K1. destruct kept as [|k kept]; [reflexivity|]. exfalso.
  assert (In k [[97]; [58]; [32]; [58]; [98]]) as I0 by (apply (subseq_In _ _ _ K0); now left).
  assert (In k [[97; 58; 99; 58; 98]]) as I1 by (apply (subseq_In _ _ _ K1); now left).
  destruct I1 as [<-|[]]. repeat destruct I0 as [Z|I0]; try discriminate Z. destruct I0.
Qed.
Print Assumptions C93_five_needed.

(** The data of this example satisfy the hypothesis. *)
Example C93_ex : separators err_uc.
Proof.
  intros c p H M.
  assert (T : forallb (fun r => match wb_value r with
    | MidLetter | MidNum | MidNumLet | Single_Quote | Double_Quote =>
        ((WordTable.stop r <? 97) || (122 <? WordTable.start r)) && ((WordTable.stop r <? 28450) || (28450 <? WordTable.start r))
    | _ => true end) WORD_BREAK_PROPERTY = true) by (vm_compute; reflexivity).
  rewrite forallb_forall in T. destruct H as [(r & I & Hr & Ev)|(_ & ->)]; [|exfalso; intuition discriminate].
  specialize (T r I). unfold in_range in Hr. rewrite Ev in T.
  assert (((WordTable.stop r <? 97) || (122 <? WordTable.start r)) && ((WordTable.stop r <? 28450) || (28450 <? WordTable.start r)) = true) as Q.
  { destruct M as [-> | [-> | [-> | [-> | ->]]]]; exact T. }
  clear T I Ev M. apply andb_true_iff in Q as [Q1 Q2]. apply orb_true_iff in Q1, Q2. rewrite !Z.ltb_lt in Q1, Q2.
  cbn [cat err_uc]. destruct (Z.leb_spec 97 c), (Z.leb_spec c 122); cbn [andb]; try lia; destruct (Z.eqb_spec c 28450); try lia; destruct (c =? 0); reflexivity.
Qed.

(** A case for the figures: one error and three words. *)
Example C93_figures_ex :
  let t0 := map (mkchar false) [97; 28450; 98] in let t1 := map (mkchar false) [97; 98] in
  let w0 := [[97]; [230; 188; 162]; [98]] in let w1 := [[97; 98]] in
  inputs_ok err_uc t0 t1 /\ no_reject t0 /\ errors_between err_uc t0 t1 1 /\ words_ok w0 w1 /\
  misses_between (fun _ => false) (fun l => l) w0 w1 3.
Proof.
  cbv zeta.
  assert (I : inputs_ok err_uc (map (mkchar false) [97; 28450; 98]) (map (mkchar false) [97; 98])).
  { split; [reflexivity|]. unfold text_ok, tabulable. cbn [map]. split; [repeat constructor; unfold scalar; cbn; lia|].
    split; [repeat constructor; unfold scalar; cbn; lia|]. split; [repeat constructor; cbn; lia|]. unfold MAX_F, zlen. cbn. lia. }
  assert (N : no_reject (map (mkchar false) [97; 28450; 98])) by (unfold no_reject; cbn; lia).
  split; [exact I|]. split; [exact N|]. split.
  { destruct (C72_defined _ _ _ I) as [e E]. pose proof (between_lev _ _ _ _ I N E) as L. vm_compute in L. now subst e. }
  assert (O : words_ok [[97]; [230; 188; 162]; [98]] [[97; 98]]).
  { split; [vm_compute; discriminate|]. intros w [<-|[<-|[<-|[]]]]; unfold zlen; cbn; lia. }
  split; [exact O|]. destruct O as [Sh Hw].
  destruct (C38_figures (fun _ => false) (fun l => l) _ _ (fun l => Permutation_refl l) Sh Hw) as (marks & d & _ & E & _).
  exists d. split; [exact E|]. vm_compute in E. injection E as <-. reflexivity.
Qed.
