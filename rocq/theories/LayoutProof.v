(** Proofs about the layout of reports. *)
From Coq Require Import String Sorted Permutation.
From Verif Require Import Base CLib CLibProof Utf8Model TextModel TextSpec CharclassModel SortModel SortSpec SortProps CompareModel CompareProof AccModel AccSpec ReportModel ReportSpec ReportProof AccrptModel AccrptSpec AccrptProof
  SumProof AccrptFig SumProof WacModel WacrptModel WacrptSpec WacrptProof EdoModel EdoSpec EdoProof ShowProps LayoutSpec.
Local Open Scope Z_scope.
Local Open Scope list_scope.

(** ** Numerals *)
Lemma fold_digits ds : forall a, fold_left (fun v c => 10 * v + (c - 48)) (map dec_digit ds) a = fold_left (fun x d => x * 10 + d) ds a.
Proof. induction ds as [|d ds IH]; intros a; [reflexivity|]. cbn [map fold_left]. rewrite IH. f_equal. unfold dec_digit. lia. Qed.

Lemma numeral_dec n : 0 <= n -> numeral n (dec n).
Proof.
  intros H. unfold dec. destruct (Z.ltb_spec n 0); [lia|]. repeat split.
  - pose proof (digits_nonempty 10 n). destruct (digits 10 n); [congruence|discriminate].
  - eapply Forall_impl; [|apply (dec_digits n H)]. intros c D. unfold is_digit in D. lia.
  - rewrite fold_digits. apply (digits_value 10 n); lia.
  - intros Hd. destruct (Z.eq_dec n 0) as [->|Nz]; [reflexivity|]. exfalso.
    destruct (to_digits_first (Datatypes.S (Z.to_nat (Z.log2 n))) 10 n) as (d & r & E & Nd); try lia. unfold digits in Hd. rewrite E in Hd. cbn in Hd. unfold dec_digit in Hd. lia.
Qed.
Lemma dec_len n k : 0 <= n < 10 ^ Z.of_nat (Datatypes.S k) -> zlen (dec n) <= Z.of_nat (Datatypes.S k).
Proof.
  intros H. unfold dec. destruct (Z.ltb_spec n 0); [lia|]. pose proof (digits_len 10 n k ltac:(lia) H). unfold zlen. rewrite map_length. lia.
Qed.

(** ** Lines *)
Section Fmt.
Variable fmt : Z -> Z -> list Z.
Hypothesis Hfmt : pct_ok fmt.

Definition tail_shows (c : Z) (ps : list part) (l : list Z) : Prop := exists xs, Forall2 (is_part fmt) ps xs /\ laid_out c xs l.

Lemma t_nil c : tail_shows c [] [].
Proof. exists []. split; constructor. Qed.
Lemma t_cons c a t p ps l : is_part fmt p (a, t) -> c <= a -> tail_shows (a + zlen t) ps l -> tail_shows c (p :: ps) (repeat 32 (Z.to_nat (a - c)) ++ t ++ l).
Proof. intros I L (xs & F & Y). exists ((a, t) :: xs). split; [constructor; auto|]. now constructor. Qed.
Lemma t_blank c k ps l : ps <> [] -> 0 <= k -> tail_shows (c + k) ps l -> tail_shows c ps (repeat 32 (Z.to_nat k) ++ l).
Proof.
  intros N K (xs & F & Y). exists xs. split; [exact F|]. inversion Y as [|c' a t xs' l' L Y']; subst; [inversion F; subst; congruence|].
  rewrite app_assoc, <- repeat_app. replace (Z.to_nat k + Z.to_nat (a - (c + k)))%nat with (Z.to_nat (a - c)) by lia. constructor; [lia|exact Y'].
Qed.
Lemma t_here c t p ps l : is_part fmt p (c, t) -> tail_shows (c + zlen t) ps l -> tail_shows c (p :: ps) (t ++ l).
Proof. intros I T. pose proof (t_cons c c t p ps l I ltac:(lia) T) as Q. now rewrite Z.sub_diag in Q. Qed.
Lemma t_pad c w n ps l : 0 <= n -> zlen (dec n) <= Z.of_nat w -> tail_shows (c + Z.of_nat w) ps l -> tail_shows c (NumberTo (c + Z.of_nat w) n :: ps) (pad 32 w (dec n) ++ l).
Proof.
  intros H L T. unfold pad. rewrite <- app_assoc. replace (w - List.length (dec n))%nat with (Z.to_nat (c + Z.of_nat w - zlen (dec n) - c)) by (unfold zlen in *; lia).
  apply t_cons; [exists (dec n); split; [now apply numeral_dec|reflexivity]|lia|]. replace (c + Z.of_nat w - zlen (dec n) + zlen (dec n)) with (c + Z.of_nat w) by lia. exact T.
Qed.
Lemma t_num c c' n ps l : c' = c + 8 -> 0 <= n < 100000000 -> tail_shows c' ps l -> tail_shows c (NumberTo c' n :: ps) (dec8 n ++ l).
Proof. intros -> H T. apply (t_pad c 8 n ps l); [lia| |exact T]. apply (dec_len n 7). exact H. Qed.
Lemma t_num2 c c' n ps l : c' = c + 2 -> 0 <= n < 100 -> tail_shows c' ps l -> tail_shows c (NumberTo c' n :: ps) (dec2 n ++ l).
Proof. intros -> H T. apply (t_pad c 2 n ps l); [lia| |exact T]. apply (dec_len n 1). exact H. Qed.
Lemma t_word c c' w ps l : c' = c + zlen w -> tail_shows c' ps l -> tail_shows c (WordTo c' w :: ps) (w ++ l).
Proof. intros -> T. apply t_here; [cbn [is_part]; f_equal; lia|exact T]. Qed.
Lemma t_text c t ps l : tail_shows (c + zlen t) ps l -> tail_shows c (TextAfter c t :: ps) (t ++ l).
Proof. intros T. apply t_here; [reflexivity|exact T]. Qed.
Lemma t_last c t : tail_shows c [TextAfter c t] t.
Proof. rewrite <- (app_nil_r t) at 2. apply t_text, t_nil. Qed.
Lemma t_pct c c' n d ps l : c' = c + 8 -> 0 <= n <= d -> d < 100000000 -> tail_shows c' ps l -> tail_shows c (PercentTo c' n d :: ps) (write_pct fmt n d ++ l).
Proof.
  intros -> H D T. assert (zlen (write_pct fmt n d) = 8) as L8. { unfold write_pct. destruct (Z.eqb_spec d 0); [reflexivity|]. apply Hfmt; lia. }
  change (write_pct fmt n d) with (percentage fmt n d) in *. apply t_here; [cbn [is_part]; f_equal; lia|rewrite L8; exact T].
Qed.

Lemma one_line ps l : clean l -> tail_shows 0 ps l -> line_shows fmt ps l.
Proof. intros [C _] T. split; [exact C|exact T]. Qed.

(** ** Files *)
Lemma fs_nil : file_shows fmt [] [].
Proof. exists []. split; [reflexivity|constructor]. Qed.
Lemma fs_app a b f g : file_shows fmt a f -> file_shows fmt b g -> file_shows fmt (a ++ b) (f ++ g).
Proof. intros (ls & -> & F) (ms & -> & G). exists (ls ++ ms). split; [now rewrite flat_map_app|now apply Forall2_app]. Qed.
Lemma fs_one ps l : line_shows fmt ps l -> file_shows fmt [ps] (l ++ [10]).
Proof. intros L. exists [l]. split; [cbn; now rewrite app_nil_r|]. constructor; [exact L|constructor]. Qed.
Lemma fs_cons ps l lines f : line_shows fmt ps l -> file_shows fmt lines f -> file_shows fmt (ps :: lines) (l ++ 10 :: f).
Proof. intros L F. change (10 :: f) with ([10] ++ f). rewrite app_assoc. apply (fs_app [ps]); [now apply fs_one|exact F]. Qed.
Lemma fs_blank lines f : file_shows fmt lines f -> file_shows fmt ([] :: lines) ([10] ++ f).
Proof. intros F. apply (fs_cons [] []); [apply one_line; [split; intros []|apply t_nil]|exact F]. Qed.
Lemma fs_rows {A} (g : A -> list part) (r : A -> list Z) (P : A -> bool) is :
  (forall i, In i is -> if P i then file_shows fmt [g i] (r i) else r i = []) -> file_shows fmt (map g (filter P is)) (flat_map r is).
Proof.
  induction is as [|i is IH]; intros H; [exact fs_nil|]. cbn [filter flat_map]. pose proof (H i (or_introl eq_refl)) as Hi. destruct (P i).
  - apply (fs_app [g i]); [exact Hi|]. apply IH. intros j J. apply H. now right.
  - rewrite Hi. apply IH. intros j J. apply H. now right.
Qed.
Lemma fs_all {A} (g : A -> list part) (r : A -> list Z) is :
  (forall i, In i is -> file_shows fmt [g i] (r i)) -> file_shows fmt (map g is) (flat_map r is).
Proof.
  induction is as [|i is IH]; intros H; [exact fs_nil|]. cbn [map flat_map]. apply (fs_app [g i]); [apply H; now left|]. apply IH. intros j J. apply H. now right.
Qed.

Lemma zrange_sorted n : forall lo, StronglySorted Z.lt (zrange lo n).
Proof.
  induction n as [|n IH]; intros lo; cbn [zrange]; constructor; [apply IH|]. apply Forall_forall. intros i I. apply In_zrange in I. lia.
Qed.
Lemma filter_sorted {A} (R : A -> A -> Prop) (P : A -> bool) l : StronglySorted R l -> StronglySorted R (filter P l).
Proof.
  induction 1 as [|a l S IH F]; cbn [filter]; [constructor|]. destruct (P a); [|exact IH]. constructor; [exact IH|].
  apply Forall_forall. intros x I. apply filter_In in I as [I _]. rewrite Forall_forall in F. now apply F.
Qed.
Lemma lists_range (Q : Z -> Prop) (P : Z -> bool) lo n : (forall i, Q i <-> lo <= i < lo + Z.of_nat n /\ P i = true) -> lists Q (filter P (zrange lo n)).
Proof.
  intros H. split; [apply filter_sorted, zrange_sorted|]. intros i. rewrite filter_In, In_zrange. symmetry. apply H.
Qed.

Lemma l_text s : forallb (fun c => negb (c =? 10) && negb (c =? 0)) (bytes s) = true -> line_shows fmt [after 0 s] (bytes s).
Proof. intros C. apply one_line; [now apply clean_check|]. apply t_last. Qed.
Lemma l_value v s : 0 <= v < 100000000 -> clean (bytes s) -> line_shows fmt [NumberTo 8 v; after 11 s] (dec8 v ++ bytes "   " ++ bytes s).
Proof.
  intros V C. apply one_line.
  - apply clean_app; [apply clean_dec8; lia|]. apply clean_app; [|exact C]. apply clean_check. reflexivity.
  - apply t_num; [lia|exact V|]. change (bytes "   ") with (repeat 32 (Z.to_nat 3)). apply t_blank; [discriminate|lia|]. apply t_last.
Qed.
Lemma f_value v s lines f : 0 <= v < 100000000 -> clean (bytes s) -> file_shows fmt lines f -> file_shows fmt ([NumberTo 8 v; after 11 s] :: lines) (write_value v (bytes s) ++ f).
Proof.
  intros V C F. unfold write_value. rewrite <- !app_assoc. cbn [app]. rewrite (app_assoc (bytes "   ")), (app_assoc (dec8 v)). now apply fs_cons; [apply l_value|].
Qed.
Lemma l_pct n d s : 0 <= d < 100000000 -> - 100000000 < n < 200000000 -> clean (bytes s) -> line_shows fmt [PercentText n d (bytes s)] (write_pct fmt n d ++ bytes s).
Proof.
  intros D N C. apply one_line; [apply clean_app; [now apply pct_clean|exact C]|].
  rewrite <- (app_nil_r (_ ++ _)). apply (t_here 0 _ (PercentText n d (bytes s))); [reflexivity|apply t_nil].
Qed.

(** ** The report of editop *)
Lemma below_fits d i : ereportable d -> ebelow 100000000 d -> 0 <= entry (moves d) i < 100000000.
Proof. intros R B. split; [exact (er_nonneg d R (EMove i))|exact (B (EMove i))]. Qed.

Lemma edit_layout d : ereportable d -> ebelow 100000000 d -> exists lines, edit_report d lines /\ file_shows fmt lines (edo_text d).
Proof.
  intros R B. eexists. split.
  - constructor. exists (filter (fun i => 0 <? entry (moves d) i) (zrange 1 100)). split; [|reflexivity].
    apply lists_range. intros i. change (1 + Z.of_nat 100) with 101. split.
    + intros [I (n & E & N)]. rewrite (entry_Some _ _ _ E). lia.
    + intros [I E]. split; [lia|]. exists (entry (moves d) i). split; [apply entry_znth; rewrite (er_size d R); lia|lia].
  - unfold edo_text, edo_head, EDO_TITLE, EDO_DIVIDER. rewrite <- !app_assoc. cbn [app].
    pose proof (er_nonneg d R) as Nn. assert (forall x, 0 <= efig x d < 100000000) as Q by (intros x; split; [apply Nn|apply B]).
    apply fs_cons; [apply l_text; reflexivity|]. apply fs_cons; [apply l_text; reflexivity|].
    apply f_value; [exact (Q EInsertions)|apply clean_check; reflexivity|].
    apply f_value; [exact (Q EDeletions)|apply clean_check; reflexivity|].
    apply f_value; [exact (Q EMoves)|apply clean_check; reflexivity|].
    destruct (0 <? total_moves d); [|exact fs_nil].
    cbn [app]. apply fs_blank. apply fs_cons; [apply l_text; reflexivity|].
    apply fs_cons.
    { apply one_line; [apply clean_check; reflexivity|]. change (bytes "   Count   Length") with (repeat 32 (Z.to_nat 3) ++ bytes "Count" ++ repeat 32 (Z.to_nat 3) ++ bytes "Length" ++ []).
      apply t_blank; [discriminate|lia|]. apply t_word; [reflexivity|]. apply t_blank; [discriminate|lia|]. apply t_word; [reflexivity|]. apply t_nil. }
    apply fs_rows. intros i I. apply In_zrange in I. unfold move_text. destruct (0 <? entry (moves d) i); [|reflexivity].
    unfold write_move. rewrite (app_assoc (bytes " ")), (app_assoc (dec8 (entry (moves d) i))). apply fs_one.
    pose proof (below_fits d i R B) as Be. unfold entry in *. apply one_line; [apply clean_app; [apply clean_dec8; lia|apply clean_app; [apply clean_check; reflexivity|apply clean_dec8; lia]]|].
    rewrite <- (app_nil_r (dec8 i)).
    apply t_num; [lia|lia|]. change (bytes " ") with (repeat 32 (Z.to_nat 1)). apply t_blank; [discriminate|lia|]. apply t_num; [lia|lia|apply t_nil].
Qed.

(** ** The word accuracy report *)
Lemma t_wac w ps l : small_wac w -> ps <> [] -> tail_shows 29 ps l -> tail_shows 0 (wac_figures w ++ ps) (write_wac fmt w ++ l).
Proof.
  intros [[S1 S2] S3] N T. unfold write_wac, wac_figures. rewrite <- !app_assoc. cbn [app]. apply t_num; [lia|lia|].
  change (bytes " ") with (repeat 32 (Z.to_nat 1)). apply t_blank; [discriminate|lia|]. apply t_num; [lia|lia|].
  apply t_blank; [discriminate|lia|]. apply t_pct; [lia|lia|lia|]. change (bytes "   ") with (repeat 32 (Z.to_nat 3)). apply t_blank; [exact N|lia|exact T].
Qed.
Lemma c_wac w : small_wac w -> clean (write_wac fmt w).
Proof.
  intros [[S1 S2] S3]. unfold write_wac, wac_pct. repeat (first [apply clean_dec8; lia|apply clean_check; reflexivity|apply pct_clean; [exact Hfmt|lia|lia]|apply clean_app]).
Qed.
Lemma t_headings ps l : tail_shows 26 ps l -> tail_shows 0 (headings ++ ps) (bytes "   Count   Missed   %Right" ++ l).
Proof.
  intros T. change (bytes "   Count   Missed   %Right") with (repeat 32 (Z.to_nat 3) ++ bytes "Count" ++ repeat 32 (Z.to_nat 3) ++ bytes "Missed" ++ repeat 32 (Z.to_nat 3) ++ bytes "%Right").
  rewrite <- !app_assoc. unfold headings. cbn [app]. do 3 (apply t_blank; [discriminate|lia|]; apply t_word; [reflexivity|]). exact T.
Qed.

Lemma f_numbers v limit (title : string) (excess total : bool) lines f : 0 <= limit < 100 -> (forall i, small_wac (row v i)) -> clean (bytes title) ->
  file_shows fmt lines f ->
  exists rows, lists (occurring v limit) rows /\
    file_shows fmt (number_table title (if excess then "Occurs" else "Length") v rows ++ (if excess then excess_rows v limit else []) ++ (if total then [total_row v] else []) ++ lines)
      (numbers_text fmt v limit (bytes title) excess total ++ f).
Proof.
  intros L S C F. exists (filter (fun i => 0 <? wcount (row v i)) (zrange 1 (Z.to_nat limit))). split.
  { apply lists_range. intros i. unfold occurring. lia. }
  unfold numbers_text, number_table, indices. rewrite !flat_map_app, <- !app_assoc. cbn [app]. apply fs_blank.
  apply fs_cons; [apply one_line; [exact C|apply t_last]|].
  rewrite (app_assoc wac_heading). apply fs_cons.
  { change wac_heading with (bytes "   Count   Missed   %Right" ++ repeat 32 (Z.to_nat 3)). rewrite <- app_assoc. destruct excess; (apply one_line; [apply clean_check; reflexivity|]).
    - apply t_headings. apply t_blank; [discriminate|lia|]. rewrite <- (app_nil_r (bytes "Occurs")). apply t_word; [reflexivity|apply t_nil].
    - apply t_headings. apply t_blank; [discriminate|lia|]. rewrite <- (app_nil_r (bytes "Length")). apply t_word; [reflexivity|apply t_nil]. }
  apply fs_app.
  { apply fs_rows. intros i I. apply In_zrange in I. unfold row_text, suffix. replace (i =? 0) with false by lia. replace (i =? limit + 1) with false by lia. cbn [orb].
    destruct (0 <? wcount (row v i)); [|reflexivity]. rewrite app_assoc. apply fs_one. apply one_line.
    - apply clean_app; [apply c_wac, S|]. apply clean_app; [apply clean_check; reflexivity|]. unfold dec2, pad. apply clean_app; [split; intros J; apply repeat_spec in J; discriminate J|].
      pose proof (numeral_dec i ltac:(lia)) as (_ & D & _). rewrite Forall_forall in D. split; intros J; apply D in J; lia.
    - apply t_wac; [apply S|discriminate|]. change (bytes "    ") with (repeat 32 (Z.to_nat 4)). apply t_blank; [discriminate|lia|].
      rewrite <- (app_nil_r (dec2 i)). apply t_num2; [lia|lia|apply t_nil]. }
  apply fs_app.
  { destruct excess; [|exact fs_nil]. cbn [flat_map]. rewrite app_nil_r. unfold excess_rows, row_text, suffix. replace (limit + 1 =? 0) with false by lia. rewrite Z.eqb_refl. cbn [orb].
    destruct (0 <? wcount (row v (limit + 1))); [|exact fs_nil]. rewrite app_assoc. apply fs_one. apply one_line.
    - apply clean_app; [apply c_wac, S|]. apply clean_app; [apply clean_check; reflexivity|]. unfold dec2, pad. apply clean_app; [split; intros J; apply repeat_spec in J; discriminate J|].
      pose proof (numeral_dec limit ltac:(lia)) as (_ & D & _). rewrite Forall_forall in D. split; intros J; apply D in J; lia.
    - apply t_wac; [apply S|discriminate|]. change (bytes "   >") with (repeat 32 (Z.to_nat 3) ++ bytes ">"). rewrite <- app_assoc. apply t_blank; [discriminate|lia|].
      apply t_word; [reflexivity|]. rewrite <- (app_nil_r (dec2 limit)). apply t_num2; [reflexivity|lia|apply t_nil]. }
  apply fs_app; [|exact F].
  destruct total; [|exact fs_nil]. cbn [flat_map]. rewrite app_nil_r. unfold row_text, suffix. cbn [Z.eqb orb]. unfold total_row. rewrite app_assoc. apply fs_one. apply one_line.
  - apply clean_app; [apply c_wac, S|apply clean_check; reflexivity].
  - apply t_wac; [apply S|discriminate|]. change (bytes " Total") with (repeat 32 (Z.to_nat 1) ++ bytes "Total" ++ []). apply t_blank; [discriminate|lia|]. apply t_word; [reflexivity|apply t_nil].
Qed.

Lemma f_terms a (title : string) lines f : Forall term_row_ok a -> clean (bytes title) -> file_shows fmt lines f ->
  file_shows fmt (word_table title a ++ lines) (terms_text fmt a (bytes title) ++ f).
Proof.
  intros Fa C F. unfold terms_text, word_table. rewrite <- !app_assoc. cbn [app]. apply fs_blank.
  apply fs_cons; [apply one_line; [exact C|apply t_last]|]. apply fs_cons.
  { change wac_heading with (bytes "   Count   Missed   %Right" ++ repeat 32 (Z.to_nat 3) ++ bytes ""). apply one_line; [apply clean_check; reflexivity|].
    apply t_headings. apply t_blank; [discriminate|lia|]. apply t_last. }
  apply fs_app; [|exact F]. apply fs_all. intros t T. rewrite Forall_forall in Fa. destruct (Fa t T) as (Wt & Sm).
  unfold write_term. rewrite app_assoc. apply fs_one. apply one_line.
  - apply clean_app; [now apply c_wac|]. now apply word_clean.
  - apply t_wac; [exact Sm|discriminate|apply t_last].
Qed.

Lemma ustrcmp_before a : forall b, ustrcmp a b <= 0 -> Forall (fun c => 0 < c) a -> before a b.
Proof.
  induction a as [|x a IH]; intros b H F; [constructor|]. apply Forall_cons_iff in F as [Fx F]. destruct b as [|y b].
  - cbn in H. destruct (Z.ltb_spec x 0); [lia|]. destruct (Z.eqb_spec x 0); [lia|]. destruct (Z.ltb_spec 0 x); lia.
  - cbn in H. destruct (Z.eqb_spec x y) as [->|N]; [apply before_same; now apply IH|]. destruct (Z.ltb_spec x y); [now constructor|lia].
Qed.
Lemma sorted_strong {A} (cmp : A -> A -> Z) (R : A -> A -> Prop) l : (forall x y, In x l -> In y l -> cmp x y <= 0 -> R x y) -> sorted cmp l -> StronglySorted R l.
Proof.
  induction l as [|a l IH]; intros H S; constructor.
  - apply IH; [intros x y X Y; apply H; now right|]. intros p q x y L P Q. apply (S (Datatypes.S p) (Datatypes.S q)); [lia|exact P|exact Q].
  - apply Forall_forall. intros x I. apply H; [now left|now right|]. apply In_nth_error in I as (q & Q). apply (S 0%nat (Datatypes.S q) a x); [lia|reflexivity|exact Q].
Qed.
Lemma sorted_terms order l a c : permutes_terms order -> words_ok l c -> sort compare_words (zlen (order l)) (order l) = Ok a -> Permutation a l /\ StronglySorted (fun x y => before (tkey x) (tkey y)) a.
Proof.
  intros O W E. destruct (C06_sort _ compare_words (order l)) as (a' & E' & Pm & So). rewrite E in E'. injection E' as <-.
  assert (Permutation a l) as P by (eapply Permutation_trans; [apply Permutation_sym; exact Pm|apply O]). split; [exact P|].
  assert (forall t, In t l -> bytes_ok (tkey t)) as Bo.
  { intros t T. pose proof (wo_words _ _ W) as F. rewrite Forall_forall in F. destruct (F t T) as (_ & Fb & _). eapply Forall_impl; [|exact Fb]. intros; cbn in *; lia. }
  eapply sorted_strong; [|eapply (So (fun t => bytes_ok (tkey t)))].
  - intros x y X Y Q. apply ustrcmp_before; [exact Q|]. pose proof (Bo x (Permutation_in _ P X)) as Bx. eapply Forall_impl; [|exact Bx]. intros; cbn in *; lia.
  - apply (key_preorder (fun t => bytes_ok (tkey t)) tkey). auto.
  - intros t T. apply Bo. eapply Permutation_in; [apply O|exact T].
Qed.

Lemma word_layout order d f : wreportable d -> wbelow 100000000 d -> permutes_terms order -> write_wacrpt fmt order d = Ok f ->
  exists lines, word_report d lines /\ file_shows fmt lines f.
Proof.
  intros R B O E. destruct (write_wacrpt_text fmt order d R O) as (sa & na & Ps & Pn & E' & Ss & Sn). rewrite E in E'. injection E' as ->.
  destruct (rows_small d R B) as (Sm & S1 & S2 & S3 & S4).
  destruct (sorted_terms order _ _ _ O (wr_stop_terms d R) Ss) as [_ Os]. destruct (sorted_terms order _ _ _ O (wr_non_terms d R) Sn) as [_ On].
  pose proof (terms_small _ _ _ (wr_stop_terms d R) (fun k => B (WStopword false k)) Ps) as Ts. pose proof (terms_small _ _ _ (wr_non_terms d R) (fun k => B (WNonStopword false k)) Pn) as Tn.
  assert (exists phrases, lists (occurring (phrase d) 8) phrases /\ file_shows fmt
    (if 0 <? wcount (wtotal d) then number_table "Phrases" "Length" (phrase d) phrases ++
         (if 0 <? wcount (row (stopword d) 0) then word_table "Stopwords" sa else []) ++
         (if 0 <? wcount (row (non_stopword d) 0) then word_table "Non-stopwords" na else []) else []) (words_text fmt d sa na)) as (ph & Lp & Fp).
  { unfold words_text.
    assert (file_shows fmt ((if 0 <? wcount (row (stopword d) 0) then word_table "Stopwords" sa else []) ++ (if 0 <? wcount (row (non_stopword d) 0) then word_table "Non-stopwords" na else []))
      ((if 0 <? wcount (row (stopword d) 0) then terms_text fmt sa (bytes "Stopwords") else []) ++ (if 0 <? wcount (row (non_stopword d) 0) then terms_text fmt na (bytes "Non-stopwords") else []))) as F2.
    { apply fs_app.
      - destruct (0 <? wcount (row (stopword d) 0)); [|exact (fs_nil)]. rewrite <- (app_nil_r (word_table _ _)), <- (app_nil_r (terms_text _ _ _)). apply f_terms; [exact Ts|apply clean_check; reflexivity|apply fs_nil].
      - destruct (0 <? wcount (row (non_stopword d) 0)); [|exact (fs_nil)]. rewrite <- (app_nil_r (word_table _ _)), <- (app_nil_r (terms_text _ _ _)). apply f_terms; [exact Tn|apply clean_check; reflexivity|apply fs_nil]. }
    destruct (f_numbers (phrase d) 8 "Phrases" false false _ _ ltac:(lia) S4 ltac:(apply clean_check; reflexivity) F2) as (ph & Lp & Fp). exists ph. split; [exact Lp|].
    destruct (0 <? wcount (wtotal d)); [exact Fp|apply fs_nil]. }
  destruct (f_numbers (distinct d) 10 "Distinct Non-stopwords" true true _ _ ltac:(lia) S3 ltac:(apply clean_check; reflexivity) Fp) as (di & Ld & Fd).
  destruct (f_numbers (non_stopword d) 50 "Non-stopwords" false true _ _ ltac:(lia) S2 ltac:(apply clean_check; reflexivity) Fd) as (no & Ln & Fn).
  destruct (f_numbers (stopword d) 50 "Stopwords" false true _ _ ltac:(lia) S1 ltac:(apply clean_check; reflexivity) Fn) as (st & Ls & Fs).
  cbn [app] in Fn, Fs. eexists. split.
  - constructor. exists st, no, di, ph, sa, na. split; [exact Ls|]. split; [exact Ln|]. split; [exact Ld|]. split; [exact Lp|]. split; [split; auto|]. split; [split; auto|]. reflexivity.
  - unfold report_wtext, WAC_TITLE, WAC_DIVIDER. rewrite <- !app_assoc. cbn [app]. destruct Sm as [[M1 M2] M3].
    apply fs_cons; [apply l_text; reflexivity|]. apply fs_cons; [apply l_text; reflexivity|].
    apply f_value; [lia|apply clean_check; reflexivity|]. apply f_value; [lia|apply clean_check; reflexivity|].
    rewrite (app_assoc (wac_pct fmt (wtotal d))). apply fs_cons; [apply l_pct; [lia|lia|apply clean_check; reflexivity]|].
    exact Fs.
Qed.

(** ** The accuracy report *)
Lemma f_class c t lines f : 0 <= cmissed c <= ccount c -> ccount c < 100000000 -> clean t -> file_shows fmt lines f ->
  file_shows fmt (class_row c t :: lines) (write_class fmt c t ++ f).
Proof.
  intros M L C F. unfold write_class, class_row. rewrite <- !app_assoc. cbn [app].
  replace (dec8 (ccount c) ++ _) with ((dec8 (ccount c) ++ bytes " " ++ dec8 (cmissed c) ++ bytes " " ++ write_pct fmt (ccount c - cmissed c) (ccount c) ++ bytes "   " ++ t) ++ 10 :: f) by (now rewrite <- !app_assoc).
  apply fs_cons; [|exact F]. apply one_line.
  - repeat (first [exact C|apply clean_dec8; lia|apply clean_check; reflexivity|apply pct_clean; [exact Hfmt|lia|lia]|apply clean_app]).
  - apply t_num; [lia|lia|]. change (bytes " ") with (repeat 32 (Z.to_nat 1)). apply t_blank; [discriminate|lia|]. apply t_num; [lia|lia|].
    apply t_blank; [discriminate|lia|]. apply t_pct; [lia|lia|lia|]. change (bytes "   ") with (repeat 32 (Z.to_nat 3)). apply t_blank; [discriminate|lia|apply t_last].
Qed.
Lemma f_ops o (s : string) lines f : (forall c, 0 <= column o c < 100000000) -> clean (bytes s) -> file_shows fmt lines f ->
  file_shows fmt (ops_row_of o s :: lines) (write_ops o (bytes s) ++ f).
Proof.
  intros L C F. pose proof (L CIns) as L1. pose proof (L CSubst) as L2. pose proof (L CDel) as L3. pose proof (L CErrors) as L4. cbn [column] in *.
  unfold write_ops, ops_row_of. rewrite <- !app_assoc. cbn [app].
  replace (dec8 (ins o) ++ _) with ((dec8 (ins o) ++ bytes " " ++ dec8 (subst o) ++ bytes " " ++ dec8 (del o) ++ bytes " " ++ dec8 (errs o) ++ bytes "   " ++ bytes s) ++ 10 :: f) by (now rewrite <- !app_assoc).
  apply fs_cons; [|exact F]. apply one_line.
  - repeat (first [exact C|apply clean_dec8; lia|apply clean_check; reflexivity|apply clean_app]).
  - change (bytes " ") with (repeat 32 (Z.to_nat 1)). apply t_num; [lia|lia|]. do 3 (apply t_blank; [discriminate|lia|]; apply t_num; [lia|lia|]).
    change (bytes "   ") with (repeat 32 (Z.to_nat 3)). apply t_blank; [discriminate|lia|apply t_last].
Qed.
Lemma f_conf c : conf_row_ok c -> file_shows fmt [conf_row c] (write_conf c).
Proof.
  intros ((body & Ek & N10 & B & Lk) & E & M). unfold write_conf, conf_row. rewrite Ek, removelast_last.
  replace (dec8 (cerrors c) ++ _) with ((dec8 (cerrors c) ++ bytes " " ++ dec8 (cmarked c) ++ bytes "   " ++ body) ++ [10]) by (now rewrite <- !app_assoc). apply fs_one. apply one_line.
  - assert (clean body). { split; [exact N10|]. intros I. rewrite Forall_forall in B. specialize (B 0 I). lia. }
    repeat (first [assumption|apply clean_dec8; lia|apply clean_check; reflexivity|apply clean_app]).
  - apply t_num; [lia|lia|]. change (bytes " ") with (repeat 32 (Z.to_nat 1)). apply t_blank; [discriminate|lia|]. apply t_num; [lia|lia|].
    change (bytes "   ") with (repeat 32 (Z.to_nat 3)). apply t_blank; [discriminate|lia|apply t_last].
Qed.

Lemma sorted_confs order l a : (forall l, Permutation (order l) l) -> Forall conf_row_ok l -> sort compare_conf (zlen (order l)) (order l) = Ok a -> StronglySorted conf_before a.
Proof.
  intros O W E. destruct (C06_sort _ compare_conf (order l)) as (a' & E' & Pm & So). rewrite E in E'. injection E' as <-.
  assert (Permutation a l) as P by (eapply Permutation_trans; [apply Permutation_sym; exact Pm|apply O]).
  assert (forall t, In t l -> conf_ok t) as Bo.
  { intros t T. rewrite Forall_forall in W. destruct (W t T) as ((body & Ek & _ & Fb & _) & E1 & E2). split; [|unfold CompareProof.figure; lia]. unfold bytes_ok. rewrite Ek. apply Forall_app. split; [exact Fb|]. constructor; [lia|constructor]. }
  eapply sorted_strong; [|eapply (So conf_ok)].
  - intros x y X Y Q. pose proof (Bo x (Permutation_in _ P X)) as (Kx & Ex & Mx). pose proof (Bo y (Permutation_in _ P Y)) as (Ky & Ey & My). unfold CompareProof.figure in *.
    unfold compare_conf in Q. unfold conf_before. destruct (Z.eqb_spec (cerrors x) (cerrors y)) as [Ee|Ne]; cbn [negb] in Q.
    + right. split; [exact Ee|]. destruct (Z.eqb_spec (cmarked x) (cmarked y)) as [Em|Nm]; cbn [negb] in Q.
      * right. split; [exact Em|]. apply ustrcmp_before; [exact Q|]. eapply Forall_impl; [|exact Kx]. intros; cbn in *; lia.
      * left. rewrite to_int_small in Q by lia. lia.
    + left. rewrite to_int_small in Q by lia. lia.
  - exact compare_conf_preorder.
  - intros t T. apply Bo. eapply Permutation_in; [apply O|exact T].
Qed.

Lemma flat_map_one {A} (g : A -> list part) is : flat_map (fun i => [g i]) is = map g is.
Proof. induction is; cbn; congruence. Qed.

Lemma accuracy_layout uc order d f : nul_hidden uc -> (forall l, Permutation (order l) l) -> reportable d -> below 100000000 d ->
  write_accrpt uc fmt order d = Ok f -> exists lines, accuracy_report uc d lines /\ file_shows fmt lines f.
Proof.
  intros NUL O R B E. destruct (write_accrpt_text uc fmt NUL order d R O) as (a & Pa & E' & Es). rewrite E in E'. injection E' as ->.
  pose proof (conf_rows_good d a R B Pa) as Ca.
  assert (Forall conf_row_ok (conftable d)) as Cd. { eapply Permutation_Forall; [exact Pa|exact Ca]. }
  pose proof (sorted_confs order (conftable d) a O Cd Es) as Sa.
  assert (forall x, 0 <= fig x d < 100000000) as Q by (intros x; now apply fig_bounds).
  assert (forall j, 0 <= j < 256 -> 0 < ccount (large d j) -> charclass_name j = Ok (class_name j) /\ clean (class_name j) /\ 0 <= cmissed (large d j) <= ccount (large d j) /\ ccount (large d j) < 100000000) as Cj.
  { intros j J C. destruct (class_members d j (rp_tables d R) J C) as (v & V & Ev). destruct (class_name_ok v V) as (N & Cl & L). rewrite Ev in *. split; [exact N|]. split; [exact Cl|].
    assert (cmissed (large d j) <= ccount (large d j)).
    { rewrite (tc_large_count d (rp_tables d R)), (tc_large_missed d (rp_tables d R)) by exact J. apply sum_to_le; [lia|]. intros w _. pose proof (tc_missed d (rp_tables d R) w). destruct (in_class j w); lia. }
    pose proof (Q (FClass true j)) as F1. pose proof (Q (FClass false j)) as F2. cbn [fig cell] in F1, F2. replace ((0 <=? j) && (j <? 256)) with true in F1, F2 by lia. lia. }
  eexists. split.
  - constructor. exists (filter (fun j => 0 <? ccount (large d j)) (zrange 0 (Z.to_nat MAX_CHARCLASSES))), (filter (fun v => 0 <? ccount (small d v)) all_values), a, class_name.
    split; [|split; [|split; [|split; [exact Pa|split; [exact Sa|reflexivity]]]]].
    + apply lists_range. intros j. change (0 + Z.of_nat (Z.to_nat MAX_CHARCLASSES)) with 256. lia.
    + intros j J. apply filter_In in J as [J C]. apply In_upto in J; [|unfold MAX_CHARCLASSES; lia]. apply Cj; [exact J|lia].
    + unfold all_values. apply lists_range. intros v. rewrite Z2Nat.id by (unfold NUM_CHARVALUES; lia). unfold NUM_CHARVALUES. split; [|lia].
      intros C. pose proof (class_values d v R ltac:(lia)) as V. lia.
  - unfold report_text, ACC_TITLE, ACC_DIVIDER. cbn [concat]. rewrite concat_app, <- flat_map_concat_map. rewrite <- !app_assoc. cbn [app concat].
    apply fs_cons; [apply l_text; reflexivity|]. apply fs_cons; [apply l_text; reflexivity|].
    apply f_value; [exact (Q FCharacters)|apply clean_check; reflexivity|]. apply f_value; [exact (Q FErrors)|apply clean_check; reflexivity|].
    pose proof (Q FCharacters) as QC. pose proof (Q FErrors) as QE. pose proof (Q FRejects) as QR. pose proof (Q FSuspects) as QS. pose proof (Q (FOps RUnmarked CErrors)) as QU. cbn [fig ops_of column] in QC, QE, QR, QS, QU.
    rewrite (app_assoc (write_pct fmt (characters d - errors d) (characters d))). apply fs_cons; [apply l_pct; [lia|lia|apply clean_check; reflexivity]|].
    apply fs_blank.
    apply f_value; [exact QR|apply clean_check; reflexivity|]. apply f_value; [exact QS|apply clean_check; reflexivity|]. apply f_value; [exact (Q FFalseMarks)|apply clean_check; reflexivity|].
    rewrite (app_assoc (write_pct fmt (rejects d + suspects d) (characters d))). apply fs_cons; [apply l_pct; [lia|lia|apply clean_check; reflexivity]|].
    rewrite (app_assoc (write_pct fmt (characters d - errs (unmarked_ops d)) (characters d))). apply fs_cons; [apply l_pct; [lia|lia|apply clean_check; reflexivity]|].
    apply fs_blank. apply fs_cons.
    { apply one_line; [apply clean_check; reflexivity|].
      change (bytes "     Ins    Subst      Del   Errors") with (repeat 32 (Z.to_nat 5) ++ bytes "Ins" ++ repeat 32 (Z.to_nat 4) ++ bytes "Subst" ++ repeat 32 (Z.to_nat 6) ++ bytes "Del" ++ repeat 32 (Z.to_nat 3) ++ bytes "Errors" ++ []).
      do 4 (apply t_blank; [discriminate|lia|]; apply t_word; [reflexivity|]). apply t_nil. }
    apply f_ops; [intros c; exact (Q (FOps RMarked c))|apply clean_check; reflexivity|].
    apply f_ops; [intros c; exact (Q (FOps RUnmarked c))|apply clean_check; reflexivity|].
    apply f_ops; [intros c; exact (Q (FOps RTotal c))|apply clean_check; reflexivity|].
    apply fs_blank.
    assert (line_shows fmt headings (bytes "   Count   Missed   %Right")) as Hh.
    { apply one_line; [apply clean_check; reflexivity|]. rewrite <- (app_nil_r (bytes _)), <- (app_nil_r headings). apply t_headings, t_nil. }
    apply fs_cons; [exact Hh|]. apply fs_app.
    { apply fs_rows. intros j J. apply In_upto in J; [|unfold MAX_CHARCLASSES; lia]. unfold large_row. destruct (Z.ltb_spec 0 (ccount (large d j))) as [C|C]; [|reflexivity].
      destruct (Cj j J C) as (_ & Cl & M & L). rewrite <- (app_nil_r (write_class _ _ _)). apply f_class; auto. apply fs_nil. }
    rewrite app_nil_r. apply f_class.
    { pose proof (Q (FAllClasses true)) as F1. cbn [fig cell] in F1. split; [lia|]. rewrite (tc_total_small_count d (rp_tables d R)), (tc_total_small_missed d (rp_tables d R)).
      apply sum_to_le; [lia|]. intros w _. apply (tc_missed d (rp_tables d R)). }
    { pose proof (Q (FAllClasses false)) as F2. cbn [fig cell] in F2. lia. }
    { apply clean_check. reflexivity. }
    apply fs_app.
    { destruct (0 <? errors d); [|apply fs_nil]. cbn [app]. apply fs_blank. apply fs_cons.
      { apply one_line; [apply clean_check; reflexivity|].
        change (bytes "  Errors   Marked   Correct-Generated") with (repeat 32 (Z.to_nat 2) ++ bytes "Errors" ++ repeat 32 (Z.to_nat 3) ++ bytes "Marked" ++ repeat 32 (Z.to_nat 3) ++ bytes "Correct-Generated").
        do 2 (apply t_blank; [discriminate|lia|]; apply t_word; [reflexivity|]). apply t_blank; [discriminate|lia|apply t_last]. }
      apply fs_all. intros c C. apply f_conf. rewrite Forall_forall in Ca. now apply Ca. }
    destruct (0 <? characters d); [|apply fs_nil]. cbn [app]. apply fs_blank. apply fs_cons; [exact Hh|].
    apply fs_rows. intros v V. unfold small_row. destruct (Z.ltb_spec 0 (ccount (small d v))) as [C|C]; [|reflexivity].
    pose proof (Q (FCharacter true v)) as F1. pose proof (Q (FCharacter false v)) as F2. cbn [fig cell] in F1, F2. pose proof (tc_missed d (rp_tables d R) v).
    rewrite <- (app_nil_r (write_class _ _ _)). apply f_class; [lia|lia| |apply fs_nil].
    apply (display_clean uc NUL v). apply (rp_values d R). lia.
Qed.
End Fmt.
