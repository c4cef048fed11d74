(** Properties C08-C15: reading and writing texts. *)
From Coq Require Import String.
From Verif Require Import Base CLib Utf8Model TextModel TextSpec Utf8Proof TextProof CLibProof TextIO.
Local Open Scope Z_scope.
Local Open Scope list_scope.

(** Whatever the Unicode data base [uc] says and whatever the uninitialised local buffers
    contain ([line]: 100 bytes, [buf]: 4 bytes). *)
Definition junk_ok (line buf : list Z) : Prop :=
  zlen line = 100 /\ List.length buf = 4%nat /\ Forall is_byte buf.

(** A stand-in for the Unicode data base used in the examples. *)
Definition sample_uc : unicode_data :=
  mkuc (fun c => if (c <? 32) || ((127 <=? c) && (c <? 160)) then CC
                 else if (c =? 32) || (c =? 160) || (c =? 8195) then ZS
                 else if (768 <=? c) && (c <? 880) then MN
                 else if (c =? 1114110) || (c =? 1114111) then CN
                 else if 983040 <=? c then CO else LL)
       (fun c => if (65 <=? c) && (c <=? 90) then c + 32 else c).
Definition sample_line : list Z := repeat 7 100.
Definition sample_buf : list Z := [1; 200; 3; 255].
Definition plain_opt : textopt := mkopt false false 0 false false.

(** C08: the characters read are exactly those whose UTF-8 encoding the stream is. *)
Theorem C08_decode : forall uc line buf f cs,
  junk_ok line buf -> Forall is_byte f ->
  (read_text uc line buf plain_opt [] f = Ok (map (mkchar false) cs, false) <->
   Forall scalar cs /\ f = utf8s cs).
Proof.
  intros uc line buf f cs (_ & Hb) Hf.
  destruct (read_text_ok uc line buf plain_opt [] f eq_refl Hf Hb) as [(cs' & S1 & E1 & R1)|[N1 [m1 R1]]].
  - rewrite R1. cbn [app plain_opt post find_markers normalize case_insensitive].
    unfold post. cbn [normalize case_insensitive plain_opt].
    assert (tag false (marker_of plain_opt) false cs' = map (mkchar false) cs') as ->.
    { rewrite tag_off. now destruct cs'. }
    split.
    + intros [= E]. assert (cs' = cs) as <-; [|auto].
      clear -E. revert cs E; induction cs' as [|x l IH]; intros [|y m] E; try discriminate; [reflexivity|].
      injection E as -> E. f_equal. auto.
    + intros [S2 E2]. assert (cs' = cs) as ->; [|reflexivity].
      apply utf8s_inj; congruence.
  - rewrite R1. split; [discriminate|]. intros [S E]. now destruct (N1 cs S).
Qed.
Print Assumptions C08_decode.

(** C08: with any options, a file (without header search) that is not UTF-8 is rejected and
    a UTF-8 file is accepted; there is no other outcome (in particular no out-of-bounds
    access). *)
Theorem C08_reject : forall uc line buf opt text f,
  junk_ok line buf -> Forall is_byte f -> find_header opt = false ->
  ((exists cs, Forall scalar cs /\ f = utf8s cs) ->
     exists t, read_text uc line buf opt text f = Ok (t, false)) /\
  ((~ exists cs, Forall scalar cs /\ f = utf8s cs) ->
     exists msg, read_text uc line buf opt text f = Fail msg).
Proof.
  intros uc line buf opt text f (_ & Hb) Hf Hh.
  destruct (read_text_ok uc line buf opt text f Hh Hf Hb) as [(cs' & S1 & E1 & R1)|[N1 [m1 R1]]].
  - split; [eauto|]. intros H. exfalso. apply H. eauto.
  - split; [|eauto]. intros (cs & S & E). now destruct (N1 cs S).
Qed.
Print Assumptions C08_reject.

(** With header search too the program either succeeds or reports an error. *)
Theorem C08_safe : forall uc line buf opt text f,
  junk_ok line buf -> Forall is_byte f ->
  (exists r, read_text uc line buf opt text f = Ok r) \/
  (exists msg, read_text uc line buf opt text f = Fail msg).
Proof.
  intros uc line buf opt text f (Hl & Hb) Hf.
  assert (forall opt f, find_header opt = false -> Forall is_byte f ->
    (exists r, read_text uc line buf opt text f = Ok r) \/
    (exists msg, read_text uc line buf opt text f = Fail msg)) as H.
  { intros o g Ho Hg.
    destruct (read_text_ok uc line buf o text g Ho Hg Hb) as [(cs' & S1 & E1 & R1)|[N1 [m1 R1]]]; eauto. }
  destruct (find_header opt) eqn:Hh; [|auto].
  destruct (read_header_total line f Hl) as (found & a & b & E & R).
  rewrite (read_text_header uc line buf opt text f found b Hh R).
  destruct (H (no_header opt) b eq_refl) as [[[t fd] ->]|[msg ->]]; cbn; eauto.
  rewrite E in Hf. apply Forall_app in Hf. tauto.
Qed.
Print Assumptions C08_safe.

Example C08_ex : junk_ok sample_line sample_buf /\
  read_text sample_uc sample_line sample_buf plain_opt []
    [97; 195; 169; 226; 130; 172; 240; 159; 152; 128] =
  Ok (map (mkchar false) [97; 233; 8364; 128512], false) /\
  (* over-long, surrogate, beyond U+10FFFF, truncated, stray continuation *)
  Forall (fun f => is_ok (read_text sample_uc sample_line sample_buf plain_opt [] f) = false)
    [[192; 128]; [224; 159; 191]; [237; 160; 128]; [244; 144; 128; 128]; [226; 130]; [128]; [248]].
Proof.
  split; [|split].
  - split; [reflexivity|]. split; [reflexivity|]. repeat constructor; unfold is_byte; lia.
  - reflexivity.
  - repeat constructor.
Qed.

(** C09: suspect markers. *)
Theorem C09_markers : forall uc line buf f cs m t,
  junk_ok line buf -> Forall is_byte f ->
  Forall scalar cs -> f = utf8s cs -> 0 <= m ->
  (read_text uc line buf (mkopt false true m false false) [] f = Ok (t, false) <->
   marked (if m =? 0 then 94 else m) cs t).
Proof.
  intros uc line buf f cs m t (_ & Hb) Hf Hs E Hm.
  set (opt := mkopt false true m false false).
  destruct (read_text_ok uc line buf opt [] f eq_refl Hf Hb) as [(cs' & S1 & E1 & R1)|[N1 [m1 R1]]].
  2: { exfalso. now apply (N1 cs). }
  assert (cs' = cs) as ->.
  { apply utf8s_inj; congruence. }
  rewrite R1. cbn [app].
  change (post uc opt (tag (find_markers opt) (marker_of opt) false cs))
    with (tag true (if m =? 0 then 94 else m) false cs).
  split.
  - intros [= <-]. apply tag_marked.
  - intros H. apply marked_fun in H. now rewrite H.
Qed.
Print Assumptions C09_markers.

Example C09_ex :
  read_text sample_uc sample_line sample_buf (mkopt false true 0 false false) []
    (bytes "^^a^^^b^^cd^") =
  Ok ([mkchar true 97; mkchar true 98; mkchar true 99; mkchar false 100], false) /\
  read_text sample_uc sample_line sample_buf plain_opt [] (bytes "^a") =
  Ok ([mkchar false 94; mkchar false 97], false).
Proof. split; reflexivity. Qed.

(** C10: the newly read text is in canonical spacing form. *)
Theorem C10_canonical : forall uc line buf opt text f t found,
  junk_ok line buf -> Forall is_byte f -> normalize opt = true ->
  (case_insensitive opt = true -> lower_keeps_spacing uc) ->
  read_text uc line buf opt text f = Ok (t, found) ->
  exists new, t = text ++ new /\ canonical uc new.
Proof.
  intros uc line buf opt text f t found (Hl & Hb) Hf Hn Hci.
  assert (forall o g t found, find_header o = false -> Forall is_byte g -> normalize o = true ->
    (case_insensitive o = true -> lower_keeps_spacing uc) ->
    read_text uc line buf o text g = Ok (t, found) ->
    exists new, t = text ++ new /\ canonical uc new) as H.
  { clear opt f t found Hf Hn Hci. intros o g t found Ho Hg Hn Hci.
    destruct (read_text_ok uc line buf o text g Ho Hg Hb) as [(cs' & S1 & E1 & R1)|[N1 [m1 R1]]];
      rewrite ?R1; [|discriminate].
    intros [= <- <-]. eexists. split; [reflexivity|].
    set (raw := tag _ _ _ _). unfold post. rewrite Hn.
    pose proof (normalised_canonical uc raw _ (cl_normalised uc raw)) as C.
    destruct (case_insensitive o) eqn:Hc; [|exact C].
    specialize (Hci eq_refl). unfold blanks_to_blank.
    set (u := cl false false _) in *. clearbody u. clear -C Hci.
    set (lw := fun c => mkchar (suspect c) (tolower uc (value c))).
    assert (forall c, spacing uc (lw c) <-> spacing uc c) as Hsp.
    { intros c. unfold spacing. cbn. destruct (Hci (value c)) as (A & _ & B). tauto. }
    destruct C as (C1 & C2 & C3 & C4). split; [|split; [|split]].
    - intros c Hin HB. apply in_map_iff in Hin as (d & <- & Hd). cbn in *.
      destruct (Hci (value d)) as (_ & A & B). apply A. apply C1; [exact Hd|]. now apply B.
    - intros a x y b E. 
      apply map_eq_app in E as (a' & r & -> & _ & E).
      destruct r as [|x' [|y' r]]; try discriminate E. injection E as <- <- _.
      rewrite !Hsp. now apply (C2 a' x' y' r).
    - intros x b E. destruct u as [|x' u]; [discriminate E|]. injection E as <- _.
      rewrite Hsp. now apply (C3 x' u).
    - intros a x E. apply map_eq_app in E as (a' & r & -> & _ & E).
      destruct r as [|x' [|]]; try discriminate E. injection E as <-.
      cbn. destruct (Hci (value x')) as (_ & _ & B). rewrite B. now apply (C4 a' x'). }
  destruct (find_header opt) eqn:Hh; [|now apply H].
  destruct (read_header_total line f Hl) as (fnd & a & b & E & R).
  rewrite (read_text_header uc line buf opt text f fnd b Hh R).
  destruct (read_text uc line buf (no_header opt) text b) as [[t' fd]| | |] eqn:E'; cbn; try discriminate.
  intros [= -> _]. apply (H (no_header opt) b t fd); auto.
  rewrite E in Hf. apply Forall_app in Hf. tauto.
Qed.
Print Assumptions C10_canonical.

(** C11: the content is preserved. *)
Theorem C11_content : forall uc line buf fh fm m text f new found,
  junk_ok line buf -> Forall is_byte f ->
  (read_text uc line buf (mkopt fh fm m true false) text f = Ok (text ++ new, found) <->
   exists raw, read_text uc line buf (mkopt fh fm m false false) text f = Ok (text ++ raw, found) /\
     normalised uc raw new).
Proof.
  intros uc line buf fh fm m text f new found (Hl & Hb) Hf.
  assert (forall g new found, Forall is_byte g ->
    (read_text uc line buf (mkopt false fm m true false) text g = Ok (text ++ new, found) <->
     exists raw, read_text uc line buf (mkopt false fm m false false) text g = Ok (text ++ raw, found) /\
       normalised uc raw new)) as H.
  { clear f new found Hf. intros g new found Hg.
    destruct (read_text_ok uc line buf (mkopt false fm m true false) text g eq_refl Hg Hb)
      as [(cs & S1 & E1 & R1)|[N1 [m1 R1]]];
    destruct (read_text_ok uc line buf (mkopt false fm m false false) text g eq_refl Hg Hb)
      as [(cs2 & S2 & E2 & R2)|[N2 [m2 R2]]].
    - assert (cs2 = cs) as ->.
      { apply utf8s_inj; congruence. }
      rewrite R1, R2. unfold post. cbn [normalize case_insensitive find_markers].
      change (marker_of (mkopt false fm m true false)) with (marker_of (mkopt false fm m false false)).
      set (raw := tag _ _ _ _). split.
      + intros [= E <-]. apply app_inv_head in E as <-. exists raw.
        split; [reflexivity|]. apply cl_normalised.
      + intros (raw' & [= E <-] & HN). apply app_inv_head in E as <-.
        apply normalised_cl in HN. now rewrite HN.
    - exfalso. now apply (N2 cs).
    - exfalso. now apply (N1 cs2).
    - rewrite R1, R2. split; [discriminate|]. intros (? & ? & _). discriminate. }
  destruct fh; [|now apply H].
  destruct (read_header_total line f Hl) as (fnd & a & b & E & R).
  rewrite (read_text_header uc line buf (mkopt true fm m true false) text f fnd b eq_refl R).
  rewrite (read_text_header uc line buf (mkopt true fm m false false) text f fnd b eq_refl R).
  change (no_header (mkopt true fm m true false)) with (mkopt false fm m true false).
  change (no_header (mkopt true fm m false false)) with (mkopt false fm m false false).
  assert (Forall is_byte b) as Hfb by (rewrite E in Hf; apply Forall_app in Hf; tauto).
  split.
  - destruct (read_text uc line buf (mkopt false fm m true false) text b) as [[t' fd]| | |] eqn:E';
      cbn [obind]; try discriminate.
    intros [= -> <-]. destruct (proj1 (H b new fd Hfb)) as (raw & R1 & R2); auto.
    exists raw. rewrite R1. cbn [obind]. auto.
  - intros (raw & R1 & R2).
    destruct (read_text uc line buf (mkopt false fm m false false) text b) as [[t' fd]| | |] eqn:E';
      cbn [obind] in R1; try discriminate R1.
    injection R1 as -> <-. rewrite (proj2 (H b new fd Hfb)); [reflexivity|]. eauto.
Qed.
Print Assumptions C11_content.

(** Normalising the result again changes nothing. *)
Theorem C11_idempotent : forall uc t u,
  compress_spacing uc t 0 = Ok u ->
  normalised uc t u /\ compress_spacing uc u 0 = Ok u.
Proof.
  intros uc t u E. destruct (compress_spacing_ok uc [] t) as (new & _ & E' & Hn & _).
  rewrite E in E'. injection E' as <-. split; [exact Hn|].
  apply compress_canonical. now apply (normalised_canonical uc t).
Qed.
Print Assumptions C11_idempotent.

Example C10_C11_ex :
  read_text sample_uc sample_line sample_buf (mkopt false true 0 true false) [mkchar false 32]
    (bytes " ab  ^ c " ++ [10; 10; 9] ++ bytes "d ^" ++ [9; 194; 160] ++ bytes "e " ++ [10] ++ bytes "  ") =
  Ok (mkchar false 32 :: [mkchar false 97; mkchar false 98; mkchar true 32; mkchar false 99; mkchar false 10;
       mkchar false 100; mkchar true 32; mkchar false 101; mkchar false 10], false) /\
  lower_keeps_spacing sample_uc.
Proof.
  split; [reflexivity|].
  intros c. unfold blankish. cbn [tolower cat sample_uc].
  destruct (Z.leb_spec 65 c), (Z.leb_spec c 90); cbn [andb]; try tauto.
  split; [lia|]. split; [lia|].
  assert (forall d, 65 <= d <= 122 ->
    cat sample_uc d = LL) as HL.
  { intros d Hd. cbn.
    repeat match goal with |- context [?a <? ?b] => destruct (Z.ltb_spec a b); try lia end.
    repeat match goal with |- context [?a <=? ?b] => destruct (Z.leb_spec a b); try lia end.
    repeat match goal with |- context [?a =? ?b] => destruct (Z.eqb_spec a b); try lia end.
    reflexivity. }
  pose proof (HL c ltac:(lia)) as L1. pose proof (HL (c + 32) ltac:(lia)) as L2. cbn in L1, L2.
  rewrite L1, L2. intuition (lia || discriminate).
Qed.

(** C12: appending. *)
Theorem C12_append : forall uc line buf opt text f,
  junk_ok line buf -> Forall is_byte f ->
  (forall t found, read_text uc line buf opt [] f = Ok (t, found) ->
     read_text uc line buf opt text f = Ok (text ++ t, found)) /\
  (forall msg, read_text uc line buf opt [] f = Fail msg ->
     read_text uc line buf opt text f = Fail msg).
Proof.
  intros uc line buf opt text f (Hl & Hb) Hf.
  rewrite (read_text_append uc line buf opt text f) by assumption.
  split; [intros t found ->|intros msg ->]; reflexivity.
Qed.
Print Assumptions C12_append.

Example C12_ex :
  read_text sample_uc sample_line sample_buf (mkopt false true 0 true true)
    [mkchar true 65; mkchar false 32; mkchar false 9] (bytes "  B^C") =
  Ok ([mkchar true 65; mkchar false 32; mkchar false 9; mkchar false 98; mkchar true 99], false).
Proof. reflexivity. Qed.

(** C13: headers. *)
Theorem C13_header : forall uc line buf opt text title lines body,
  junk_ok line buf -> Forall is_byte (title ++ concat lines ++ divider ++ body) ->
  find_header opt = true ->
  short_line title -> starts_with title_start title -> Forall short_line lines ->
  (* exactly one divider among [lines] *)
  (exists l1 l2, lines = l1 ++ divider :: l2 /\ ~ In divider l1 /\ ~ In divider l2) ->
  read_text uc line buf opt text (title ++ concat lines ++ divider ++ body) =
  let! (t, _) := read_text uc line buf
                   (mkopt false (find_markers opt) (suspect_marker opt) (normalize opt)
                      (case_insensitive opt)) text body in
  Ok (t, true).
Proof.
  intros uc line buf opt text title lines body (Hl & Hb) Hf Hh Hs Ht Hls (l1 & l2 & -> & N1 & N2).
  apply (read_text_header uc line buf opt text _ true body Hh).
  apply read_header_lines; auto.
  assert (forall l, ~ In divider l -> count_div l = 0) as Hz.
  { clear. induction l as [|x l IH]; intros H; [reflexivity|]. rewrite count_div_cons.
    rewrite IH by (intros ?; apply H; now right).
    destruct (streq x divider) eqn:E; [|lia].
    apply streq_spec in E. exfalso. apply H. now left. }
  unfold count_div in *. rewrite filter_app, zlen_app. cbn [filter].
  rewrite (proj2 (streq_spec divider divider) eq_refl), zlen_cons, !Hz by assumption. lia.
Qed.
Print Assumptions C13_header.

Theorem C13_unterminated_header : forall uc line buf opt text title lines tail,
  junk_ok line buf -> find_header opt = true ->
  short_line title -> starts_with title_start title -> Forall short_line lines ->
  ~ In 10 tail -> zlen tail <= 98 -> (forall l1 l2 l3, lines <> l1 ++ divider :: l2 ++ divider :: l3) ->
  read_text uc line buf opt text (title ++ concat lines ++ tail) = Ok (text, true).
Proof.
  intros uc line buf opt text title lines tail (Hl & Hb) Hh Hs Ht Hls Htl Htn H.
  rewrite (read_text_header uc line buf opt text _ true [] Hh).
  - rewrite read_text_append; [|assumption|constructor|assumption].
    unfold read_text, no_header. cbn [find_header obind read_contents List.length find_markers
      suspect_marker normalize case_insensitive app].
    destruct (normalize opt); cbn; destruct (case_insensitive opt); cbn; now rewrite app_nil_r.
  - apply read_header_unterminated; auto.
    assert (forall l, (exists l1 l2 l3, l = l1 ++ divider :: l2 ++ divider :: l3) \/ count_div l <= 1 /\
                 (count_div l = 1 -> exists l1 l2, l = l1 ++ divider :: l2)) as Hz.
    { clear. induction l as [|x l [(l1 & l2 & l3 & ->)|[IH1 IH2]]].
      - right. split; [cbn; lia|]. cbn. lia.
      - left. exists (x :: l1), l2, l3. reflexivity.
      - rewrite count_div_cons. destruct (streq x divider) eqn:E.
        + apply streq_spec in E as ->.
          assert (0 <= count_div l) by (unfold count_div; apply zlen_nonneg).
          destruct (Z.eq_dec (count_div l) 1) as [E1|E1].
          * left. destruct (IH2 E1) as (l1 & l2 & ->). exists [], l1, l2. reflexivity.
          * right. split; [lia|]. exists [], l. reflexivity.
        + right. split; [lia|]. intros E1. destruct (IH2 E1) as (l1 & l2 & ->).
          exists (x :: l1), l2. reflexivity. }
    destruct (Hz lines) as [(l1 & l2 & l3 & E)|[E _]]; [exfalso; now apply (H l1 l2 l3)|exact E].
Qed.
Print Assumptions C13_unterminated_header.

Theorem C13_no_header : forall uc line buf opt text f,
  junk_ok line buf -> find_header opt = true -> ~ starts_with title_start f ->
  read_text uc line buf opt text f =
  read_text uc line buf
    (mkopt false (find_markers opt) (suspect_marker opt) (normalize opt) (case_insensitive opt)) text f.
Proof.
  intros uc line buf opt text f (Hl & Hb) Hh Hn.
  rewrite (read_text_header uc line buf opt text f false f Hh) by now apply read_header_no.
  change (no_header opt) with
    (mkopt false (find_markers opt) (suspect_marker opt) (normalize opt) (case_insensitive opt)).
  unfold read_text. cbn [find_header obind]. 
  destruct (read_contents _ _ _ _ _ _); cbn [obind]; try reflexivity.
  destruct (if normalize _ then _ else _); reflexivity.
Qed.
Print Assumptions C13_no_header.

(** A text written with a header reads back as if none had been written. *)
Theorem C13_round_trip : forall uc line buf opt text hlines body file,
  junk_ok line buf -> find_header opt = true ->
  Forall short_line hlines -> ~ In divider hlines -> Forall is_byte (concat hlines) ->
  Forall is_byte body ->
  write_text uc text None = Ok body ->
  write_text uc text (Some (concat hlines)) = Ok file ->
  read_text uc line buf opt [] file =
  let! (t, _) := read_text uc line buf
                   (mkopt false (find_markers opt) (suspect_marker opt) (normalize opt)
                      (case_insensitive opt)) [] body in
  Ok (t, true).
Proof.
  intros uc line buf opt text hlines body file Hj Hh Hs Hn Hbh Hbb E1 E2.
  unfold write_text in *.
  destruct (ofold _ text []) as [b| | |]; cbn [obind] in *; try discriminate.
  cbn [app] in E1. injection E1 as <-.
  assert (file = (TITLE ++ DIVIDER ++ concat hlines ++ DIVIDER) ++ b) as -> by congruence. clear E2.
  assert ((TITLE ++ DIVIDER ++ concat hlines ++ DIVIDER) ++ b =
          TITLE ++ concat (divider :: hlines) ++ divider ++ b) as ->.
  { rewrite DIVIDER_divider. cbn [concat]. now rewrite <- !app_assoc. }
  assert (Forall is_byte TITLE) as HT
    by (apply Forall_forall; intros x Hx; assert (forallb (fun c => (0 <=? c) && (c <? 256)) TITLE = true) as HF
          by reflexivity; rewrite forallb_forall in HF; specialize (HF x Hx); unfold is_byte; lia).
  assert (Forall is_byte divider) as HD
    by (apply Forall_forall; intros x Hx; assert (forallb (fun c => (0 <=? c) && (c <? 256)) divider = true) as HF
          by reflexivity; rewrite forallb_forall in HF; specialize (HF x Hx); unfold is_byte; lia).
  assert (short_line divider) as HSD.
  { exists (repeat 45 48). split; [reflexivity|]. split; [cbn; intuition lia|cbn; lia]. }
  apply C13_header; auto.
  - cbn [concat]. rewrite !Forall_app. auto.
  - exists (removelast TITLE). split; [reflexivity|]. split; [|cbn; lia].
    intros H. assert (forallb (fun c => negb (c =? 10)) (removelast TITLE) = true) as HF by reflexivity.
    rewrite forallb_forall in HF. specialize (HF 10 H). discriminate.
  - exists [55; 46; 48; 10]. exact TITLE_start.
  - exists [], hlines. split; [reflexivity|]. split; [intros []|exact Hn].
Qed.
Print Assumptions C13_round_trip.

(** Without the bound on the length of the header's lines the claim is false: the end of a
    long line can be taken for a divider line, so that text belonging to the header (here
    everything after the only divider line but one) is read as text. *)
Theorem C13_long_line_refuted : exists title long rest,
  short_line title /\ starts_with title_start title /\ ~ In 10 long /\
  long ++ [10] <> divider /\
  forall uc,
  read_text uc sample_line sample_buf (mkopt true false 0 false false) []
    (title ++ divider ++ (long ++ [10]) ++ divider ++ rest) =
  Ok (map (mkchar false) (divider ++ rest), true).
Proof.
  exists TITLE, (repeat 88 98 ++ repeat 45 48), (bytes "abc").
  split; [|split; [|split; [|split]]].
  - exists (removelast TITLE). split; [reflexivity|]. split; [|cbn; lia].
    intros H. assert (forallb (fun c => negb (c =? 10)) (removelast TITLE) = true) as HF by reflexivity.
    rewrite forallb_forall in HF. specialize (HF 10 H). discriminate.
  - exists [55; 46; 48; 10]. exact TITLE_start.
  - intros H. apply in_app_or in H as [H|H]; apply repeat_spec in H; discriminate.
  - discriminate.
  - intros uc. vm_compute. reflexivity.
Qed.
Print Assumptions C13_long_line_refuted.

Example C13_ex :
  read_text sample_uc sample_line sample_buf (mkopt true true 0 true false) []
    (TITLE ++ divider ++ bytes "page 1" ++ [10] ++ divider ++ bytes " te^xt" ++ [10]) =
  Ok ([mkchar false 116; mkchar false 101; mkchar true 120; mkchar false 116; mkchar false 10], true) /\
  short_line TITLE /\ short_line (bytes "page 1" ++ [10]) /\ starts_with title_start TITLE.
Proof.
  split; [vm_compute; reflexivity|]. split; [|split].
  - exists (removelast TITLE). split; [reflexivity|]. split; [|cbn; lia].
    intros H. assert (forallb (fun c => negb (c =? 10)) (removelast TITLE) = true) as HF by reflexivity.
    rewrite forallb_forall in HF. specialize (HF 10 H). discriminate.
  - exists (bytes "page 1"). split; [reflexivity|]. split; [cbn; intuition lia|cbn; lia].
  - exists [55; 46; 48; 10]. exact TITLE_start.
Qed.

(** C14: a text of plain characters reads back as it was, with its suspect marks; if it is in
    canonical spacing form this is also true with normalisation. *)
Theorem C14_round_trip : forall uc line buf text norm,
  junk_ok line buf -> cat uc 0 = CC ->
  Forall (fun c => scalar (value c) /\ value c <> 94 /\
            (value c = 10 \/ (is_graphic uc (value c) = true /\
                              cat uc (value c) <> MN /\ cat uc (value c) <> MC /\ cat uc (value c) <> ME))) text ->
  (norm = true -> canonical uc text) ->
  exists file, write_text uc text None = Ok file /\
    read_text uc line buf (mkopt false true 0 norm false) [] file = Ok (text, false).
Proof.
  intros uc line buf text norm (_ & Hb) H0 Ht Hn.
  assert (Forall (fun c => char_out uc c = Ok (plain_bytes c)) text) as Hw.
  { apply Forall_forall. intros c Hc. rewrite Forall_forall in Ht.
    destruct (Ht c Hc) as (Hs & _ & Hg). apply char_out_plain; [exact Hs| |].
    - intros E. destruct Hg as [Hg|(Hg & _)]; [lia|].
      unfold is_graphic in Hg. rewrite E in Hg. cbn in Hg. rewrite H0 in Hg. discriminate.
    - destruct Hg as [Hg|(Hg & A & B & C)]; [auto|]. right. split; [exact Hg|].
      unfold is_combining. destruct (cat uc (value c)); congruence. }
  eexists. split; [apply write_text_plain; exact Hw|]. cbn [app].
  set (opt := mkopt false true 0 norm false).
  assert (Forall scalar (flat_map plain_points text)) as Hsc.
  { clear -Ht. induction Ht as [|c text (Hs & _) Ht IH]; [constructor|]. cbn [flat_map].
    apply Forall_app. split; [|exact IH]. unfold plain_points. apply Forall_app.
    split; [destruct (suspect c); repeat constructor; unfold scalar; lia|]. constructor; auto. }
  assert (forall c, scalar c -> Forall is_byte (utf8 c)) as Hby.
  { intros c Hc. now destruct (iterate_complete c [] Hc). }
  rewrite plain_bytes_points.
  assert (Forall is_byte (utf8s (flat_map plain_points text))) as Hf.
  { clear -Hsc Hby. unfold utf8s. induction Hsc; [constructor|]. cbn. apply Forall_app. auto. }
  destruct (read_text_ok uc line buf opt [] _ eq_refl Hf Hb) as [(cs' & S1 & E1 & R1)|[N1 _]].
  2: { exfalso. now apply (N1 (flat_map plain_points text)). }
  assert (cs' = flat_map plain_points text) as ->.
  { apply utf8s_inj; congruence. }
  rewrite R1. cbn [app find_markers opt]. change (marker_of opt) with 94.
  rewrite tag_points.
  2: { apply Forall_forall. intros c Hc. rewrite Forall_forall in Ht. now apply Ht. }
  unfold post. cbn [normalize case_insensitive opt]. destruct norm; [|reflexivity].
  pose proof (compress_canonical uc text (Hn eq_refl)) as E.
  destruct (compress_spacing_ok uc [] text) as (new & _ & E' & _ & En).
  rewrite E in E'. injection E' as <-. unfold blanks_to_blank. now rewrite <- En.
Qed.
Print Assumptions C14_round_trip.

Example C14_ex :
  write_text sample_uc [mkchar true 233; mkchar false 32; mkchar true 126; mkchar false 10] None =
  Ok [94; 195; 169; 32; 94; 126; 10] /\
  read_text sample_uc sample_line sample_buf (mkopt false true 0 false false) [] [94; 195; 169; 32; 94; 126; 10] =
  Ok ([mkchar true 233; mkchar false 32; mkchar true 126; mkchar false 10], false).
Proof. split; reflexivity. Qed.

(** C15: STRING_SIZE bytes are enough, except for a suspect non-graphic character of six
    hexadecimal digits. *)
Theorem C15_string_size_partial : forall uc susp v fake,
  0 <= v <= 1114111 ->
  susp = false \/ v < 1048576 \/ is_graphic uc v = true ->
  exists s, char_to_string uc susp v fake = Ok s /\ zlen s + 1 <= STRING_SIZE.
Proof.
  intros uc susp v fake Hv Hc. unfold char_to_string, STRING_SIZE.
  assert ((if susp then encode_or_die SUSPECT_MARKER else Ok []) = Ok (if susp then [94] else [])) as ->
    by (destruct susp; reflexivity).
  cbn [obind].
  assert (zlen (if susp then [94] else []) = if susp then 1 else 0) as Hm by (destruct susp; reflexivity).
  assert (zlen (utf8 v) <= 4) as H4
    by (unfold utf8; destruct (v <? 128), (v <? 2048), (v <? 65536); cbn; lia).
  destruct (Z.eqb_spec v NEWLINE).
  { eexists. split; [reflexivity|]. rewrite zlen_app, Hm. destruct susp, fake; cbn; lia. }
  destruct (is_graphic uc v) eqn:G.
  { rewrite (encode_or_die_ok v) by lia.
    destruct (is_combining uc v).
    - change (encode_or_die DOTTED_CIRCLE) with (Ok [226; 151; 140]). cbn [obind].
      eexists. split; [reflexivity|]. rewrite !zlen_app, Hm. destruct susp; cbn [zlen List.length Z.of_nat Pos.of_succ_nat Pos.succ]; lia.
    - cbn [obind]. eexists. split; [reflexivity|]. rewrite !zlen_app, Hm.
      destruct susp; cbn [zlen List.length Z.of_nat]; lia. }
  destruct (Z.ltb_spec v 256).
  { eexists. split; [reflexivity|]. rewrite zlen_app, Hm, zlen_cons, zlen_app.
    pose proof (hexpad_len 2 v 1 ltac:(change (16 ^ Z.of_nat 2) with 256; lia) ltac:(lia)).
    change (zlen [62]) with 1. destruct susp; lia. }
  eexists. split; [reflexivity|]. rewrite zlen_app, Hm, zlen_cons, zlen_app. change (zlen [62]) with 1.
  destruct (Z.ltb_spec v 1048576).
  - pose proof (hexpad_len 4 v 4 ltac:(change (16 ^ Z.of_nat 5) with 1048576; lia) ltac:(lia)).
    destruct susp; lia.
  - pose proof (hexpad_len 4 v 5 ltac:(change (16 ^ Z.of_nat 6) with 16777216; lia) ltac:(lia)).
    destruct Hc as [->|[Hc|Hc]]; [lia|lia|discriminate].
Qed.
Print Assumptions C15_string_size_partial.

(** The full claim is false: for a suspect U+10FFFF (a noncharacter, category Cn) ten bytes
    are stored in the nine of the buffer; write_text then has undefined behaviour. *)
Theorem C15_overflow_refuted : forall uc,
  cat uc 1114111 = CN ->
  (exists s, char_to_string uc true 1114111 true = Ok s /\ zlen s + 1 = STRING_SIZE + 1) /\
  exists msg, write_text uc [mkchar true 1114111] None = UB msg.
Proof.
  intros uc H. 
  assert (char_to_string uc true 1114111 true = Ok (bytes "^<10FFFF>")) as E.
  { unfold char_to_string, is_graphic. cbn [obind]. rewrite H. reflexivity. }
  split.
  - eexists. split; [exact E|reflexivity].
  - unfold write_text, char_out, char_to_string, is_graphic. cbn [ofold obind suspect value].
    rewrite H. eexists. reflexivity.
Qed.
Print Assumptions C15_overflow_refuted.

(** The longest representations that fit: nine bytes with the terminator. *)
Example C15_ex :
  char_to_string sample_uc true 769 false = Ok [94; 226; 151; 140; 204; 129] /\
  char_to_string sample_uc false 1114111 false = Ok (bytes "<10FFFF>") /\
  char_to_string sample_uc true 10 true = Ok (bytes "^<\n>") /\
  cat sample_uc 1114111 = CN.
Proof. repeat split; reflexivity. Qed.
