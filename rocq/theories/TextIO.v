(** Headers, read_text, write_text. *)
From Coq Require Import String.
From Verif Require Import Base CLib Utf8Model TextModel TextSpec Utf8Proof TextProof.
Local Open Scope Z_scope.
Local Open Scope list_scope.

(** ** Lines *)

(** The part of a list of bytes before its first NUL. *)
Fixpoint cutnul (l : list Z) : list Z :=
  match l with [] => [] | x :: t => if x =? 0 then [] else x :: cutnul t end.

Lemma cutnul_id l : ~ In 0 l -> cutnul l = l.
Proof.
  induction l as [|x l IH]; intros H; [reflexivity|]. cbn.
  destruct (Z.eqb_spec x 0) as [->|_]; [exfalso; apply H; now left|].
  f_equal. apply IH. intros ?. apply H. now right.
Qed.

Lemma upto_nul_spec s r : upto_nul (s ++ 0 :: r) = Ok (cutnul s).
Proof.
  induction s as [|x s IH]; cbn; [reflexivity|].
  destruct (x =? 0); [reflexivity|]. now rewrite IH.
Qed.

Lemma cstr0 buf : cstr buf 0 = upto_nul buf.
Proof. unfold cstr. pose proof (zlen_nonneg buf). destruct (Z.leb_spec 0 (zlen buf)); [reflexivity|lia]. Qed.

Lemma store_string_ok buf s :
  zlen s < zlen buf -> exists buf', store_string buf s = Ok buf' /\ zlen buf' = zlen buf /\
    cstr buf' 0 = Ok (cutnul s).
Proof.
  intros H. unfold store_string. destruct (Z.ltb_spec (zlen s) (zlen buf)); [|lia].
  eexists. split; [reflexivity|]. split; [|rewrite cstr0; apply upto_nul_spec].
  unfold zlen in *. rewrite app_length. cbn [List.length]. rewrite skipn_length. lia.
Qed.

Lemma fgets_bytes_app room f : let '(a, b) := fgets_bytes room f in f = a ++ b.
Proof.
  revert f; induction room as [|r IH]; intros [|c f]; cbn; try reflexivity.
  destruct (c =? 10); [reflexivity|]. specialize (IH f). destruct (fgets_bytes r f).
  cbn. now rewrite <- IH.
Qed.

Lemma fgets_bytes_len room f : (List.length (fst (fgets_bytes room f)) <= room)%nat.
Proof.
  revert f; induction room as [|r IH]; intros [|c f]; cbn; try lia.
  destruct (c =? 10); [cbn; lia|]. specialize (IH f). destruct (fgets_bytes r f). cbn in *. lia.
Qed.

Lemma fgets_bytes_pos room f : (0 < room)%nat -> f <> [] -> fst (fgets_bytes room f) <> [].
Proof.
  destruct room, f; cbn; try (lia || congruence). intros _ _.
  destruct (z =? 10); [discriminate|]. destruct (fgets_bytes room f). discriminate.
Qed.

(** A complete line that fits is read as one chunk. *)
Lemma fgets_line room b f :
  ~ In 10 b -> (List.length b < room)%nat ->
  fgets_bytes room (b ++ 10 :: f) = (b ++ [10], f).
Proof.
  revert b; induction room as [|r IH]; intros b Hb Hl; [lia|].
  destruct b as [|c b]; [reflexivity|]. cbn [app fgets_bytes].
  destruct (Z.eqb_spec c 10) as [->|_]; [exfalso; apply Hb; now left|].
  rewrite IH; [reflexivity| |cbn in Hl; lia]. intros ?; apply Hb; now right.
Qed.

(** The rest of a file without newline is read as one chunk. *)
Lemma fgets_rest room b :
  ~ In 10 b -> (List.length b <= room)%nat -> fgets_bytes room b = (b, []).
Proof.
  revert b; induction room as [|r IH]; intros b Hb Hl.
  { destruct b; [reflexivity|cbn in Hl; lia]. }
  destruct b as [|c b]; [reflexivity|]. cbn [fgets_bytes].
  destruct (Z.eqb_spec c 10) as [->|_]; [exfalso; apply Hb; now left|].
  rewrite IH; [reflexivity| |cbn in Hl; lia]. intros ?; apply Hb; now right.
Qed.

Lemma streq_spec a b : streq a b = true <-> a = b.
Proof.
  revert b; induction a as [|x a IH]; intros [|y b]; cbn; try (split; congruence).
  rewrite andb_true_iff, Z.eqb_eq, IH. split; [intros []; congruence|intros [= -> ->]; auto].
Qed.

(** Recognition of a title: the first chunk agrees with the pattern. *)
Lemma title_match p q f room :
  Forall (fun c => c <> 0 /\ c <> 10) p -> (List.length p <= room)%nat ->
  strneq (cutnul (fst (fgets_bytes room f))) (p ++ q) (List.length p) = true <->
  starts_with p f.
Proof.
  intros Hp. revert f room. unfold starts_with.
  induction p as [|c p IH]; intros f room Hl.
  { cbn. split; [eauto|reflexivity]. }
  apply Forall_cons_iff in Hp as [[Hc0 Hc] Hp]. specialize (IH Hp).
  cbn [List.length] in Hl. destruct room as [|room]; [lia|].
  destruct f as [|d f].
  { cbn. split; [discriminate|]. intros [r E]. discriminate E. }
  cbn [fgets_bytes app List.length].
  destruct (Z.eqb_spec d 10) as [->|Hd].
  { cbn [fst cutnul]. change (10 =? 0) with false. cbn [strneq]. destruct (Z.eqb_spec 10 c); [congruence|]. cbn [andb].
    split; [discriminate|]. intros [r E]. injection E as E _. congruence. }
  specialize (IH f room ltac:(lia)).
  destruct (fgets_bytes room f) as [l rest]. cbn [fst cutnul] in *.
  destruct (Z.eqb_spec d 0) as [->|Hd0].
  { cbn [strneq]. split; [discriminate|]. intros [r E]. injection E as E _. congruence. }
  cbn [strneq]. rewrite andb_true_iff, Z.eqb_eq, IH.
  split.
  - intros [-> [r ->]]. exists r. reflexivity.
  - intros [r E]. injection E as -> ->. eauto.
Qed.

Lemma title_start_chars : Forall (fun c => c <> 0 /\ c <> 10) title_start.
Proof.
  assert (forallb (fun c => negb (c =? 0) && negb (c =? 10)) title_start = true) as H by reflexivity.
  rewrite forallb_forall in H. apply Forall_forall. intros c Hc. specialize (H c Hc).
  apply andb_true_iff in H as [H1 H2]. split; intros ->; discriminate.
Qed.
Lemma TITLE_start : TITLE = title_start ++ [55; 46; 48; 10].
Proof. reflexivity. Qed.
Lemma DIVIDER_divider : DIVIDER = divider.
Proof. reflexivity. Qed.

Lemma skip_header_step fu line d f :
  zlen line = 100 -> d < 2 -> f <> [] ->
  exists line', zlen line' = 100 /\
    skip_header (S fu) line d f =
    skip_header fu line'
      (if streq (cutnul (fst (fgets_bytes 98 f))) DIVIDER then d + 1 else d)
      (snd (fgets_bytes 98 f)).
Proof.
  intros Hl Hd Hf. cbn [skip_header]. destruct (Z.ltb_spec d 2); [|lia].
  unfold fgets. destruct f as [|c f]; [congruence|]. change (Z.to_nat (99 - 1)) with 98%nat.
  pose proof (fgets_bytes_len 98 (c :: f)) as Hlen.
  destruct (fgets_bytes 98 (c :: f)) as [s rest]. cbn [fst snd] in *.
  destruct (store_string_ok line s) as (line' & E1 & E2 & E3).
  { rewrite Hl. unfold zlen. lia. }
  exists line'. split; [lia|]. rewrite E1. cbn [obind]. rewrite E3. reflexivity.
Qed.

Lemma skip_header_stop fu line d f : 2 <= d -> skip_header fu line d f = Ok f.
Proof. intros H. destruct fu; cbn; destruct (Z.ltb_spec d 2); (reflexivity || lia). Qed.
Lemma skip_header_eof fu line d : skip_header fu line d [] = Ok [].
Proof. destruct fu; cbn; now destruct (d <? 2). Qed.

Lemma skip_header_total fu line d f :
  zlen line = 100 -> (List.length f <= fu)%nat ->
  exists a b, f = a ++ b /\ skip_header fu line d f = Ok b.
Proof.
  revert line d f; induction fu as [|fu IH]; intros line d f Hl Hf.
  { destruct f; [|cbn in Hf; lia]. exists [], []. split; [reflexivity|]. apply skip_header_eof. }
  destruct (Z.ltb_spec d 2).
  - destruct f as [|c f]; [exists [], []; split; [reflexivity|]; apply skip_header_eof|].
    destruct (skip_header_step fu line d (c :: f)) as (line' & Hl' & E); auto; [discriminate|].
    pose proof (fgets_bytes_app 98 (c :: f)) as Ha.
    pose proof (fgets_bytes_pos 98 (c :: f) ltac:(lia) ltac:(discriminate)) as Hp.
    rewrite E. destruct (fgets_bytes 98 (c :: f)) as [s rest]. cbn [fst snd] in *.
    destruct (IH line' (if streq (cutnul s) DIVIDER then d + 1 else d) rest) as (a & b & -> & E'); auto.
    { apply (f_equal (@List.length Z)) in Ha. rewrite app_length in Ha. cbn in Ha, Hf.
      destruct s; [congruence|]. cbn in Ha. lia. }
    exists (s ++ a), b. rewrite <- app_assoc. auto.
  - rewrite skip_header_stop by lia. exists [], f. auto.
Qed.

Lemma short_line_chunk l f :
  short_line l -> fgets_bytes 98 (l ++ f) = (l, f) /\ l <> [].
Proof.
  intros (b & -> & Hb & Hl). rewrite <- app_assoc. split.
  - apply fgets_line; [exact Hb|]. unfold zlen in Hl. rewrite app_length in Hl. cbn in Hl. lia.
  - now destruct b.
Qed.

Lemma cut_divider l : short_line l -> streq (cutnul l) DIVIDER = true <-> l = divider.
Proof.
  intros (b & -> & Hb & _). rewrite streq_spec. rewrite DIVIDER_divider.
  split; [|intros ->; reflexivity].
  intros E.
  assert (forall l, In 10 (cutnul l) -> ~ In 10 (removelast l) -> cutnul l = l) as H.
  { clear. induction l as [|x l IH]; cbn [cutnul]; [reflexivity|].
    destruct (x =? 0) eqn:E0; [intros []|]. intros [->|Hin] Hn.
    - destruct l as [|y l]; [reflexivity|]. exfalso. apply Hn. now left.
    - f_equal. apply IH; [exact Hin|]. intros H. apply Hn.
      destruct l as [|y l]; [destruct H|]. now right. }
  rewrite <- E. symmetry. apply H.
  - rewrite E. unfold divider. apply in_or_app. right. now left.
  - rewrite removelast_last. exact Hb.
Qed.

Definition count_div (ls : list (list Z)) : Z :=
  zlen (filter (fun l => streq l divider) ls).

Lemma count_div_cons l ls :
  count_div (l :: ls) = (if streq l divider then 1 else 0) + count_div ls.
Proof. unfold count_div. cbn [filter]. destruct (streq l divider); [rewrite zlen_cons|]; lia. Qed.

Lemma skip_header_lines ls : forall fu line d body,
  zlen line = 100 -> Forall short_line ls -> 0 <= d ->
  (List.length (concat ls ++ body) <= fu)%nat -> d + count_div ls <= 1 ->
  exists line', zlen line' = 100 /\ exists fu', (List.length body <= fu')%nat /\
  skip_header fu line d (concat ls ++ body) = skip_header fu' line' (d + count_div ls) body.
Proof.
  induction ls as [|l ls IH]; intros fu line d body Hl Hs Hd Hf Hc.
  { cbn in *. exists line. split; [exact Hl|]. exists fu. split; [lia|]. f_equal.
    unfold count_div. cbn. lia. }
  apply Forall_cons_iff in Hs as [Hsl Hs].
  rewrite count_div_cons in *.
  assert (0 <= count_div ls) by (unfold count_div; apply zlen_nonneg).
  assert (0 <= (if streq l divider then 1 else 0)) by (destruct (streq l divider); lia).
  cbn [concat] in *. rewrite <- app_assoc in *.
  destruct (short_line_chunk l (concat ls ++ body) Hsl) as [Ech Hne].
  destruct fu as [|fu].
  { destruct l; [congruence|]. cbn in Hf. lia. }
  destruct (skip_header_step fu line d (l ++ concat ls ++ body)) as (line' & Hl' & E); [exact Hl|lia| |].
  { now destruct l. }
  rewrite E, Ech. cbn [fst snd].
  assert ((if streq (cutnul l) DIVIDER then d + 1 else d) = d + (if streq l divider then 1 else 0)) as ->.
  { pose proof (cut_divider l Hsl) as C1. pose proof (streq_spec l divider) as C2.
    destruct (streq (cutnul l) DIVIDER), (streq l divider); try lia; exfalso; intuition congruence. }
  destruct (IH fu line' (d + (if streq l divider then 1 else 0)) body) as (l2 & Hl2 & fu' & Hfu & E2);
    auto; try lia.
  { rewrite !app_length in *. destruct l; [congruence|]. cbn in Hf. lia. }
  exists l2. split; [exact Hl2|]. exists fu'. split; [exact Hfu|]. rewrite E2. f_equal. lia.
Qed.

(** ** read_header *)

Lemma read_header_no junk f :
  zlen junk = 100 -> ~ starts_with title_start f -> read_header junk f = Ok (false, f).
Proof.
  intros Hj Hn. unfold read_header, fgets. destruct f as [|c f]; [reflexivity|].
  change (Z.to_nat (99 - 1)) with 98%nat.
  pose proof (fgets_bytes_len 98 (c :: f)) as Hlen.
  pose proof (title_match title_start [55; 46; 48; 10] (c :: f) 98 title_start_chars ltac:(cbn; lia)) as T.
  destruct (fgets_bytes 98 (c :: f)) as [s rest]. cbn [fst] in *.
  destruct (store_string_ok junk s) as (line & E1 & E2 & E3); [rewrite Hj; unfold zlen; lia|].
  rewrite E1. cbn [obind]. rewrite E3. cbn [obind].
  change (List.length TITLE + 1 - 5)%nat with (List.length title_start).
  rewrite TITLE_start. destruct (strneq _ _ _); [|reflexivity].
  exfalso. apply Hn. now apply T.
Qed.

Lemma read_header_yes junk f :
  zlen junk = 100 -> starts_with title_start f ->
  exists line, zlen line = 100 /\
    read_header junk f =
    let! r := skip_header (List.length (snd (fgets_bytes 98 f))) line 0 (snd (fgets_bytes 98 f)) in
    Ok (true, r).
Proof.
  intros Hj Hn. unfold read_header, fgets. destruct f as [|c f].
  { destruct Hn as [r E]. discriminate E. }
  change (Z.to_nat (99 - 1)) with 98%nat.
  pose proof (fgets_bytes_len 98 (c :: f)) as Hlen.
  pose proof (title_match title_start [55; 46; 48; 10] (c :: f) 98 title_start_chars ltac:(cbn; lia)) as T.
  destruct (fgets_bytes 98 (c :: f)) as [s rest]. cbn [fst snd] in *.
  destruct (store_string_ok junk s) as (line & E1 & E2 & E3); [rewrite Hj; unfold zlen; lia|].
  rewrite E1. cbn [obind]. rewrite E3. cbn [obind].
  change (List.length TITLE + 1 - 5)%nat with (List.length title_start).
  rewrite TITLE_start. destruct (strneq _ _ _); [|exfalso; now apply Bool.diff_false_true, T].
  exists line. split; [lia|reflexivity].
Qed.

Lemma read_header_total junk f :
  zlen junk = 100 -> exists found a b, f = a ++ b /\ read_header junk f = Ok (found, b).
Proof.
  intros Hj.
  assert (starts_with title_start f \/ ~ starts_with title_start f) as [H|H].
  { pose proof (title_match title_start [] f (List.length title_start) title_start_chars ltac:(lia)) as T.
    destruct (strneq _ _ _); [left|right]; intuition congruence. }
  - destruct (read_header_yes junk f Hj H) as (line & Hl & E).
    destruct (skip_header_total (List.length (snd (fgets_bytes 98 f))) line 0 (snd (fgets_bytes 98 f)))
      as (a & b & E1 & E2); auto.
    pose proof (fgets_bytes_app 98 f) as Ha. destruct (fgets_bytes 98 f) as [s rest]. cbn [snd] in *.
    exists true, (s ++ a), b. split; [rewrite <- app_assoc, <- E1; exact Ha|].
    rewrite E, E2. reflexivity.
  - exists false, [], f. split; [reflexivity|]. now apply read_header_no.
Qed.

(** Headers made of short lines. *)
Lemma read_header_lines junk l0 ls body :
  zlen junk = 100 -> short_line l0 -> Forall short_line ls ->
  starts_with title_start l0 -> count_div ls = 1 ->
  read_header junk (l0 ++ concat ls ++ divider ++ body) = Ok (true, body).
Proof.
  intros Hj Hs0 Hs Ht Hc.
  destruct (read_header_yes junk (l0 ++ concat ls ++ divider ++ body) Hj) as (line & Hl & ->).
  { destruct Ht as [r ->]. exists (r ++ concat ls ++ divider ++ body). now rewrite <- app_assoc. }
  destruct (short_line_chunk l0 (concat ls ++ divider ++ body) Hs0) as [-> _]. cbn [snd].
  destruct (skip_header_lines ls (List.length (concat ls ++ divider ++ body)) line 0 (divider ++ body))
    as (l' & Hl' & fu & Hfu & E); auto; try lia.
  rewrite E. destruct fu as [|fu]; [cbn in Hfu; lia|].
  destruct (skip_header_step fu l' (0 + count_div ls) (divider ++ body)) as (l2 & _ & E2); auto; [lia|discriminate|].
  rewrite E2.
  destruct (short_line_chunk divider body) as [-> _].
  { exists (repeat 45 48). split; [reflexivity|]. split; [cbn; intuition lia|cbn; lia]. }
  cbn [fst snd].
  replace (streq (cutnul divider) DIVIDER) with true by reflexivity.
  rewrite skip_header_stop by lia. reflexivity.
Qed.

Lemma read_header_unterminated junk l0 ls tail :
  zlen junk = 100 -> short_line l0 -> Forall short_line ls -> ~ In 10 tail -> zlen tail <= 98 ->
  starts_with title_start l0 -> count_div ls <= 1 ->
  read_header junk (l0 ++ concat ls ++ tail) = Ok (true, []).
Proof.
  intros Hj Hs0 Hs Hn Htl Ht Hc.
  destruct (read_header_yes junk (l0 ++ concat ls ++ tail) Hj) as (line & Hl & ->).
  { destruct Ht as [r ->]. exists (r ++ concat ls ++ tail). now rewrite <- app_assoc. }
  destruct (short_line_chunk l0 (concat ls ++ tail) Hs0) as [-> _]. cbn [snd].
  destruct (skip_header_lines ls (List.length (concat ls ++ tail)) line 0 tail)
    as (l' & Hl' & fu & Hfu & E); auto; try lia.
  rewrite E. destruct tail as [|t tail]; [now rewrite skip_header_eof|].
  destruct fu as [|fu]; [cbn in Hfu; lia|].
  destruct (skip_header_step fu l' (0 + count_div ls) (t :: tail)) as (l2 & _ & E2); auto; [lia|discriminate|].
  rewrite E2, fgets_rest; [|exact Hn|unfold zlen in Htl; lia]. cbn [snd].
  now rewrite skip_header_eof.
Qed.

(** ** read_text *)

Section ReadText.
Variable uc : unicode_data.

Definition marker_of (opt : textopt) : Z :=
  if suspect_marker opt =? 0 then 94 else suspect_marker opt.

Definition post (opt : textopt) (new : list char) : list char :=
  let n := if normalize opt then cl false false (blanks_to_blank uc new) else new in
  if case_insensitive opt then map (fun c => mkchar (suspect c) (tolower uc (value c))) n else n.

Definition no_header (opt : textopt) : textopt :=
  mkopt false (find_markers opt) (suspect_marker opt) (normalize opt) (case_insensitive opt).

Lemma read_text_ok junk junk4 opt text f :
  find_header opt = false -> Forall is_byte f -> buf4 junk4 ->
  (exists cs, Forall scalar cs /\ f = utf8s cs /\
     read_text uc junk junk4 opt text f =
     Ok (text ++ post opt (tag (find_markers opt) (marker_of opt) false cs), false)) \/
  ((forall cs, Forall scalar cs -> f <> utf8s cs) /\
   exists msg, read_text uc junk junk4 opt text f = Fail msg).
Proof.
  intros Hh Hf Hj. unfold read_text. rewrite Hh. cbn [obind].
  change (if suspect_marker opt =? 0 then SUSPECT_MARKER else suspect_marker opt) with (marker_of opt).
  destruct (read_contents_ok (List.length f) f (find_markers opt) (marker_of opt) junk4 false Hf Hj
              ltac:(lia)) as [(cs & Hcs & E & R)|[N [msg R]]].
  - left. exists cs. split; [exact Hcs|]. split; [exact E|]. rewrite R. cbn [obind].
    set (new := tag _ _ _ _). unfold post.
    destruct (compress_spacing_ok uc text new) as (new' & E1 & _ & _ & En).
    destruct (normalize opt).
    + rewrite E1. cbn [obind]. unfold blanks_to_blank. rewrite <- En.
      destruct (case_insensitive opt); [|reflexivity].
      unfold lowercase. rewrite firstn_app, skipn_app, firstn_all, skipn_all, Nat.sub_diag.
      cbn [firstn skipn app]. now rewrite app_nil_r.
    + cbn [obind]. destruct (case_insensitive opt); [|reflexivity].
      unfold lowercase. rewrite firstn_app, skipn_app, firstn_all, skipn_all, Nat.sub_diag.
      cbn [firstn skipn app]. now rewrite app_nil_r.
  - right. split; [exact N|]. rewrite R. cbn. eauto.
Qed.

Lemma read_text_header junk junk4 opt text f found body :
  find_header opt = true -> read_header junk f = Ok (found, body) ->
  read_text uc junk junk4 opt text f =
  let! (t, _) := read_text uc junk junk4 (no_header opt) text body in Ok (t, found).
Proof.
  intros Hh E. unfold read_text. rewrite Hh, E. cbn [no_header find_header find_markers
    suspect_marker normalize case_insensitive obind].
  destruct (read_contents _ _ _ _ _ _); cbn [obind]; try reflexivity.
  destruct (if normalize opt then _ else _); reflexivity.
Qed.

Lemma read_text_append junk junk4 opt text f :
  zlen junk = 100 -> Forall is_byte f -> buf4 junk4 ->
  read_text uc junk junk4 opt text f =
  let! (new, found) := read_text uc junk junk4 opt [] f in Ok (text ++ new, found).
Proof.
  assert (forall opt f, find_header opt = false -> Forall is_byte f -> buf4 junk4 ->
    read_text uc junk junk4 opt text f =
    let! (new, found) := read_text uc junk junk4 opt [] f in Ok (text ++ new, found)) as H0.
  { clear opt f. intros opt f Hh Hf Hj.
    destruct (read_text_ok junk junk4 opt text f Hh Hf Hj) as [(cs & S1 & E1 & R1)|[N1 [m1 R1]]];
      destruct (read_text_ok junk junk4 opt [] f Hh Hf Hj) as [(cs2 & S2 & E2 & R2)|[N2 [m2 R2]]].
    - rewrite R1, R2. cbn [obind app]. do 4 f_equal.
      assert (cs = cs2) as ->; [|reflexivity]. apply utf8s_inj; congruence.
    - exfalso. now apply (N2 cs).
    - exfalso. now apply (N1 cs2).
    - rewrite R1, R2. cbn [obind]. unfold read_text in R1, R2. rewrite Hh in R1, R2. cbn [obind] in R1, R2.
      destruct (read_contents _ _ _ _ _ _) as [new| | |]; cbn [obind] in R1, R2; try congruence.
      destruct (compress_spacing_ok uc text new) as (n1 & E1 & _).
      destruct (normalize opt); [rewrite E1 in R1|]; cbn [obind] in R1; discriminate R1. }
  intros Hjk Hf Hj. destruct (find_header opt) eqn:Hh; [|now apply H0].
  destruct (read_header_total junk f Hjk) as (found & a & b & E & R).
  rewrite !(read_text_header junk junk4 opt _ f found b Hh R).
  rewrite H0; auto; [|rewrite E in Hf; apply Forall_app in Hf; tauto].
  destruct (read_text uc junk junk4 (no_header opt) [] b) as [[new fd]| | |]; reflexivity.
Qed.

(** ** Writing *)

Lemma encode_or_die_ok c : 0 <= c <= 1114111 -> encode_or_die c = Ok (utf8 c).
Proof.
  intros H. unfold encode_or_die. rewrite encode_char_spec by exact H.
  pose proof (utf8_nonempty c). destruct (utf8 c); [congruence|reflexivity].
Qed.

Lemma utf8_no_nul c : 0 < c <= 1114111 -> ~ In 0 (utf8 c).
Proof.
  intros H. unfold utf8.
  pose proof (Z.div_pos c 64 ltac:(lia) ltac:(lia)). pose proof (Z.div_pos c 4096 ltac:(lia) ltac:(lia)).
  pose proof (Z.div_pos c 262144 ltac:(lia) ltac:(lia)).
  pose proof (Z.mod_pos_bound c 64 ltac:(lia)). pose proof (Z.mod_pos_bound (c / 64) 64 ltac:(lia)).
  pose proof (Z.mod_pos_bound (c / 4096) 64 ltac:(lia)).
  destruct (c <? 128), (c <? 2048), (c <? 65536); cbn [In]; intuition lia.
Qed.

(** What write_text prints for a plain character. *)
Definition plain_bytes (c : char) : list Z :=
  (if suspect c then [94] else []) ++ utf8 (value c).

Lemma char_out_plain c :
  scalar (value c) -> value c <> 0 ->
  (value c = 10 \/ (is_graphic uc (value c) = true /\ is_combining uc (value c) = false)) ->
  char_out uc c = Ok (plain_bytes c).
Proof.
  intros [Hs _] H0 Hg. unfold char_out, char_to_string, plain_bytes.
  pose proof (utf8_length (value c)) as HL.
  assert ((if suspect c then encode_or_die SUSPECT_MARKER else Ok []) =
          Ok (if suspect c then [94] else [])) as -> by (destruct (suspect c); reflexivity).
  cbn [obind].
  assert ((if value c =? NEWLINE
           then Ok ((if suspect c then [94] else []) ++ [10])
           else if is_graphic uc (value c)
                then let! base := if is_combining uc (value c) then encode_or_die DOTTED_CIRCLE else Ok [] in
                     let! e := encode_or_die (value c) in
                     Ok ((if suspect c then [94] else []) ++ base ++ e)
                else if value c <? 256
                     then Ok ((if suspect c then [94] else []) ++ 60 :: hexpad 2 (value c) ++ [62])
                     else Ok ((if suspect c then [94] else []) ++ 60 :: hexpad 4 (value c) ++ [62]))
          = Ok ((if suspect c then [94] else []) ++ utf8 (value c))) as ->.
  { destruct (Z.eqb_spec (value c) NEWLINE) as [E|E].
    - rewrite E. reflexivity.
    - destruct Hg as [Hg|[Hg Hc]]; [contradiction|]. rewrite Hg, Hc. cbn [obind].
      rewrite encode_or_die_ok by lia. reflexivity. }
  cbn [obind].
  assert (zlen ((if suspect c then [94] else []) ++ utf8 (value c)) + 1 <= STRING_SIZE) as Hl.
  { rewrite zlen_app. unfold STRING_SIZE.
    assert (zlen (utf8 (value c)) <= 4)
      by (unfold utf8; destruct (value c <? 128), (value c <? 2048), (value c <? 65536); cbn; lia).
    destruct (suspect c); cbn [zlen List.length Z.of_nat]; lia. }
  destruct (Z.leb_spec (zlen ((if suspect c then [94] else []) ++ utf8 (value c)) + 1) STRING_SIZE); [|lia].
  rewrite cstr0, upto_nul_spec, cutnul_id; [reflexivity|].
  intros Hin. apply in_app_or in Hin as [Hin|Hin].
  - destruct (suspect c); cbn in Hin; intuition lia.
  - apply utf8_no_nul in Hin; [assumption|lia].
Qed.

Lemma write_text_plain text header :
  Forall (fun c => char_out uc c = Ok (plain_bytes c)) text ->
  write_text uc text header =
  Ok (match header with Some h => TITLE ++ DIVIDER ++ h ++ DIVIDER | None => [] end
      ++ flat_map plain_bytes text).
Proof.
  intros H. unfold write_text.
  assert (forall acc, ofold (fun acc c => let! s := char_out uc c in Ok (acc ++ s)) text acc =
                      Ok (acc ++ flat_map plain_bytes text)) as ->; [|reflexivity].
  induction H as [|c text Hc Ht IH]; intros acc; cbn [ofold flat_map].
  - now rewrite app_nil_r.
  - rewrite Hc. cbn [obind]. rewrite IH, app_assoc. reflexivity.
Qed.

Definition plain_points (c : char) : list Z := (if suspect c then [94] else []) ++ [value c].

Lemma plain_bytes_points text : flat_map plain_bytes text = utf8s (flat_map plain_points text).
Proof.
  unfold utf8s. induction text as [|c text IH]; [reflexivity|].
  cbn [flat_map]. rewrite IH, flat_map_app. f_equal.
  unfold plain_bytes, plain_points. rewrite flat_map_app. cbn [flat_map]. rewrite app_nil_r.
  f_equal. destruct (suspect c); reflexivity.
Qed.

Lemma tag_points text :
  Forall (fun c => value c <> 94) text -> tag true 94 false (flat_map plain_points text) = text.
Proof.
  induction 1 as [|[s v] text Hc Ht IH]; [reflexivity|].
  cbn [value] in Hc. destruct s.
  - change (tag true 94 true (v :: flat_map plain_points text) = mkchar true v :: text).
    cbn [tag andb]. destruct (Z.eqb_spec v 94); [contradiction|]. now rewrite IH.
  - change (tag true 94 false (v :: flat_map plain_points text) = mkchar false v :: text).
    cbn [tag andb]. destruct (Z.eqb_spec v 94); [contradiction|]. now rewrite IH.
Qed.
End ReadText.
