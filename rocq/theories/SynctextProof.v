(** Proofs about synctext. *)
From Coq Require Import String Permutation.
From Verif Require Import Base CLib CLibProof Utf8Model Utf8Proof TextModel TextSpec TextIO TextProps SyncModel SyncSpec AccModel AccSpec
  AccProof AccCount ReportModel ReportProof SynctextModel SynctextSpec.
Local Open Scope Z_scope.
Local Open Scope list_scope.

(** *** Lists *)
Lemma zlen_map {A B} (f : A -> B) l : zlen (map f l) = zlen l.
Proof. unfold zlen. now rewrite map_length. Qed.

Lemma znth_combine {A B} (l : list A) (m : list B) i :
  znth (combine l m) i = match znth l i, znth m i with Some a, Some b => Some (a, b) | _, _ => None end.
Proof.
  unfold znth. destruct (i <? 0); [reflexivity|]. generalize (Z.to_nat i) as n. clear i.
  revert m. induction l as [|a l IH]; intros [|b m] [|n]; cbn [combine nth_error]; try reflexivity.
  - now destruct (nth_error l n).
  - apply IH.
Qed.

Lemma zlen_combine {A B} (l : list A) (m : list B) : zlen l = zlen m -> zlen (combine l m) = zlen l.
Proof. unfold zlen. rewrite combine_length. lia. Qed.

Lemma znth_zrange a n i : 0 <= i < Z.of_nat n -> znth (zrange a n) i = Some (a + i).
Proof.
  revert a i. induction n as [|n IH]; intros a i H; [lia|]. cbn [zrange].
  destruct (Z.eq_dec i 0) as [->|N]; [rewrite znth_cons_0; f_equal; lia|].
  rewrite znth_cons_S by lia. rewrite IH by lia. f_equal. lia.
Qed.

Lemma znth_None {A} (l : list A) i : zlen l <= i -> znth l i = None.
Proof.
  intros H. destruct (znth l i) eqn:E; [|reflexivity]. apply znth_Some_lt in E. lia.
Qed.

Lemma znth_ext_all {A} (l m : list A) : (forall i, znth l i = znth m i) -> l = m.
Proof.
  intros H. apply znth_ext; [|auto]. pose proof (zlen_nonneg l). pose proof (zlen_nonneg m).
  destruct (Z.lt_trichotomy (zlen l) (zlen m)) as [C|[C|C]]; [|exact C|]; exfalso.
  - destruct (znth_lt_Some m (zlen l)) as [x Hx]; [lia|]. rewrite <- H in Hx. apply znth_Some_lt in Hx. lia.
  - destruct (znth_lt_Some l (zlen m)) as [x Hx]; [lia|]. rewrite H in Hx. apply znth_Some_lt in Hx. lia.
Qed.

Lemma flat_map_map {A B C} (f : A -> B) (g : B -> list C) l : flat_map g (map f l) = flat_map (fun x => g (f x)) l.
Proof. induction l as [|x l IH]; cbn; [reflexivity|]. now rewrite IH. Qed.

Lemma flat_map_ext_in {A B} (f g : A -> list B) l : (forall x, In x l -> f x = g x) -> flat_map f l = flat_map g l.
Proof.
  induction l as [|x l IH]; intros H; cbn; [reflexivity|]. rewrite (H x) by now left. f_equal. apply IH. intros; apply H; now right.
Qed.

Lemma flat_map_index {A B} (g : Z -> list B) (h : Z * A -> list B) (p : list A) :
  (forall j c, znth p j = Some c -> g j = h (j, c)) ->
  flat_map g (zrange 0 (List.length p)) = flat_map h (combine (zrange 0 (List.length p)) p).
Proof.
  assert (G : forall p a, (forall j c, znth p j = Some c -> g (a + j) = h (a + j, c)) ->
            flat_map g (zrange a (List.length p)) = flat_map h (combine (zrange a (List.length p)) p)).
  { clear p. induction p as [|c p IH]; intros a H; cbn [List.length zrange combine flat_map]; [reflexivity|].
    pose proof (H 0 c (znth_cons_0 c p)) as H0. rewrite Z.add_0_r in H0. rewrite H0. f_equal. apply IH. intros j x Hj.
    pose proof (znth_Some_lt _ _ _ Hj). specialize (H (j + 1) x). rewrite znth_cons_S in H by lia.
    replace (j + 1 - 1) with j in H by lia. replace (a + 1 + j) with (a + (j + 1)) by lia. auto. }
  intros H. apply G. exact H.
Qed.

(** *** Printing characters *)
Section Printing.
Variable uc : unicode_data.

Definition fits (show : bool) (c : char) : Prop :=
  scalar (value c) /\ (show = true -> value c < 1048576 \/ is_graphic uc (value c) = true).

Lemma mark_ok (susp : bool) : (if susp then encode_or_die SUSPECT_MARKER else Ok ([] : list Z)) = Ok (if susp then [94] else []).
Proof. destruct susp; reflexivity. Qed.

Lemma char_out_image susp v : nul_hidden uc -> scalar v ->
  (susp = true -> v < 1048576 \/ is_graphic uc v = true) ->
  char_out uc (mkchar susp v) = Ok (image uc (mkchar susp v)).
Proof.
  intros N S H. unfold char_out, image. cbn [suspect value].
  assert (R : 0 <= v <= 1114111) by (unfold scalar in S; lia).
  assert (E : char_to_string uc susp v false = Ok ((if susp then [94] else []) ++ if v =? 10 then [10] else display uc v)).
  { pose proof (char_to_string_display uc v S) as D. unfold char_to_string, NEWLINE in *. rewrite mark_ok. cbn [obind] in *.
    destruct (Z.eqb_spec v 10) as [->|N10]; [reflexivity|].
    destruct (is_graphic uc v).
    - destruct (if is_combining uc v then encode_or_die DOTTED_CIRCLE else Ok []); cbn [obind] in *; try discriminate D.
      destruct (encode_or_die v); cbn [obind] in *; try discriminate D. injection D as D. now rewrite <- D.
    - destruct (v <? 256); injection D as D; now rewrite <- D. }
  rewrite E. cbn [obind]. set (s := (if susp then [94] else []) ++ _) in *.
  assert (L : zlen s + 1 <= STRING_SIZE).
  { destruct (C15_string_size_partial uc susp v false R) as (s' & E' & L).
    { destruct susp; [|now left]. destruct (H eq_refl); tauto. }
    rewrite E in E'. injection E' as <-. exact L. }
  replace (zlen s + 1 <=? STRING_SIZE) with true by lia.
  rewrite cstr0, upto_nul_spec, cutnul_id; [reflexivity|].
  unfold s. rewrite in_app_iff. intros [H1|H1]; [destruct susp; cbn in H1; lia|].
  destruct (v =? 10); [cbn in H1; lia|]. revert H1. now apply display_no_nul.
Qed.

(** *** The alignment given by a list of items *)
Lemma Forall2_znth {A B} (P : A -> B -> Prop) l m : zlen l = zlen m ->
  (forall i a b, znth l i = Some a -> znth m i = Some b -> P a b) -> Forall2 P l m.
Proof.
  revert m. induction l as [|a l IH]; intros [|b m] L H; try (cbn in L; lia); [constructor|].
  rewrite !zlen_cons in L. constructor; [apply (H 0); apply znth_cons_0|]. apply IH; [lia|].
  intros i x y Hx Hy. pose proof (znth_Some_lt _ _ _ Hx). apply (H (i + 1)); rewrite znth_cons_S by lia;
    now replace (i + 1 - 1) with i by lia.
Qed.

Lemma Forall2_zlen {A B} (P : A -> B -> Prop) l m : Forall2 P l m -> zlen l = zlen m.
Proof. induction 1; [reflexivity|]. rewrite !zlen_cons. lia. Qed.

Lemma Forall2_at {A B} (P : A -> B -> Prop) l m i a b : Forall2 P l m -> znth l i = Some a -> znth m i = Some b -> P a b.
Proof.
  intros F. revert i. induction F as [|x y l m H F IH]; intros i Ha Hb; [unfold znth in Ha; destruct (i <? 0); [discriminate Ha|]; now destruct (Z.to_nat i)|].
  pose proof (znth_Some_lt _ _ _ Ha). destruct (Z.eq_dec i 0) as [->|N].
  - rewrite znth_cons_0 in Ha. rewrite znth_cons_0 in Hb. congruence.
  - rewrite znth_cons_S in Ha by lia. rewrite znth_cons_S in Hb by lia. eauto.
Qed.

Definition pieces (texts : list (list char)) (it : item) : list (list char) :=
  map (fun ts => part (fst ts) (snd ts)) (combine texts (isubs it)).
Definition joined (ps qs : list (list char)) : list (list char) :=
  map (fun pq => fst pq ++ snd pq) (combine ps qs).
Definition empties (texts : list (list char)) : list (list char) := map (fun _ => []) texts.

Fixpoint build (texts : list (list char)) (l : list item) : alignment :=
  match l with
  | [] => mkal (empties texts) []
  | it :: l =>
    let al := build texts l in
    if is_match it then mkal (joined (pieces texts it) (beginning al)) (steps al)
    else mkal (empties texts) ((pieces texts it, beginning al) :: steps al)
  end.

Lemma partition_good texts l : partition (map (map value) texts) l ->
  Forall (fun it => Forall2 sub_ok texts (isubs it)) l.
Proof.
  intros (H1 & H2 & _). rewrite Forall_forall in *. intros it Hit.
  apply Forall2_znth; [rewrite (H1 it Hit); now rewrite zlen_map|].
  intros i t s Ht Hs. specialize (H2 i (map value t)). rewrite znth_map, Ht in H2. specialize (H2 eq_refl).
  rewrite zlen_map in H2. destruct (consecutive_parts t _ 0 ltac:(lia) H2) as (F & _ & _).
  rewrite Forall_forall in F. apply F. unfold column. apply in_map_iff. exists it. now rewrite Hs.
Qed.

Lemma pieces_zlen texts it : Forall2 sub_ok texts (isubs it) -> zlen (pieces texts it) = zlen texts.
Proof. intros H. unfold pieces. rewrite zlen_map. apply zlen_combine. eapply Forall2_zlen, H. Qed.
Lemma joined_zlen ps qs : zlen ps = zlen qs -> zlen (joined ps qs) = zlen ps.
Proof. intros H. unfold joined. rewrite zlen_map. now apply zlen_combine. Qed.
Lemma empties_zlen texts : zlen (empties texts) = zlen texts.
Proof. apply zlen_map. Qed.

Lemma piece_joined i ps qs : zlen ps = zlen qs -> piece i (joined ps qs) = piece i ps ++ piece i qs.
Proof.
  intros L. unfold piece, joined. rewrite znth_map, znth_combine.
  destruct (znth ps i) eqn:E1, (znth qs i) eqn:E2; cbn [option_map fst snd]; try reflexivity.
  - exfalso. apply znth_Some_lt in E1. destruct (znth_lt_Some qs i); [lia|congruence].
  - exfalso. apply znth_Some_lt in E2. destruct (znth_lt_Some ps i); [lia|congruence].
Qed.
Lemma piece_empties i texts : piece i (empties texts) = [].
Proof. unfold piece, empties. rewrite znth_map. now destruct (znth texts i). Qed.
Lemma piece_pieces i t texts it : Forall2 sub_ok texts (isubs it) -> znth texts i = Some t ->
  piece i (pieces texts it) = part t (match znth (isubs it) i with Some s => s | None => mksub (-1) (-1) (-1) end).
Proof.
  intros H Ht. unfold piece, pieces. rewrite znth_map, znth_combine, Ht.
  pose proof (znth_Some_lt _ _ _ Ht). pose proof (Forall2_zlen _ _ _ H) as L.
  destruct (znth_lt_Some (isubs it) i) as [s Hs]; [lia|]. now rewrite Hs.
Qed.

Lemma build_beginning texts l : Forall (fun it => Forall2 sub_ok texts (isubs it)) l ->
  zlen (beginning (build texts l)) = zlen texts.
Proof.
  induction 1 as [|it l H F IH]; cbn [build]; [apply empties_zlen|].
  destruct (is_match it); cbn [beginning]; [|apply empties_zlen].
  rewrite joined_zlen; rewrite pieces_zlen by exact H; [reflexivity|now symmetry].
Qed.

Lemma build_text texts l i t : Forall (fun it => Forall2 sub_ok texts (isubs it)) l -> znth texts i = Some t ->
  text_of i (build texts l) = flat_map (part t) (column i l).
Proof.
  intros F Ht. induction F as [|it l H F IH]; cbn [build column map flat_map].
  - unfold text_of. cbn [beginning steps flat_map]. now rewrite piece_empties.
  - fold (column i l). rewrite <- IH. unfold text_of. destruct (is_match it); cbn [beginning steps flat_map fst snd].
    + rewrite piece_joined, <- app_assoc, (piece_pieces i t) by (auto; rewrite pieces_zlen, build_beginning; auto). reflexivity.
    + rewrite piece_empties, (piece_pieces i t), <- !app_assoc by auto. reflexivity.
Qed.

(** Pieces that are alike *)
Lemma part_values t s : map value (part t s) = slice (map value t) (start s) (slen s).
Proof. unfold part, slice. rewrite skipn_map. now rewrite firstn_map. Qed.

Lemma alike_empties texts : alike (empties texts).
Proof.
  exists []. split; [easy|]. intros p Hp. apply in_map_iff in Hp as (? & <- & _). reflexivity.
Qed.
Lemma alike_joined ps qs : alike ps -> alike qs -> alike (joined ps qs).
Proof.
  intros (v & Nv & Hv) (w & Nw & Hw). exists (v ++ w). split.
  - rewrite in_app_iff. tauto.
  - intros p Hp. apply in_map_iff in Hp as ((a & b) & <- & Hab). rewrite map_app. cbn [fst snd].
    rewrite (Hv a), (Hw b); [reflexivity|eapply in_combine_r, Hab|eapply in_combine_l, Hab].
Qed.
Lemma alike_pieces texts it : genuine (map (map value) texts) it -> Forall2 sub_ok texts (isubs it) -> alike (pieces texts it).
Proof.
  intros (w & _ & N & H) F. exists w. split; [exact N|]. intros p Hp. apply in_map_iff in Hp as ((t & s) & <- & Hts).
  apply In_znth in Hts as (j & _ & Hj). rewrite znth_combine in Hj.
  destruct (znth texts j) eqn:E1; [|discriminate Hj]. destruct (znth (isubs it) j) eqn:E2; [|discriminate Hj].
  injection Hj as -> ->. cbn [fst snd]. rewrite part_values.
  destruct (H j (map value t)) as (s' & Hs & _ & E); [now rewrite znth_map, E1|]. congruence.
Qed.

Lemma build_aligned texts l : partition (map (map value) texts) l -> matches_genuine (map (map value) texts) l ->
  aligned texts (build texts l).
Proof.
  intros P G. pose proof (partition_good texts l P) as F. split.
  { intros i t Ht. rewrite (build_text texts l i t F Ht). destruct P as (_ & P & _).
    specialize (P i (map value t)). rewrite znth_map, Ht in P. specialize (P eq_refl). rewrite zlen_map in P.
    destruct (consecutive_parts t _ 0 ltac:(lia) P) as (_ & E & _). exact E. }
  unfold matches_genuine in G. clear P. induction F as [|it l H F IH]; cbn [build].
  - cbn [beginning steps]. split; [split; [apply empties_zlen|apply alike_empties]|]. intros s [].
  - apply Forall_cons_iff in G as [G0 G]. destruct (IH G) as ((L & A) & St). destruct (is_match it) eqn:M; cbn [beginning steps].
    + split; [|exact St]. split; [rewrite joined_zlen; rewrite pieces_zlen; auto; lia|]. apply alike_joined; [|exact A].
      apply alike_pieces; auto.
    + split; [split; [apply empties_zlen|apply alike_empties]|]. intros s [<-|Hs]; [|now apply St].
      cbn [fst snd]. rewrite pieces_zlen by exact H. auto.
Qed.

(** *** What is shown *)
Variable show : bool.

Lemma znth_shown_common ps j : znth (shown_common show ps) j =
  option_map (fun c => mkchar (show && existsb (marked_at j) ps) (value c)) (znth (piece 0 ps) j).
Proof.
  unfold shown_common. cbv zeta. rewrite znth_map, znth_combine.
  destruct (znth (piece 0 ps) j) eqn:E.
  - pose proof (znth_Some_lt _ _ _ E) as B. unfold zlen in B. rewrite znth_zrange by exact B. reflexivity.
  - now destruct (znth (zrange 0 _) j).
Qed.

Lemma marked_app1 j a b : j < zlen a -> marked_at j (a ++ b) = marked_at j a.
Proof. intros H. unfold marked_at. now rewrite znth_app1. Qed.
Lemma marked_app2 j a b : zlen a <= j -> marked_at j (a ++ b) = marked_at (j - zlen a) b.
Proof. intros H. unfold marked_at. now rewrite znth_app2. Qed.

Lemma existsb_joined1 n j ps qs : zlen ps = zlen qs -> Forall (fun p => zlen p = n) ps -> j < n ->
  existsb (marked_at j) (joined ps qs) = existsb (marked_at j) ps.
Proof.
  intros L F Hj. revert qs L. induction F as [|p ps Hp F IH]; intros [|q qs] L; rewrite ?zlen_cons in L; try reflexivity;
    try (exfalso; pose proof (zlen_nonneg qs); change (zlen (@nil (list char))) with 0 in L; lia);
    try (exfalso; pose proof (zlen_nonneg ps); change (zlen (@nil (list char))) with 0 in L; lia).
  unfold joined. cbn [combine map existsb fst snd]. rewrite marked_app1 by lia. f_equal. apply IH. lia.
Qed.
Lemma existsb_joined2 n j ps qs : zlen ps = zlen qs -> Forall (fun p => zlen p = n) ps -> n <= j ->
  existsb (marked_at j) (joined ps qs) = existsb (marked_at (j - n)) qs.
Proof.
  intros L F Hj. revert qs L. induction F as [|p ps Hp F IH]; intros [|q qs] L; rewrite ?zlen_cons in L; try reflexivity;
    try (exfalso; pose proof (zlen_nonneg qs); change (zlen (@nil (list char))) with 0 in L; lia);
    try (exfalso; pose proof (zlen_nonneg ps); change (zlen (@nil (list char))) with 0 in L; lia).
  unfold joined. cbn [combine map existsb fst snd]. rewrite marked_app2 by lia. rewrite Hp. f_equal. apply IH. lia.
Qed.

Lemma alike_zlen ps : alike ps -> 0 < zlen ps -> Forall (fun p => zlen p = zlen (piece 0 ps)) ps.
Proof.
  intros (vs & _ & H) L. destruct (znth_lt_Some ps 0) as [p0 E]; [lia|].
  assert (G : forall p, In p ps -> zlen p = zlen vs) by (intros p Hp; rewrite <- (H p Hp); now rewrite zlen_map).
  apply Forall_forall. intros p Hp. unfold piece. rewrite E. rewrite (G p Hp), (G p0); [reflexivity|]. eapply znth_In, E.
Qed.

Lemma shown_common_joined ps qs : alike ps -> zlen ps = zlen qs -> 0 < zlen ps ->
  shown_common show (joined ps qs) = shown_common show ps ++ shown_common show qs.
Proof.
  intros A L P. pose proof (alike_zlen ps A P) as F. set (n := zlen (piece 0 ps)) in *.
  assert (Ln : zlen (shown_common show ps) = n).
  { unfold shown_common. rewrite zlen_map. cbv zeta. rewrite zlen_combine; unfold zlen; now rewrite zrange_length. }
  apply znth_ext_all. intros j. rewrite znth_shown_common, piece_joined by exact L.
  destruct (Z.ltb_spec j n) as [H|H].
  - rewrite znth_app1 by (fold n; lia). rewrite znth_app1 by lia. rewrite znth_shown_common. now rewrite (existsb_joined1 n).
  - rewrite znth_app2 by (fold n; lia). rewrite znth_app2 by lia. rewrite Ln, znth_shown_common. fold n. now rewrite (existsb_joined2 n).
Qed.

Lemma shown_common_empties texts : shown_common show (empties texts) = [].
Proof. unfold shown_common. now rewrite piece_empties. Qed.

Lemma shown_piece_joined : forall p q, shown_piece show (p ++ q) = shown_piece show p ++ shown_piece show q.
Proof. intros. apply map_app. Qed.

(** *** Writing *)
Lemma znth_part t s j : sub_ok t s -> 0 <= j < slen s -> znth (part t s) j = znth t (start s + j).
Proof.
  intros (H1 & H2 & H3 & H4) Hj. unfold part, znth. destruct (Z.ltb_spec j 0); [lia|]. destruct (Z.ltb_spec (start s + j) 0); [lia|].
  replace (Z.to_nat (start s + j)) with (Z.to_nat (start s) + Z.to_nat j)%nat by lia.
  assert (L : (Z.to_nat j < Z.to_nat (slen s))%nat) by lia. revert L. generalize (Z.to_nat j) as k. generalize (Z.to_nat (slen s)) as m. generalize (Z.to_nat (start s)) as a.
  clear. intros a. revert t. induction a as [|a IH]; intros t m k L.
  - cbn [skipn plus]. revert t k L. induction m as [|m IH]; intros [|x t] [|k] L; try lia; cbn [firstn nth_error]; try reflexivity. apply IH. lia.
  - destruct t as [|x t]; cbn [skipn plus nth_error]; [rewrite firstn_nil; now destruct k|]. now apply IH.
Qed.

Lemma any_suspect_ok texts ss n j : Forall2 sub_ok texts ss -> Forall (fun s => slen s = n) ss -> 0 <= j < n ->
  any_suspect texts ss j = Ok (existsb (marked_at j) (map (fun ts => part (fst ts) (snd ts)) (combine texts ss))).
Proof.
  intros F. induction F as [|t s texts ss H F IH]; intros Fn Hj; [reflexivity|].
  apply Forall_cons_iff in Fn as [Hn Fn]. cbn [any_suspect combine map existsb fst snd].
  assert (E : znth (part t s) j = znth t (start s + j)) by (apply znth_part; [exact H|lia]).
  unfold marked_at at 1. rewrite E. destruct H as (H1 & H2 & H3 & H4).
  destruct (znth_lt_Some t (start s + j)) as [c Hc]; [lia|]. unfold rd. rewrite Hc. cbn [obind].
  destruct (suspect c); [reflexivity|]. cbn [orb]. now apply IH.
Qed.

Lemma match_item texts it t0 s0 : nul_hidden uc -> Forall2 sub_ok texts (isubs it) ->
  genuine (map (map value) texts) it -> Forall (Forall (fits show)) texts ->
  znth texts 0 = Some t0 -> znth (isubs it) 0 = Some s0 ->
  oconcat (fun i =>
          let! susp := if show then any_suspect texts (isubs it) i else Ok false in
          let! c := rd "text[0].array" t0 (start s0 + i) in
          char_out uc (mkchar susp (value c))) (zrange 0 (Z.to_nat (slen s0)))
  = Ok (images uc (shown_common show (pieces texts it))).
Proof.
  intros N F G Fit Ht Hs.
  assert (P0 : piece 0 (pieces texts it) = part t0 s0) by (rewrite (piece_pieces 0 t0) by auto; now rewrite Hs).
  assert (Ok0 : sub_ok t0 s0).
  { exact (Forall2_at _ _ _ _ _ _ F Ht Hs). }
  assert (L0 : Z.to_nat (slen s0) = List.length (part t0 s0)).
  { pose proof (part_len t0 s0 Ok0). unfold zlen in *. lia. }
  assert (Fn : Forall (fun s => slen s = slen s0) (isubs it)).
  { destruct G as (w & _ & _ & G). assert (Gs : forall i s, znth (isubs it) i = Some s -> slen s = zlen w).
    { intros i s Hi. pose proof (znth_Some_lt _ _ _ Hi). pose proof (Forall2_zlen _ _ _ F).
      destruct (znth_lt_Some texts i) as [t Hti]; [lia|]. destruct (G i (map value t)) as (s' & E & E' & _); [now rewrite znth_map, Hti|]. congruence. }
    apply Forall_forall. intros s Hin. apply In_znth in Hin as (i & _ & Hi). rewrite (Gs i s Hi), (Gs 0 s0 Hs). reflexivity. }
  set (h := fun jc : Z * char => image uc (mkchar (show && existsb (marked_at (fst jc)) (pieces texts it)) (value (snd jc)))).
  set (g := fun j => match znth (part t0 s0) j with Some c => h (j, c) | None => [] end).
  rewrite (oconcat_ok _ g).
  - f_equal. unfold images, shown_common. cbv zeta. rewrite P0, L0, flat_map_map.
    rewrite (flat_map_index g h); [reflexivity|]. intros j c Hc. unfold g. now rewrite Hc.
  - intros j Hj. apply In_zrange in Hj. assert (0 <= j < slen s0) as Bj by (destruct Ok0; lia).
    unfold g. rewrite (znth_part t0 s0 j Ok0 Bj). destruct Ok0 as (O1 & O2 & O3 & O4).
    destruct (znth_lt_Some t0 (start s0 + j)) as [c Hc]; [lia|]. unfold rd. rewrite Hc. unfold h. cbn [fst snd].
    assert (Fc : fits show c).
    { rewrite Forall_forall in Fit. specialize (Fit t0 (znth_In _ _ _ Ht)). rewrite Forall_forall in Fit. apply Fit. eapply znth_In, Hc. }
    destruct Fc as [Sc Fc].
    assert (E : (if show then any_suspect texts (isubs it) j else Ok false) = Ok (show && existsb (marked_at j) (pieces texts it))).
    { destruct show; [|reflexivity]. cbn [andb]. unfold pieces. apply (any_suspect_ok _ _ (slen s0)); auto. }
    rewrite E. cbn [obind]. apply char_out_image; auto. intros H. apply Fc. now destruct show.
Qed.

Lemma pieces_fit texts it : Forall2 sub_ok texts (isubs it) -> Forall (Forall (fits show)) texts ->
  Forall (Forall (fits show)) (pieces texts it).
Proof.
  intros _ F. apply Forall_forall. intros p Hp. apply in_map_iff in Hp as ((t & s) & <- & Hts). apply in_combine_l in Hts.
  rewrite Forall_forall in F. apply part_Forall. exact (F t Hts).
Qed.

Lemma match_loop_ok texts l : nul_hidden uc -> 0 < zlen texts ->
  Forall (fun it => Forall2 sub_ok texts (isubs it)) l -> matches_genuine (map (map value) texts) l ->
  Forall (Forall (fits show)) texts ->
  forall k, match_loop uc show texts l k =
    Ok (images uc (shown_common show (beginning (build texts l))) ++
        flat_map (fun ks => bytes "{" ++ dec (fst ks) ++ bytes "}" ++ images uc (shown_common show (snd (snd ks))))
                 (numbered (k + 1) (steps (build texts l)))).
Proof.
  intros N P F G Fit. induction F as [|it l H F IH]; intros k; cbn [match_loop build].
  - cbn [beginning steps]. now rewrite shown_common_empties.
  - apply Forall_cons_iff in G as [G0 G]. specialize (IH G). unfold is_match in *.
    destruct (inum it) as [m|].
    + cbn [beginning steps]. rewrite shown_common_joined; try (rewrite pieces_zlen by exact H); auto.
      2: { apply alike_pieces; auto. } 2: { rewrite build_beginning; auto. }
      destruct (znth_lt_Some texts 0) as [t0 Ht]; [lia|]. pose proof (Forall2_zlen _ _ _ H) as L.
      destruct (znth_lt_Some (isubs it) 0) as [s0 Hs]; [lia|].
      pose proof (match_item texts it t0 s0 N H (G0 eq_refl) Fit Ht Hs) as M.
      destruct texts as [|t texts']; [cbn in P; lia|]. rewrite znth_cons_0 in Ht. injection Ht as ->. cbn [obind].
      destruct (isubs it) as [|s ss]; [discriminate Hs|]. rewrite znth_cons_0 in Hs. injection Hs as ->. cbn [obind].
      rewrite M. cbn [obind]. rewrite IH. cbn [obind]. unfold images. now rewrite flat_map_app, <- app_assoc.
    + cbn [beginning steps numbered flat_map fst snd]. rewrite shown_common_empties, IH. cbn [obind app images flat_map].
      now rewrite <- !app_assoc.
Qed.

Lemma padright_blanks w s : padright w s = s ++ blanks (w - zlen s).
Proof. reflexivity. Qed.

Lemma write_difference_ok w nm t s : nul_hidden uc -> 0 <= w -> sub_ok t s -> Forall (fits show) t ->
  write_difference uc show w (nm, t) s = Ok (entry uc show w (nm, part t s)).
Proof.
  intros N W O F. unfold write_difference. cbn [fst snd]. rewrite (sub_chars_ok t s O). cbn [obind].
  rewrite (oconcat_ok _ (fun c => image uc (mkchar (show && suspect c) (value c)) ++ if value c =? 10 then blanks (w + 2) else [])).
  - cbn [obind]. rewrite padright_blanks. unfold entry, shown_piece. cbn [fst snd]. rewrite flat_map_map. cbn [value].
    now rewrite <- !app_assoc.
  - intros c Hc. pose proof (part_Forall _ t s F) as Fp. rewrite Forall_forall in Fp. destruct (Fp c Hc) as [Sc Fc].
    unfold write_char. rewrite char_out_image; auto. 2: { intros H. apply Fc. now destruct show. }
    cbn [obind]. unfold NEWLINE. destruct (value c =? 10); [|reflexivity]. do 2 f_equal.
    unfold padright, blanks. cbn [app]. change (zlen []) with 0. change (bytes "  ") with (repeat 32 2).
    rewrite <- repeat_app. f_equal. lia.
Qed.

Lemma difference_texts_ok w names texts ss : nul_hidden uc -> 0 <= w -> Forall2 sub_ok texts ss -> Forall (Forall (fits show)) texts ->
  difference_texts uc show w (combine names texts) ss =
  Ok (flat_map (entry uc show w) (combine names (map (fun ts => part (fst ts) (snd ts)) (combine texts ss)))).
Proof.
  intros N W F Fit. revert names. induction F as [|t s texts ss H F IH]; intros [|nm names]; cbn [combine map difference_texts flat_map]; try reflexivity.
  apply Forall_cons_iff in Fit as [F0 Fit]. rewrite write_difference_ok by auto. cbn [obind]. rewrite IH by auto. cbn [obind fst snd]. reflexivity.
Qed.

Lemma difference_loop_ok w names texts l : nul_hidden uc -> 0 <= w ->
  Forall (fun it => Forall2 sub_ok texts (isubs it)) l -> Forall (Forall (fits show)) texts ->
  forall k, difference_loop uc show w (combine names texts) l k =
    Ok (flat_map (fun ks => difference_part uc show w names (fst ks) (fst (snd ks))) (numbered (k + 1) (steps (build texts l)))).
Proof.
  intros N W F Fit. induction F as [|it l H F IH]; intros k; cbn [difference_loop build]; [reflexivity|].
  unfold is_match. destruct (inum it) as [m|]; [exact (IH k)|].
  rewrite difference_texts_ok by auto. cbn [obind]. rewrite IH. cbn [obind steps numbered flat_map fst snd].
  unfold difference_part at 2. fold (pieces texts it). unfold write_separator, separator. now rewrite <- !app_assoc.
Qed.

Lemma maxlen_longest names (texts : list (list char)) : zlen names = zlen texts ->
  fold_left (fun m nt => Z.max m (zlen (fst nt))) (combine names texts) 0 = longest names.
Proof.
  assert (A : forall l a m, fold_right Z.max (Z.max m a) l = Z.max a (fold_right Z.max m l)).
  { clear. induction l as [|x l IH]; intros a m; cbn [fold_right]; [lia|]. rewrite IH. lia. }
  assert (G : forall (nms : list (list Z)) (txs : list (list char)) m, zlen nms = zlen txs ->
            fold_left (fun m (nt : list Z * list char) => Z.max m (zlen (fst nt))) (combine nms txs) m = fold_right Z.max m (map zlen nms)).
  { clear -A. intros nms. induction nms as [|nm nms IH]; intros [|t txs] m L; rewrite ?zlen_cons in L; try reflexivity.
    - exfalso. pose proof (zlen_nonneg nms). cbn in L. lia.
    - cbn [combine fold_left map fold_right fst]. rewrite IH by lia. apply A. }
  apply G.
Qed.
End Printing.
