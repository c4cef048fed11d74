(** C69: from the files to the output of editop. *)
From Coq Require Import String Permutation.
From Verif Require Import Base CLib CLibProof Utf8Model TextModel TextSpec TextIO TextProps ReadProof SyncModel SyncSpec
  TransProps AccModel AccSpec SumProof AccProof AccCount ReportModel ReportProof AccrptModel SynctextSpec SynctextProof SynctextProps
  EdoModel EdoSpec EdoProof EditopModel EditopProps GreedySpec TraceSpec EditopDebugModel TraceProps
  UtilModel ArgsProps MainModel MainSpec MainProof MainProps MainProgProps MainWacProps MainTextSpec MainTextProps.
From Verif Require EditopSpec.
Local Open Scope Z_scope.
Local Open Scope list_scope.

(** The pieces of the two lists of items. *)
Definition pieces_of (t : list char) (l : list SyncModel.item) : list (option Z * list char) := map (fun it => (inum it, nth_part t it 0)) l.

Lemma transposed_pieces t1 t2 l1 l2 : text_ok t1 -> text_ok t2 -> transpose_sync (map value t1) (map value t2) = Ok (l1, l2) ->
  concat (map snd (pieces_of t1 l1)) = t1 /\ concat (map snd (pieces_of t2 l2)) = t2 /\ paired (pieces_of t1 l1) (pieces_of t2 l2) /\
  Forall (fun it => exists u, isubs it = [u] /\ sub_ok t1 u /\ nth_part t1 it 0 = part t1 u) l1 /\
  Forall (fun it => exists u, isubs it = [u] /\ sub_ok t2 u /\ nth_part t2 it 0 = part t2 u) l2.
Proof.
  intros O1 O2 E. set (uc := mkuc (fun _ => CC) (fun c => c)). assert (N : nul_hidden uc) by reflexivity.
  destruct (C23_transpose (map value t1) (map value t2)) as (l1' & l2' & E' & P1 & P2 & Nu & Pe & Sm).
  rewrite E in E'. injection E' as <- <-. pose proof (C24_nothing_left _ _ _ _ E) as Left.
  assert (Fi : forall t, text_ok t -> Forall (SynctextProof.fits uc false) t).
  { intros t O. eapply Forall_impl; [|exact O]. intros c Hc. split; [exact Hc|discriminate]. }
  destruct (transposed_ok uc false l1 t1 N P1 (Fi _ O1)) as (_ & T1 & G1). destruct (transposed_ok uc false l2 t2 N P2 (Fi _ O2)) as (_ & T2 & G2).
  assert (Cc : forall l t, concat (map snd (map (fun it => (inum it, nth_part t it 0)) l)) = flat_map (fun it => nth_part t it 0) l).
  { intros l t. now rewrite map_map, flat_map_concat_map. }
  split; [unfold pieces_of; now rewrite Cc|]. split; [unfold pieces_of; now rewrite Cc|]. split; [|auto].
  assert (Inj : forall a b : list Z, map Some a = map Some b -> a = b).
  { induction a as [|x a IH]; intros [|y b] H; try discriminate H; [reflexivity|]. cbn [map] in H. injection H as -> H. f_equal. auto. }
  set (ps1 := pieces_of t1 l1). set (ps2 := pieces_of t2 l2).
  assert (Len : List.length (filter is_match l1) = List.length (numbers ps1)).
  { rewrite <- (map_length inum), <- (numbers_items (fun it => nth_part t1 it 0)), map_length. reflexivity. }
  split; [|split; [|split]].
  + apply Inj. unfold ps1 at 1, pieces_of. rewrite numbers_items, Nu, Len. reflexivity.
  + assert (P : Permutation (map Some (numbers ps1)) (map Some (numbers ps2))).
    { unfold ps1, ps2, pieces_of. rewrite !numbers_items. now symmetry. }
    pose proof (Permutation_map (fun o => match o with Some n => n | None => 0 end) P) as Q. rewrite !map_map, !map_id in Q. exact Q.
  + intros n p1 p2 H1 H2. apply in_map_iff in H1 as (it1 & E1 & I1). apply in_map_iff in H2 as (it2 & E2 & I2).
    injection E1 as E1 <-. injection E2 as E2 <-. destruct (Sm it1 it2 n I1 I2 E1 E2) as (u1 & u2 & w & U1 & U2 & Nw & Tw & _ & _ & S1 & S2).
    unfold nth_part. rewrite U1, U2, !znth_cons_0, !part_values, S1, S2. split; [reflexivity|]. split; [|exact Tw].
    intros C. apply Nw. rewrite <- S1, <- part_values, C. reflexivity.
  + intros p1 p2 v H1 H2 V1 V2. apply in_map_iff in H1 as (it1 & E1 & I1). apply in_map_iff in H2 as (it2 & E2 & I2).
    injection E1 as E1 <-. injection E2 as E2 <-. rewrite Forall_forall in G1, G2.
    destruct (G1 it1 I1) as (u1 & U1 & Ok1 & Q1). destruct (G2 it2 I2) as (u2 & U2 & Ok2 & Q2). rewrite Q1 in V1. rewrite Q2 in V2.
    destruct (Z.eq_dec v 126) as [|Nv]; [assumption|exfalso].
    refine (Left it1 it2 u1 u2 v I1 I2 _ _ U1 U2 Nv _); [unfold is_match; now rewrite E1|unfold is_match; now rewrite E2|].
    split; apply occurs_part; auto.
Qed.

Lemma loose_part t l : Forall (fun it => exists u, isubs it = [u] /\ sub_ok t u /\ nth_part t it 0 = part t u) l ->
  EditopSpec.unmatched_part (map value t) l = map value (loose (pieces_of t l)).
Proof.
  induction 1 as [|it l (u & Eu & O & Ep) F IH]; [reflexivity|]. unfold EditopSpec.unmatched_part, loose in *. cbn [filter pieces_of map flat_map fst snd].
  unfold is_match at 1. destruct (inum it); cbn [negb flat_map app]; [exact IH|]. rewrite IH, map_app. f_equal.
  unfold EditopSpec.piece. rewrite Eu, Ep. symmetry. apply part_values.
Qed.

Lemma numbers_pieces t l : EditopSpec.numbers l = numbers (pieces_of t l).
Proof. unfold EditopSpec.numbers, numbers, pieces_of. now rewrite flat_map_map. Qed.

Lemma length_pieces t l : Forall (fun it => exists u, isubs it = [u] /\ sub_ok t u /\ nth_part t it 0 = part t u) l ->
  forall n, EditopSpec.length_of l n = length_at (pieces_of t l) n.
Proof.
  intros F n. unfold EditopSpec.length_of, length_at, pieces_of. rewrite map_map. f_equal. apply map_ext_in. intros it I.
  rewrite Forall_forall in F. destruct (F it I) as (u & Eu & O & Ep). cbn [fst snd]. destruct (inum it) as [m|]; [|reflexivity].
  destruct (m =? n); [|reflexivity]. rewrite Eu, Ep, (part_len t u O). cbn [map]. unfold zsum. cbn [fold_right]. lia.
Qed.

Lemma trace_ext wt wt' s ls es : (forall n, wt n = wt' n) -> trace wt s ls es -> trace wt' s ls es.
Proof.
  intros X H.
  assert (M : forall w, map wt w = map wt' w) by (intros w; apply map_ext; exact X).
  assert (Nm : forall ws, TraceSpec.numbered wt ws = TraceSpec.numbered wt' ws).
  { intros ws. unfold TraceSpec.numbered. apply map_ext. intros w. now rewrite M. }
  induction H as [s R|s before w after before' after' ls rest R E E1 P1 P2 B H IH]; rewrite ?Nm, ?M.
  - now constructor.
  - econstructor; eauto. intros b2 w2 a2 s2 Q1 Q2. specialize (B b2 w2 a2 s2 Q1 Q2). unfold preferred in *. now rewrite <- !M.
Qed.

Lemma edit_report_text d ls : records ls d -> zlen (moves d) = 101 -> edo_text d = edit_report (insertions d) (deletions d) ls.
Proof.
  intros (_ & Em & _ & En) L. unfold edo_text, edo_head, edit_report, EDO_TITLE, EDO_DIVIDER, write_value. rewrite Em.
  assert (R : flat_map (move_text (moves d)) (zrange 1 100) =
    flat_map (fun i => let n := zlen (filter (fun len => Z.min len 100 =? i) ls) in
                         if 0 <? n then dec8 n ++ bytes " " ++ dec8 i ++ [10] else []) (zrange 1 100)).
  { apply flat_map_ext_in. intros i I. apply In_zrange in I. unfold move_text, write_move. rewrite En by lia. reflexivity. }
  rewrite R. clear R. destruct ls as [|x ls].
  - change (0 <? zlen []) with false. cbv iota. rewrite <- !app_assoc. reflexivity.
  - replace (0 <? zlen (x :: ls)) with true by (rewrite zlen_cons; pose proof (zlen_nonneg ls); lia). rewrite <- !app_assoc. reflexivity.
Qed.

Lemma filter_map_value t : filter (fun c => negb (c =? tilde)) (map value t) = map value (filter (fun c => negb (value c =? 126)) t).
Proof. induction t as [|c t IH]; [reflexivity|]. cbn [map filter]. destruct (value c =? 126); cbn [negb map]; now rewrite IH. Qed.

(** C69: editop.  The texts which the files stand for are cut into pieces, some of which are the
    same in both (nothing is in common in the others).  Insertions are the characters other than '~'
    of the other pieces of the correct text, deletions those of the generated text.  The moves are
    those of C60, by which the pieces in common get into the order of the correct text; with -D they
    are printed (C66). *)
Theorem C69_editop : forall sys uc line buf items argv n0 n1 dest f0 t0 t1 debug,
  junk_ok line buf ->
  command_line [MainModel.flag_option 68] items argv -> plain_args items = with_third [n0; n1] dest ->
  says_flag items 68 debug ->
  has_file sys n0 f0 -> Forall is_byte f0 -> file_text uc false f0 false t0 -> holds_text sys uc false n1 t1 ->
  can_deliver sys dest -> zlen t1 < 10000000000000 ->
  exists r ps0 ps1 ls es, editop_main sys uc line buf argv = Ok (Done r) /\
    concat (map snd ps0) = t0 /\ concat (map snd ps1) = t1 /\ paired ps0 ps1 /\
    trace (length_at ps1) (numbers ps1) ls es /\
    delivered sys dest
      (if debug : bool then line_text (bytes "original", map (fun n => (n, length_at ps1 n)) (numbers ps1)) ++ flat_map line_text es else [])
      (edit_report (zlen (filter (fun c => negb (value c =? 126)) (loose ps0))) (zlen (loose ps1)) ls) r.
Proof.
  intros sys uc line buf items argv n0 n1 dest f0 t0 t1 debug J CL PA SF F0 B0 T0 (f1 & h & F1 & B1 & T1) D Big.
  pose proof (read_file_text uc line buf false f0 false t0 J B0 T0) as R0.
  pose proof (read_file_text uc line buf false f1 h t1 J B1 T1) as R1.
  assert (O0 : text_ok t0). { eapply (read_text_scalar uc line buf (mkopt true true 0 true false)); [exact J|exact B0|discriminate|exact R0]. }
  assert (O1 : text_ok t1). { eapply (read_text_scalar uc line buf (mkopt true true 0 true false)); [exact J|exact B1|discriminate|exact R1]. }
  destruct (C23_transpose (map value t0) (map value t1)) as (l0 & l1 & Et & _).
  destruct (transposed_pieces t0 t1 l0 l1 O0 O1 Et) as (C0 & C1 & Pa & G0 & G1).
  assert (Big' : zlen (map value t1) < 10000000000000) by (rewrite zlen_map; exact Big).
  destruct (C66_trace _ _ _ _ Et Big') as (d & ls & es & E1 & E2 & Tr & Rc).
  destruct (C43_counts _ _ _ _ Et) as (d' & E1' & Ei & Ed). assert (d' = d) by congruence. subst d'.
  destruct (C44_reportable _ _ d E1) as (Rp & _).
  rewrite (loose_part t0 l0 G0), filter_map_value in Ei. rewrite zlen_map in Ei. rewrite (loose_part t1 l1 G1), zlen_map in Ed.
  pose proof (write_edorpt_text d (er_size d Rp)) as Ew. rewrite (edit_report_text d ls Rc (er_size d Rp)), Ei, Ed in Ew.
  set (printed := if debug then line_text (bytes "original", map (fun n => (n, length_at (pieces_of t1 l1) n)) (numbers (pieces_of t1 l1))) ++ flat_map line_text es else []).
  set (report := edit_report _ _ ls) in *.
  destruct (write_delivered sys dest printed report D) as (r & Er & Dl).
  exists r, (pieces_of t0 l0), (pieces_of t1 l1), ls, es. split; [|split; [exact C0|split; [exact C1|split; [exact Pa|split; [|exact Dl]]]]].
  - unfold editop_main.
    enter editop_options CL vars V. destruct (flag_at _ _ _ 0 68 V eq_refl) as (b & Eb & SF'). rewrite Eb. cbn [obind].
    rewrite (says_flag_fun _ _ _ _ SF' SF). rewrite PA, zlen_with_third, third_with. cbv iota.
    change (rd "argv[0]" (with_third [n0; n1] dest) 0) with (Ok n0). cbn [obind]. rewrite (open_file sys n0 f0 F0). cbn [obind].
    change (rd "argv[1]" (with_third [n0; n1] dest) 1) with (Ok n1). cbn [obind]. rewrite (open_file sys n1 f1 F1). cbn [obind].
    unfold editop_opt. rewrite R0. cbn [obind]. rewrite R1. cbn [obind].
    assert (Es : edit_operations_shown debug (map value t0) (map value t1) = Ok (d, printed)).
    { destruct debug; [|exact (C66_silent _ _ _ E1)]. rewrite E2. f_equal. f_equal. unfold printed. rewrite (numbers_pieces t1). f_equal. f_equal. f_equal.
      apply map_ext. intros n. now rewrite (length_pieces t1 l1 G1). }
    rewrite Es. cbn [obind]. rewrite Ew, Er. reflexivity.
  - rewrite (numbers_pieces t1) in Tr. exact (trace_ext _ _ _ _ _ (length_pieces t1 l1 G1) Tr).
Qed.
Print Assumptions C69_editop.

(** A case: two files with the same words in different order. *)
Definition text_system : system :=
  mksys (fun n => if list_eq_dec Z.eq_dec n (bytes "correct") then Some (bytes "ab  cde")
                  else if list_eq_dec Z.eq_dec n (bytes "generated") then Some (bytes "c^de ab")
                  else None)
        (fun _ => false).
Definition text_items : list item := [Plain (bytes "correct"); Plain (bytes "generated")].
Definition correct_text : list char := map (mkchar false) (bytes "ab cde").
Definition generated_text : list char := [mkchar false 99; mkchar true 100; mkchar false 101; mkchar false 32; mkchar false 97; mkchar false 98].

Lemma text_line table : command_line table text_items (map bytes ["program"; "correct"; "generated"]%string).
Proof.
  exists (bytes "program"). split; [reflexivity|]. split; [cbn; lia|]. split; [discriminate|]. split; [|split; [|split]].
  - assert (Nd : forall n, forallb (fun c => negb (c =? 45)) n = true -> ~ dashed n).
    { intros n H (c & v & ->). discriminate H. }
    constructor; [now apply Nd|constructor; [now apply Nd|constructor]].
  - constructor.
  - unfold real_args. repeat constructor; discriminate.
  - cbn. lia.
Qed.
Lemma text_flag c : says_flag text_items c false.
Proof. split; [discriminate|]. intros [H|[H|[]]]; discriminate H. Qed.
Lemma text_value c : says_value text_items c None.
Proof. intros s. split; [discriminate|]. intros [[H|[H|[]]]|[H|[H|[]]]]; discriminate H. Qed.

Example C69_ex :
  Forall2 (holds_text text_system main_uc false) (plain_args text_items) [correct_text; generated_text] /\
  Forall2 (holds_words text_system main_uc (fun s => s)) (plain_args text_items) [[bytes "ab"; bytes "cde"]; [bytes "cde"; bytes "ab"]] /\
  showable main_uc true (plain_args text_items) [correct_text; generated_text] /\
  n_given (Some (bytes "2")) 2 /\ weights_given (Some (bytes "1/2")) 1 2 /\ threshold_given (Some (bytes "1/3")) 2 2 1 /\
  (exists r, editop_main text_system main_uc sample_line sample_buf (map bytes ["program"; "correct"; "generated"]%string) = Ok (Done r) /\
     standard_output r = edit_report 0 0 [1; 3] /\
     edit_report 0 0 [1; 3] = concat (map (fun l => bytes l ++ [10])
       ["ocreval Edit Operation Report Version 7.0"; "-----------------------------------------"; "       0   Insertions"; "       0   Deletions";
        "       2   Moves"; ""; "Moves"; "   Count   Length"; "       1        1"; "       1        3"]%string)) /\
  (exists r, vote_main text_system main_uc sample_line sample_buf (fun l => l) true (map bytes ["program"; "correct"; "generated"]%string) = Ok (Done r) /\
     standard_output r = bytes "ab cde").
Proof.
  assert (J : junk_ok sample_line sample_buf).
  { split; [reflexivity|]. split; [reflexivity|]. repeat constructor; unfold is_byte; lia. }
  assert (B : forall s, forallb (fun b => (0 <=? b) && (b <? 256)) s = true -> Forall is_byte s).
  { intros s H. rewrite Forall_forall. intros c Hc. rewrite forallb_forall in H. specialize (H c Hc). unfold is_byte. lia. }
  assert (TO : forall t, forallb (fun c => (0 <=? value c) && (value c <? 1000)) t = true -> text_ok t).
  { intros t H. unfold text_ok. rewrite Forall_forall. intros c Hc. rewrite forallb_forall in H. specialize (H c Hc). unfold scalar. lia. }
  split; [|split; [|split; [|split; [|split; [|split; [|split]]]]]].
  - constructor; [|constructor; [|constructor]].
    + exists (bytes "ab  cde"), false. split; [reflexivity|]. split; [now apply B|].
      apply (read_without_header main_uc sample_line sample_buf); [exact J|now apply B|vm_compute; reflexivity].
    + exists (bytes "c^de ab"), false. split; [reflexivity|]. split; [now apply B|].
      apply (read_without_header main_uc sample_line sample_buf); [exact J|now apply B|vm_compute; reflexivity].
  - constructor; [|constructor; [|constructor]].
    + exists (bytes "ab  cde"), false. split; [reflexivity|]. split; [now apply B|]. eexists.
      split; [apply (read_without_header main_uc sample_line sample_buf); [exact J|now apply B|vm_compute; reflexivity]|].
      apply found_words; [now apply TO|vm_compute; reflexivity|vm_compute; reflexivity].
    + exists (bytes "c^de ab"), false. split; [reflexivity|]. split; [now apply B|]. eexists.
      split; [apply (read_without_header main_uc sample_line sample_buf); [exact J|now apply B|vm_compute; reflexivity]|].
      apply found_words; [now apply TO|vm_compute; reflexivity|vm_compute; reflexivity].
  - split; [|split].
    + intros _ t c [<-|[<-|[]]] I; cbn in I; repeat destruct I as [<-|I]; try destruct I; left; cbn; lia.
    + intros t [<-|[<-|[]]]; vm_compute; reflexivity.
    + intros n [<-|[<-|[]]]; vm_compute; reflexivity.
  - split; [reflexivity|lia].
  - split; [lia|]. split; [lia|reflexivity].
  - exists 1, 3. split; [split; [lia|]; split; [lia|reflexivity]|lia].
  - match goal with |- exists r, ?x = _ /\ _ => let y := eval vm_compute in x in change x with y end.
    eexists. split; [reflexivity|]. split; vm_compute; reflexivity.
  - match goal with |- exists r, ?x = _ /\ _ => let y := eval vm_compute in x in change x with y end.
    eexists. split; [reflexivity|]. vm_compute; reflexivity.
Qed.
