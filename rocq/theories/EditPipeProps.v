(** C76: editop on page after page, then editopsum and editopcost on the reports. *)
From Coq Require Import String Permutation.
From Verif Require Import Base CLib CLibProof Utf8Model TextModel TextSpec TextIO TextProps ReadProof SyncModel SyncSpec
  TransProps AccModel AccSpec SumProof AccProof AccCount ReportSpec ReportModel ReportProof AccrptModel SynctextSpec SynctextProof SynctextProps
  EdoModel EdoSpec EdoProof EdoProps EditopModel EditopProps GreedySpec TraceSpec EditopDebugModel TraceProps
  UtilModel ArgsProps MainModel MainSpec MainProof MainProps MainProgProps MainWacProps MainTextSpec MainTextProps MainEditProps
  MainPipeProps EditPipeSpec.
From Verif Require EditopSpec.
Local Open Scope Z_scope.
Local Open Scope list_scope.

Lemma entry_le_moves d i : ereportable d -> EdoSpec.entry (moves d) i <= total_moves d.
Proof.
  intros Rp. pose proof (er_sum d Rp) as Sm. pose proof (er_nonneg d Rp EMoves) as Np. cbn [efig] in Np.
  assert (Nn : forall k, 0 <= EdoSpec.entry (moves d) k) by (intros k; exact (er_nonneg d Rp (EMove k))).
  assert (L : forall (f : Z -> Z) l, (forall k, 0 <= f k) -> 0 <= zsum (map f l) /\ (In i l -> f i <= zsum (map f l))).
  { intros f l Nf. induction l as [|y l [IH1 IH2]]; [split; [reflexivity|intros []]|]. cbn [map]. rewrite zsum_cons. specialize (Nf y) as Ny.
    split; [lia|]. intros [->|I]; [lia|]. specialize (IH2 I). lia. }
  destruct (znth (moves d) i) as [n|] eqn:Z1; [|unfold EdoSpec.entry; rewrite Z1; lia].
  apply znth_Some_lt in Z1. rewrite (er_size d Rp) in Z1.
  destruct (Z.eq_dec i 0) as [->|N0]; [rewrite (er_zero d Rp); lia|].
  rewrite Sm, (zsum_entries _ (er_size d Rp)), (er_zero d Rp).
  destruct (L (EdoSpec.entry (moves d)) (zrange 1 100) Nn) as [_ H]. assert (In i (zrange 1 100)) as Ii by (apply In_zrange; lia). specialize (H Ii). lia.
Qed.

(** The data of editop describe an edit of the two texts. *)
Lemma editop_edit t0 t1 : text_ok t0 -> text_ok t1 -> zlen t1 < 10000000000000 ->
  exists d e, edit_operations (map value t0) (map value t1) = Ok d /\ ereportable d /\
    insertions d <= zlen t0 /\ deletions d <= zlen t1 /\ total_moves d <= zlen t1 /\
    edit_of t0 t1 e /\ insertions d = inserted e /\ deletions d = deleted e /\ records (moved e) d.
Proof.
  intros O0 O1 Big.
  destruct (C23_transpose (map value t0) (map value t1)) as (l0 & l1 & Et & _).
  destruct (transposed_pieces t0 t1 l0 l1 O0 O1 Et) as (C0 & C1 & Pa & G0 & G1).
  assert (Big' : zlen (map value t1) < 10000000000000) by (rewrite zlen_map; exact Big).
  destruct (C66_trace _ _ _ _ Et Big') as (d & ls & es & E1 & E2 & Tr & Rc).
  destruct (C43_counts _ _ _ _ Et) as (d' & E1' & Ei & Ed). assert (d' = d) by congruence. subst d'.
  destruct (C44_reportable _ _ d E1) as (Rp & B1 & B2 & B3). rewrite !zlen_map in *.
  rewrite (loose_part t0 l0 G0), filter_map_value in Ei. rewrite zlen_map in Ei. rewrite (loose_part t1 l1 G1), zlen_map in Ed.
  rewrite (numbers_pieces t1) in Tr. apply (trace_ext _ _ _ _ _ (length_pieces t1 l1 G1)) in Tr.
  exists d, (mkedit (insertions d) (deletions d) ls). split; [exact E1|]. split; [exact Rp|]. split; [exact B1|]. split; [exact B2|]. split; [exact B3|].
  split; [|cbn [inserted deleted moved]; auto]. exists (pieces_of t0 l0), (pieces_of t1 l1), es. cbn [inserted deleted moved]. auto 10.
Qed.

Definition edit_sized (t0 t1 : list char) : Prop := zlen t0 < 9223372036854775808 /\ zlen t1 < 10000000000000.
Definition data_of (d : edodata) (e : edit) : Prop := insertions d = inserted e /\ deletions d = deleted e /\ records (moved e) d.

Lemma editop_pages sys uc line buf pages texts name :
  junk_ok line buf -> pages_ready sys pages ->
  (forall p, In p pages -> command_line [MainModel.flag_option 68] (map Plain (page_args p)) (name :: page_args p)) ->
  Forall2 (fun p t => page_texts uc p (fst t) (snd t) /\ edit_sized (fst t) (snd t)) pages texts ->
  exists sys' reports ds es,
    runs (fun sys => editop_main sys uc line buf) name sys pages sys' /\
    Forall2 (has_file sys') (map report_name pages) reports /\ Forall2 ereport_of ds reports /\
    Forall2 (fun t e => edit_of (fst t) (snd t) e) texts es /\ Forall2 data_of ds es /\
    Forall2 (fun t d => insertions d <= zlen (fst t) /\ deletions d <= zlen (snd t) /\ total_moves d <= zlen (snd t)) texts ds /\
    (forall n, ~ In n (map report_name pages) -> contents sys' n = contents sys n).
Proof.
  intros J Rd Cp Tx.
  set (good := fun p report => forall t0 t1, page_texts uc p t0 t1 -> edit_sized t0 t1 ->
    exists d e, ereport_of d report /\ edit_of t0 t1 e /\ data_of d e /\
      insertions d <= zlen t0 /\ deletions d <= zlen t1 /\ total_moves d <= zlen t1).
  destruct (runs_pages (fun sys => editop_main sys uc line buf) name good pages sys Rd) as (sys' & reports & Rn & G & Fr & Un).
  { intros s p Ip (Hf & _ & _). destruct (Hf p (or_introl eq_refl)) as (F0 & F1 & Wr). clear Hf.
    assert (Run : forall t0 t1, page_texts uc p t0 t1 -> edit_sized t0 t1 ->
      exists report d e, editop uc line buf (correct_file p) (generated_file p) = Ok report /\ zlen t1 < 10000000000000 /\
        (exists h, read_text uc line buf editop_opt [] (generated_file p) = Ok (t1, h)) /\
        ereport_of d report /\ edit_of t0 t1 e /\ data_of d e /\ insertions d <= zlen t0 /\ deletions d <= zlen t1 /\ total_moves d <= zlen t1).
    { intros t0 t1 (B0 & B1 & T0 & h & T1) (S0 & S1).
      pose proof (read_file_text uc line buf false _ false t0 J B0 T0) as R0.
      pose proof (read_file_text uc line buf false _ h t1 J B1 T1) as R1.
      assert (O0 : text_ok t0). { eapply (read_text_scalar uc line buf (mkopt true true 0 true false)); [exact J|exact B0|discriminate|exact R0]. }
      assert (O1 : text_ok t1). { eapply (read_text_scalar uc line buf (mkopt true true 0 true false)); [exact J|exact B1|discriminate|exact R1]. }
      destruct (editop_edit t0 t1 O0 O1 S1) as (d & e & E & Rp & L1 & L2 & L3 & Ee & Di & Dd & Dm).
      exists (edo_text d), d, e. split; [|split; [exact S1|split; [exists h; exact R1|split; [|split; [exact Ee|split; [split; [exact Di|split; [exact Dd|exact Dm]]|auto]]]]]].
      - unfold editop, editop_opt. rewrite R0. cbn [obind]. rewrite R1. cbn [obind]. rewrite E. cbn [obind]. apply write_edorpt_text. apply (er_size d Rp).
      - split; [exact Rp|]. split; [|apply write_edorpt_text; apply (er_size d Rp)].
        intros x. destruct x as [| | |i]; cbn [efig]; try lia. pose proof (entry_le_moves d i Rp). lia. }
    destruct (Forall2_in_l _ _ _ Tx p Ip) as ([t0 t1] & Pt & Sz).
    destruct (Run t0 t1 Pt Sz) as (report & _ & _ & E & Big & (h & R1) & _).
    destruct (C64_editop s uc line buf (map Plain (page_args p)) (name :: page_args p) (correct_name p) (generated_name p)
                  (Some (report_name p)) (correct_file p) (generated_file p) false) as (printed & Np & _ & En); auto.
    { split; [discriminate|]. intros I. apply in_map_iff in I as (x & X & _). discriminate X. }
    { intros t h' R'. rewrite R1 in R'. injection R' as <- _. exact Big. }
    rewrite (Np eq_refl), E in En. cbn [obind ends_with] in En. destruct En as (r & Er & Dl). exists r, report.
    split; [exact Er|]. split; [exact Dl|]. intros u0 u1 Pu Su. destruct (Run u0 u1 Pu Su) as (report' & d & e & E' & _ & _ & H).
    assert (report' = report) as -> by congruence. exists d, e. exact H. }
  assert (Ds : exists ds es, Forall2 ereport_of ds reports /\ Forall2 (fun t e => edit_of (fst t) (snd t) e) texts es /\ Forall2 data_of ds es /\
             Forall2 (fun t d => insertions d <= zlen (fst t) /\ deletions d <= zlen (snd t) /\ total_moves d <= zlen (snd t)) texts ds).
  { clear - Tx G. revert texts Tx. induction G as [|p report pages reports Gp G IH]; intros texts Tx; inversion Tx as [|? [t0 t1] ? texts' [Pt Sz] Tx']; subst.
    - exists [], []. repeat split; constructor.
    - destruct (IH _ Tx') as (ds & es & H1 & H2 & H3 & H4). destruct (Gp _ _ Pt Sz) as (d & e & Ro & Ee & De & Bd).
      exists (d :: ds), (e :: es). repeat split; constructor; auto. }
  destruct Ds as (ds & es & Ro & Te & De & Bd). exists sys', reports, ds, es. auto 10.
Qed.

Lemma data_sums ds es : Forall2 data_of ds es -> forall x f, (forall d e, data_of d e -> efig x d = f e) ->
  zsum (map (efig x) ds) = zsum (map f es).
Proof.
  intros F x f H. f_equal. induction F as [|d1 e1 ds1 es1 D F IH]; [reflexivity|]. cbn [map]. f_equal; [now apply H|exact IH].
Qed.
Lemma zsum_zlen_concat {A} (ls : list (list A)) : zsum (map zlen ls) = zlen (concat ls).
Proof. induction ls as [|l ls IH]; [reflexivity|]. cbn [map concat]. rewrite zsum_cons, zlen_app, IH. reflexivity. Qed.

Lemma filter_concat {A} (f : A -> bool) ls : filter f (concat ls) = concat (map (filter f) ls).
Proof. induction ls as [|l ls IH]; [reflexivity|]. cbn [map concat]. now rewrite filter_app, IH. Qed.

(** The figures of the sum are those of all edits together. *)
Lemma total_data ds es d : Forall2 data_of ds es -> ereportable d -> etotal_of ds d -> data_of d (all_edits es).
Proof.
  intros F Rp T. unfold data_of, all_edits. cbn [inserted deleted moved]. split; [|split].
  - rewrite <- (data_sums ds es F EInsertions); [exact (T EInsertions)|]. intros ? ? (H & _). exact H.
  - rewrite <- (data_sums ds es F EDeletions); [exact (T EDeletions)|]. intros ? ? (_ & H & _). exact H.
  - split; [|split; [|split; [exact (er_size d Rp)|]]].
    + clear T Rp. induction F as [|d1 e1 ds1 es1 (_ & _ & D & _) F IH]; [constructor|]. cbn [map concat]. apply Forall_app. auto.
    + rewrite <- zsum_zlen_concat, map_map. rewrite <- (data_sums ds es F EMoves); [exact (T EMoves)|]. intros ? ? (_ & _ & _ & H & _). exact H.
    + intros i I. rewrite filter_concat, <- zsum_zlen_concat, !map_map.
      rewrite <- (data_sums ds es F (EMove i)); [exact (T (EMove i))|]. intros ? ? (_ & _ & _ & _ & _ & H). exact (H i I).
Qed.

Lemma cost_data t d e : data_of d e -> edit_cost t (insertions d) (moved e) = cost t e.
Proof. intros (H & _). unfold edit_cost, cost. now rewrite H. Qed.

Lemma cost_all t es : cost t (all_edits es) = zsum (map (cost t) es).
Proof.
  unfold all_edits, cost. cbn [inserted moved].
  induction es as [|e es IH]; [reflexivity|]. cbn [map concat]. rewrite !zsum_cons, map_app, zsum_app, <- IH. lia.
Qed.

(** C76: the report of editopsum is that of all the edits of the pages together; editopcost on this
    report (saved in some file) prints the sums of the costs of the pages. *)
Theorem C76_editopsum : forall sys uc line buf b pages texts name argv,
  junk_ok line buf -> line_buffer b -> pages_ready sys pages -> 2 <= zlen pages ->
  (forall p, In p pages -> command_line [MainModel.flag_option 68] (map Plain (page_args p)) (name :: page_args p)) ->
  command_line [] (map Plain (map report_name pages)) argv ->
  Forall2 (fun p t => page_texts uc p (fst t) (snd t) /\ edit_sized (fst t) (snd t)) pages texts ->
  exists sys' r es,
    runs (fun sys => editop_main sys uc line buf) name sys pages sys' /\
    Forall2 (fun t e => edit_of (fst t) (snd t) e) texts es /\
    editopsum_main sys' b argv = Ok (Done r) /\
    standard_output r = edit_report (inserted (all_edits es)) (deleted (all_edits es)) (moved (all_edits es)) /\
    (forall n, ~ In n (map report_name pages) -> files_after r n = contents sys n) /\
    (forall sys2 sum argv2, zsum (map (fun t => zlen (fst t) + zlen (snd t)) texts) < 9223372036854775808 ->
       has_file sys2 sum (standard_output r) -> command_line [] [Plain sum] argv2 ->
       exists r2, editopcost_main sys2 b argv2 = Ok (Done r2) /\
         standard_output r2 = cost_listing (fun t => zsum (map (cost t) es))).
Proof.
  intros sys uc line buf b pages texts name argv J B Rd L2 Cp Ca Tx.
  destruct (editop_pages sys uc line buf pages texts name J Rd Cp Tx) as (sys' & reports & ds & es & Rn & Fr & Ro & Te & De & Bd & Un).
  pose proof (C64_editopsum sys' b _ argv reports Ca) as A. rewrite plain_args_plain in A. specialize (A Fr).
  assert (Lr : 2 <= zlen reports).
  { assert (zlen (map report_name pages) = zlen reports) as <- by (clear - Fr; induction Fr; [reflexivity|rewrite !zlen_cons; lia]). now rewrite zlen_map. }
  destruct (C45_total b ds reports B Ro Lr) as (d & f & Rp & T & Es & W & _). rewrite Es in A. cbn [prints] in A. destruct A as (r & Er & So & Fa).
  pose proof (total_data ds es d De Rp T) as Dt. destruct Dt as (Di & Dd & Dm).
  cbn [app] in So. pose proof (write_edorpt_text d (er_size d Rp)) as W'. assert (f = edo_text d) as Ef by congruence.
  exists sys', r, es. split; [exact Rn|]. split; [exact Te|]. split; [exact Er|]. split; [|split].
  - rewrite So, Ef, (edit_report_text d _ Dm (er_size d Rp)), Di, Dd. reflexivity.
  - intros n Hn. rewrite Fa. now apply Un.
  - intros sys2 sum argv2 Sz Hf Ca2. rewrite So in Hf. pose proof (C64_editopcost sys2 b [Plain sum] argv2 [f] Ca2 (Forall2_cons _ _ Hf (Forall2_nil _))) as A2.
    rewrite (C46_cost b d f (moved (all_edits es)) B) in A2; [|split; [exact Rp|split; [|exact W]]|exact Dm].
    + cbn [prints] in A2. destruct A2 as (r2 & E2 & So2 & _). exists r2. split; [exact E2|]. rewrite So2. cbn [app]. unfold cost_listing.
      rewrite !flat_map_concat_map. f_equal. apply map_ext. intros t. rewrite (cost_data t d (all_edits es)), cost_all; [reflexivity|]. split; auto.
    + assert (Lx : forall x, efig x d <= zsum (map (fun t => zlen (fst t) + zlen (snd t)) texts)); [|intros x; specialize (Lx x); lia].
      intros x. rewrite (T x). clear - Bd Ro. revert ds reports Bd Ro. induction texts as [|[t0 t1] texts IH]; intros ds reports Bd Ro; inversion Bd as [|? d ? ds' (B1 & B2 & B3) Bd']; subst; [reflexivity|].
      inversion Ro as [|? ? ? reports' (Rp & _) Ro']; subst. cbn [map fst snd] in *. rewrite !zsum_cons. specialize (IH _ _ Bd' Ro'). 
      assert (efig x d <= zlen t0 + zlen t1); [|lia]. pose proof (zlen_nonneg t0). pose proof (zlen_nonneg t1).
      destruct x as [| | |i]; cbn [efig]; try lia.
      pose proof (entry_le_moves d i Rp). lia.
Qed.
Print Assumptions C76_editopsum.

(** C76: editopcost on the report of a page prints the costs of its edit. *)
Theorem C76_editopcost : forall sys uc line buf b p t0 t1 name argv,
  junk_ok line buf -> line_buffer b -> pages_ready sys [p] ->
  command_line [MainModel.flag_option 68] (map Plain (page_args p)) (name :: page_args p) ->
  command_line [] [Plain (report_name p)] argv ->
  page_texts uc p t0 t1 -> edit_sized t0 t1 ->
  exists sys' r e,
    runs (fun sys => editop_main sys uc line buf) name sys [p] sys' /\ edit_of t0 t1 e /\
    editopcost_main sys' b argv = Ok (Done r) /\ standard_output r = cost_listing (fun t => cost t e) /\
    (forall n, n <> report_name p -> files_after r n = contents sys n).
Proof.
  intros sys uc line buf b p t0 t1 name argv J B Rd Cp Ca Pt Sz.
  destruct (editop_pages sys uc line buf [p] [(t0, t1)] name J Rd) as (sys' & reports & ds & es & Rn & Fr & Ro & Te & De & Bd & Un).
  { intros q [<-|[]]. exact Cp. }
  { constructor; [split; assumption|constructor]. }
  inversion Te as [|? e ? ? Ee Te']; subst. inversion Te'; subst. inversion De as [|d ? ? ? Dd De']; subst. inversion De'; subst.
  inversion Ro as [|? f ? ? Rf Ro']; subst. inversion Ro'; subst.
  pose proof (C64_editopcost sys' b [Plain (report_name p)] argv [f] Ca Fr) as A.
  destruct (Dd) as (_ & _ & Dm). rewrite (C46_cost b d f (moved e) B Rf Dm) in A. cbn [prints] in A. destruct A as (r & Er & So & Fa).
  exists sys', r, e. split; [exact Rn|]. split; [exact Ee|]. split; [exact Er|]. split.
  - rewrite So. cbn [app]. unfold cost_listing. rewrite !flat_map_concat_map. f_equal. apply map_ext. intros t. now rewrite (cost_data t d e).
  - intros n Hn. rewrite Fa. apply Un. cbn [map In]. intros [E|[]]. now apply Hn.
Qed.
Print Assumptions C76_editopcost.

(** C76: with the reports of two pages, the differences of their costs (how much is saved by the
    second with respect to the first). *)
Theorem C76_difference : forall sys uc line buf b p q t0 t1 u0 u1 name argv,
  junk_ok line buf -> line_buffer b -> pages_ready sys [p; q] ->
  (forall x, In x [p; q] -> command_line [MainModel.flag_option 68] (map Plain (page_args x)) (name :: page_args x)) ->
  command_line [] [Plain (report_name p); Plain (report_name q)] argv ->
  page_texts uc p t0 t1 -> edit_sized t0 t1 -> page_texts uc q u0 u1 -> edit_sized u0 u1 ->
  exists sys' r e e2,
    runs (fun sys => editop_main sys uc line buf) name sys [p; q] sys' /\ edit_of t0 t1 e /\ edit_of u0 u1 e2 /\
    editopcost_main sys' b argv = Ok (Done r) /\ standard_output r = cost_listing (fun t => cost t e - cost t e2) /\
    (forall n, n <> report_name p -> n <> report_name q -> files_after r n = contents sys n).
Proof.
  intros sys uc line buf b p q t0 t1 u0 u1 name argv J B Rd Cp Ca Pt Sz Pu Su.
  destruct (editop_pages sys uc line buf [p; q] [(t0, t1); (u0, u1)] name J Rd Cp) as (sys' & reports & ds & es & Rn & Fr & Ro & Te & De & Bd & Un).
  { constructor; [split; assumption|constructor; [split; assumption|constructor]]. }
  inversion Te as [|? e ? ? Ee Te']; subst. inversion Te' as [|? e2 ? ? Ee2 Te2]; subst. inversion Te2; subst.
  inversion De as [|d ? ? ? Dd De']; subst. inversion De' as [|d2 ? ? ? Dd2 De2]; subst. inversion De2; subst.
  inversion Ro as [|? f ? ? Rf Ro']; subst. inversion Ro' as [|? f2 ? ? Rf2 Ro2]; subst. inversion Ro2; subst.
  pose proof (C64_editopcost sys' b [Plain (report_name p); Plain (report_name q)] argv [f; f2] Ca Fr) as A.
  pose proof Dd as (_ & _ & Dm). pose proof Dd2 as (_ & _ & Dm2).
  rewrite (C46_difference b d f (moved e) d2 f2 (moved e2) B Rf Dm Rf2 Dm2) in A. cbn [prints] in A. destruct A as (r & Er & So & Fa).
  exists sys', r, e, e2. split; [exact Rn|]. split; [exact Ee|]. split; [exact Ee2|]. split; [exact Er|]. split.
  - rewrite So. cbn [app]. unfold cost_listing. rewrite !flat_map_concat_map. f_equal. apply map_ext. intros t.
    now rewrite (cost_data t d e), (cost_data t d2 e2).
  - intros n Hn Hm. rewrite Fa. apply Un. cbn [map In]. intros [E|[E|[]]]; [now apply Hn|now apply Hm].
Qed.
Print Assumptions C76_difference.

(** A case: the two pages of C65; an edit with two moves (C69), and its costs. *)
Example C76_ex :
  pages_ready pipe_system pipe_pages /\
  (forall p, In p pipe_pages -> command_line [MainModel.flag_option 68] (map Plain (page_args p)) (bytes "program" :: page_args p)) /\
  command_line [] (map Plain (map report_name pipe_pages)) (bytes "program" :: map report_name pipe_pages) /\
  Forall2 (fun p t => page_texts main_uc p (fst t) (snd t) /\ edit_sized (fst t) (snd t)) pipe_pages pipe_texts /\
  zsum (map (fun t => zlen (fst t) + zlen (snd t)) pipe_texts) < 9223372036854775808 /\
  (exists d, edit_operations (map value correct_text) (map value generated_text) = Ok d /\ data_of d (mkedit 0 0 [1; 3])) /\
  map (fun t => cost t (mkedit 0 0 [1; 3])) [0; 1; 2; 3; 4] = [0; 2; 3; 4; 4] /\
  cost 2 (all_edits [mkedit 0 0 [1; 3]; mkedit 2 1 []]) = 5 /\
  firstn 30 (cost_listing (fun t => cost t (mkedit 0 0 [1; 3]))) = bytes "  0          0" ++ [10] ++ bytes "  1          2" ++ [10].
Proof.
  destruct C65_ex as (X1 & X0 & X2 & X3 & _). split; [exact X1|]. split; [|split; [exact X2|split; [|split; [|split; [|split; [|split]]]]]].
  - intros p Ip. destruct (X0 p Ip) as (pr & E & L & N & A & R). exists pr. repeat (split; [assumption|]). split; [|exact R].
    rewrite Forall_forall in *. intros x Ix. specialize (A x Ix). apply in_map_iff in Ix as (n & <- & _). exact A.
  - eapply ArgsProps.Forall2_weaken; [|exact X3]. intros p t [H (_ & _ & L)]. split; [exact H|]. unfold edit_sized.
    pose proof (zlen_nonneg (fst t)). pose proof (zlen_nonneg (snd t)). lia.
  - reflexivity.
  - destruct (edit_operations (map value correct_text) (map value generated_text)) as [d| | |] eqn:E; [|vm_compute in E; discriminate E..].
    exists d. split; [reflexivity|]. vm_compute in E. injection E as <-. split; [reflexivity|]. split; [reflexivity|].
    split; [repeat constructor; lia|]. split; [reflexivity|]. split; [reflexivity|]. intros i I.
    assert (H : forallb (fun i => EdoSpec.entry (moves {| insertions := 0; deletions := 0; total_moves := 2; moves := [0; 1; 0; 1] ++ repeat 0 97 |}) i
      =? zlen (filter (fun n => Z.min n 100 =? i) [1; 3])) (zrange 0 101) = true) by (vm_compute; reflexivity).
    rewrite forallb_forall in H. apply Z.eqb_eq, H. apply In_zrange. lia.
  - reflexivity.
  - reflexivity.
  - vm_compute. reflexivity.
Qed.
