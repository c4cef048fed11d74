(** Proofs about what editop -D prints. *)
From Coq Require Import String Permutation.
From Verif Require Import Base CLib CLibProof AccSpec SumProof SyncModel SyncSpec EdoModel EdoSpec EditopModel EditopSpec EditopProof EditopProps
  GreedySpec GreedyProof EditopDebugModel TraceSpec.
Local Open Scope Z_scope.
Local Open Scope list_scope.

Definition shown (b : block) : Z * Z := (bmatch b, blen b).

Lemma display_line l label : display l label = line_text (label, map shown l).
Proof.
  unfold display, line_text, pad_right. cbn [fst snd]. rewrite <- app_assoc, flat_map_map. reflexivity.
Qed.

Lemma label_fits n : 0 <= n < 10000000000000 -> zlen (bytes "moved " ++ dec n) + 1 <= 20.
Proof.
  intros H. rewrite zlen_app. change (zlen (bytes "moved ")) with 6. unfold dec. destruct (Z.ltb_spec n 0); [lia|].
  pose proof (digits_len 10 n 12 ltac:(lia) ltac:(change (10 ^ Z.of_nat 13) with 10000000000000; lia)).
  unfold zlen. rewrite map_length. lia.
Qed.

Lemma silent_loop : forall fuel l d l' d', moves_loop fuel l d = Ok (l', d') -> moves_loop_shown false fuel l d = Ok (l', d', []).
Proof.
  induction fuel as [|fuel IH]; intros l d l' d' E; cbn [moves_loop moves_loop_shown] in *.
  - destruct (1 <? zlen l); [discriminate E|]. injection E as <- <-. reflexivity.
  - destruct (1 <? zlen l); [|injection E as <- <-; reflexivity].
    destruct (find_candidates l) as [c| | |]; cbn [obind] in *; try discriminate E.
    destruct (find_move l c) as [x| | |]; cbn [obind] in *; try discriminate E.
    unfold perform_move_shown. destruct (perform_move l c x d) as [[l1 d1]| | |]; cbn [obind] in *; try discriminate E.
    unfold combine_adjacent_shown. destruct (combine_adjacent l1) as [l2| | |]; cbn [obind] in *; try discriminate E.
    rewrite (IH _ _ _ _ E). reflexivity.
Qed.

Section Loop.
Variable wt : Z -> Z.
Variable N : nat.

Lemma count_below n : forall k lo, 1 <= lo -> lo <= k <= lo + Z.of_nat n ->
  zlen (filter (fun j => j <? k) (zrange lo n)) = k - lo.
Proof.
  induction n as [|n IH]; intros k lo H1 H2; cbn [zrange filter]; [rewrite zlen_nil; lia|].
  destruct (Z.ltb_spec lo k); [rewrite zlen_cons, IH; lia|].
  assert (k = lo) as -> by lia. rewrite Z.sub_diag. clear IH H H1 H2. 
  assert (forall m a, lo <= a -> filter (fun j => j <? lo) (zrange a m) = []) as X.
  { induction m as [|m IH]; intros a Ha; [reflexivity|]. cbn [zrange filter]. destruct (Z.ltb_spec a lo); [lia|]. apply IH. lia. }
  rewrite X by lia. reflexivity.
Qed.

Lemma filter_perm_len {X} (f : X -> bool) a b : Permutation a b -> zlen (filter f a) = zlen (filter f b).
Proof.
  induction 1; cbn [filter]; try congruence.
  - destruct (f x); rewrite ?zlen_cons; congruence.
  - destruct (f x), (f y); reflexivity.
Qed.

Lemma filter_map_len {X Y} (f : Y -> bool) (g : X -> Y) l : zlen (filter f (map g l)) = zlen (filter (fun x => f (g x)) l).
Proof. induction l as [|x l IH]; [reflexivity|]. cbn [map filter]. destruct (f (g x)); rewrite ?zlen_cons; congruence. Qed.

(** The numbers of the blocks are the places of their runs. *)
Lemma place_block G l s k b : rep wt G l s (zrange 1 N) -> Permutation l k -> In b l ->
  place (map (gb G) k) (gb G b) = bmatch b.
Proof.
  intros H P Ib. pose proof (rep_ne _ _ _ _ _ H) as Ne. pose proof (r_tgt _ _ _ _ _ H) as T.
  assert (Rg : forall c, In c l -> 1 <= bmatch c <= Z.of_nat (List.length l)) by (intros c0; apply (rep_range _ _ _ _ _ c0 H)).
  unfold place. rewrite filter_map_len, <- (filter_perm_len _ _ _ P).
  assert (zlen (filter (fun x => first_of (gb G x) <? first_of (gb G b)) l) =
          zlen (filter (fun j => j <? bmatch b) (map bmatch l))) as ->.
  { rewrite filter_map_len. f_equal. apply filter_ext_in. intros c Ic. unfold gb.
    rewrite !(first_G G _ N T Ne) by (apply Rg; assumption). pose proof (Rg c Ic). pose proof (Rg b Ib).
    pose proof (off_le G (List.length l) Ne (bmatch b) (bmatch c) ltac:(lia) ltac:(lia)).
    destruct (Z.ltb_spec (off G (bmatch c)) (off G (bmatch b))), (Z.ltb_spec (bmatch c) (bmatch b)); try reflexivity; lia. }
  rewrite (filter_perm_len _ _ _ (r_perm _ _ _ _ _ H)), count_below; [lia|lia|]. pose proof (Rg b Ib). lia.
Qed.

Lemma numbered_blocks G l s k : rep wt G l s (zrange 1 N) -> Permutation l k ->
  numbered wt (map (gb G) k) = map shown k.
Proof.
  intros H P. unfold numbered. rewrite map_map. apply map_ext_in. intros b Ib.
  assert (Ib' : In b l) by (eapply Permutation_in; [symmetry; exact P|exact Ib]).
  rewrite (place_block G l s k b H P Ib'). unfold shown. f_equal.
  pose proof (r_len _ _ _ _ _ H) as F. rewrite Forall_forall in F. destruct (F b Ib') as [F1 _]. symmetry. exact F1.
Qed.

Lemma trace_loop_ok : forall fuel G l s d, rep wt G l s (zrange 1 N) -> apart l -> zlen (moves d) = 101 ->
  (List.length l <= fuel)%nat -> zlen l < 10000000000000 ->
  exists l' d' ls es, moves_loop fuel l d = Ok (l', d') /\
    moves_loop_shown true fuel l d = Ok (l', d', flat_map line_text es) /\
    trace wt s ls ((bytes "combined", map shown l) :: es) /\
    Forall (fun n => 1 <= n) ls /\ total_moves d' = total_moves d + zlen ls /\ zlen (moves d') = 101 /\
    (forall i, entry (moves d') i = entry (moves d) i + zlen (filter (fun n => Z.min n 100 =? i) ls)).
Proof.
  induction fuel as [|fuel IH]; intros G l s d H Ap M L Big.
  - assert (l = []) as -> by (destruct l; [reflexivity|cbn in L; lia]).
    exists [], d, [], []. split; [reflexivity|]. split; [reflexivity|]. split.
    { destruct (rep_runs _ _ _ _ _ H) as (_ & R & Sp). specialize (Sp Ap). cbn [map] in Sp.
      change (map shown []) with (numbered wt []). rewrite <- Sp. constructor. rewrite R. cbn. lia. }
    split; [constructor|]. rewrite zlen_nil. split; [lia|]. split; [exact M|]. intros i. cbn [filter]. rewrite zlen_nil. lia.
  - cbn [moves_loop moves_loop_shown]. destruct (rep_runs _ _ _ _ _ H) as (_ & R & Sp). specialize (Sp Ap).
    pose proof (proj1 (apart_joined l) Ap) as J0.
    pose proof (numbered_blocks G l s l H (Permutation_refl l)) as Nl. rewrite <- Sp in Nl.
    destruct (Z.ltb_spec 1 (zlen l)) as [L1|L1].
    + destruct (find_move_ok _ _ _ _ _ H L1) as (c & x & E1 & E2 & Ix & C & Best).
      rewrite E1. cbn [obind]. rewrite E2. cbn [obind].
      destruct (perform_ok _ _ _ _ _ c x d H L1 Ix M C)
        as (p & q & p' & q' & s' & d1 & El & Epq & E3 & Rc & H1 & Mv & P1 & Nap & Pl).
      unfold perform_move_shown. rewrite E3. cbn [obind].
      pose proof (rep_range _ _ _ _ _ x H Ix) as Rx0.
      assert (Lab : zlen (bytes "moved " ++ dec (bmatch x)) + 1 <=? 20 = true) by (apply Z.leb_le, label_fits; lia).
      rewrite Lab. cbn [obind].
      destruct (combine_ok _ _ _ _ _ H1) as (l2 & G2 & E4 & H2 & L2 & L3).
      unfold combine_adjacent_shown. rewrite E4. cbn [obind]. destruct Rc as (R1 & R2 & R3 & R4 & R5).
      assert (Ll : zlen (p' ++ x :: q') = zlen l).
      { rewrite El. unfold zlen. rewrite !app_length. cbn [List.length].
        apply (f_equal (@List.length block)) in Epq. rewrite !app_length in Epq. lia. }
      assert (zlen l2 <> zlen (p' ++ x :: q')) by (intros X; apply Nap, (L3 X)).
      destruct (IH G2 l2 s' d1 H2) as (l' & d' & ls & es & E5 & E6 & Tr & B2 & B5 & B6 & B7);
        [eapply combine_apart; [exact H1|exact E4]|congruence|unfold zlen in *; lia|lia|].
      pose proof (r_len _ _ _ _ _ H) as F. rewrite Forall_forall in F.
      destruct (F x Ix) as [F1 _]. change (G (bmatch x)) with (gb G x) in F1.
      pose proof (rep_ne _ _ _ _ _ H) as Ne. pose proof (r_tgt _ _ _ _ _ H) as T.
      assert (Rg : forall c, In c l -> 1 <= bmatch c <= Z.of_nat (List.length l)) by (intros c0; apply (rep_range _ _ _ _ _ c0 H)).
      assert (Es' : s' = flat_map (gb G) (p' ++ x :: q')) by (symmetry; apply (r_s _ _ _ _ _ H1)).
      assert (Iall : forall c, In c (p' ++ q') -> In c l).
      { intros c0 Hc. rewrite <- Epq in Hc. rewrite El. apply in_app_or in Hc. apply in_or_app. cbn [In]. tauto. }
      assert (Pm : Permutation l (p' ++ x :: q')).
      { rewrite El. rewrite <- !Permutation_middle, Epq. reflexivity. }
      assert (Ec : s' = concat (map (gb G) p') ++ gb G x ++ concat (map (gb G) q')).
      { rewrite Es', flat_map_app, <- !flat_map_concat_map. reflexivity. }
      exists l', d', (blen x :: ls), ((bytes "moved " ++ dec (bmatch x), map shown (p' ++ x :: q')) :: (bytes "combined", map shown l2) :: es).
      split; [exact E5|]. split.
      { rewrite E6. cbn [obind flat_map]. rewrite !display_line. reflexivity. }
      split.
      { rewrite F1, <- Nl. rewrite <- (numbered_blocks G l s _ H Pm).
        replace (bmatch x) with (place (split_runs s) (gb G x)) by (rewrite Sp; apply (place_block G l s l x H (Permutation_refl l) Ix)).
        rewrite map_app. cbn [map].
        apply (trace_move wt s (map (gb G) p) (gb G x) (map (gb G) q) (map (gb G) p') (map (gb G) q')).
        - rewrite R. lia.
        - rewrite Sp, El, map_app. reflexivity.
        - rewrite <- !map_app, Epq. reflexivity.
        - intros X. apply (first_one G _ N T Ne (bmatch x) (Rg x Ix)) in X. destruct Pl as [Pl1 Pl2].
          destruct (Pl1 X) as (y & q2 & -> & Ey). exists (gb G y), (map (gb G) q2). split; [reflexivity|].
          apply (follows G _ N T Ne); [apply Rg; exact Ix| |exact Ey].
          apply Rg, Iall, in_or_app. right. left. reflexivity.
        - intros X. destruct Pl as [Pl1 Pl2]. assert (X' : bmatch x <> 1).
          { intros Z. apply X. apply (first_one G _ N T Ne (bmatch x) (Rg x Ix)). exact Z. }
          destruct (Pl2 X') as (p2 & y & -> & Ey). exists (map (gb G) p2), (gb G y). rewrite map_app.
          split; [reflexivity|].
          assert (Iy : In y l) by (apply Iall, in_or_app; left; apply in_or_app; right; left; reflexivity).
          assert (first_of (gb G x) = last_of (gb G y) + 1); [|lia].
          apply (follows G _ N T Ne); [apply Rg; exact Iy|apply Rg; exact Ix|lia].
        - intros b2 w2 a2 s2 Q1 Q2. destruct (any_home wt N G l s b2 w2 a2 s2 H Ap Q1 Q2) as (b & Ib & -> & Rb).
          pose proof (home_gain wt N G l s p x q p' q' H Ap El Epq Pl) as Rx. rewrite <- Es' in Rx. rewrite <- Ec.
          unfold preferred. rewrite Rx, Rb, <- F1. destruct (F b Ib) as [F2 _]. change (G (bmatch b)) with (gb G b) in F2.
          rewrite <- F2. unfold gb. rewrite !(first_G G _ N T Ne) by (apply Rg; assumption).
          pose proof (Rg x Ix). pose proof (Rg b Ib).
          rewrite (off_le G (List.length l) Ne) by lia.
          destruct (Best b Ib) as [Bt|Bt]; [left; lia|right; lia].
        - rewrite <- Ec. exact Tr. }
      rewrite zlen_cons. split; [constructor; assumption|].
      split; [lia|]. split; [exact B6|].
      intros i. rewrite B7, R5. cbn [filter]. destruct (Z.min (blen x) 100 =? i).
      * rewrite zlen_cons. lia.
      * lia.
    + exists l, d, [], []. split; [reflexivity|]. split; [reflexivity|]. split; [rewrite <- Nl; constructor; lia|].
      split; [constructor|]. rewrite zlen_nil.
      split; [lia|]. split; [exact M|]. intros i. cbn [filter]. rewrite zlen_nil. lia.
Qed.

Lemma trace_moves_ok G l s d : rep wt G l s (zrange 1 N) -> zlen (moves d) = 101 -> zlen l < 10000000000000 ->
  exists l' d' ls es, count_moves l d = Ok (l', d') /\
    count_moves_shown true l d = Ok (l', d', line_text (bytes "original", map shown l) ++ flat_map line_text es) /\
    trace wt s ls es /\
    Forall (fun n => 1 <= n) ls /\ total_moves d' = total_moves d + zlen ls /\ zlen (moves d') = 101 /\
    (forall i, entry (moves d') i = entry (moves d) i + zlen (filter (fun n => Z.min n 100 =? i) ls)).
Proof.
  intros H M Big. destruct (combine_ok _ _ _ _ _ H) as (l1 & G1 & E & H1 & L1 & _).
  unfold count_moves, count_moves_shown, combine_adjacent_shown. rewrite E. cbn [obind].
  destruct (trace_loop_ok (List.length l1) G1 l1 s d H1) as (l' & d' & ls & es & E5 & E6 & Tr & B);
    [eapply combine_apart; [exact H|exact E]|exact M|lia|lia|].
  exists l', d', ls, ((bytes "combined", map shown l1) :: es). split; [exact E5|]. rewrite E6. cbn [obind flat_map].
  rewrite !display_line. split; [reflexivity|]. split; [exact Tr|exact B].
Qed.
End Loop.
