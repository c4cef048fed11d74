(** Proofs: accuracy's figures in terms of the two texts. *)
From Coq Require Import String.
From Verif Require Import Base CLib Utf8Model TextModel TextSpec CharclassModel CompareModel
  SyncModel SyncSpec EditProof FastukkProof FastukkSync AccModel AccSpec SumProof AccProof AccCount.
Local Open Scope Z_scope.
Local Open Scope list_scope.

Lemma map_len {A B} (f : A -> B) l : zlen (map f l) = zlen l.
Proof. unfold zlen. now rewrite map_length. Qed.

Section Texts.
Variables t0 t1 : list char.
Local Notation a := (map value t0).
Local Notation b := (map value t1).

Lemma two_subs it : zlen (isubs it) = 2 -> exists s0 s1, isubs it = [s0; s1].
Proof.
  destruct (isubs it) as [|s0 [|s1 [|s2 r]]]; rewrite ?zlen_cons, ?zlen_nil; try lia; eauto.
  pose proof (zlen_nonneg r). lia.
Qed.

Lemma partition_parts l : partition [a; b] l ->
  Forall (item_ok t0 t1) l /\
  flat_map (correct t0) l = t0 /\ flat_map (generated t1) l = t1.
Proof.
  intros (Len & Col & _).
  pose proof (Col 0 a eq_refl) as C0. pose proof (Col 1 b eq_refl) as C1.
  rewrite map_len in C0, C1.
  destruct (consecutive_parts t0 (column 0 l) 0) as (F0 & E0 & _); [lia|exact C0|].
  destruct (consecutive_parts t1 (column 1 l) 0) as (F1 & E1 & _); [lia|exact C1|].
  cbn [Z.to_nat skipn] in E0, E1.
  assert (Forall (item_ok t0 t1) l /\ flat_map (correct t0) l = flat_map (part t0) (column 0 l) /\
          flat_map (generated t1) l = flat_map (part t1) (column 1 l)) as (A & B & C);
    [|rewrite E0 in B; rewrite E1 in C; auto].
  clear - Len F0 F1. unfold column in *.
  induction l as [|it l IH]; [auto|]. cbn [map flat_map] in *.
  apply Forall_cons_iff in Len as [L Len], F0 as [H0 F0], F1 as [H1 F1].
  destruct (IH Len F0 F1) as (A & B & C).
  destruct (two_subs it) as (s0 & s1 & E); [exact L|].
  rewrite E in H0, H1. change (sub_ok t0 s0) in H0. change (sub_ok t1 s1) in H1.
  split; [constructor; [exists s0, s1; auto|exact A]|]. rewrite B, C.
  unfold correct at 1, generated at 1, nth_part. rewrite E. auto.
Qed.

Lemma num_flat_map p (f : item -> list char) l : num p (flat_map f l) = zsum (map (fun it => num p (f it)) l).
Proof.
  induction l as [|it l IH]; [reflexivity|]. cbn [flat_map map]. rewrite num_app, zsum_cons, IH.
  reflexivity.
Qed.

(** Matched parts are '~'-free and equal in both texts. *)
Lemma genuine_parts it : item_ok t0 t1 it -> genuine [a; b] it ->
  map value (correct t0 it) = map value (generated t1 it) /\ ~ In 126 (map value (correct t0 it)).
Proof.
  intros (s0 & s1 & E & O0 & O1) (w & Hw & Hn & G).
  destruct (G 0 a eq_refl) as (s & Z0 & L0 & W0). destruct (G 1 b eq_refl) as (s' & Z1 & L1 & W1).
  rewrite E in Z0, Z1. cbn in Z0, Z1. injection Z0 as <-. injection Z1 as <-.
  unfold correct, generated, nth_part. rewrite E. cbn [znth].
  change (znth [s0; s1] 0) with (Some s0). change (znth [s0; s1] 1) with (Some s1).
  unfold part. rewrite <- !firstn_map, <- !skipn_map.
  unfold slice in W0, W1. rewrite W0, W1. auto.
Qed.

Lemma num_zero p l : num p l = 0 <-> Forall (fun c => p c = false) l.
Proof.
  induction l as [|x l IH]; [split; [constructor|reflexivity]|]. rewrite num_cons, Forall_cons_iff, <- IH.
  pose proof (num_nonneg p l). destruct (p x); split; intuition (try lia; try discriminate).
Qed.

Lemma no_tilde l : ~ In 126 (map value l) <-> num is_tilde l = 0.
Proof.
  rewrite num_zero, Forall_forall. split.
  - intros H c Hc. unfold is_tilde. destruct (Z.eqb_spec (value c) 126); [|reflexivity].
    destruct H. rewrite <- e. now apply in_map.
  - intros H Hin. apply in_map_iff in Hin as (c & E & Hc). apply H in Hc. unfold is_tilde in Hc. lia.
Qed.

(** The cost of an unmatched item is the larger of its two lengths. *)
Lemma item_cost_parts it : item_ok t0 t1 it -> is_match it = false ->
  item_cost it = Z.max (zlen (correct t0 it)) (zlen (generated t1 it)).
Proof.
  intros (s0 & s1 & E & O0 & O1) M. unfold item_cost. rewrite M, E. cbn [map fold_right].
  unfold correct, generated, nth_part. rewrite E.
  change (znth [s0; s1] 0) with (Some s0). change (znth [s0; s1] 1) with (Some s1).
  cbv beta iota. rewrite !part_len by assumption. destruct O1 as (_ & ? & _). lia.
Qed.

Lemma total_cost_unmatched l : Forall (item_ok t0 t1) l ->
  total_cost l = zsum (map (fun it => Z.max (zlen (correct t0 it)) (zlen (generated t1 it)))
                           (unmatched_items l)).
Proof.
  unfold total_cost, unmatched_items. induction 1 as [|it l H F IH]; [reflexivity|].
  cbn [map fold_right filter]. rewrite IH. destruct (is_match it) eqn:M; cbn [negb map].
  - unfold item_cost at 1. rewrite M. lia.
  - rewrite (item_cost_parts it H M). reflexivity.
Qed.

Lemma group_errors_cost it : group_errors t0 t1 it <= Z.max (zlen (correct t0 it)) (zlen (generated t1 it)).
Proof.
  unfold group_errors, group_chars, group_gen. pose proof (num_split (correct t0 it)).
  pose proof (num_nonneg plain (correct t0 it)). pose proof (num_nonneg is_tilde (correct t0 it)).
  pose proof (zlen_nonneg (generated t1 it)). lia.
Qed.

Lemma Forall_filter {A} (P : A -> Prop) p l : Forall P l -> Forall P (filter p l).
Proof. intros F. rewrite Forall_forall in *. intros x Hx. apply filter_In in Hx. now apply F. Qed.

Lemma edits_self (x : list Z) : edits x x (zlen (filter (Z.eqb 126) x)).
Proof.
  induction x as [|y x IH]; [constructor|]. cbn [filter]. destruct (Z.eqb_spec 126 y) as [<-|H].
  - rewrite zlen_cons. now constructor.
  - constructor; [congruence|exact IH].
Qed.

Lemma num_map_tilde l : num is_tilde l = zlen (filter (Z.eqb 126) (map value l)).
Proof.
  unfold num. induction l as [|c l IH]; [reflexivity|]. cbn [map filter].
  unfold is_tilde at 1. rewrite (Z.eqb_sym 126). destruct (value c =? 126); rewrite ?zlen_cons; lia.
Qed.

Lemma filter_split_sum {A} (f : A -> Z) p l :
  zsum (map f l) = zsum (map f (filter p l)) + zsum (map f (filter (fun x => negb (p x)) l)).
Proof.
  induction l as [|x l IH]; [reflexivity|]. cbn [map filter]. destruct (p x); cbn [negb map];
    rewrite ?zsum_cons; lia.
Qed.

(** Identical texts: every unmatched group consists of '~' only on both sides. *)
Lemma identical_no_errors l :
  a = b -> Forall (item_ok t0 t1) l -> matches_genuine [a; b] l ->
  flat_map (correct t0) l = t0 -> distance a b (total_cost l) ->
  zsum (map (group_errors t0 t1) (unmatched_items l)) = 0.
Proof.
  intros Eab F G E0 [_ D].
  pose proof (D _ ltac:(rewrite <- Eab; apply edits_self)) as Dc. rewrite <- num_map_tilde in Dc.
  rewrite total_cost_unmatched in Dc by exact F. 
  replace (num is_tilde t0) with (num is_tilde (flat_map (correct t0) l)) in Dc by (now rewrite E0).
  rewrite num_flat_map, (filter_split_sum (fun it => num is_tilde (correct t0 it)) is_match l) in Dc.
  rewrite (zsum_map_zero _ (filter is_match l)) in Dc.
  2:{ intros it Hit. apply filter_In in Hit as [Hin Hm].
      unfold matches_genuine in G. rewrite Forall_forall in G, F.
      destruct (genuine_parts it (F it Hin) (G it Hin Hm)) as [_ N]. now apply no_tilde. }
  fold (unmatched_items l) in Dc. rewrite Z.add_0_l in Dc.
  set (u := unmatched_items l) in *.
  assert (forall it, In it u -> 0 <= Z.max (zlen (correct t0 it)) (zlen (generated t1 it))
                                   - num is_tilde (correct t0 it)) as P.
  { intros it _. pose proof (num_split (correct t0 it)).
    pose proof (num_nonneg plain (correct t0 it)). lia. }
  assert (forall it, In it u -> Z.max (zlen (correct t0 it)) (zlen (generated t1 it))
                                   - num is_tilde (correct t0 it) = 0) as P0.
  { apply zsum_map_zero_inv; [exact P|].
    assert (zsum (map (fun it => Z.max (zlen (correct t0 it)) (zlen (generated t1 it))
                                  - num is_tilde (correct t0 it)) u) =
            zsum (map (fun it => Z.max (zlen (correct t0 it)) (zlen (generated t1 it))) u) -
            zsum (map (fun it => num is_tilde (correct t0 it)) u)) as E.
    { clear. induction u as [|x u IH]; [reflexivity|]. cbn [map]. rewrite !zsum_cons. lia. }
    assert (0 <= zsum (map (fun it => Z.max (zlen (correct t0 it)) (zlen (generated t1 it))
                                  - num is_tilde (correct t0 it)) u)).
    { apply zsum_nonneg, Forall_map, Forall_forall. exact P. }
    lia. }
  apply zsum_map_zero. intros it Hit. specialize (P0 it Hit).
  unfold group_errors, group_chars, group_gen. pose proof (num_split (correct t0 it)).
  pose proof (num_nonneg plain (correct t0 it)). lia.
Qed.
End Texts.

Lemma accuracy_counted uc t0 t1 :
  nul_hidden uc -> text_ok t0 -> text_ok t1 -> tabulable t0 -> zlen t0 <= MAX_F ->
  exists l d, fastukk_sync (map value t0) (map value t1) = Ok l /\
    accuracy_data uc t0 t1 = Ok d /\ counted uc t0 t1 l d /\ Forall (item_ok t0 t1) l /\
    flat_map (correct t0) l = t0 /\ flat_map (generated t1) l = t1 /\
    matches_genuine [map value t0; map value t1] l /\
    distance (map value t0) (map value t1) (total_cost l).
Proof.
  intros N T0 T1 Tab L.
  destruct (fastukk_ok (map value t0) (map value t1)) as (l & E & P & G & _ & C).
  { now rewrite map_len. }
  destruct (partition_parts t0 t1 l P) as (F & E0 & E1).
  destruct (process_counted uc t0 t1 N T0 T1 Tab l F) as (d & Ed & Cd).
  exists l, d. repeat apply conj; auto.
  - unfold accuracy_data. rewrite E. exact Ed.
  - rewrite C. apply (lev_distance (map value t0) (map value t1)).
  - rewrite C. apply (lev_distance (map value t0) (map value t1)).
Qed.
