(** synchronize: the recursion finds non-extendable matches and terminates. *)
From Verif Require Import Base SyncModel SyncSpec EditProof SyncProof LongestProof.
From Coq Require Import String.
Local Open Scope Z_scope.
Local Open Scope list_scope.

(** *** Position facts of list items *)

Definition sub_ok (text : list Z) (u : substr) : Prop :=
  0 <= start u /\ 0 <= slen u /\ start u + slen u <= zlen text /\ stop u = start u + slen u - 1.

Lemma consecutive_sub pos l fin u :
  consecutive pos l fin -> In u l ->
  pos <= start u /\ 0 <= slen u /\ start u + slen u <= fin /\ stop u = start u + slen u - 1.
Proof.
  revert pos; induction l as [|s l IH]; intros pos; cbn [consecutive In]; [tauto|].
  intros (H1 & H2 & H3 & H4) [->|Hi].
  - apply consecutive_le in H4. lia.
  - destruct (IH _ H4 Hi) as (G1 & G2 & G3 & G4). lia.
Qed.

Lemma linv_sub texts sl s t text :
  linv texts sl -> In s (items sl) -> znth texts t = Some text ->
  exists u, znth (subs s) t = Some u /\ sub_ok text u.
Proof.
  intros Hinv Hs Ht. destruct (li_part _ _ Hinv) as (P1 & P2 & _).
  rewrite Forall_map, Forall_forall in P1. specialize (P1 _ Hs).
  pose proof (znth_Some_lt _ _ _ Ht).
  destruct (znth_lt_Some (subs s) t) as [u Hu]; [lia|]. exists u. split; [exact Hu|].
  specialize (P2 _ _ Ht). apply consecutive_sub with (u := u) in P2.
  - unfold sub_ok. lia.
  - unfold col. rewrite map_map. apply in_map_iff. exists s. now rewrite Hu.
Qed.

Lemma linv_sub_ok texts sl s t text u :
  linv texts sl -> In s (items sl) -> znth texts t = Some text ->
  znth (subs s) t = Some u -> sub_ok text u.
Proof.
  intros Hinv Hs Ht Hu. destruct (linv_sub _ _ _ _ _ Hinv Hs Ht) as (u' & Hu' & Hok).
  congruence.
Qed.

Lemma linv_zlen texts sl s : linv texts sl -> In s (items sl) -> zlen (subs s) = zlen texts.
Proof.
  intros Hinv Hs. destruct (li_part _ _ Hinv) as (P1 & _).
  rewrite Forall_map, Forall_forall in P1. apply P1, Hs.
Qed.

(** *** The chain of longest matches over the texts *)

Lemma Forall2_znth {A B} (P : A -> B -> Prop) l1 l2 t x y :
  Forall2 P l1 l2 -> znth l1 t = Some x -> znth l2 t = Some y -> P x y.
Proof.
  intros H. unfold znth. destruct (t <? 0); [discriminate|]. generalize (Z.to_nat t) as q.
  induction H as [|a b l1 l2 Hab H IH]; intros [|q]; cbn; try discriminate; [congruence|].
  apply IH.
Qed.

Lemma Forall2_zlen {A B} (P : A -> B -> Prop) l1 l2 : Forall2 P l1 l2 -> zlen l1 = zlen l2.
Proof. intros H. unfold zlen. f_equal. eapply Forall2_len; eauto. Qed.

Notation tsub := (list Z * substr)%type.

Definition same_at (done : list tsub) (starts : list Z) (off : Z) : Prop :=
  exists c, c <> 126 /\ Forall2 (fun (ts : tsub) st => znth (fst ts) (st + off) = Some c) done starts.

Record chain_ok (done : list tsub) (starts : list Z) (len : Z) : Prop := {
  ch_len : 0 < len;
  ch_in : Forall2 (fun (ts : tsub) st => start (snd ts) <= st /\ st + len <= stop (snd ts) + 1)
            done starts;
  ch_same : forall off, 0 <= off < len ->
    same_at done starts off \/ zlen done = 1;
  ch_right : ~ (Forall2 (fun (ts : tsub) st => st + len <= stop (snd ts)) done starts /\
                same_at done starts len);
  ch_left : ~ (Forall2 (fun (ts : tsub) st => start (snd ts) <= st - 1) done starts /\
               same_at done starts (-1)) }.

Lemma Forall2_shift {A} (P : A -> Z -> Prop) l starts d :
  Forall2 P l (map (fun x => x + d) starts) <-> Forall2 (fun ts st => P ts (st + d)) l starts.
Proof.
  split.
  - revert starts; induction l as [|x l IH]; intros [|y s] H; inversion H; subst; constructor; auto.
  - intros H. induction H; cbn; constructor; auto.
Qed.

Lemma Forall2_snoc_inv {A B} (P : A -> B -> Prop) l x l' y :
  Forall2 P (l ++ [x]) (l' ++ [y]) -> Forall2 P l l' /\ P x y.
Proof.
  intros H. apply Forall2_app_inv_l in H as (m1 & m2 & H1 & H2 & E).
  inversion H2 as [|? z ? ? Hz Hn]; subst. inversion Hn; subst.
  apply app_inj_tail in E as [-> ->]. auto.
Qed.

Lemma step_chain t0 u0 done starts len t u L ns si s0 starts0 :
  done = (t0, u0) :: tl done -> starts = s0 :: starts0 ->
  sub_ok t u -> sub_ok t0 u0 ->
  chain_ok done starts len ->
  0 < L -> s0 <= ns -> ns + L <= s0 + len -> start u <= si -> si + L <= stop u + 1 ->
  cm t0 t ns si L ->
  (forall y z l, s0 <= y -> y + l <= s0 + len -> start u <= z -> z + l <= stop u + 1 ->
     cm t0 t y z l -> l <= L) ->
  chain_ok (done ++ [(t, u)]) (map (fun x => x + (ns - s0)) starts ++ [si]) L.
Proof.
  intros Ed Es Hu Hu0 Hch HL Hns1 Hns2 Hsi1 Hsi2 Hcm Hmax. set (d := ns - s0).
  destruct Hch as [C1 C2 C3 C4 C5].
  assert (same_at done starts = same_at done (s0 :: starts0)) as _ by congruence.
  assert (forall off c, 0 <= off < len -> znth t0 (s0 + off) = Some c -> c <> 126 ->
     Forall2 (fun (ts : tsub) st => znth (fst ts) (st + off) = Some c) done starts) as Hall.
  { intros off c Ho Hc Hne. destruct (C3 off Ho) as [(c' & Hc' & Hf)|H1].
    - rewrite Ed, Es in Hf. inversion Hf as [|? ? ? ? Hhd Htl]; subst. cbn [fst] in Hhd.
      rewrite Hc in Hhd. injection Hhd as <-. rewrite Ed. constructor; auto.
    - rewrite Ed in H1. rewrite zlen_cons in H1. unfold zlen in H1.
      pose proof (Forall2_zlen _ _ _ C2) as Hz.
      assert (tl done = []) as Et by (destruct (tl done); [reflexivity|cbn in H1; lia]).
      rewrite Et in Ed. rewrite Ed in *. rewrite Es in *.
      inversion C2 as [|? ? ? ? _ Hn]; subst. inversion Hn; subst. constructor; auto. }
  constructor.
  - exact HL.
  - apply Forall2_app; [|constructor; [cbn; lia|constructor]].
    apply Forall2_shift. eapply Forall2_impl'; [|exact C2]. cbn. intros ts st Hst. lia.
  - intros off Ho. left. destruct (Hcm off Ho) as (c & Ha & Hb & Hc). exists c. split; [exact Hc|].
    apply Forall2_app; [|constructor; [exact Hb|constructor]].
    apply Forall2_shift. specialize (Hall (d + off) c).
    eapply Forall2_impl'; [|apply Hall; auto].
    + cbn. intros ts st Hst. now rewrite <- Z.add_assoc.
    + lia.
    + rewrite <- Ha. f_equal. lia.
  - intros [R1 (c & Hc & R2)].
    apply Forall2_snoc_inv in R1 as [R1 R1u]. apply Forall2_snoc_inv in R2 as [R2 R2u].
    cbn [fst snd] in *. apply Forall2_shift in R1. apply Forall2_shift in R2.
    destruct (Z.eq_dec (ns + L) (s0 + len)) as [Eq|Ne].
    + apply C4. split.
      * eapply Forall2_impl'; [|exact R1]. cbn. intros ts st Hst. lia.
      * exists c. split; [exact Hc|]. eapply Forall2_impl'; [|exact R2]. cbn. intros ts st Hst.
        rewrite <- Hst. f_equal. lia.
    + assert (L + 1 <= L); [|lia].
      apply (Hmax ns si); try lia.
      intros x Hx. destruct (Z.eq_dec x L) as [->|]; [|apply Hcm; lia].
      exists c. rewrite Ed, Es in R2. inversion R2 as [|? ? ? ? Hhd Htl]; subst.
      cbn [fst] in Hhd. repeat split; auto. rewrite <- Hhd. f_equal. lia.
  - intros [R1 (c & Hc & R2)].
    apply Forall2_snoc_inv in R1 as [R1 R1u]. apply Forall2_snoc_inv in R2 as [R2 R2u].
    cbn [fst snd] in *. apply Forall2_shift in R1. apply Forall2_shift in R2.
    destruct (Z.eq_dec ns s0) as [Eq|Ne].
    + apply C5. split.
      * eapply Forall2_impl'; [|exact R1]. cbn. intros ts st Hst. lia.
      * exists c. split; [exact Hc|]. eapply Forall2_impl'; [|exact R2]. cbn. intros ts st Hst.
        rewrite <- Hst. f_equal. lia.
    + assert (L + 1 <= L); [|lia].
      apply (Hmax (ns - 1) (si - 1)); try lia.
      intros x Hx. destruct (Z.eq_dec x 0) as [->|].
      * exists c. rewrite Ed, Es in R2. inversion R2 as [|? ? ? ? Hhd Htl]; subst.
        cbn [fst] in Hhd. repeat split; auto.
        -- rewrite <- Hhd. f_equal. lia.
        -- rewrite <- R2u. f_equal. lia.
      * destruct (Hcm (x - 1)) as (c' & Ha & Hb & Hc'); [lia|]. exists c'.
        repeat split; auto; [rewrite <- Ha|rewrite <- Hb]; f_equal; lia.
Qed.

Lemma match_rest_ok t0 u0 : sub_ok t0 u0 -> forall rest done starts len,
  done = (t0, u0) :: tl done -> chain_ok done starts len ->
  Forall (fun ts : tsub => sub_ok (fst ts) (snd ts)) rest ->
  exists r, match_rest t0 rest starts len = Ok r /\
    match r with
    | None => rest <> []
    | Some (starts', len') => chain_ok (done ++ rest) starts' len'
    end.
Proof.
  intros Hu0 rest. induction rest as [|[t u] rest IH]; intros done starts len Ed Hch Hr;
    cbn [match_rest].
  - eexists. split; [reflexivity|]. cbn. now rewrite app_nil_r.
  - apply Forall_cons_iff in Hr as [Hu Hr]. cbn [fst snd] in Hu.
    pose proof (Forall2_zlen _ _ _ (ch_in _ _ _ Hch)) as Hz.
    destruct starts as [|s0 starts0].
    { exfalso. rewrite Ed in Hz. rewrite zlen_cons in Hz. pose proof (zlen_nonneg (tl done)).
      cbn in Hz. lia. }
    change (rd "start[0]" (s0 :: starts0) 0) with (@Ok Z s0). cbn [obind].
    assert (start u0 <= s0 /\ s0 + len <= stop u0 + 1) as [I1 I2].
    { pose proof (ch_in _ _ _ Hch) as Hin. rewrite Ed in Hin. inversion Hin; subst. auto. }
    pose proof (ch_len _ _ _ Hch) as Hl0.
    destruct Hu0 as (U1 & U2 & U3 & U4). destruct Hu as (V1 & V2 & V3 & V4).
    destruct (longest_match_ok t0 t s0 (s0 + len - 1) (start u) (stop u) 0 None None)
      as (L & r1 & r2 & E & Hres & Hmax); try lia.
    rewrite E. cbn [obind].
    destruct Hres as [(-> & -> & ->)|(HL & a1 & a2 & -> & -> & G1 & G2 & G3 & G4 & G5)].
    + cbn. eexists. split; [reflexivity|]. cbn. discriminate.
    + destruct (Z.eqb_spec L 0) as [|_]; [lia|]. cbn [get_set obind].
      assert ((if 0 <? a1 - s0 then map (fun x => x + (a1 - s0)) (s0 :: starts0) else s0 :: starts0)
              = map (fun x => x + (a1 - s0)) (s0 :: starts0)) as ->.
      { destruct (Z.ltb_spec 0 (a1 - s0)) as [|Hge]; [reflexivity|].
        replace (a1 - s0) with 0 by lia. symmetry. rewrite <- (map_id (s0 :: starts0)) at 2.
        apply map_ext. intros; lia. }
      destruct (IH (done ++ [(t, u)]) (map (fun x => x + (a1 - s0)) (s0 :: starts0) ++ [a2]) L)
        as (r & E' & Hres); auto.
      * rewrite Ed. reflexivity.
      * eapply step_chain; eauto; try (unfold sub_ok; lia); try lia.
        intros y z l H1 H2 H3 H4 H5. apply (Hmax y z l); auto; lia.
      * exists r. split; [exact E'|]. destruct r as [[starts' len']|].
        -- rewrite <- app_assoc in Hres. exact Hres.
        -- discriminate.
Qed.

(** For two texts, the match is a longest one. *)
Lemma match_rest_two t0 u0 t u :
  sub_ok t0 u0 -> sub_ok t u -> 0 < slen u0 ->
  exists r, match_rest t0 [(t, u)] [start u0] (slen u0) = Ok r /\
    forall y z l, start u0 <= y -> y + l <= stop u0 + 1 -> start u <= z -> z + l <= stop u + 1 ->
      cm t0 t y z l -> l <= match r with None => 0 | Some (_, len) => len end.
Proof.
  intros (U1 & U2 & U3 & U4) (V1 & V2 & V3 & V4) Hpos. cbn [match_rest].
  change (rd "start[0]" [start u0] 0) with (@Ok Z (start u0)). cbn [obind].
  destruct (longest_match_ok t0 t (start u0) (start u0 + slen u0 - 1) (start u) (stop u) 0 None None)
    as (L & r1 & r2 & E & Hres & Hmax); try lia.
  rewrite E. cbn [obind].
  destruct Hres as [(-> & -> & ->)|(HL & a1 & a2 & -> & -> & _)].
  - cbn. eexists. split; [reflexivity|]. intros. apply (Hmax y z l); auto; lia.
  - destruct (Z.eqb_spec L 0) as [|_]; [lia|]. cbn [get_set obind].
    eexists. split; [reflexivity|]. intros. apply (Hmax y z l); auto; lia.
Qed.

(** *** Item addresses *)

Lemma prev_id_mid l1 s l2 o :
  ~ In (sid s) (map sid l1) ->
  prev_id o (l1 ++ s :: l2) (sid s) =
  match rev l1 with [] => o | x :: _ => Some (sid x) end.
Proof.
  revert o; induction l1 as [|y l1 IH]; intros o H; cbn [app prev_id].
  - now rewrite Z.eqb_refl.
  - destruct (Z.eqb_spec (sid y) (sid s)) as [E|E]; [exfalso; apply H; now left|].
    rewrite IH by (intros Hi; apply H; now right). cbn [rev].
    destruct (rev l1); reflexivity.
Qed.

Lemma next_id_mid l1 s l2 :
  ~ In (sid s) (map sid l1) ->
  next_id (l1 ++ s :: l2) (sid s) = option_map sid (hd_error l2).
Proof.
  induction l1 as [|y l1 IH]; intros H; cbn [app next_id].
  - now rewrite Z.eqb_refl.
  - destruct (Z.eqb_spec (sid y) (sid s)) as [E|E]; [exfalso; apply H; now left|].
    apply IH. intros Hi; apply H; now right.
Qed.

Lemma NoDup_mid l1 s l2 : NoDup (map sid (l1 ++ s :: l2)) -> ~ In (sid s) (map sid l1).
Proof.
  rewrite map_app. cbn. intros H Hi. apply NoDup_remove_2 in H. apply H, in_or_app. now left.
Qed.

(** recursive_sync with a check that no item is matched a second time. *)
Fixpoint careful_sync (fuel : nat) (texts : list (list Z)) (sl : synclist) (id : Z) : outcome synclist :=
  match fuel with
  | O => OutOfFuel
  | S f =>
      match get_item (items sl) id with
      | None => UB "no such sync item"
      | Some s =>
          if existsb (fun u => slen u =? 0) (subs s) then Ok sl
          else
            match texts, subs s with
            | t0 :: trest, s0 :: srest =>
                let! r := match_rest t0 (combine trest srest) [start s0] (slen s0) in
                match r with
                | None => Ok sl
                | Some (starts, len) =>
                    match mptr s with
                    | Some _ => UB "matched twice"
                    | None =>
                        let m := fresh sl in
                        let! sl := save_match (mkslist (items sl) (fresh sl + 1)) id starts len m in
                        let! sl := match prev_id None (items sl) id with
                                   | Some p => careful_sync f texts sl p
                                   | None => Ok sl
                                   end in
                        match next_id (items sl) id with
                        | Some q => careful_sync f texts sl q
                        | None => Ok sl
                        end
                    end
                end
            | _, _ => UB "no text"
            end
      end
  end.

Lemma careful_recursive texts : forall fuel sl id sl', careful_sync fuel texts sl id = Ok sl' -> recursive_sync fuel texts sl id = Ok sl'.
Proof.
  induction fuel as [|f IH]; intros sl id sl' H; [exact H|]. cbn [careful_sync recursive_sync] in *.
  destruct (get_item (items sl) id) as [s|]; [|exact H]. destruct (existsb _ (subs s)); [exact H|].
  destruct texts as [|t0 trest] eqn:Et; [exact H|]. rewrite <- Et in *. destruct (subs s) as [|s0 srest]; [exact H|].
  destruct (match_rest t0 (combine trest srest) [start s0] (slen s0)) as [r| | |]; cbn [obind] in *; try exact H.
  destruct r as [[starts len]|]; [|exact H]. destruct (mptr s); [discriminate H|].
  destruct (save_match _ id starts len (fresh sl)) as [sl1| | |]; cbn [obind] in *; try exact H.
  assert (forall sl2, match prev_id None (items sl1) id with Some p => careful_sync f texts sl1 p | None => Ok sl1 end = Ok sl2 ->
    match prev_id None (items sl1) id with Some p => recursive_sync f texts sl1 p | None => Ok sl1 end = Ok sl2) as K.
  { intros sl2 Q. destruct (prev_id None (items sl1) id); [now apply IH|exact Q]. }
  destruct (match prev_id None (items sl1) id with Some p => careful_sync f texts sl1 p | None => Ok sl1 end) as [sl2| | |]; cbn [obind] in *; try discriminate H.
  rewrite (K sl2 eq_refl). cbn [obind]. destruct (next_id (items sl2) id); [now apply IH|exact H].
Qed.

(** *** recursive_sync *)

Section Texts.
Variable texts : list (list Z).

Definition matched (s : sync) : Prop := mptr s <> None.

(** Adjacent items: a match is not extendable into its neighbour. *)
Definition pair_ok (x y : sync) : Prop :=
  (matched x -> ~ begins_alike texts (subs y)) /\ (matched y -> ~ ends_alike texts (subs x)).

Fixpoint adj_ok (l : list sync) : Prop :=
  match l with
  | x :: r => match r with y :: _ => pair_ok x y | [] => True end /\ adj_ok r
  | [] => True
  end.

Definition no_common (s : sync) : Prop :=
  forall t0 t1 u0 u1, texts = [t0; t1] -> subs s = [u0; u1] ->
    forall c, c <> 126 -> occurs t0 u0 c -> occurs t1 u1 c -> False.

(** A common reject-free substring of length [l] inside the item (two texts). *)
Definition common_in (s : sync) (l : Z) : Prop :=
  exists t0 t1 u0 u1 y z, texts = [t0; t1] /\ subs s = [u0; u1] /\
    start u0 <= y /\ y + l <= start u0 + slen u0 /\ start u1 <= z /\ z + l <= start u1 + slen u1 /\
    cm t0 t1 y z l.

Definition at0 (s : sync) : Z := match subs s with u :: _ => slen u | [] => 0 end.

Record rec_post (s : sync) (sl sl' : synclist) (l1 l2 res : list sync) : Prop := {
  rp_items : items sl' = l1 ++ res ++ l2;
  rp_linv : linv texts sl';
  rp_fresh : fresh sl <= fresh sl';
  rp_nodup : NoDup (ptrs (items sl'));
  rp_ptrs : Forall (fun p => p < fresh sl') (ptrs (items sl'));
  rp_adj : adj_ok res;
  rp_ne : exists x z, hd_error res = Some x /\ hd_error (rev res) = Some z /\
    (begins_alike texts (subs x) -> begins_alike texts (subs s)) /\
    (ends_alike texts (subs z) -> ends_alike texts (subs s)) /\
    (matched x -> begins_alike texts (subs s)) /\ (matched z -> ends_alike texts (subs s));
  rp_done : Forall (fun x => ~ matched x -> no_common x) res;
  rp_long : forall l, 0 < l -> common_in s l -> Exists (fun x => matched x /\ l <= at0 x) res }.

Lemma adj_ok_app l1 l2 :
  adj_ok (l1 ++ l2) <->
  adj_ok l1 /\ adj_ok l2 /\
  (forall x y, hd_error (rev l1) = Some x -> hd_error l2 = Some y -> pair_ok x y).
Proof.
  induction l1 as [|a l1 IH].
  - cbn. split; [intros H; repeat split; auto; discriminate|tauto].
  - cbn [app adj_ok]. rewrite IH. clear IH. destruct l1 as [|b l1].
    + cbn [app rev hd_error]. destruct l2 as [|y l2].
      * cbn. intuition discriminate.
      * cbn. split.
        -- intros (H1 & _ & H2 & _). split; [split; exact I|]. split; [exact H2|].
           intros x z Hx Hz. injection Hx as <-. injection Hz as <-. exact H1.
        -- intros (_ & H2 & H3). split; [apply H3; reflexivity|]. split; [exact I|].
           split; [exact H2|]. discriminate.
    + cbn [app rev].
      assert (hd_error ((rev l1 ++ [b]) ++ [a]) = hd_error (rev l1 ++ [b])) as ->.
      { destruct (rev l1); reflexivity. }
      tauto.
Qed.

Lemma combine_zlen {A B} (l1 : list A) (l2 : list B) :
  zlen l1 = zlen l2 -> zlen (combine l1 l2) = zlen l1.
Proof. unfold zlen. intros. rewrite combine_length. lia. Qed.

(** From the chain to the hypotheses of save_match. *)
Lemma chain_inside s starts len :
  zlen (subs s) = zlen texts -> 2 <= zlen texts ->
  (forall t text u, znth texts t = Some text -> znth (subs s) t = Some u -> sub_ok text u) ->
  chain_ok (combine texts (subs s)) starts len ->
  inside s starts len /\ same_text texts starts len.
Proof.
  intros Hz H2 Hok [C1 C2 C3 C4 C5].
  pose proof (Forall2_zlen _ _ _ C2) as Hl. rewrite combine_zlen in Hl by lia.
  assert (forall t text u st, znth texts t = Some text -> znth (subs s) t = Some u ->
            znth starts t = Some st -> start u <= st /\ st + len <= start u + slen u) as Hin.
  { intros t text u st Ht Hu Hst.
    pose proof (Hok _ _ _ Ht Hu) as (K1 & K2 & K3 & K4).
    assert (znth (combine texts (subs s)) t = Some (text, u)) as Hc
      by (rewrite znth_combine, Ht, Hu; reflexivity).
    pose proof (Forall2_znth _ _ _ _ _ _ C2 Hc Hst) as G. cbn in G. lia. }
  split.
  - split; [exact C1|]. split; [lia|]. intros t u st Hu Hst.
    destruct (znth_lt_Some texts t) as [text Ht].
    { apply znth_Some_lt in Hu. lia. }
    eapply Hin; eauto.
  - destruct (znth_lt_Some texts 0) as [t0 Ht0]; [lia|].
    destruct (znth_lt_Some starts 0) as [s0 Hs0]; [lia|].
    destruct (znth_lt_Some (subs s) 0) as [u0 Hu0]; [lia|].
    assert (forall off, 0 <= off < len -> exists c, c <> 126 /\
              forall t text st, znth texts t = Some text -> znth starts t = Some st ->
                znth text (st + off) = Some c) as Hs.
    { intros off Ho. destruct (C3 off Ho) as [(c & Hc & Hf)|Hbad].
      - exists c. split; [exact Hc|]. intros t text st Ht Hst.
        destruct (znth_lt_Some (subs s) t) as [u Hu]; [apply znth_Some_lt in Ht; lia|].
        assert (znth (combine texts (subs s)) t = Some (text, u)) as Hcb
          by (rewrite znth_combine, Ht, Hu; reflexivity).
        apply (Forall2_znth _ _ _ _ _ _ Hf Hcb Hst).
      - rewrite combine_zlen in Hbad by lia. lia. }
    assert (forall t text st, znth texts t = Some text -> znth starts t = Some st ->
              zlen (slice text st len) = len /\ 0 <= st) as Hlen.
    { intros t text st Ht Hst.
      destruct (znth_lt_Some (subs s) t) as [u Hu]; [apply znth_Some_lt in Ht; lia|].
      pose proof (Hok _ _ _ Ht Hu) as (K1 & K2 & K3 & K4).
      destruct (Hin _ _ _ _ Ht Hu Hst) as [Hi1 Hi2].
      split; [|lia]. unfold slice, zlen in *. rewrite firstn_length, skipn_length. lia. }
    exists (slice t0 s0 len). destruct (Hlen _ _ _ Ht0 Hs0) as [L0 P0]. split; [exact L0|]. split.
    + intros Hi. apply In_znth in Hi as (x & Hx1 & Hx2). rewrite L0 in Hx1.
      destruct (Hs x Hx1) as (c & Hc & Hf). specialize (Hf _ _ _ Ht0 Hs0).
      rewrite znth_slice in Hx2 by lia. congruence.
    + intros t text Ht. destruct (znth_lt_Some starts t) as [st Hst]; [apply znth_Some_lt in Ht; lia|].
      exists st. split; [exact Hst|]. destruct (Hlen _ _ _ Ht Hst) as [L1 P1].
      apply znth_ext; [lia|]. intros x Hx. rewrite L1 in Hx. rewrite !znth_slice by lia.
      destruct (Hs x Hx) as (c & Hc & Hf). now rewrite (Hf _ _ _ Ht Hst), (Hf _ _ _ Ht0 Hs0).
Qed.

Lemma chain_same_all s starts len off :
  zlen (subs s) = zlen texts -> 2 <= zlen texts ->
  chain_ok (combine texts (subs s)) starts len -> 0 <= off < len ->
  exists c, c <> 126 /\
    forall t text st, znth texts t = Some text -> znth starts t = Some st ->
      znth text (st + off) = Some c.
Proof.
  intros Hz H2 [C1 C2 C3 C4 C5] Ho.
  destruct (C3 off Ho) as [(c & Hc & Hf)|Hbad].
  - exists c. split; [exact Hc|]. intros t text st Ht Hst.
    destruct (znth_lt_Some (subs s) t) as [u Hu]; [apply znth_Some_lt in Ht; lia|].
    assert (znth (combine texts (subs s)) t = Some (text, u)) as Hcb
      by (rewrite znth_combine, Ht, Hu; reflexivity).
    apply (Forall2_znth _ _ _ _ _ _ Hf Hcb Hst).
  - rewrite combine_zlen in Hbad by lia. lia.
Qed.

Section Split.
Variables (sl : synclist) (s : sync) (starts : list Z) (len m : Z).
Hypothesis Hz : zlen (subs s) = zlen texts.
Hypothesis H2 : 2 <= zlen texts.
Hypothesis Hok : forall t text u, znth texts t = Some text -> znth (subs s) t = Some u -> sub_ok text u.
Hypothesis Hch : chain_ok (combine texts (subs s)) starts len.

Local Notation left := (left_of sl s starts len).
Local Notation right := (right_of sl s starts len).
Local Notation mid := (mid_of s starts len m).

Lemma split_facts t text : znth texts t = Some text ->
  exists u st, znth (subs s) t = Some u /\ znth starts t = Some st /\ sub_ok text u /\
    start u <= st /\ st + len <= start u + slen u /\
    znth (subs left) t = Some (left_sub u st len) /\
    znth (subs right) t = Some (right_sub u st len) /\
    znth (subs mid) t = Some (mid_sub u st len).
Proof.
  intros Ht. destruct (chain_inside s starts len Hz H2 Hok Hch) as [(I1 & I2 & I3) _].
  pose proof (znth_Some_lt _ _ _ Ht).
  destruct (znth_lt_Some (subs s) t) as [u Hu]; [lia|].
  destruct (znth_lt_Some starts t) as [st Hst]; [lia|].
  exists u, st. destruct (I3 _ _ _ Hu Hst).
  split; [exact Hu|]. split; [exact Hst|]. split; [eapply Hok; eauto|].
  cbn [subs left_of right_of mid_of].
  rewrite !znth_zip, Hu, Hst. auto.
Qed.

Lemma left_begins : begins_alike texts (subs left) -> begins_alike texts (subs s).
Proof.
  intros (c & Hc & H). exists c. split; [exact Hc|]. intros t text Ht.
  destruct (split_facts t text Ht) as (u & st & Hu & Hst & (K1 & K2 & K3 & K4) & G1 & G2 & El & Er & Em).
  destruct (H t text Ht) as (v & Hv & Hp & Hcc). rewrite El in Hv. injection Hv as <-.
  cbn in Hp, Hcc. exists u. repeat split; auto. pose proof (ch_len _ _ _ Hch). lia.
Qed.

Lemma right_ends : ends_alike texts (subs right) -> ends_alike texts (subs s).
Proof.
  intros (c & Hc & H). exists c. split; [exact Hc|]. intros t text Ht.
  destruct (split_facts t text Ht) as (u & st & Hu & Hst & (K1 & K2 & K3 & K4) & G1 & G2 & El & Er & Em).
  destruct (H t text Ht) as (v & Hv & Hp & Hcc). rewrite Er in Hv. injection Hv as <-.
  cbn in Hp, Hcc. exists u. pose proof (ch_len _ _ _ Hch). repeat split; auto; [lia|].
  rewrite <- Hcc. f_equal. lia.
Qed.

Lemma left_not_ends : ~ ends_alike texts (subs left).
Proof.
  intros (c & Hc & H). apply (ch_left _ _ _ Hch).
  assert (zlen (combine texts (subs s)) = zlen starts) as Hl by (apply (Forall2_zlen _ _ _ (ch_in _ _ _ Hch))).
  assert (forall t x y, znth (combine texts (subs s)) t = Some x -> znth starts t = Some y ->
     start (snd x) <= y - 1 /\ znth (fst x) (y + -1) = Some c) as Hx.
  { intros t [text u'] st' Hx Hst'. rewrite znth_combine in Hx.
    destruct (znth texts t) as [text'|] eqn:Ht; [|discriminate].
    destruct (split_facts t text' Ht) as (u & st & Hu & Hst & (K1 & K2 & K3 & K4) & G1 & G2 & El & Er & Em).
    rewrite Hu in Hx. injection Hx as -> ->. rewrite Hst in Hst'. injection Hst' as <-.
    destruct (H t text Ht) as (v & Hv & Hp & Hcc). rewrite El in Hv. injection Hv as <-.
    cbn in *. split; [lia|]. rewrite <- Hcc. f_equal. lia. }
  split; [|exists c; split; [exact Hc|]]; apply Forall2_intro_znth; auto; intros; eapply Hx; eauto.
Qed.

Lemma right_not_begins : ~ begins_alike texts (subs right).
Proof.
  intros (c & Hc & H). apply (ch_right _ _ _ Hch).
  assert (zlen (combine texts (subs s)) = zlen starts) as Hl by (apply (Forall2_zlen _ _ _ (ch_in _ _ _ Hch))).
  assert (forall t x y, znth (combine texts (subs s)) t = Some x -> znth starts t = Some y ->
     y + len <= stop (snd x) /\ znth (fst x) (y + len) = Some c) as Hx.
  { intros t [text u'] st' Hx Hst'. rewrite znth_combine in Hx.
    destruct (znth texts t) as [text'|] eqn:Ht; [|discriminate].
    destruct (split_facts t text' Ht) as (u & st & Hu & Hst & (K1 & K2 & K3 & K4) & G1 & G2 & El & Er & Em).
    rewrite Hu in Hx. injection Hx as -> ->. rewrite Hst in Hst'. injection Hst' as <-.
    destruct (H t text Ht) as (v & Hv & Hp & Hcc). rewrite Er in Hv. injection Hv as <-.
    cbn in *. split; [lia|]. rewrite <- Hcc. f_equal. lia. }
  split; [|exists c; split; [exact Hc|]]; apply Forall2_intro_znth; auto; intros; eapply Hx; eauto.
Qed.

Lemma left_invalid : valid_sync (subs left) = false -> begins_alike texts (subs s).
Proof.
  intros Hv. pose proof (ch_len _ _ _ Hch) as Hl.
  destruct (chain_same_all s starts len 0 Hz H2 Hch) as (c & Hc & Hs); [lia|].
  exists c. split; [exact Hc|]. intros t text Ht.
  destruct (split_facts t text Ht) as (u & st & Hu & Hst & (K1 & K2 & K3 & K4) & G1 & G2 & El & Er & Em).
  exists u. split; [exact Hu|]. split; [lia|].
  pose proof (valid_sync_false _ _ _ Hv El) as Hle. cbn in Hle.
  specialize (Hs _ _ _ Ht Hst). rewrite <- Hs. f_equal. lia.
Qed.

Lemma right_invalid : valid_sync (subs right) = false -> ends_alike texts (subs s).
Proof.
  intros Hv. pose proof (ch_len _ _ _ Hch) as Hl.
  destruct (chain_same_all s starts len (len - 1) Hz H2 Hch) as (c & Hc & Hs); [lia|].
  exists c. split; [exact Hc|]. intros t text Ht.
  destruct (split_facts t text Ht) as (u & st & Hu & Hst & (K1 & K2 & K3 & K4) & G1 & G2 & El & Er & Em).
  exists u. split; [exact Hu|]. split; [lia|].
  pose proof (valid_sync_false _ _ _ Hv Er) as Hle. cbn in Hle.
  specialize (Hs _ _ _ Ht Hst). rewrite <- Hs. f_equal. lia.
Qed.

Lemma at0_split : at0 mid = len /\ at0 left + len + at0 right = at0 s /\ 0 <= at0 left /\ 0 <= at0 right.
Proof.
  destruct (znth_lt_Some texts 0) as [text Ht]; [lia|].
  destruct (split_facts 0 text Ht) as (u & st & Hu & Hst & (K1 & K2 & K3 & K4) & G1 & G2 & El & Er & Em).
  assert (forall x v, znth (subs x) 0 = Some v -> at0 x = slen v) as Hat.
  { intros x v Hv. unfold at0. destruct (subs x); [discriminate|]. now injection Hv as <-. }
  rewrite (Hat _ _ El), (Hat _ _ Er), (Hat _ _ Em), (Hat _ _ Hu). cbn. lia.
Qed.
End Split.

Lemma adj_snoc l x y : adj_ok l -> hd_error (rev l) = Some x -> pair_ok x y -> adj_ok (l ++ [y]).
Proof.
  intros H1 H2 H3. apply adj_ok_app. split; [exact H1|]. split; [cbn; auto|].
  intros x' y' E1 E2. rewrite H2 in E1. injection E1 as <-. injection E2 as <-. exact H3.
Qed.

Lemma ptrs_nomatch x : mptr x = None -> ptrs [x] = [].
Proof. intros H. cbn. now rewrite H. Qed.

Lemma rec_post_same s sl l1 l2 :
  linv texts sl -> items sl = l1 ++ s :: l2 -> mptr s = None ->
  NoDup (ptrs (items sl)) -> Forall (fun p => p < fresh sl) (ptrs (items sl)) ->
  no_common s -> (forall l, 0 < l -> common_in s l -> False) ->
  rec_post s sl sl l1 l2 [s].
Proof.
  intros Hinv Hit Hm Hnd Hpf Hnc Hlong. constructor; auto.
  - lia.
  - cbn. auto.
  - exists s, s. cbn. unfold matched. repeat split; auto; congruence.
  - intros l Hl Hc. exfalso. eapply Hlong; eauto.
Qed.

Lemma careful_ok : 2 <= zlen texts -> forall fuel sl l1 s l2,
  linv texts sl -> items sl = l1 ++ s :: l2 -> mptr s = None ->
  NoDup (ptrs (items sl)) -> Forall (fun p => p < fresh sl) (ptrs (items sl)) ->
  at0 s < Z.of_nat fuel ->
  (l1 <> [] -> ~ begins_alike texts (subs s)) -> (l2 <> [] -> ~ ends_alike texts (subs s)) ->
  exists sl' res, careful_sync fuel texts sl (sid s) = Ok sl' /\ rec_post s sl sl' l1 l2 res.
Proof.
  intros H2. induction fuel as [|f IH]; intros sl l1 s l2 Hinv Hit Hm Hnd Hpf Hf Hb He.
  { assert (In s (items sl)) as Hin by (rewrite Hit; apply in_or_app; right; now left).
    destruct (znth_lt_Some texts 0) as [t0 Ht0]; [lia|].
    destruct (linv_sub _ _ _ _ _ Hinv Hin Ht0) as (u & Hu & (_ & Hsl & _)).
    unfold at0 in Hf. destruct (subs s); [discriminate|]. injection Hu as ->. lia. }
  assert (In s (items sl)) as Hin by (rewrite Hit; apply in_or_app; right; now left).
  pose proof (linv_zlen _ _ _ Hinv Hin) as Hz.
  assert (forall t text u, znth texts t = Some text -> znth (subs s) t = Some u -> sub_ok text u) as Hok.
  { intros. eapply linv_sub_ok; eauto. }
  assert (get_item (items sl) (sid s) = Some s) as Hget
    by (rewrite Hit; apply get_item_mid; rewrite <- Hit; apply Hinv).
  cbn [careful_sync]. rewrite Hget.
  destruct (existsb (fun u => slen u =? 0) (subs s)) eqn:Ez.
  { exists sl, [s]. split; [reflexivity|].
    apply existsb_exists in Ez as (u & Hu & Hu0). apply Z.eqb_eq in Hu0.
    apply rec_post_same; auto.
    - intros t0 t1 u0 u1 Et Es c Hc (i & Hi & _) (j & Hj & _). rewrite Es in Hu.
      destruct Hu as [<-|[<-|[]]]; lia.
    - intros l Hl (t0 & t1 & u0 & u1 & y & z & Et & Es & G1 & G2 & G3 & G4 & _).
      rewrite Es in Hu. destruct Hu as [<-|[<-|[]]]; lia. }
  destruct texts as [|t0 trest] eqn:Etexts; [cbn in H2; lia|]. rewrite <- Etexts in *.
  destruct (subs s) as [|u0 srest] eqn:Esubs; [cbn in Hz; lia|].
  assert (sub_ok t0 u0) as Hu0 by (apply (Hok 0); [rewrite Etexts|]; reflexivity).
  assert (0 < slen u0) as Hpos.
  { cbn [existsb] in Ez. destruct (Z.eqb_spec (slen u0) 0); [discriminate|].
    destruct Hu0 as (_ & ? & _). lia. }
  assert (Forall (fun ts : tsub => sub_ok (fst ts) (snd ts)) (combine trest srest)) as Hrest.
  { apply Forall_forall. intros [t u] Htu. apply In_znth in Htu as (i & Hi & Hiu).
    rewrite znth_combine in Hiu.
    destruct (znth trest i) as [t'|] eqn:Et; [|discriminate].
    destruct (znth srest i) as [u'|] eqn:Eu; [|discriminate]. injection Hiu as -> ->. cbn.
    apply (Hok (i + 1)).
    - rewrite Etexts. rewrite znth_cons_S by lia. now rewrite Z.add_simpl_r.
    - rewrite znth_cons_S by lia. now rewrite Z.add_simpl_r. }
  destruct (match_rest_ok t0 u0 Hu0 (combine trest srest) [(t0, u0)] [start u0] (slen u0))
    as (r & Er & Hr); auto.
  { destruct Hu0 as (K1 & K2 & K3 & K4). constructor; auto.
    - constructor; [cbn; lia|constructor].
    - intros [Hf2 _]. inversion Hf2; subst. cbn in *. lia.
    - intros [Hf2 _]. inversion Hf2; subst. cbn in *. lia. }
  assert (forall t1 u1, texts = [t0; t1] -> srest = [u1] ->
    forall y z l, start u0 <= y -> y + l <= stop u0 + 1 -> start u1 <= z -> z + l <= stop u1 + 1 ->
      cm t0 t1 y z l -> l <= match r with None => 0 | Some (_, len) => len end) as Htwo.
  { intros t1 u1 Et Eu. rewrite Etexts in Et. injection Et as ->. subst srest.
    destruct (match_rest_two t0 u0 t1 u1) as (r' & Er' & Hmax); auto.
    - apply Forall_cons_iff in Hrest as [Hr1 _]. exact Hr1.
    - cbn [combine] in Er. rewrite Er in Er'. injection Er' as <-. exact Hmax. }
  rewrite Er. cbn [obind].
  destruct r as [[starts len]|].
  2: { exists sl, [s]. split; [reflexivity|]. apply rec_post_same; auto.
    - intros t0' t1 u0' u1 Et Es c Hc (i & Hi & Hic) (j & Hj & Hjc).
      rewrite Esubs in Es. injection Es as -> ->. rewrite Etexts in Et. injection Et as <- ->.
      assert (sub_ok t1 u1) as (V1 & V2 & V3 & V4)
        by (apply Forall_cons_iff in Hrest as [Hr1 _]; exact Hr1).
      destruct Hu0 as (K1 & K2 & K3 & K4).
      specialize (Htwo t1 u1 Etexts eq_refl i j 1).
      assert (1 <= 0); [|lia]. apply Htwo; try lia.
      intros x Hx. replace x with 0 by lia. rewrite !Z.add_0_r. exists c. auto.
    - intros l Hl (t0' & t1 & u0' & u1 & y & z & Et & Es & G1 & G2 & G3 & G4 & G5).
      rewrite Esubs in Es. injection Es as -> ->. rewrite Etexts in Et. injection Et as <- ->.
      assert (sub_ok t1 u1) as (V1 & V2 & V3 & V4)
        by (apply Forall_cons_iff in Hrest as [Hr1 _]; exact Hr1).
      destruct Hu0 as (K1 & K2 & K3 & K4).
      assert (l <= 0); [|lia]. apply (Htwo t1 u1 Etexts eq_refl y z l); auto; lia. }
  assert (chain_ok (combine texts (subs s)) starts len) as Hch.
  { rewrite Etexts, Esubs. exact Hr. }
  rewrite <- Esubs in Hz, Hok, Hb, He.
  set (sl0 := mkslist (items sl) (fresh sl + 1)).
  assert (linv texts sl0) as Hinv0.
  { destruct Hinv. constructor; auto. eapply Forall_impl; eauto. cbn. intros; lia. }
  destruct (chain_inside s starts len Hz H2 Hok Hch) as [Hins Hsame].
  destruct (save_match_ok texts sl0 l1 s l2 starts len (fresh sl))
    as (sl1 & Esave & Hinv1 & Hit1 & Hfr1); auto.
  rewrite Hm, Esave. cbn [obind].
  set (left := left_of sl0 s starts len) in *. set (right := right_of sl0 s starts len) in *.
  set (mid := mid_of s starts len (fresh sl)) in *.
  pose proof (at0_split sl0 s starts len (fresh sl) Hz H2 Hok Hch) as Hat.
  fold left right mid in Hat. destruct Hat as (A1 & A2 & A3 & A4).
  pose proof (ch_len _ _ _ Hch) as Hlen.
  pose proof (left_begins sl0 s starts len (fresh sl) Hz H2 Hok Hch) as LB. fold left in LB.
  pose proof (right_ends sl0 s starts len (fresh sl) Hz H2 Hok Hch) as RE. fold right in RE.
  pose proof (left_not_ends sl0 s starts len (fresh sl) Hz H2 Hok Hch) as LN. fold left in LN.
  pose proof (right_not_begins sl0 s starts len (fresh sl) Hz H2 Hok Hch) as RN. fold right in RN.
  pose proof (left_invalid sl0 s starts len (fresh sl) Hz H2 Hok Hch) as LI. fold left in LI.
  pose proof (right_invalid sl0 s starts len (fresh sl) Hz H2 Hok Hch) as RI. fold right in RI.
  change (sid s) with (sid mid).
  (* pointers after the save *)
  assert (ptrs (items sl1) = ptrs l1 ++ fresh sl :: ptrs l2) as Hp1.
  { rewrite Hit1. apply ptrs_save; reflexivity. }
  assert (ptrs (items sl) = ptrs l1 ++ ptrs l2) as Hp0.
  { rewrite Hit, ptrs_app. cbn [ptrs flat_map]. rewrite Hm. reflexivity. }
  assert (NoDup (ptrs (items sl1))) as Hnd1.
  { rewrite Hp1. apply NoDup_Add with (a := fresh sl) (l := ptrs l1 ++ ptrs l2).
    - apply Add_app.
    - rewrite <- Hp0. split; [exact Hnd|]. intros Hi. rewrite Forall_forall in Hpf.
      specialize (Hpf _ Hi). lia. }
  cbn [fresh sl0] in Hfr1.
  assert (Forall (fun p => p < fresh sl1) (ptrs (items sl1))) as Hpf1.
  { rewrite Hp1, Hfr1. rewrite Hp0 in Hpf. apply Forall_app in Hpf as [F1 F2].
    apply Forall_app. split; [|constructor].
    - eapply Forall_impl; eauto. cbn; intros; lia.
    - lia.
    - eapply Forall_impl; eauto. cbn; intros; lia. }
  (* the left part *)
  assert (exists sl2 Lres,
    match prev_id None (items sl1) (sid mid) with
    | Some p => careful_sync f texts sl1 p | None => Ok sl1 end = Ok sl2 /\
    items sl2 = l1 ++ Lres ++ mid :: opt_item right ++ l2 /\ linv texts sl2 /\
    fresh sl1 <= fresh sl2 /\ NoDup (ptrs (items sl2)) /\
    Forall (fun p => p < fresh sl2) (ptrs (items sl2)) /\
    adj_ok (Lres ++ [mid]) /\
    Forall (fun x => ~ matched x -> no_common x) Lres /\
    (exists x, hd_error (Lres ++ [mid]) = Some x /\
       (begins_alike texts (subs x) -> begins_alike texts (subs s)) /\
       (matched x -> begins_alike texts (subs s))))
    as (sl2 & Lres & E2 & Hit2 & Hinv2 & Hfr2 & Hnd2 & Hpf2 & Hadj2 & Hdone2 & Hhd2).
  { destruct (valid_sync (subs left)) eqn:Ev.
    - unfold opt_item at 1 in Hit1. rewrite Ev in Hit1. cbn [app] in Hit1.
      assert (items sl1 = (l1 ++ [left]) ++ mid :: opt_item right ++ l2) as Hit1'
        by (rewrite Hit1, <- app_assoc; reflexivity).
      rewrite Hit1', prev_id_mid; [|rewrite <- app_assoc in Hit1'; apply (NoDup_mid (l1 ++ [left]) mid (opt_item right ++ l2)); rewrite <- app_assoc, <- Hit1'; apply Hinv1].
      rewrite rev_app_distr. cbn [rev app].
      destruct (IH sl1 l1 left (mid :: opt_item right ++ l2)) as (sl2 & Lres & E2 & Hpost);
        auto; try lia.
      { intros Hl1 Hbl. apply (Hb Hl1). auto. }
      exists sl2, Lres. split; [exact E2|]. destruct Hpost.
      destruct rp_ne0 as (x & z & N1 & N2 & N3 & N4 & N5 & N6).
      split; [exact rp_items0|]. split; [exact rp_linv0|]. split; [exact rp_fresh0|].
      split; [exact rp_nodup0|]. split; [exact rp_ptrs0|]. split; [|split].
      + eapply adj_snoc; eauto. split.
        * intros Hz' _. apply LN. auto.
        * intros _ Hend. apply LN. auto.
      + exact rp_done0.
      + exists x. split; [|split; auto].
        destruct Lres; [discriminate|]. exact N1.
    - unfold opt_item at 1 in Hit1. rewrite Ev in Hit1. cbn [app] in Hit1.
      assert (l1 = []) as El1.
      { destruct l1; [reflexivity|]. exfalso. apply Hb; [discriminate|]. auto. }
      subst l1. exists sl1, [].
      assert (prev_id None (items sl1) (sid mid) = None) as ->.
      { rewrite Hit1. cbn [app prev_id]. now rewrite Z.eqb_refl. }
      split; [reflexivity|]. split; [exact Hit1|]. split; [exact Hinv1|]. split; [lia|].
      split; [exact Hnd1|]. split; [exact Hpf1|].
      split; [cbn; auto|]. split; [constructor|].
      exists mid. repeat split; auto. }
  rewrite E2. cbn [obind].
  assert (~ In (sid mid) (map sid (l1 ++ Lres))) as Hnin2.
  { apply (NoDup_mid (l1 ++ Lres) mid (opt_item right ++ l2)).
    rewrite <- app_assoc, <- Hit2. apply Hinv2. }
  (* the right part *)
  assert (exists sl3 Rres,
    match next_id (items sl2) (sid mid) with
    | Some q => careful_sync f texts sl2 q | None => Ok sl2 end = Ok sl3 /\
    items sl3 = (l1 ++ Lres ++ [mid]) ++ Rres ++ l2 /\ linv texts sl3 /\
    fresh sl2 <= fresh sl3 /\ NoDup (ptrs (items sl3)) /\
    Forall (fun p => p < fresh sl3) (ptrs (items sl3)) /\
    adj_ok (mid :: Rres) /\
    Forall (fun x => ~ matched x -> no_common x) Rres /\
    (exists z, hd_error (rev (mid :: Rres)) = Some z /\
       (ends_alike texts (subs z) -> ends_alike texts (subs s)) /\
       (matched z -> ends_alike texts (subs s))))
    as (sl3 & Rres & E3 & Hit3 & Hinv3 & Hfr3 & Hnd3 & Hpf3 & Hadj3 & Hdone3 & Htl3).
  { rewrite Hit2. rewrite app_assoc. rewrite next_id_mid by exact Hnin2.
    destruct (valid_sync (subs right)) eqn:Ev.
    - unfold opt_item. rewrite Ev. cbn [app hd_error option_map].
      unfold opt_item in Hit2. rewrite Ev in Hit2. cbn [app] in Hit2.
      assert (items sl2 = (l1 ++ Lres ++ [mid]) ++ right :: l2) as Hit2'
        by (rewrite Hit2, <- !app_assoc; reflexivity).
      destruct (IH sl2 (l1 ++ Lres ++ [mid]) right l2) as (sl3 & Rres & E3 & Hpost);
        auto; try lia.
      { intros Hl2 Hel. apply (He Hl2). auto. }
      exists sl3, Rres. split; [exact E3|]. destruct Hpost.
      destruct rp_ne0 as (x & z & N1 & N2 & N3 & N4 & N5 & N6).
      split; [exact rp_items0|]. split; [exact rp_linv0|]. split; [exact rp_fresh0|].
      split; [exact rp_nodup0|]. split; [exact rp_ptrs0|]. split; [|split].
      + destruct Rres as [|x' Rres]; [discriminate|]. injection N1 as ->.
        split; [|exact rp_adj0]. split.
        * intros _ Hbeg. apply RN. auto.
        * intros Hx' _. apply RN. auto.
      + exact rp_done0.
      + exists z. split; [|split; auto]. cbn [rev].
        destruct (rev Rres); [discriminate|]. exact N2.
    - unfold opt_item. rewrite Ev. cbn [app].
      unfold opt_item in Hit2. rewrite Ev in Hit2. cbn [app] in Hit2.
      assert (l2 = []) as El2.
      { destruct l2; [reflexivity|]. exfalso. apply He; [discriminate|]. auto. }
      rewrite El2 in *. cbn [hd_error option_map].
      exists sl2, []. split; [reflexivity|]. split; [rewrite Hit2, <- !app_assoc; reflexivity|].
      split; [exact Hinv2|]. split; [lia|]. split; [exact Hnd2|]. split; [exact Hpf2|].
      split; [cbn; auto|]. split; [constructor|]. exists mid. cbn. repeat split; auto. }
  exists sl3, (Lres ++ mid :: Rres). split; [exact E3|].
  constructor; auto.
  - rewrite Hit3. rewrite <- !app_assoc. reflexivity.
  - lia.
  - assert (Lres ++ mid :: Rres = (Lres ++ [mid]) ++ Rres) as -> by (rewrite <- app_assoc; reflexivity).
    apply adj_ok_app. split; [exact Hadj2|]. split; [destruct Rres; [exact I|apply Hadj3]|].
    intros x y Hx Hy. rewrite rev_app_distr in Hx. cbn in Hx. injection Hx as <-.
    destruct Rres as [|y' Rres]; [discriminate|]. injection Hy as ->. apply Hadj3.
  - destruct Hhd2 as (x & X1 & X2 & X3). destruct Htl3 as (z & Z1 & Z2 & Z3).
    exists x, z. repeat split; auto.
    + destruct Lres; exact X1.
    + rewrite rev_app_distr. cbn [rev] in *. destruct (rev Rres); exact Z1.
  - apply Forall_app. split; [exact Hdone2|]. constructor; [|exact Hdone3].
    intros Hbad. exfalso. apply Hbad. unfold matched. discriminate.
  - intros l Hl (t0' & t1 & v0 & v1 & y & z & Et & Es & G1 & G2 & G3 & G4 & G5).
    apply Exists_exists. exists mid. split; [apply in_or_app; right; now left|].
    split; [discriminate|]. rewrite A1.
    rewrite Esubs in Es. injection Es as -> ->. rewrite Etexts in Et. injection Et as <- ->.
    destruct Hu0 as (K1 & K2 & K3 & K4).
    assert (sub_ok t1 v1) as (V1 & V2 & V3 & V4)
      by (apply Forall_cons_iff in Hrest as [Hr1 _]; exact Hr1).
    apply (Htwo t1 v1 Etexts eq_refl y z l); auto; lia.
Qed.

Lemma recursive_ok : 2 <= zlen texts -> forall fuel sl l1 s l2,
  linv texts sl -> items sl = l1 ++ s :: l2 -> mptr s = None ->
  NoDup (ptrs (items sl)) -> Forall (fun p => p < fresh sl) (ptrs (items sl)) ->
  at0 s < Z.of_nat fuel ->
  (l1 <> [] -> ~ begins_alike texts (subs s)) -> (l2 <> [] -> ~ ends_alike texts (subs s)) ->
  exists sl' res, recursive_sync fuel texts sl (sid s) = Ok sl' /\ rec_post s sl sl' l1 l2 res.
Proof.
  intros H2 fuel sl l1 s l2 A B C E F G H I. destruct (careful_ok H2 fuel sl l1 s l2 A B C E F G H I) as (sl' & res & R & P).
  exists sl', res. split; [|exact P]. now apply careful_recursive.
Qed.
End Texts.
