(** Voters whose texts have the same characters: when their texts are cut at the same places, and
    what they elect. *)
From Coq Require Import String.
From Verif Require Import Base TextModel SyncModel SyncSpec EditProof SyncProof LongestProof HeurProof VoteModel VoteSpec VoteProof VoteSame.
Local Open Scope Z_scope.
Local Open Scope list_scope.

(** ** One round of matching *)
Section Cut.
Variable w : list Z.
Hypothesis Plain : ~ In 126 w.

(** A stream: does it belong to those that agree, its text and its current part. *)
Definition stream : Type := bool * list Z * substr.
Definition agrees (x : stream) : bool := fst (fst x).
Definition stext (x : stream) : list Z := snd (fst x).
Definition spart (x : stream) : substr := snd x.

Variable u : substr.
Hypothesis Hu : sub_ok w u.

Definition stream_ok (x : stream) : Prop :=
  sub_ok (stext x) (spart x) /\ (agrees x = true -> stext x = w /\ spart x = u).
Definition start_ok (a len : Z) (x : stream) (st : Z) : Prop :=
  start (spart x) <= st /\ st + len <= start (spart x) + slen (spart x) /\ (agrees x = true -> st = a).

Definition rest_of (r : list stream) : list (list Z * substr) := map (fun x => (stext x, spart x)) r.

Lemma cm_plain s len : 0 <= s -> s + len <= zlen w -> cm w w s s len.
Proof.
  intros H1 H2 x Hx. destruct (znth_lt_Some w (s + x)) as [c Hc]; [lia|]. exists c. split; [exact Hc|]. split; [exact Hc|].
  intros ->. apply Plain. eapply znth_In; exact Hc.
Qed.
Lemma cm_via t0 t1 t2 a b c len : cm t0 t1 a b len -> cm t0 t2 a c len -> cm t1 t2 b c len.
Proof.
  intros H1 H2 x Hx. destruct (H1 x Hx) as (p & P1 & P2 & P3). destruct (H2 x Hx) as (q & Q1 & Q2 & Q3).
  exists p. split; [exact P2|]. split; [congruence|exact P3].
Qed.
Lemma cm_sym t0 t1 a b len : cm t0 t1 a b len -> cm t1 t0 b a len.
Proof. intros H x Hx. destruct (H x Hx) as (p & P1 & P2 & P3). exists p. auto. Qed.

Lemma start_shift a len d len' P starts : 0 <= d -> d + len' <= len -> Forall2 (start_ok a len) P starts ->
  Forall2 (start_ok (a + d) len') P (map (fun x => x + d) starts).
Proof.
  intros H1 H2. induction 1 as [|x st P starts (A & B & C) F IH]; cbn [map]; constructor; [|exact IH].
  split; [lia|]. split; [lia|]. intros Hx. rewrite (C Hx). reflexivity.
Qed.
Lemma start_any a a' len P starts : Forall (fun x => agrees x = false) P -> Forall2 (start_ok a len) P starts -> Forall2 (start_ok a' len) P starts.
Proof.
  intros H F. induction F as [|x st P starts (A & B & C) F IH]; constructor; inversion H as [|? ? Hx H']; subst; [|now apply IH].
  split; [exact A|]. split; [exact B|]. congruence.
Qed.

Section First.
Variable t0 : list Z.

(** The matched part [s, s+len) of the first text occurs in the agreed text first at [a]. *)
Definition first_at (s len a : Z) : Prop :=
  start u <= a /\ a + len <= start u + slen u /\ cm t0 w s a len /\ forall z, start u <= z < a -> ~ cm t0 w s z len.

Lemma rest_step x R s starts len r : stream_ok x -> 0 <= s -> s + len <= zlen t0 -> hd_error starts = Some s ->
  match_rest t0 (rest_of (x :: R)) starts len = Ok (Some r) ->
  exists L a1 a2, 0 < L /\ s <= a1 /\ a1 + L <= s + len /\ start (spart x) <= a2 /\ a2 + L <= start (spart x) + slen (spart x) /\
    cm t0 (stext x) a1 a2 L /\
    (forall y z l, s <= y -> y + l <= s + len -> start (spart x) <= z -> z + l <= start (spart x) + slen (spart x) -> cm t0 (stext x) y z l -> l <= L) /\
    (forall y z, s <= y -> start (spart x) <= z -> y < a1 \/ y = a1 /\ z < a2 -> y + L <= s + len -> z + L <= start (spart x) + slen (spart x) -> ~ cm t0 (stext x) y z L) /\
    match_rest t0 (rest_of R) (map (fun v => v + (a1 - s)) starts ++ [a2]) L = Ok (Some r).
Proof.
  intros [(U1 & U2 & U3 & U4) _] H0 H1 Hh E. cbn [rest_of map match_rest] in E.
  assert (rd "start[0]" starts 0 = Ok s) as E0 by (destruct starts; [discriminate Hh|injection Hh as ->; reflexivity]).
  rewrite E0 in E. cbn [obind] in E.
  destruct (longest_match_first t0 (stext x) s (s + len - 1) (start (spart x)) (stop (spart x))) as (L & r1 & r2 & EL & Hmax & Hres); try lia.
  rewrite EL in E. cbn [obind] in E.
  destruct Hres as [->|(HL & a1 & a2 & -> & -> & G1 & G2 & G3 & G4 & G5 & G6)]; [cbn in E; discriminate E|].
  destruct (Z.eqb_spec L 0) as [|_]; [lia|]. cbn [get_set obind] in E.
  exists L, a1, a2. split; [exact HL|]. split; [exact G1|]. split; [lia|]. split; [exact G3|]. split; [lia|]. split; [exact G5|].
  split; [intros y z l A1 A2 A3 A4 A5; apply (Hmax y z l); auto; lia|].
  split; [intros y z A1 A2 A3 A4 A5; apply (G6 y z); [unfold before; lia|lia|lia]|].
  rewrite <- E. f_equal. f_equal. destruct (Z.ltb_spec 0 (a1 - s)) as [|Hz]; [reflexivity|].
  replace (a1 - s) with 0 by lia. rewrite <- (map_id starts) at 2. apply map_ext. intros v. lia.
Qed.

Lemma hd_shift starts s d a2 : hd_error starts = Some s -> hd_error (map (fun v => v + d) starts ++ [a2]) = Some (s + d).
Proof. destruct starts as [|x l]; [discriminate|]. intros [= ->]. reflexivity. Qed.
Lemma snoc2 a len P starts x st : Forall2 (start_ok a len) P starts -> start_ok a len x st -> Forall2 (start_ok a len) (P ++ [x]) (starts ++ [st]).
Proof. intros H1 H2. apply Forall2_app; [exact H1|]. constructor; [exact H2|constructor]. Qed.

(** After the agreeing streams. *)
Lemma rest_after : forall R P s starts len a r, Forall stream_ok R -> Forall (fun x => agrees x = false) R ->
  0 <= s -> 0 <= len -> s + len <= zlen t0 -> hd_error starts = Some s -> Forall2 (start_ok a len) P starts ->
  match_rest t0 (rest_of R) starts len = Ok (Some r) ->
  exists a', 0 <= snd r /\ Forall2 (start_ok a' (snd r)) (P ++ R) (fst r).
Proof.
  induction R as [|x R IH]; intros P s starts len a r HR HF H0 Hl H1 Hh HP E.
  - cbn in E. injection E as <-. exists a. cbn [fst snd]. rewrite app_nil_r. auto.
  - inversion HR as [|? ? Hx HR']; subst. inversion HF as [|? ? Hf HF']; subst.
    destruct (rest_step x R s starts len r Hx H0 H1 Hh E) as (L & a1 & a2 & L0 & A1 & A2 & A3 & A4 & _ & _ & _ & E').
    destruct (IH (P ++ [x]) a1 (map (fun v => v + (a1 - s)) starts ++ [a2]) L (a + (a1 - s)) r) as (a' & B1 & B2); auto; try lia.
    + rewrite (hd_shift _ _ _ _ Hh). f_equal. lia.
    + apply snoc2; [apply (start_shift a len); [lia|lia|exact HP]|]. split; [exact A3|]. split; [exact A4|]. congruence.
    + exists a'. split; [exact B1|]. rewrite <- app_assoc in B2. exact B2.
Qed.

(** An agreeing stream when the match is known to be the first in the agreed text. *)
Lemma rest_copies : forall C R P s starts len a r, Forall stream_ok (C ++ R) -> Forall (fun x => agrees x = true) C -> Forall (fun x => agrees x = false) R ->
  0 <= s -> 0 <= len -> s + len <= zlen t0 -> hd_error starts = Some s -> Forall2 (start_ok a len) P starts -> first_at s len a ->
  match_rest t0 (rest_of (C ++ R)) starts len = Ok (Some r) ->
  exists a', 0 <= snd r /\ Forall2 (start_ok a' (snd r)) (P ++ C ++ R) (fst r).
Proof.
  induction C as [|x C IH]; intros R P s starts len a r HR HC HF H0 Hl H1 Hh HP Hfa E.
  - cbn [app] in *. exact (rest_after R P s starts len a r HR HF H0 Hl H1 Hh HP E).
  - cbn [app] in HR, E. inversion HR as [|? ? Hx HR']; subst. inversion HC as [|? ? Hc HC']; subst.
    destruct (rest_step x (C ++ R) s starts len r Hx H0 H1 Hh E) as (L & a1 & a2 & L0 & A1 & A2 & A3 & A4 & A5 & Hmax & Hfst & E').
    destruct Hx as [_ Hx]. destruct (Hx Hc) as [Ht Hs]. rewrite Ht, Hs in *. destruct Hfa as (F1 & F2 & F3 & F4).
    assert (len <= L) by (apply (Hmax s a len); auto; lia).
    assert (a1 = s) as -> by lia. assert (L = len) as -> by lia.
    assert (a2 = a) as ->.
    { destruct (Z.lt_trichotomy a2 a) as [Hlt|[->|Hgt]]; [|reflexivity|].
      - exfalso. apply (F4 a2); [lia|exact A5].
      - exfalso. apply (Hfst s a); auto; lia. }
    destruct (IH R (P ++ [x]) s (map (fun v => v + (s - s)) starts ++ [a]) len a r) as (a' & B1 & B2); auto; try lia.
    + rewrite (hd_shift _ _ _ _ Hh). f_equal. lia.
    + apply snoc2.
      * replace a with (a + (s - s)) by lia. apply (start_shift a len); [lia|lia|exact HP].
      * unfold start_ok. rewrite Hs. split; [lia|]. split; [lia|]. reflexivity.
    + repeat split; auto.
    + exists a'. split; [exact B1|]. rewrite <- app_assoc in B2. exact B2.
Qed.

(** Before the agreeing streams. *)
Lemma rest_before : forall N C R P s starts len a r, Forall stream_ok (N ++ C ++ R) -> Forall (fun x => agrees x = false) (P ++ N) ->
  Forall (fun x => agrees x = true) C -> Forall (fun x => agrees x = false) R ->
  0 <= s -> 0 <= len -> s + len <= zlen t0 -> hd_error starts = Some s -> Forall2 (start_ok a len) P starts ->
  match_rest t0 (rest_of (N ++ C ++ R)) starts len = Ok (Some r) ->
  exists a', 0 <= snd r /\ Forall2 (start_ok a' (snd r)) (P ++ N ++ C ++ R) (fst r).
Proof.
  induction N as [|x N IH]; intros C R P s starts len a r HR HN HC HF H0 Hl H1 Hh HP E.
  - cbn [app] in *. rewrite app_nil_r in HN. destruct C as [|x C]; [cbn [app] in *; exact (rest_after R P s starts len a r HR HF H0 Hl H1 Hh HP E)|].
    cbn [app] in HR, E. inversion HR as [|? ? Hx HR']; subst. inversion HC as [|? ? Hc HC']; subst.
    destruct (rest_step x (C ++ R) s starts len r Hx H0 H1 Hh E) as (L & a1 & a2 & L0 & A1 & A2 & A3 & A4 & A5 & Hmax & Hfst & E').
    destruct Hx as [_ Hx]. destruct (Hx Hc) as [Ht Hs]. rewrite Ht, Hs in *.
    destruct (rest_copies C R (P ++ [x]) a1 (map (fun v => v + (a1 - s)) starts ++ [a2]) L a2 r) as (a' & B1 & B2); auto; try lia.
    + rewrite (hd_shift _ _ _ _ Hh). f_equal. lia.
    + apply snoc2.
      * apply (start_any (a + (a1 - s))); [exact HN|]. apply (start_shift a len); [lia|lia|exact HP].
      * unfold start_ok. rewrite Hs. split; [lia|]. split; [lia|]. reflexivity.
    + split; [exact A3|]. split; [exact A4|]. split; [exact A5|]. intros z Hz. apply Hfst; lia.
    + exists a'. split; [exact B1|]. rewrite <- app_assoc in B2. exact B2.
  - cbn [app] in HR, E. inversion HR as [|? ? Hx HR']; subst.
    destruct (rest_step x (N ++ C ++ R) s starts len r Hx H0 H1 Hh E) as (L & a1 & a2 & L0 & A1 & A2 & A3 & A4 & _ & _ & _ & E').
    assert (Hf : agrees x = false) by (rewrite Forall_forall in HN; apply HN, in_or_app; right; now left).
    destruct (IH C R (P ++ [x]) a1 (map (fun v => v + (a1 - s)) starts ++ [a2]) L (a + (a1 - s)) r) as (a' & B1 & B2); auto; try lia.
    + rewrite <- app_assoc. exact HN.
    + rewrite (hd_shift _ _ _ _ Hh). f_equal. lia.
    + apply snoc2; [apply (start_shift a len); [lia|lia|exact HP]|]. split; [exact A3|]. split; [exact A4|]. congruence.
    + exists a'. split; [exact B1|]. rewrite <- app_assoc in B2. exact B2.
Qed.
End First.

(** One stream that does not agree, among those that do. *)
Lemma rest_among : forall C1 x C2 P starts r, Forall stream_ok (C1 ++ x :: C2) ->
  Forall (fun y => agrees y = true) C1 -> agrees x = false -> Forall (fun y => agrees y = true) C2 ->
  hd_error starts = Some (start u) -> Forall2 (start_ok (start u) (slen u)) P starts ->
  match_rest w (rest_of (C1 ++ x :: C2)) starts (slen u) = Ok (Some r) ->
  exists a', 0 <= snd r /\ Forall2 (start_ok a' (snd r)) (P ++ C1 ++ x :: C2) (fst r).
Proof.
  pose proof Hu as (U1 & U2 & U3 & U4).
  induction C1 as [|y C1 IH]; intros x C2 P starts r HR HC Hf HC2 Hh HP E.
  - cbn [app] in *. inversion HR as [|? ? Hx HR']; subst.
    destruct (rest_step w x C2 (start u) starts (slen u) r Hx U1 U3 Hh E) as (L & a1 & a2 & L0 & A1 & A2 & A3 & A4 & A5 & Hmax & Hfst & E').
    destruct (rest_copies w C2 [] (P ++ [x]) a1 (map (fun v => v + (a1 - start u)) starts ++ [a2]) L a1 r) as (a' & B1 & B2); auto; try lia.
    + rewrite app_nil_r. exact HR'.
    + rewrite (hd_shift _ _ _ _ Hh). f_equal. lia.
    + apply snoc2.
      * replace a1 with (start u + (a1 - start u)) at 1 by lia. apply (start_shift (start u) (slen u)); [lia|lia|exact HP].
      * split; [exact A3|]. split; [exact A4|]. congruence.
    + split; [exact A1|]. split; [exact A2|]. split; [apply cm_plain; lia|].
      intros z Hz Hc. apply (Hfst z a2); try lia. eapply cm_via; [exact Hc|exact A5].
    + rewrite app_nil_r. exact E'.
    + exists a'. split; [exact B1|]. rewrite app_nil_r, <- app_assoc in B2. exact B2.
  - cbn [app] in HR, E. inversion HR as [|? ? Hy HR']; subst. inversion HC as [|? ? Hc HC']; subst.
    destruct (rest_step w y (C1 ++ x :: C2) (start u) starts (slen u) r Hy U1 U3 Hh E) as (L & a1 & a2 & L0 & A1 & A2 & A3 & A4 & A5 & Hmax & Hfst & E').
    destruct Hy as [_ Hy]. destruct (Hy Hc) as [Ht Hs]. rewrite Ht, Hs in *.
    assert (slen u <= L) by (apply (Hmax (start u) (start u)); try lia; apply cm_plain; lia).
    assert (a1 = start u) as -> by lia. assert (a2 = start u) as -> by lia. assert (L = slen u) as -> by lia.
    destruct (IH x C2 (P ++ [y]) (map (fun v => v + (start u - start u)) starts ++ [start u]) r) as (a' & B1 & B2); auto.
    + rewrite (hd_shift _ _ _ _ Hh). f_equal. lia.
    + apply snoc2.
      * replace (start u) with (start u + (start u - start u)) at 1 by lia. apply (start_shift (start u) (slen u)); [lia|lia|exact HP].
      * unfold start_ok. rewrite Hs. split; [lia|]. split; [lia|]. reflexivity.
    + exists a'. split; [exact B1|]. rewrite <- app_assoc in B2. exact B2.
Qed.
End Cut.

(** ** All items *)
Section Level.
Variable w : list Z.
Hypothesis Plain : ~ In 126 w.
Variable bts : list (bool * list Z).
Hypothesis Agree : forall b t, In (b, t) bts -> b = true -> t = w.

(** The agreeing streams stand together, or there is one stream only that does not agree. *)
Definition shape (mask : list bool) : Prop :=
  (exists n c r, mask = repeat false n ++ repeat true c ++ repeat false r) \/
  (exists c1 c2, mask = repeat true c1 ++ false :: repeat true c2).
Hypothesis Shape : shape (map fst bts).

Definition part_ok (u : substr) (bt : bool * list Z) (v : substr) : Prop :=
  sub_ok (snd bt) v /\ (fst bt = true -> v = u).
Definition even (s : sync) : Prop := exists u, Forall2 (part_ok u) bts (subs s).

Lemma map_repeat_Forall {A} (f : A -> bool) b : forall l n, map f l = repeat b n -> Forall (fun x => f x = b) l.
Proof.
  induction l as [|x l IH]; intros [|n] H; try discriminate H; [constructor|]. cbn in H. injection H as H1 H2. constructor; [exact H1|]. eapply IH; exact H2.
Qed.

Lemma streams_ok u subs : Forall2 (part_ok u) bts subs -> Forall (stream_ok w u) (combine bts subs) /\ map agrees (combine bts subs) = map fst bts.
Proof.
  clear Shape. revert Agree. intros H F. induction F as [|[b t] v bts' subs' (F1 & F2) F IH]; [split; [constructor|reflexivity]|].
  destruct IH as [I1 I2]; [intros b' t' Hi; apply H; now right|]. cbn [combine map]. split.
  - constructor; [|exact I1]. unfold stream_ok, stext, spart, agrees. cbn [fst snd] in *. split; [exact F1|]. intros Hb. split; [|auto]. apply (H b t); [now left|exact Hb].
  - cbn [agrees fst]. f_equal. exact I2.
Qed.

Lemma round_ok u x S r : stream_ok w u x -> Forall (stream_ok w u) S -> map agrees (x :: S) = map fst bts ->
  match_rest (stext x) (rest_of S) [start (spart x)] (slen (spart x)) = Ok (Some r) ->
  exists a, 0 <= snd r /\ Forall2 (start_ok a (snd r)) (x :: S) (fst r).
Proof.
  intros Hx HS HM E. pose proof Hx as [(X1 & X2 & X3 & X4) Hag].
  assert (first : forall a, (agrees x = true -> a = start (spart x)) -> Forall2 (start_ok a (slen (spart x))) [x] [start (spart x)]).
  { intros a Ha. constructor; [|constructor]. split; [lia|]. split; [lia|]. intros Hb. symmetry. now apply Ha. }
  assert (S1 : forall n c r0, map agrees (x :: S) = repeat false n ++ repeat true c ++ repeat false r0 ->
    exists a, 0 <= snd r /\ Forall2 (start_ok a (snd r)) (x :: S) (fst r)).
  { intros n c r0 Em. destruct n as [|n].
    - cbn [repeat app] in Em. destruct c as [|c].
      + cbn [repeat app] in Em. apply map_repeat_Forall in Em. inversion Em as [|? ? Ex ES]; subst.
        apply (rest_after w u (stext x) S [x] (start (spart x)) [start (spart x)] (slen (spart x)) (start (spart x)) r); auto.
      + cbn [repeat app map] in Em. injection Em as Ex ES. destruct (Hag Ex) as [Ht Hs].
        apply map_eq_app in ES as (C & R & -> & EC & ER). apply map_repeat_Forall in EC. apply map_repeat_Forall in ER.
        apply (rest_copies w u (stext x) C R [x] (start (spart x)) [start (spart x)] (slen (spart x)) (start (spart x)) r); auto.
        rewrite Ht, Hs in *. split; [lia|]. split; [lia|]. split; [apply cm_plain; [exact Plain|lia|lia]|]. intros z Hz. lia.
    - cbn [repeat app map] in Em. injection Em as Ex ES.
      apply map_eq_app in ES as (N & S' & -> & EN & ES). apply map_eq_app in ES as (C & R & -> & EC & ER).
      apply map_repeat_Forall in EN. apply map_repeat_Forall in EC. apply map_repeat_Forall in ER.
      apply (rest_before w u (stext x) N C R [x] (start (spart x)) [start (spart x)] (slen (spart x)) (start (spart x)) r); auto.
      constructor; auto. }
  rewrite <- HM in Shape. destruct Shape as [(n & c & r0 & Em)|(c1 & c2 & Em)]; [eapply S1; exact Em|].
  destruct c1 as [|c1]; [apply (S1 1%nat c2 0%nat); cbn [repeat app] in *; rewrite app_nil_r; exact Em|].
  cbn [repeat app map] in Em. injection Em as Ex ES. destruct (Hag Ex) as [Ht Hs].
  apply map_eq_app in ES as (C1 & S' & -> & EC & ES). destruct S' as [|y C2]; [discriminate ES|]. cbn [map] in ES. injection ES as Ey EC2.
  apply map_repeat_Forall in EC. apply map_repeat_Forall in EC2. rewrite Ht, Hs in *.
  apply (rest_among w Plain u ltac:(repeat split; lia) C1 y C2 [x] [start u] r); auto.
Qed.

Lemma zip_even (f : substr -> Z -> Z -> substr) a len : forall bts' subs starts u,
  (forall t v st, sub_ok t v -> start v <= st -> 0 <= len -> st + len <= start v + slen v -> sub_ok t (f v st len)) -> 0 <= len ->
  Forall2 (part_ok u) bts' subs -> Forall2 (start_ok a len) (combine bts' subs) starts ->
  Forall2 (part_ok (f u a len)) bts' (zip_starts f subs starts len).
Proof.
  intros bts' subs starts u Hf Hl F. revert starts. induction F as [|bt v bts' subs' (F1 & F2) F IH]; intros starts H; cbn [combine] in H.
  - inversion H; subst. constructor.
  - inversion H as [|? st ? starts' (A & B & C) H']; subst. unfold zip_starts. cbn [combine map fst snd]. constructor; [|apply IH; exact H'].
    unfold spart, agrees in *. cbn [fst snd] in *. split; [apply Hf; auto|]. intros Hb. rewrite (F2 Hb), (C Hb). reflexivity.
Qed.

Lemma even_before l id x : Forall even l -> even x -> Forall even (insert_before l id x).
Proof.
  intros H Hx. induction H as [|s l Hs Hl IH]; cbn [insert_before]; [constructor|].
  destruct (sid s =? id); [repeat (constructor; [assumption|]); exact Hl|constructor; [exact Hs|exact IH]].
Qed.
Lemma even_after l id x : Forall even l -> even x -> Forall even (insert_after l id x).
Proof.
  intros H Hx. induction H as [|s l Hs Hl IH]; cbn [insert_after]; [constructor|].
  destruct (sid s =? id); [repeat (constructor; [assumption|]); exact Hl|constructor; [exact Hs|exact IH]].
Qed.
Lemma even_update l id x : Forall even l -> even x -> Forall even (update_item l id x).
Proof.
  intros H Hx. induction H as [|s l Hs Hl IH]; cbn [update_item]; [constructor|].
  destruct (sid s =? id); [constructor; [exact Hx|exact Hl]|constructor; [exact Hs|exact IH]].
Qed.
Lemma even_get l id s : Forall even l -> get_item l id = Some s -> even s.
Proof.
  intros H. induction H as [|x l Hx Hl IH]; cbn [get_item]; [discriminate|].
  destruct (sid x =? id); [now intros [= <-]|exact IH].
Qed.

Lemma save_even sl id s u starts a len m sl' : Forall even (items sl) -> get_item (items sl) id = Some s ->
  Forall2 (part_ok u) bts (subs s) -> 0 <= len -> Forall2 (start_ok a len) (combine bts (subs s)) starts ->
  save_match sl id starts len m = Ok sl' -> Forall even (items sl').
Proof.
  intros Hl Eg Hp Hlen Hs E. unfold save_match in E. rewrite Eg in E. injection E as <-. cbn [items subs].
  assert (forall i o, even (mksync i (zip_starts left_sub (subs s) starts len) o)) as F1.
  { intros i o. exists (left_sub u a len). apply zip_even; auto. intros t v st (V1 & V2 & V3 & V4) ? ? ?. unfold sub_ok, left_sub. cbn [start stop slen]. lia. }
  assert (forall i o, even (mksync i (zip_starts right_sub (subs s) starts len) o)) as F2.
  { intros i o. exists (right_sub u a len). apply zip_even; auto. intros t v st (V1 & V2 & V3 & V4) ? ? ?. unfold sub_ok, right_sub. cbn [start stop slen]. lia. }
  assert (forall i o, even (mksync i (zip_starts mid_sub (subs s) starts len) o)) as F3.
  { intros i o. exists (mid_sub u a len). apply zip_even; auto. intros t v st (V1 & V2 & V3 & V4) ? ? ?. unfold sub_ok, mid_sub. cbn [start stop slen]. lia. }
  repeat first [match goal with |- Forall even (if ?b then _ else _) => destruct b end
               | apply even_after | apply even_before | apply even_update]; auto.
Qed.

Lemma rest_combine : forall (B : list (bool * list Z)) subs, rest_of (combine B subs) = combine (map snd B) subs.
Proof. induction B as [|[b t] B IH]; intros [|v subs]; try reflexivity. cbn [combine map rest_of]. f_equal. apply IH. Qed.

Lemma recursive_even : forall fuel sl id sl', Forall even (items sl) ->
  recursive_sync fuel (map snd bts) sl id = Ok sl' -> Forall even (items sl').
Proof.
  induction fuel as [|f IH]; intros sl id sl' Hl E; cbn [recursive_sync] in E; [discriminate E|].
  destruct (get_item (items sl) id) as [s|] eqn:Eg; [|discriminate E].
  destruct (existsb (fun u => slen u =? 0) (subs s)); [injection E as <-; exact Hl|].
  destruct (even_get _ _ _ Hl Eg) as (u & Hu).
  destruct (streams_ok u (subs s) Hu) as [So Sm].
  destruct (map snd bts) as [|t0 trest] eqn:Et; [discriminate E|].
  destruct (subs s) as [|s0 srest] eqn:Es; [discriminate E|].
  destruct (match_rest t0 (combine trest srest) [start s0] (slen s0)) as [r| | |] eqn:Em; cbn [obind] in E; try discriminate E.
  destruct r as [[starts len]|]; [|injection E as <-; exact Hl].
  assert (exists a, 0 <= len /\ Forall2 (start_ok a len) (combine bts (s0 :: srest)) starts) as (a & Hlen & Hst).
  { clear IH E. pose proof (round_ok u) as RO. revert So Sm RO. clear - Et Em. destruct bts as [|[b0 t0'] bts']; [discriminate Et|].
    cbn [map snd] in Et. injection Et as -> <-. cbn [combine]. intros So Sm RO. inversion So as [|? ? So1 So2]; subst.
    apply (RO (b0, t0, s0) (combine bts' srest) (starts, len)); auto. rewrite rest_combine. exact Em. }
  destruct (save_match (mkslist (items sl) (fresh sl + 1)) id starts len (fresh sl))
    as [sl1| | |] eqn:Esv; cbn [obind] in E; try discriminate E.
  assert (Forall even (items sl1)) as Hl1.
  { apply (save_even (mkslist (items sl) (fresh sl + 1)) id s u starts a len (fresh sl) sl1); auto; rewrite Es; assumption. }
  destruct (prev_id None (items sl1) id) as [p|].
  - destruct (recursive_sync f (t0 :: trest) sl1 p) as [sl2| | |] eqn:E2; cbn [obind] in E; try discriminate E.
    apply IH in E2; auto.
    destruct (next_id (items sl2) id) as [q|]; [|injection E as <-; exact E2].
    eapply IH; [exact E2|exact E].
  - cbn [obind] in E. destruct (next_id (items sl1) id) as [q|]; [|injection E as <-; exact Hl1].
    eapply IH; [exact Hl1|exact E].
Qed.

Lemma synchronize_even l : synchronize (map snd bts) = Ok l -> Forall (fun it => exists u, Forall2 (part_ok u) bts (isubs it)) l.
Proof.
  intros E. unfold synchronize in E.
  destruct ((zlen (map snd bts) <? MIN_STREAMS) || (MAX_STREAMS <? zlen (map snd bts))); [discriminate E|].
  assert (Forall even (items (initialize_synclist (map snd bts) 1))) as H0.
  { unfold initialize_synclist. destruct (valid_sync _); cbn [items]; constructor; [|constructor].
    exists (mksub 0 (zlen w - 1) (zlen w)). cbn [subs]. clear - Agree. induction bts as [|[b t] B IH]; [constructor|]. cbn [map snd]. constructor.
    - unfold part_ok, sub_ok. cbn [fst snd start stop slen]. pose proof (zlen_nonneg t). split; [lia|]. intros Hb. rewrite (Agree b t); [reflexivity|now left|exact Hb].
    - apply IH. intros b' t' Hi. apply Agree. now right. }
  assert (exists sl, Forall even (items sl) /\ l = view (number_matches (items sl) 0 no_numbers) (items sl)) as (sl & Hsl & ->).
  { destruct (items (initialize_synclist (map snd bts) 1)) as [|s r] eqn:Ei.
    - cbn [obind] in E. injection E as <-. eexists. split; [|reflexivity]. rewrite Ei. constructor.
    - destruct (recursive_sync (Datatypes.S (List.length (hd [] (map snd bts)))) (map snd bts)
        (initialize_synclist (map snd bts) 1) (sid s)) as [sl| | |] eqn:Er; cbn [obind] in E; try discriminate E.
      injection E as <-. exists sl. split; [|reflexivity]. eapply recursive_even; [|exact Er]. now rewrite Ei. }
  unfold view. apply Forall_map. eapply Forall_impl; [|exact Hsl]. intros s (u & Hs). exists u. cbn [isubs]. exact Hs.
Qed.
End Level.
