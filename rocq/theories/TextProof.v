(** Reading texts: decoding, markers, spacing. *)
From Coq Require Import String.
From Verif Require Import Base CLib Utf8Model TextModel TextSpec Utf8Proof.
Local Open Scope Z_scope.
Local Open Scope list_scope.

(** ** Decoding *)

Lemma utf8class_cases b : utf8class b = 0 \/ utf8class b = 1 \/ utf8class b = 2 \/
  utf8class b = 3 \/ utf8class b = 4.
Proof.
  unfold utf8class.
  destruct (b <? 128), (b <? 192), (b <? 224), (b <? 240), (b <? 248); auto.
Qed.

Definition buf4 (b : list Z) : Prop := List.length b = 4%nat /\ Forall is_byte b.

(** One round of read_contents. *)
Lemma read_step b f fm m buf s fu :
  Forall is_byte (b :: f) -> buf4 buf ->
  (exists c rest buf', scalar c /\ b :: f = utf8 c ++ rest /\ buf4 buf' /\
     read_contents (S fu) (b :: f) fm m buf s =
     if fm && (c =? m) then read_contents fu rest fm m buf' true
     else let! r := read_contents fu rest fm m buf' false in Ok (mkchar s c :: r)) \/
  ((forall c rest, scalar c -> b :: f <> utf8 c ++ rest) /\
   exists msg, read_contents (S fu) (b :: f) fm m buf s = Fail msg).
Proof.
  intros Hf [Hbl Hb].
  destruct buf as [|x0 [|x1 [|x2 [|x3 [|]]]]]; try discriminate Hbl. clear Hbl.
  apply Forall_cons_iff in Hb as [B0 Hb]. apply Forall_cons_iff in Hb as [B1 Hb].
  apply Forall_cons_iff in Hb as [B2 Hb]. apply Forall_cons_iff in Hb as [B3 _].
  apply Forall_cons_iff in Hf as [F0 Hf].
  assert (forall c rest, scalar c -> b :: f = utf8 c ++ rest ->
            utf8class b = zlen (utf8 c) /\ 1 <= zlen (utf8 c)) as Hcls.
  { intros c rest Hc E. destruct (iterate_complete c [0; 0; 0; 0] Hc) as (_ & _ & b0 & t & E0 & E1).
    pose proof (utf8_length c Hc). rewrite E0 in E. injection E as -> _. lia. }
  (* with the four bytes of the buffer known *)
  assert (forall y1 y2 y3 rest n,
            is_byte y1 -> is_byte y2 -> is_byte y3 ->
            utf8class b = Z.of_nat n -> (1 <= n)%nat ->
            b :: f = firstn n [b; y1; y2; y3] ++ rest ->
            read_contents (S fu) (b :: f) fm m [x0; x1; x2; x3] s =
            (let! (status, code_point) := iterate [b; y1; y2; y3] 4 in
             if negb (status =? utf8class b) then Fail "Invalid UTF-8 string was supplied"
             else if fm && (code_point =? m)
             then read_contents fu rest fm m [b; y1; y2; y3] true
             else let! r := read_contents fu rest fm m [b; y1; y2; y3] false in
                  Ok (mkchar s code_point :: r)) ->
            (exists c rest buf', scalar c /\ b :: f = utf8 c ++ rest /\ buf4 buf' /\
               read_contents (S fu) (b :: f) fm m [x0; x1; x2; x3] s =
               if fm && (c =? m) then read_contents fu rest fm m buf' true
               else let! r := read_contents fu rest fm m buf' false in Ok (mkchar s c :: r)) \/
            ((forall c rest, scalar c -> b :: f <> utf8 c ++ rest) /\
             exists msg, read_contents (S fu) (b :: f) fm m [x0; x1; x2; x3] s = Fail msg)) as Hmain.
  { intros y1 y2 y3 rest n Y1 Y2 Y3 Hn Hn1 Ef Er.
    destruct (iterate_total b y1 y2 y3 []) as (st & c & It).
    rewrite It in Er. cbn [obind] in Er.
    destruct (Z.eqb_spec st (utf8class b)) as [Es|Es]; cbn [negb] in Er.
    - left. destruct (iterate_sound b y1 y2 y3 st c) as (Hc & Hst & _ & Hfn); auto; [lia|].
      exists c, rest, [b; y1; y2; y3]. split; [exact Hc|]. split; [|split; [|exact Er]].
      + rewrite <- Hfn, Es, Hn, Nat2Z.id. exact Ef.
      + split; [reflexivity|]. repeat constructor; assumption || (unfold is_byte in *; lia).
    - right. split; [|eexists; exact Er].
      intros c' rest' Hc' E. destruct (Hcls c' rest' Hc' E) as [Ek _].
      assert (utf8 c' = firstn n [b; y1; y2; y3]) as Eu.
      { assert (List.length (utf8 c') = n) as L by (unfold zlen in Ek; lia).
        assert (n <= 4)%nat by (destruct (utf8class_cases b) as [?|[?|[?|[?|?]]]]; lia).
        assert (List.length (firstn n [b; y1; y2; y3]) = n) as L2
          by (rewrite firstn_length; cbn; lia).
        rewrite Ef in E.
        apply (f_equal (firstn n)) in E.
        rewrite <- L2 in E at 1. rewrite firstn_app, Nat.sub_diag, firstn_all, firstn_O, app_nil_r in E.
        rewrite <- L in E at 2. rewrite firstn_app, Nat.sub_diag, firstn_all, firstn_O, app_nil_r in E.
        congruence. }
      destruct (iterate_complete c' (skipn n [b; y1; y2; y3]) Hc') as (_ & It' & _).
      rewrite Eu, firstn_skipn, It in It'. injection It' as -> _. rewrite Ek, Eu in Es. lia. }
  destruct (utf8class_cases b) as [K|[K|[K|[K|K]]]].
  - right. split.
    + intros c rest Hc E. destruct (Hcls c rest Hc E). lia.
    + cbn [read_contents]. rewrite K. eexists; reflexivity.
  - apply (Hmain x1 x2 x3 f 1%nat); auto.
    cbn [read_contents]. rewrite K. reflexivity.
  - destruct f as [|f1 f].
    { right. split.
      - intros c rest Hc E. destruct (Hcls c rest Hc E) as [E1 _].
        apply (f_equal zlen) in E. rewrite zlen_app in E. pose proof (zlen_nonneg rest). cbn in E. lia.
      - cbn [read_contents]. rewrite K. eexists; reflexivity. }
    apply Forall_cons_iff in Hf as [F1 Hf].
    apply (Hmain f1 x2 x3 f 2%nat); auto.
    cbn [read_contents]. rewrite K. reflexivity.
  - destruct f as [|f1 [|f2 f]].
    1, 2: right; split;
      [ intros c rest Hc E; destruct (Hcls c rest Hc E) as [E1 _];
        apply (f_equal zlen) in E; rewrite zlen_app in E; pose proof (zlen_nonneg rest);
        cbn in E; lia
      | cbn [read_contents]; rewrite K; eexists; reflexivity ].
    apply Forall_cons_iff in Hf as [F1 Hf]. apply Forall_cons_iff in Hf as [F2 Hf].
    apply (Hmain f1 f2 x3 f 3%nat); auto.
    cbn [read_contents]. rewrite K. reflexivity.
  - destruct f as [|f1 [|f2 [|f3 f]]].
    1, 2, 3: right; split;
      [ intros c rest Hc E; destruct (Hcls c rest Hc E) as [E1 _];
        apply (f_equal zlen) in E; rewrite zlen_app in E; pose proof (zlen_nonneg rest);
        cbn in E; lia
      | cbn [read_contents]; rewrite K; eexists; reflexivity ].
    apply Forall_cons_iff in Hf as [F1 Hf]. apply Forall_cons_iff in Hf as [F2 Hf].
    apply Forall_cons_iff in Hf as [F3 Hf].
    apply (Hmain f1 f2 f3 f 4%nat); auto.
    cbn [read_contents]. rewrite K. reflexivity.
Qed.

(** The characters appended for a decoded stream (markers [fm], marker [m], pending mark [s]). *)
Fixpoint tag (fm : bool) (m : Z) (s : bool) (cs : list Z) : list char :=
  match cs with
  | [] => []
  | c :: t => if fm && (c =? m) then tag fm m true t else mkchar s c :: tag fm m false t
  end.

Lemma utf8_app_inv c1 c2 r1 r2 :
  scalar c1 -> scalar c2 -> utf8 c1 ++ r1 = utf8 c2 ++ r2 -> c1 = c2 /\ r1 = r2.
Proof.
  intros H1 H2 E.
  pose proof (utf8_length c1 H1). pose proof (utf8_length c2 H2).
  destruct (iterate_complete c1 (r1 ++ [0; 0; 0; 0]) H1) as (_ & I1 & _).
  destruct (iterate_complete c2 (r2 ++ [0; 0; 0; 0]) H2) as (_ & I2 & _).
  rewrite app_assoc, E, <- app_assoc, I2 in I1. injection I1 as _ ->.
  split; [reflexivity|]. now apply app_inv_head in E.
Qed.

Lemma utf8_nonempty c : utf8 c <> [].
Proof. unfold utf8. destruct (c <? 128), (c <? 2048), (c <? 65536); discriminate. Qed.

Lemma utf8s_inj a b : Forall scalar a -> Forall scalar b -> utf8s a = utf8s b -> a = b.
Proof.
  revert b; induction a as [|x a IH]; intros [|y b] Ha Hb E; auto.
  - cbn in E. symmetry in E. apply app_eq_nil in E. now destruct (utf8_nonempty y).
  - cbn in E. apply app_eq_nil in E. now destruct (utf8_nonempty x).
  - apply Forall_cons_iff in Ha as [A1 Ha]. apply Forall_cons_iff in Hb as [B1 Hb].
    cbn in E. apply utf8_app_inv in E as [-> E]; auto. f_equal. auto.
Qed.

Lemma read_contents_ok fu f fm m buf s :
  Forall is_byte f -> buf4 buf -> (List.length f <= fu)%nat ->
  (exists cs, Forall scalar cs /\ f = utf8s cs /\
     read_contents fu f fm m buf s = Ok (tag fm m s cs)) \/
  ((forall cs, Forall scalar cs -> f <> utf8s cs) /\
   exists msg, read_contents fu f fm m buf s = Fail msg).
Proof.
  revert f buf s; induction fu as [|fu IH]; intros f buf s Hf Hb Hl.
  - destruct f; [|cbn in Hl; lia]. left. exists []. repeat split; constructor.
  - destruct f as [|b f]; [left; exists []; repeat split; constructor|].
    destruct (read_step b f fm m buf s fu Hf Hb) as [(c & rest & buf' & Hc & E & Hb' & Er)|[Hno Hfail]].
    + assert (Forall is_byte rest) as Hr.
      { rewrite E in Hf. apply Forall_app in Hf. tauto. }
      assert (List.length rest <= fu)%nat as Hl'.
      { apply (f_equal (@List.length Z)) in E. rewrite app_length in E. cbn in E, Hl.
        pose proof (utf8_nonempty c). destruct (utf8 c); [congruence|]. cbn in E. lia. }
      assert (forall cs, Forall scalar cs -> b :: f = utf8s cs ->
                exists cs', cs = c :: cs' /\ Forall scalar cs' /\ rest = utf8s cs') as Hinv.
      { intros [|c' cs'] Hcs E'; [discriminate E'|].
        apply Forall_cons_iff in Hcs as [Hc' Hcs'].
        cbn in E'. rewrite E' in E. apply utf8_app_inv in E as [-> E]; auto.
        exists cs'. auto. }
      rewrite Er.
      destruct (IH rest buf' true Hr Hb' Hl') as [(cs1 & S1 & E1 & R1)|[N1 [msg1 R1]]],
               (IH rest buf' false Hr Hb' Hl') as [(cs2 & S2 & E2 & R2)|[N2 [msg2 R2]]].
      * left. exists (c :: cs1).
        assert (cs2 = cs1) as ->.
        { apply utf8s_inj; congruence. }
        split; [now constructor|]. split; [change (utf8s (c :: cs1)) with (utf8 c ++ utf8s cs1); now rewrite <- E1|].
        cbn [tag]. rewrite R1, R2. now destruct (fm && (c =? m)).
      * exfalso. now apply (N2 cs1).
      * exfalso. now apply (N1 cs2).
      * right. split.
        { intros cs Hcs E'. destruct (Hinv cs Hcs E') as (cs' & _ & H1 & H2). now apply (N1 cs'). }
        { rewrite R1, R2. destruct (fm && (c =? m)); cbn; eauto. }
    + right. split; [|exact Hfail].
      intros [|c cs] Hcs E; [discriminate E|].
      apply Forall_cons_iff in Hcs as [Hc Hcs]. cbn in E. now apply (Hno c (utf8s cs)).
Qed.

(** ** Markers *)

Lemma tag_off m s cs : tag false m s cs =
  match cs with [] => [] | c :: t => mkchar s c :: map (mkchar false) t end.
Proof.
  revert s; induction cs as [|c cs IH]; intros s; cbn; [reflexivity|].
  rewrite IH. destruct cs; reflexivity.
Qed.

Lemma tag_run fm m s n cs :
  fm = true -> tag fm m s (repeat m n ++ cs) = tag fm m (s || Nat.ltb 0 n) cs.
Proof.
  intros ->. revert s; induction n as [|n IH]; intros s; cbn [repeat app tag].
  - now rewrite orb_false_r.
  - cbn [andb]. rewrite Z.eqb_refl, IH. now rewrite orb_true_r.
Qed.

Lemma tag_marked m cs : marked m cs (tag true m false cs).
Proof.
  assert (forall k cs, (List.length cs <= k)%nat -> marked m cs (tag true m false cs)) as H; [|eauto].
  clear cs. induction k as [|k IH]; intros cs Hl.
  - destruct cs; [|cbn in Hl; lia]. apply (marked_end m 0).
  - assert (exists n r, cs = repeat m n ++ r /\ (r = [] \/ exists c t, r = c :: t /\ c <> m)) as (n & r & -> & Hr).
    { clear. induction cs as [|c cs (n & r & -> & H)].
      - exists 0%nat, []. auto.
      - destruct (Z.eq_dec c m) as [->|Hc].
        + exists (S n), r. auto.
        + exists 0%nat, (c :: repeat m n ++ r). split; [reflexivity|]. right. eauto. }
    rewrite tag_run by reflexivity. cbn [orb].
    destruct Hr as [->|(c & t & -> & Hc)].
    + rewrite app_nil_r. constructor.
    + cbn [tag andb]. destruct (Z.eqb_spec c m); [congruence|].
      constructor; [exact Hc|]. apply IH.
      rewrite app_length in Hl. cbn in Hl. lia.
Qed.

Lemma marked_fun m cs out : marked m cs out -> out = tag true m false cs.
Proof.
  induction 1 as [n|n c cs out Hc H IH].
  - rewrite <- (app_nil_r (repeat m n)), tag_run by reflexivity. reflexivity.
  - rewrite tag_run by reflexivity. cbn [orb tag andb].
    destruct (Z.eqb_spec c m); [congruence|]. now rewrite <- IH.
Qed.

(** ** Spacing *)

Section Spacing.
Variable uc : unicode_data.
Local Notation fb := (fun c : char => if is_blank uc (value c) then mkchar (suspect c) BLANK else c).

Lemma is_blank_spec c : blankish uc c <-> is_blank uc c = true \/ c = 32.
Proof.
  unfold blankish, is_blank, NEWLINE.
  destruct (Z.eqb_spec c 10); [subst; intuition lia|].
  destruct (Z.eqb_spec c 9), (Z.eqb_spec c 11), (Z.eqb_spec c 12), (Z.eqb_spec c 13),
    (Z.eqb_spec c 160); cbn [orb]; try intuition lia.
  destruct (cat uc c); intuition (try lia; congruence).
Qed.

Lemma fb_suspect c : suspect (fb c) = suspect c.
Proof. cbn beta. destruct (is_blank uc (value c)); reflexivity. Qed.
Lemma fb_newline c : value (fb c) = 10 <-> value c = 10.
Proof.
  cbn beta. destruct (is_blank uc (value c)) eqn:E; [|tauto]. cbn. unfold BLANK.
  split; [discriminate|]. intros H. rewrite H in E. discriminate E.
Qed.
Lemma fb_blank c : value (fb c) = 32 <-> blankish uc (value c).
Proof.
  rewrite is_blank_spec. cbn beta. destruct (is_blank uc (value c)) eqn:E; cbn; unfold BLANK; intuition congruence.
Qed.
Lemma fb_id c : is_blank uc (value c) = false -> fb c = c.
Proof. cbn beta. now intros ->. Qed.
Lemma fb_newline_id c : value c = 10 -> fb c = c.
Proof. cbn beta. intros H. now rewrite H. Qed.

Lemma spacing_dec c : {spacing uc c} + {~ spacing uc c}.
Proof.
  destruct (Z.eq_dec (value c) 10) as [E|E]; [left; now left|].
  destruct (is_blank uc (value c)) eqn:B.
  { left. right. apply is_blank_spec. auto. }
  destruct (Z.eq_dec (value c) 32) as [E'|E'].
  { left. right. apply is_blank_spec. auto. }
  right. intros [H|H]; [auto|]. apply is_blank_spec in H. intuition congruence.
Qed.

Lemma not_spacing c : ~ spacing uc c -> fb c = c /\ value c <> 10 /\ value c <> 32.
Proof.
  intros H. unfold spacing in H. split; [|split].
  - apply fb_id. destruct (is_blank uc (value c)) eqn:E; [|reflexivity].
    exfalso. apply H. right. apply is_blank_spec. auto.
  - auto.
  - intros E. apply H. right. apply is_blank_spec. auto.
Qed.

(** compress_spacing without the mutation of the next character. *)
Fixpoint cl (found s : bool) (l : list char) : list char :=
  match l with
  | [] => []
  | c :: next =>
      let c := mkchar (suspect c || s) (value c) in
      let next_is (v : Z) := match next with n :: _ => value n =? v | [] => false end in
      let no_next := match next with [] => true | _ => false end in
      if ((value c =? BLANK) &&
          (negb found || no_next || next_is BLANK || next_is NEWLINE)) ||
         ((value c =? NEWLINE) && negb found)
      then cl found (found && next_is BLANK && suspect c) next
      else c :: cl (negb (value c =? NEWLINE)) false next
  end.

Lemma cl_cons found s c next : cl found s (c :: next) =
  if ((value c =? BLANK) &&
      (negb found || match next with [] => true | _ => false end ||
       match next with n :: _ => value n =? BLANK | [] => false end ||
       match next with n :: _ => value n =? NEWLINE | [] => false end)) ||
     ((value c =? NEWLINE) && negb found)
  then cl found (found && match next with n :: _ => value n =? BLANK | [] => false end &&
                 (suspect c || s)) next
  else mkchar (suspect c || s) (value c) :: cl (negb (value c =? NEWLINE)) false next.
Proof. reflexivity. Qed.

Lemma or_false l : or_suspect false l = l.
Proof. destruct l as [|[s v] l]; cbn; [reflexivity|]. now rewrite orb_false_r. Qed.

Lemma compress_loop_cl fu found s l :
  (List.length l <= fu)%nat -> compress_loop fu found (or_suspect s l) = Ok (cl found s l).
Proof.
  revert found s l; induction fu as [|fu IH]; intros found s l Hl.
  - destruct l; [reflexivity|cbn in Hl; lia].
  - destruct l as [|c l]; [reflexivity|]. cbn [List.length] in Hl.
    cbn [or_suspect compress_loop cl value suspect].
    match goal with |- (if ?b then _ else _) = Ok (if ?b' then _ else _) =>
      change b' with b; destruct b end.
    + rewrite <- IH by lia. f_equal.
      destruct found; cbn [andb]; [|now rewrite or_false].
      destruct l as [|d l]; cbn [andb negb]; [reflexivity|].
      destruct (value d =? BLANK); cbn [andb]; [reflexivity|now rewrite or_false].
    + pose proof (IH (negb (value c =? NEWLINE)) false l) as E. rewrite or_false in E.
      rewrite E by lia. reflexivity.
Qed.

Lemma cl_true_nonspace found x l :
  ~ spacing uc x -> cl found false (map fb (x :: l)) = x :: cl true false (map fb l).
Proof.
  intros H. destruct (not_spacing x H) as (E & H1 & H2).
  cbn [map]. rewrite E. cbn [cl value suspect].
  destruct (Z.eqb_spec (value x) BLANK); [unfold BLANK in *; lia|].
  destruct (Z.eqb_spec (value x) NEWLINE); [unfold NEWLINE in *; lia|].
  cbn [andb orb negb]. rewrite orb_false_r. now destruct x.
Qed.

Lemma spacing_value c : spacing uc c -> value (fb c) = 10 \/ value (fb c) = 32.
Proof.
  intros [H|H]; [left; now apply fb_newline|right; now apply fb_blank].
Qed.

(** Leading spacing is dropped. *)
Lemma cl_lead g t : Forall (spacing uc) g -> cl false false (map fb g ++ t) = cl false false t.
Proof.
  induction 1 as [|c g Hc Hg IH]; [reflexivity|]. cbn [map app cl].
  destruct (spacing_value c Hc) as [E|E]; cbn [value suspect]; rewrite E.
  - change (10 =? BLANK) with false. change (10 =? NEWLINE) with true. cbn [andb orb negb]. exact IH.
  - change (32 =? BLANK) with true. cbn [andb orb negb]. exact IH.
Qed.

(** A run of blanks before a newline. *)
Lemma cl_blanks_newline a n t s :
  Forall (spacing uc) a -> Forall (fun c => value c <> 10) a -> value n = 10 ->
  (a = [] -> s = false) ->
  cl true s (map fb a ++ n :: t) = n :: cl false false t.
Proof.
  intros Ha Hn Hv. revert s. induction a as [|c a IH]; intros s Hs.
  - rewrite Hs by reflexivity. cbn [map app cl value suspect]. rewrite Hv.
    change (10 =? BLANK) with false. change (10 =? NEWLINE) with true. cbn [andb orb negb].
    rewrite orb_false_r. destruct n as [sn vn]. cbn in Hv. now subst vn.
  - apply Forall_cons_iff in Ha as [Hc Ha]. apply Forall_cons_iff in Hn as [Hcn Hn].
    cbn [map app cl value suspect].
    destruct (spacing_value c Hc) as [E|E]; [apply (proj1 (fb_newline c)) in E; contradiction|]. rewrite E.
    change (32 =? BLANK) with true. change (32 =? NEWLINE) with false. cbn [andb orb negb].
    destruct a as [|d a]; cbn [map app].
    + rewrite Hv. change (10 =? BLANK) with false. change (10 =? NEWLINE) with true.
      cbn [andb orb]. apply (IH Ha Hn). reflexivity.
    + apply Forall_cons_iff in Ha as Ha'. destruct Ha' as [Hd _].
      apply Forall_cons_iff in Hn as Hn'. destruct Hn' as [Hdn _].
      destruct (spacing_value d Hd) as [E'|E']; [apply (proj1 (fb_newline d)) in E'; contradiction|].
      rewrite E'. change (32 =? BLANK) with true. cbn [andb orb].
      apply (IH Ha Hn). discriminate.
Qed.

(** A run of blanks at the end. *)
Lemma cl_blanks_end a s :
  Forall (spacing uc) a -> Forall (fun c => value c <> 10) a -> cl true s (map fb a) = [].
Proof.
  intros Ha Hn. revert s. induction a as [|c a IH]; intros s; [reflexivity|].
  apply Forall_cons_iff in Ha as [Hc Ha]. apply Forall_cons_iff in Hn as [Hcn Hn].
  cbn [map cl value suspect].
  destruct (spacing_value c Hc) as [E|E]; [apply (proj1 (fb_newline c)) in E; contradiction|]. rewrite E.
  change (32 =? BLANK) with true. cbn [andb orb negb].
  destruct a as [|d a]; cbn [map]; [reflexivity|].
  apply Forall_cons_iff in Ha as Ha'. destruct Ha' as [Hd _].
  apply Forall_cons_iff in Hn as Hn'. destruct Hn' as [Hdn _].
  destruct (spacing_value d Hd) as [E'|E']; [apply (proj1 (fb_newline d)) in E'; contradiction|].
  rewrite E'. change (32 =? BLANK) with true. cbn [andb orb].
  apply (IH Ha Hn).
Qed.

(** A run of blanks before a content character. *)
Lemma cl_blanks_char a x t s :
  Forall (spacing uc) a -> Forall (fun c => value c <> 10) a -> ~ spacing uc x -> a <> [] ->
  cl true s (map fb (a ++ x :: t)) =
  mkchar (s || existsb suspect a) 32 :: cl true false (map fb (x :: t)).
Proof.
  intros Ha Hn Hx. revert s. induction a as [|c a IH]; intros s Hne; [congruence|].
  apply Forall_cons_iff in Ha as [Hc Ha]. apply Forall_cons_iff in Hn as [Hcn Hn].
  cbn [map app]. rewrite cl_cons. cbn [map app].
  destruct (spacing_value c Hc) as [E|E]; [apply (proj1 (fb_newline c)) in E; contradiction|].
  rewrite E, fb_suspect.
  change (32 =? BLANK) with true. change (32 =? NEWLINE) with false. cbn [andb orb negb].
  destruct a as [|d a].
  - cbn [map app existsb]. destruct (not_spacing x Hx) as (Ex & X1 & X2). rewrite Ex.
    destruct (Z.eqb_spec (value x) BLANK); [unfold BLANK in *; lia|].
    destruct (Z.eqb_spec (value x) NEWLINE); [unfold NEWLINE in *; lia|].
    cbn [orb]. rewrite orb_false_r, (orb_comm s). reflexivity.
  - apply Forall_cons_iff in Ha as Ha'. destruct Ha' as [Hd _].
    apply Forall_cons_iff in Hn as Hn'. destruct Hn' as [Hdn _].
    cbn [map app].
    destruct (spacing_value d Hd) as [E'|E']; [apply (proj1 (fb_newline d)) in E'; contradiction|].
    rewrite E'. change (32 =? BLANK) with true. cbn [andb orb].
    etransitivity; [apply (IH Ha Hn); discriminate|]. f_equal. f_equal.
    change (existsb suspect (c :: d :: a)) with (suspect c || existsb suspect (d :: a)).
    destruct s, (suspect c), (existsb suspect (d :: a)); reflexivity.
Qed.

Lemma split_spacing l : exists g t, l = g ++ t /\ Forall (spacing uc) g /\
  (t = [] \/ exists x t', t = x :: t' /\ ~ spacing uc x).
Proof.
  induction l as [|c l (g & t & -> & Hg & Ht)].
  - exists [], []. auto.
  - destruct (spacing_dec c) as [H|H].
    + exists (c :: g), t. auto.
    + exists [], (c :: g ++ t). split; [reflexivity|]. split; [constructor|]. right. eauto.
Qed.

Lemma split_newline (g : list char) : Forall (fun c => value c <> 10) g \/
  exists a n b, g = a ++ n :: b /\ Forall (fun c => value c <> 10) a /\ value n = 10.
Proof.
  induction g as [|c g [H|(a & n & b & -> & Ha & Hn)]].
  - left. constructor.
  - destruct (Z.eq_dec (value c) 10) as [E|E].
    + right. exists [], c, g. auto.
    + left. now constructor.
  - right. destruct (Z.eq_dec (value c) 10) as [E|E].
    + exists [], c, (a ++ n :: b). auto.
    + exists (c :: a), n, b. split; [reflexivity|]. split; [now constructor|exact Hn].
Qed.

Lemma cl_body k l x :
  (List.length l <= k)%nat -> ~ spacing uc x ->
  normalised_body uc (x :: l) (x :: cl true false (map fb l)).
Proof.
  revert l x; induction k as [|k IH]; intros l x Hl Hx.
  { destruct l; [|cbn in Hl; lia]. apply nb_last; [exact Hx|constructor|constructor]. }
  destruct (split_spacing l) as (g & t & -> & Hg & [->|(y & t' & -> & Hy)]).
  - rewrite app_nil_r. apply nb_last; auto.
    destruct (split_newline g) as [Hn|(a & n & b & -> & Ha & Hn)].
    + rewrite cl_blanks_end by assumption. now apply gap_end.
    + apply Forall_app in Hg as [Hga Hgb]. apply Forall_cons_iff in Hgb as [Hgn Hgb].
      rewrite map_app. cbn [map]. rewrite (fb_newline_id n Hn).
      rewrite cl_blanks_newline by auto.
      rewrite <- (app_nil_r (map fb b)), cl_lead by assumption. now apply gap_newline.
  - rewrite app_length in Hl. cbn [List.length] in Hl.
    destruct (split_newline g) as [Hn|(a & n & b & -> & Ha & Hn)].
    + destruct g as [|c g].
      * cbn [app]. rewrite cl_true_nonspace by exact Hy.
        apply (nb_more uc x [] [] (y :: t') (y :: cl true false (map fb t'))); auto; [constructor|].
        apply IH; [cbn in Hl; lia|exact Hy].
      * rewrite cl_blanks_char by (auto; discriminate).
        rewrite cl_true_nonspace by exact Hy.
        apply (nb_more uc x (c :: g) [_] (y :: t') (y :: cl true false (map fb t'))); auto.
        -- apply gap_blank; [discriminate|exact Hn].
        -- apply IH; [lia|exact Hy].
    + apply Forall_app in Hg as [Hga Hgb]. apply Forall_cons_iff in Hgb as [Hgn Hgb].
      rewrite <- app_assoc. cbn [app]. rewrite map_app. cbn [map]. rewrite (fb_newline_id n Hn).
      rewrite cl_blanks_newline by auto.
      rewrite map_app, cl_lead by assumption. rewrite cl_true_nonspace by exact Hy.
      change (x :: a ++ n :: b ++ y :: t') with (x :: a ++ (n :: b) ++ y :: t').
      rewrite app_assoc.
      apply (nb_more uc x (a ++ n :: b) [n] (y :: t') (y :: cl true false (map fb t'))); auto.
      * apply Forall_app. auto.
      * now apply gap_newline.
      * apply IH; [|exact Hy]. rewrite app_length in Hl. cbn in Hl. lia.
Qed.

Lemma cl_normalised l : normalised uc l (cl false false (map fb l)).
Proof.
  destruct (split_spacing l) as (g & t & -> & Hg & [->|(y & t' & -> & Hy)]).
  - rewrite app_nil_r. rewrite <- (app_nil_r (map fb g)), cl_lead by assumption.
    now apply n_empty.
  - rewrite map_app, cl_lead by assumption. rewrite cl_true_nonspace by exact Hy.
    apply n_text; [exact Hg|]. now apply (cl_body (List.length t')).
Qed.

Lemma gap_kept_cl g r x t :
  Forall (spacing uc) g -> gap_kept false g r -> ~ spacing uc x ->
  cl true false (map fb (g ++ x :: t)) = r ++ cl true false (map fb (x :: t)).
Proof.
  intros Hg Hr Hx. inversion Hr as [last a n b Ha Hn| | |g' Hne Hn]; subst.
  - apply Forall_app in Hg as [Hga Hgb]. apply Forall_cons_iff in Hgb as [Hgn Hgb].
    rewrite <- app_assoc. cbn [app]. rewrite map_app. cbn [map]. rewrite (fb_newline_id n Hn).
    rewrite cl_blanks_newline by auto. cbn [app]. f_equal.
    rewrite map_app, cl_lead by assumption. rewrite cl_true_nonspace by exact Hx. symmetry. apply (cl_true_nonspace true x t Hx).
  - reflexivity.
  - rewrite cl_blanks_char by auto. reflexivity.
Qed.

Lemma gap_kept_end_cl g r :
  Forall (spacing uc) g -> gap_kept true g r -> cl true false (map fb g) = r.
Proof.
  intros Hg Hr. inversion Hr as [last a n b Ha Hn| |g' Hn|]; subst.
  - apply Forall_app in Hg as [Hga Hgb]. apply Forall_cons_iff in Hgb as [Hgn Hgb].
    rewrite map_app. cbn [map]. rewrite (fb_newline_id n Hn).
    rewrite cl_blanks_newline by auto. f_equal.
    now rewrite <- (app_nil_r (map fb b)), cl_lead.
  - reflexivity.
  - now apply cl_blanks_end.
Qed.

Lemma body_cl found t u : normalised_body uc t u -> cl found false (map fb t) = u.
Proof.
  intros H. revert found. induction H as [x g r Hx Hg Hr|x g r t u Hx Hg Hr Hb IH]; intros found.
  - rewrite cl_true_nonspace by exact Hx. f_equal. now apply gap_kept_end_cl.
  - rewrite cl_true_nonspace by exact Hx. f_equal.
    assert (exists y t', t = y :: t' /\ ~ spacing uc y) as (y & t' & -> & Hy)
      by (destruct Hb; eauto).
    rewrite gap_kept_cl with (r := r) by assumption. now rewrite IH.
Qed.

Lemma normalised_cl t u : normalised uc t u -> u = cl false false (map fb t).
Proof.
  intros [t' H|g t' u' Hg Hb].
  - now rewrite <- (app_nil_r (map fb t')), cl_lead.
  - rewrite map_app, cl_lead by exact Hg. symmetry. now apply body_cl.
Qed.

Lemma compress_spacing_ok text raw :
  exists new, compress_spacing uc (text ++ raw) (List.length text) = Ok (text ++ new) /\
    compress_spacing uc raw 0 = Ok new /\ normalised uc raw new /\
    new = cl false false (map fb raw).
Proof.
  exists (cl false false (map fb raw)). unfold compress_spacing, blanks_to_blank.
  rewrite skipn_app, skipn_all, Nat.sub_diag, firstn_app, firstn_all, Nat.sub_diag. cbn [skipn firstn app].
  rewrite app_nil_r.
  pose proof (compress_loop_cl (List.length (map fb raw)) false false (map fb raw)) as E.
  rewrite or_false in E. rewrite E by lia. cbn [obind app].
  repeat split; auto. apply cl_normalised.
Qed.

(** *** Canonical form *)

Fixpoint adj (l : list char) : Prop :=
  match l with
  | x :: ((y :: _) as t) => ~ (spacing uc x /\ spacing uc y) /\ adj t
  | _ => True
  end.

Lemma adj_spec l : adj l <-> forall a x y b, l = a ++ x :: y :: b -> ~ (spacing uc x /\ spacing uc y).
Proof.
  split.
  - intros H a. revert l H. induction a as [|z a IH]; intros l H x y b ->.
    + cbn in H. tauto.
    + apply (IH (a ++ x :: y :: b) ) with (b := b); [|reflexivity].
      cbn [app adj] in H. destruct (a ++ x :: y :: b); tauto.
  - induction l as [|x l IH]; intros H; [exact I|].
    destruct l as [|y l]; [exact I|]. split.
    + apply (H [] x y l). reflexivity.
    + apply IH. intros a u v b E. apply (H (x :: a) u v b). now rewrite E.
Qed.

Lemma gap_kept_cases last g r :
  Forall (spacing uc) g -> gap_kept last g r ->
  r = [] \/ (exists c, r = [c] /\ (value c = 10 \/ (last = false /\ value c = 32))).
Proof.
  intros Hg H. inversion H; subst; eauto 8.
Qed.

Lemma body_canonical t u :
  normalised_body uc t u ->
  Forall (fun c => blankish uc (value c) -> value c = 32) u /\ adj u /\
  (exists x u', u = x :: u' /\ ~ spacing uc x) /\
  (forall a x, u = a ++ [x] -> ~ blankish uc (value x)).
Proof.
  assert (forall c, value c = 10 -> ~ blankish uc (value c)) as Hnl
    by (intros c E; unfold blankish; rewrite E; tauto).
  induction 1 as [x g r Hx Hg Hr|x g r t u Hx Hg Hr Hb (IH1 & IH2 & (y & u' & -> & Hy) & IH4)].
  - destruct (gap_kept_cases _ _ _ Hg Hr) as [->|(c & -> & [Hc|[? _]])]; [| |discriminate].
    + split; [|split; [|split]].
      * repeat constructor. intros B. exfalso. apply Hx. now right.
      * exact I.
      * eauto.
      * intros a z E. destruct a as [|? [|]]; [|discriminate E|discriminate E].
        injection E as <-. intros B. apply Hx. now right.
    + split; [|split; [|split]].
      * repeat constructor; intros B; exfalso; [apply Hx; now right|now apply (Hnl c)].
      * cbn. tauto.
      * eauto.
      * intros a z E. destruct a as [|? [|? [|]]]; try discriminate E.
        injection E as _ <-. now apply Hnl.
  - destruct (gap_kept_cases _ _ _ Hg Hr) as [->|(c & -> & Hc)].
    + cbn [app]. split; [|split; [|split]].
      * constructor; [|exact IH1]. intros B. exfalso. apply Hx. now right.
      * split; [tauto|exact IH2].
      * eauto.
      * intros [|z a] w E; [discriminate E|]. injection E as _ E. now apply (IH4 a).
    + cbn [app]. split; [|split; [|split]].
      * constructor; [|constructor; [|exact IH1]].
        -- intros B. exfalso. apply Hx. now right.
        -- intros B. destruct Hc as [Hc|[_ Hc]]; [exfalso; now apply (Hnl c)|exact Hc].
      * split; [tauto|]. split; [tauto|exact IH2].
      * eauto.
      * intros [|z [|z' a]] w E; [discriminate E|discriminate E|].
        injection E as _ _ E. now apply (IH4 a).
Qed.

Lemma normalised_canonical t u : normalised uc t u -> canonical uc u.
Proof.
  unfold canonical. intros [t' _|g t' u' Hg Hb].
  - split; [intros c []|]. split; [|split].
    + intros [|] x y b; discriminate.
    + discriminate.
    + intros [|]; discriminate.
  - destruct (body_canonical _ _ Hb) as (H1 & H2 & (x & u'' & -> & Hx) & H4).
    split; [|split; [|split]].
    + intros c Hc. rewrite Forall_forall in H1. now apply H1.
    + now apply adj_spec.
    + intros y b [= <- <-]. exact Hx.
    + exact H4.
Qed.

(** Normalising a canonical text changes nothing. *)
Lemma cl_canonical found l :
  adj l -> (found = false -> forall x t, l = x :: t -> ~ spacing uc x) ->
  (forall a x, l = a ++ [x] -> ~ blankish uc (value x)) ->
  Forall (fun c => blankish uc (value c) -> value c = 32) l ->
  cl found false l = l.
Proof.
  revert found; induction l as [|x l IH]; intros found H1 H2 H3 H4; [reflexivity|].
  apply Forall_cons_iff in H4 as [H4x H4].
  assert (cl (negb (value x =? NEWLINE)) false l = l) as Erec.
  { apply IH.
    - destruct l; [exact I|]. cbn in H1. tauto.
    - intros E y t ->. cbn in H1. intros Hy.
      apply H1. split; [|exact Hy]. left.
      destruct (Z.eqb_spec (value x) NEWLINE); [assumption|discriminate].
    - intros a y E. apply (H3 (x :: a) y). now rewrite E.
    - exact H4. }
  cbn [cl value suspect]. rewrite orb_false_r.
  assert (blankish uc 32) as B32 by (apply is_blank_spec; auto).
  match goal with |- (if ?b then _ else _) = _ => assert (b = false) as -> end.
  { destruct (Z.eqb_spec (value x) BLANK) as [E|E]; unfold BLANK in E.
    - assert (spacing uc x) as Sx by (right; now rewrite E).
      destruct found; [|now destruct (H2 eq_refl x l eq_refl)].
      destruct (Z.eqb_spec (value x) NEWLINE); [unfold NEWLINE in *; lia|]. cbn [negb andb orb].
      destruct l as [|y l].
      + exfalso. apply (H3 [] x eq_refl). now rewrite E.
      + cbn in H1. destruct H1 as [H1 _].
        destruct (Z.eqb_spec (value y) BLANK) as [Ey|_].
        { exfalso. apply H1. split; [exact Sx|]. right. now rewrite Ey. }
        destruct (Z.eqb_spec (value y) NEWLINE) as [Ey|_].
        { exfalso. apply H1. split; [exact Sx|]. now left. }
        reflexivity.
    - cbn [andb orb]. destruct (Z.eqb_spec (value x) NEWLINE) as [En|En]; [|reflexivity].
      destruct found; [reflexivity|]. exfalso. apply (H2 eq_refl x l eq_refl). now left. }
  rewrite Erec. now destruct x.
Qed.

Lemma compress_canonical u : canonical uc u -> compress_spacing uc u 0 = Ok u.
Proof.
  intros (C1 & C2 & C3 & C4).
  destruct (compress_spacing_ok [] u) as (new & _ & E & _ & En). rewrite E, En. f_equal.
  assert (map fb u = u) as ->.
  { clear -C1. induction u as [|c u IH]; [reflexivity|]. cbn [map]. f_equal.
    - destruct (is_blank uc (value c)) eqn:B; [|reflexivity].
      assert (value c = 32) as E; [|destruct c as [s v]; cbn in E; now rewrite E].
      apply C1; [now left|]. apply is_blank_spec. auto.
    - apply IH. intros d Hd. apply C1. now right. }
  apply cl_canonical.
  - now apply adj_spec.
  - intros _ x t ->. now apply (C3 x t).
  - exact C4.
  - apply Forall_forall. auto.
Qed.
End Spacing.
