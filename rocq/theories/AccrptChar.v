(** Reading back a displayed character. *)
From Coq Require Import String.
From Verif Require Import Base CLib CLibProof Utf8Model Utf8Proof TextModel TextSpec TextProof TextIO
  CompareModel AccModel AccSpec AccProof AccrptSpec ReportModel ReportSpec ReportProof AccrptModel.
Local Open Scope Z_scope.
Local Open Scope list_scope.

Lemma rd_app {A} m (pre s : list A) k : 0 <= k -> rd m (pre ++ s) (zlen pre + k) = rd m s k.
Proof.
  intros H. unfold rd. destruct (Z.lt_ge_cases k (zlen s)) as [L|L].
  - rewrite znth_app2 by lia. now replace (zlen pre + k - zlen pre) with k by lia.
  - unfold znth. pose proof (zlen_nonneg pre).
    replace (zlen pre + k <? 0) with false by lia. replace (k <? 0) with false by lia.
    unfold zlen in *. rewrite nth_error_app2 by lia.
    now replace (Z.to_nat (Z.of_nat (List.length pre) + k) - List.length pre)%nat with (Z.to_nat k) by lia.
Qed.

Lemma skipn_shift {A} (pre s : list A) k : 0 <= k ->
  skipn (Z.to_nat (zlen pre + k)) (pre ++ s) = skipn (Z.to_nat k) s.
Proof.
  intros H. unfold zlen. rewrite skipn_app.
  rewrite skipn_all2 by lia. cbn [app].
  now replace (Z.to_nat (Z.of_nat (List.length pre) + k) - List.length pre)%nat with (Z.to_nat k) by lia.
Qed.

Lemma rd_mid {A} m (a : list A) x b : rd m (a ++ x :: b) (zlen a) = Ok x.
Proof. replace (zlen a) with (zlen a + 0) by lia. rewrite rd_app by lia. reflexivity. Qed.

Lemma rd_at {A} m (buf a : list A) x b p : buf = a ++ x :: b -> p = zlen a -> rd m buf p = Ok x.
Proof. intros -> ->. apply rd_mid. Qed.

Lemma skipn_at {A} (buf a b : list A) p : buf = a ++ b -> p = zlen a -> skipn (Z.to_nat p) buf = b.
Proof. intros -> ->. replace (zlen a) with (zlen a + 0) by lia. rewrite skipn_shift by lia. reflexivity. Qed.

Lemma cstr_at buf a b p : buf = a ++ b -> p = zlen a -> cstr buf p = upto_nul b.
Proof.
  intros -> ->. unfold cstr. pose proof (zlen_nonneg a). pose proof (zlen_nonneg b). rewrite zlen_app.
  replace ((0 <=? zlen a) && (zlen a <=? zlen a + zlen b)) with true by lia.
  now rewrite (skipn_at (a ++ b) a b).
Qed.

Lemma char_end_at buf a b p v : buf = a ++ 125 :: b -> p = zlen a -> char_end buf p v = Ok v.
Proof. intros E P. unfold char_end. rewrite (rd_at "line" buf a 125 b p E P). reflexivity. Qed.

Lemma hex_value_digit d : 0 <= d < 16 ->
  hex_value (hex_digit d) = Some d /\ (48 <= hex_digit d <= 57 \/ 65 <= hex_digit d <= 70).
Proof.
  intros H. unfold hex_digit, hex_value. destruct (Z.ltb_spec d 10).
  - replace ((48 <=? d + 48) && (d + 48 <=? 57)) with true by lia. split; [f_equal|]; lia.
  - replace ((48 <=? d + 55) && (d + 55 <=? 57)) with false by lia.
    replace ((65 <=? d + 55) && (d + 55 <=? 70)) with true by lia. split; [f_equal|]; lia.
Qed.

Lemma of_digits_zeros b k l : of_digits b (repeat 0 k ++ l) = of_digits b l.
Proof. induction k; cbn; [reflexivity|]. exact IHk. Qed.

(** The digits printed by %02X and %04X. *)
Definition hex_str (h : list Z) (v : Z) : Prop :=
  h <> [] /\ Forall (fun c => is_hex c = true /\ (48 <= c <= 57 \/ 65 <= c <= 70)) h /\
  of_digits 16 (map hex_of h) = v.

Lemma hexpad_str w v : 0 <= v -> hex_str (hexpad w v) v.
Proof.
  intros H. unfold hexpad, pad. pose proof (digits_range 16 v ltac:(lia) H) as R.
  split; [|split].
  - pose proof (digits_nonempty 16 v). intros E. apply app_eq_nil in E as [_ E].
    destruct (digits 16 v); [congruence|discriminate E].
  - apply Forall_app. split.
    + apply Forall_forall. intros c C. apply repeat_spec in C. subst. split; [reflexivity|lia].
    + apply Forall_map. eapply Forall_impl; [|exact R]. intros d D. cbn in D.
      destruct (hex_value_digit d D) as [E B]. unfold is_hex. now rewrite E.
  - rewrite map_app. rewrite map_map.
    assert (map hex_of (repeat 48 (w - List.length (map hex_digit (digits 16 v))))
            = repeat 0 (w - List.length (map hex_digit (digits 16 v)))) as ->.
    { generalize (w - List.length (map hex_digit (digits 16 v)))%nat. intros k.
      induction k; cbn; [reflexivity|now f_equal]. }
    rewrite of_digits_zeros.
    rewrite <- (digits_value 16 v ltac:(lia) H) at 2. f_equal.
    rewrite <- (map_id (digits 16 v)) at 2. apply map_ext_in. intros d D.
    rewrite Forall_forall in R. specialize (R d D). cbn in R.
    destruct (hex_value_digit d R) as [E _]. unfold hex_of. now rewrite E.
Qed.

Lemma scan_hex_str h v rest : hex_str h v -> 0 <= v < 4294967296 ->
  scan_hex (h ++ 62 :: rest) = Some (v, 62 :: rest).
Proof.
  intros (N & F & V) B. destruct h as [|c h]; [congruence|].
  pose proof F as F'. apply Forall_cons_iff in F' as [[C1 C2] F2].
  unfold scan_hex. cbn [app skip_space].
  replace (is_space c) with false by (unfold is_space; lia). cbn [scan_sign].
  replace (c =? 45) with false by lia. replace (c =? 43) with false by lia.
  set (s := c :: h ++ 62 :: rest).
  match goal with |- context [span is_hex ?m] => assert (m = s) as -> end.
  { unfold s. destruct c as [|p|p]; try reflexivity.
    repeat (destruct p as [p|p|]; try reflexivity).
    destruct h as [|x h]; cbn [app].
    - destruct rest; [reflexivity|]. reflexivity.
    - apply Forall_cons_iff in F2 as [[_ X] _].
      assert ((x =? 120) || (x =? 88) = false) as -> by lia.
      now destruct (h ++ 62 :: rest). }
  unfold s. change (c :: h ++ 62 :: rest) with ((c :: h) ++ 62 :: rest).
  rewrite span_all.
  - rewrite V. f_equal. f_equal. unfold ULONG_MAX. rewrite Z.min_r by lia.
    apply Z.mod_small. lia.
  - eapply Forall_impl; [|exact F]. now intros ? [].
  - reflexivity.
Qed.

Lemma upto_nul_app a b s : ~ In 0 a -> upto_nul b = Ok s -> upto_nul (a ++ b) = Ok (a ++ s).
Proof.
  intros N E. induction a as [|x a IH]; cbn [app upto_nul]; [exact E|].
  destruct (Z.eqb_spec x 0) as [->|X]; [exfalso; apply N; now left|].
  rewrite IH by (intros ?; apply N; now right). reflexivity.
Qed.

Lemma hex_str_no_nul h v : hex_str h v -> ~ In 0 h.
Proof. intros (_ & F & _) I. rewrite Forall_forall in F. destruct (F 0 I) as [_ ?]. lia. Qed.

Local Ltac zl := rewrite !zlen_app, ?zlen_cons; change (zlen (@nil Z)) with 0; lia.

Section Char.
Variable uc : unicode_data.

Lemma read_char_display v pre rest s :
  scalar v -> marks_wide uc -> upto_nul rest = Ok s ->
  read_char (pre ++ bytes "{" ++ display uc v ++ bytes "}" ++ rest) (zlen pre) = Ok v.
Proof.
  intros Sc Wide Hs. assert (0 <= v <= 1114111) as R by (unfold scalar in Sc; lia).
  pose proof (zlen_nonneg pre) as Hp.
  change (bytes "{" ++ display uc v ++ bytes "}" ++ rest)
    with (123 :: display uc v ++ 125 :: rest).
  unfold read_char. rewrite rd_mid. cbn [obind]. change (123 =? 123) with true. cbn [negb].
  unfold display. destruct (Z.eqb_spec v 10) as [->|N10].
  { (* newline *)
    change (bytes "<\n>") with [60; 92; 110; 62]. cbn [app].
    rewrite (rd_at "line" _ (pre ++ [123]) 60 (92 :: 110 :: 62 :: 125 :: rest));
      [|now rewrite <- app_assoc|now rewrite zlen_app].
    cbn [obind]. change (60 =? 60) with true. cbv iota.
    rewrite (rd_at "line" _ (pre ++ [123; 60]) 92 (110 :: 62 :: 125 :: rest));
      [|now rewrite <- app_assoc|zl].
    cbn [obind]. change (92 =? 125) with false. change (92 =? 92) with true. cbv iota.
    rewrite (rd_at "line" _ (pre ++ [123; 60; 92]) 110 (62 :: 125 :: rest));
      [|now rewrite <- app_assoc|zl].
    cbn [obind]. change (110 =? 110) with true. cbv iota. cbn [obind].
    rewrite (rd_at "line" _ (pre ++ [123; 60; 92; 110]) 62 (125 :: rest));
      [|now rewrite <- app_assoc|zl].
    cbn [obind]. change (62 =? 62) with true. cbv iota.
    apply (char_end_at _ (pre ++ [123; 60; 92; 110; 62]) rest);
      [now rewrite <- app_assoc|zl]. }
  destruct (is_graphic uc v) eqn:G.
  - (* written as itself *)
    destruct (is_combining uc v) eqn:Co.
    + assert (128 <= v) as V by (destruct (Z.lt_ge_cases v 128) as [L|L]; [|exact L];
        rewrite Wide in Co by lia; discriminate Co).
      change (utf8 9676) with [226; 151; 140]. rewrite <- app_assoc. cbn [app].
      rewrite (rd_at "line" _ (pre ++ [123]) 226 (151 :: 140 :: utf8 v ++ 125 :: rest));
        [|now rewrite <- app_assoc|now rewrite zlen_app].
      cbn [obind]. change (226 =? 60) with false. cbv iota.
      rewrite (skipn_at _ (pre ++ [123]) (utf8 9676 ++ utf8 v ++ 125 :: rest));
        [|now rewrite <- app_assoc|now rewrite zlen_app].
      destruct (iterate_complete 9676 (utf8 v ++ 125 :: rest)) as (_ & -> & _); [unfold scalar; lia|].
      cbn [obind]. change (zlen (utf8 9676)) with 3. change (3 <? 1) with false. cbv iota.
      change (9676 =? DOTTED_CIRCLE) with true. cbv iota.
      assert (exists b0 t, utf8 v = b0 :: t /\ 192 <= b0) as (b0 & t & Eu & B0).
      { unfold utf8. destruct (Z.ltb_spec v 128); [lia|]. destruct (v <? 2048), (v <? 65536);
          do 2 eexists; (split; [reflexivity|]); Z.to_euclidean_division_equations; lia. }
      assert (2 <= zlen (utf8 v)) as L2.
      { unfold utf8. destruct (Z.ltb_spec v 128); [lia|]. destruct (v <? 2048), (v <? 65536); cbn; lia. }
      rewrite (rd_at "line" _ (pre ++ [123; 226; 151; 140]) b0 (t ++ 125 :: rest));
        [|rewrite Eu, <- app_assoc; reflexivity|zl].
      cbn [obind]. replace (b0 =? 125) with false by lia. cbn [negb]. cbv iota.
      rewrite (skipn_at _ (pre ++ [123; 226; 151; 140]) (utf8 v ++ 125 :: rest));
        [|now rewrite <- app_assoc|zl].
      destruct (iterate_complete v (125 :: rest) Sc) as (_ & -> & _). cbn [obind].
      replace (zlen (utf8 v) <? 2) with false by lia.
      apply (char_end_at _ (pre ++ [123; 226; 151; 140] ++ utf8 v) rest);
        [now rewrite <- !app_assoc|zl].
    + cbn [app].
      destruct (utf8 v) as [|b0 t] eqn:Eu; [pose proof (utf8_length v Sc) as L; rewrite Eu in L; cbn in L; lia|].
      cbn [app].
      rewrite (rd_at "line" _ (pre ++ [123]) b0 (t ++ 125 :: rest));
        [|now rewrite <- app_assoc|now rewrite zlen_app].
      cbn [obind]. destruct (Z.eqb_spec b0 60) as [E60|N60].
      * (* a stray less-than sign *)
        assert (v = 60 /\ t = []) as [-> ->].
        { unfold utf8 in Eu. destruct (Z.ltb_spec v 128).
          - injection Eu as E1 E2. subst. auto.
          - pose proof (Z.div_pos v 64 ltac:(lia) ltac:(lia)).
            pose proof (Z.div_pos v 4096 ltac:(lia) ltac:(lia)).
            pose proof (Z.div_pos v 262144 ltac:(lia) ltac:(lia)).
            destruct (v <? 2048); [|destruct (v <? 65536)]; apply (f_equal (hd 0)) in Eu; cbv beta iota delta [hd] in Eu; exfalso; lia. }
        cbn [app].
        rewrite (rd_at "line" _ (pre ++ [123; 60]) 125 rest);
          [|rewrite E60, <- app_assoc; reflexivity|zl].
        cbn [obind]. change (125 =? 125) with true. cbv iota.
        apply (char_end_at _ (pre ++ [123; 60]) rest);
          [rewrite E60, <- app_assoc; reflexivity|zl].
      * rewrite (skipn_at _ (pre ++ [123]) (utf8 v ++ 125 :: rest));
          [|rewrite Eu, <- app_assoc; reflexivity|now rewrite zlen_app].
        destruct (iterate_complete v (125 :: rest) Sc) as (_ & -> & _). cbn [obind].
        pose proof (utf8_length v Sc) as L. replace (zlen (utf8 v) <? 1) with false by lia.
        assert (forall x, char_end (pre ++ 123 :: b0 :: t ++ 125 :: rest)
                 (zlen pre + 1 + zlen (utf8 v)) x = Ok x) as CE.
        { intros x. apply (char_end_at _ (pre ++ [123] ++ utf8 v) rest).
          - rewrite Eu, <- app_assoc. reflexivity.
          - zl. }
        destruct (v =? DOTTED_CIRCLE).
        -- rewrite (rd_at "line" _ (pre ++ [123] ++ utf8 v) 125 rest);
             [|rewrite Eu, <- app_assoc; reflexivity|zl].
           cbn [obind]. change (125 =? 125) with true. cbn [negb]. cbv iota. apply CE.
        -- cbn [obind]. apply CE.
  - (* a hexadecimal escape *)
    pose proof (hexpad_str (if v <? 256 then 2 else 4) v ltac:(lia)) as H.
    set (h := hexpad (if v <? 256 then 2%nat else 4%nat) v) in *.
    change (bytes "<" ++ h ++ bytes ">") with (60 :: h ++ [62]). cbn [app].
    rewrite <- app_assoc. cbn [app].
    rewrite (rd_at "line" _ (pre ++ [123]) 60 (h ++ 62 :: 125 :: rest));
      [|now rewrite <- app_assoc|now rewrite zlen_app].
    cbn [obind]. change (60 =? 60) with true. cbv iota.
    assert (exists c t, h = c :: t /\ (48 <= c <= 57 \/ 65 <= c <= 70)) as (c & t & Eh & C).
    { destruct H as (N & F & _). destruct h as [|c t]; [congruence|].
      apply Forall_cons_iff in F as [[_ B] _]. eauto. }
    rewrite (rd_at "line" _ (pre ++ [123; 60]) c (t ++ 62 :: 125 :: rest));
      [|rewrite Eh, <- app_assoc; reflexivity|zl].
    cbn [obind]. replace (c =? 125) with false by lia. replace (c =? 92) with false by lia.
    cbn [obind].
    rewrite (cstr_at _ (pre ++ [123; 60]) (h ++ 62 :: 125 :: rest));
      [|now rewrite <- app_assoc|zl].
    change (h ++ 62 :: 125 :: rest) with (h ++ [62; 125] ++ rest).
    rewrite (upto_nul_app h _ (62 :: 125 :: s)); [|now apply (hex_str_no_nul h v)|].
    2:{ apply (upto_nul_app [62; 125]); [|exact Hs]. cbn. intuition lia. }
    cbn [obind]. rewrite (scan_hex_str h v _ H) by lia. cbn [obind].
    rewrite (rd_at "line" _ (pre ++ [123; 60] ++ h) 62 (125 :: rest));
      [|rewrite <- !app_assoc; reflexivity|].
    2:{ zl. }
    cbn [obind]. change (62 =? 62) with true. cbv iota.
    apply (char_end_at _ (pre ++ [123; 60] ++ h ++ [62]) rest); [now rewrite <- !app_assoc|].
    zl.
Qed.
End Char.
