(** Property C77: texts made of strings. *)
From Coq Require Import String.
From Verif Require Import Base CLib Utf8Model TextModel TextSpec Utf8Proof TextProof StringSpec TextProps.
Local Open Scope Z_scope.
Local Open Scope list_scope.

Lemma utf8_zero c : scalar c -> In 0 (utf8 c) -> c = 0.
Proof.
  unfold scalar, utf8. intros [B _].
  destruct (Z.ltb_spec c 128); [intros [Q|[]]; exact Q|].
  destruct (Z.ltb_spec c 2048); [intros [Q|[Q|[]]]; exfalso; revert Q; Z.to_euclidean_division_equations; lia|].
  destruct (Z.ltb_spec c 65536); [intros [Q|[Q|[Q|[]]]]; exfalso; revert Q; Z.to_euclidean_division_equations; lia|].
  intros [Q|[Q|[Q|[Q|[]]]]]; exfalso; revert Q; Z.to_euclidean_division_equations; lia.
Qed.

(** The decoder does not look beyond the NUL: with zeros after it the result is the same. *)
Lemma iterate_padded s : s <> [] -> iterate (s ++ [0]) 4 = iterate (firstn 4 (s ++ [0; 0; 0; 0])) 4.
Proof.
  intros N. destruct s as [|b0 [|b1 [|b2 [|b3 r]]]]; [congruence| | | |];
    unfold iterate; cbn [app firstn Z.eqb]; unfold rd; cbn [znth Z.ltb Z.to_nat nth_error Pos.to_nat Pos.iter_op Nat.add Z.compare obind];
    repeat match goal with
    | |- ?x = ?x => reflexivity
    | |- (if ?b then _ else _) = _ => destruct b
    end; try reflexivity.
Qed.

Lemma iterate_string s : s <> [] -> string_bytes s ->
  exists st c, iterate (s ++ [0]) 4 = Ok (st, c) /\
    ((1 <= st /\ scalar c /\ c <> 0 /\ zlen (utf8 c) = st /\ exists more, s = utf8 c ++ more) \/
     (st < 1 /\ forall c more, scalar c -> s <> utf8 c ++ more)).
Proof.
  intros N B. rewrite (iterate_padded s N).
  assert (exists b0 b1 b2 b3, firstn 4 (s ++ [0; 0; 0; 0]) = [b0; b1; b2; b3] /\ is_byte b0 /\ is_byte b1 /\ is_byte b2 /\ is_byte b3 /\ b0 <> 0 /\
    exists t, s = b0 :: t) as (b0 & b1 & b2 & b3 & E & H0 & H1 & H2 & H3 & Nz & t & Es).
  { assert (is_byte 0) as Z0 by (unfold is_byte; lia). unfold string_bytes in B. rewrite Forall_forall in B.
    destruct s as [|b0 [|b1 [|b2 [|b3 r]]]]; [congruence| | | |]; cbn [app firstn In] in *.
    1: exists b0, 0, 0, 0. 2: exists b0, b1, 0, 0. 3: exists b0, b1, b2, 0. 4: exists b0, b1, b2, b3.
    all: split; [reflexivity|]; destruct (B b0 (or_introl eq_refl)) as [P Q].
    all: split; [exact P|].
    all: split; [first [exact Z0|apply B; tauto]|]; split; [first [exact Z0|apply B; tauto]|]; split; [first [exact Z0|apply B; tauto]|].
    all: split; [exact Q|]; eauto. }
  destruct (iterate_total b0 b1 b2 b3 []) as (st & c & I). rewrite E. exists st, c. split; [exact I|].
  destruct (Z.le_gt_cases 1 st) as [P|P].
  - left. destruct (iterate_sound b0 b1 b2 b3 st c H0 H1 H2 H3 I ltac:(lia)) as (S & L & _ & F).
    assert (c <> 0) as C0.
    { intros ->. change (utf8 0) with [0] in F. assert (Z.to_nat st = Datatypes.S (pred (Z.to_nat st))) as K by lia. rewrite K in F. cbn [firstn] in F. congruence. }
    split; [exact P|]. split; [exact S|]. split; [exact C0|]. split; [now symmetry|].
    pose proof (utf8_length c S) as U.
    rewrite <- E, firstn_firstn, Nat.min_l in F by lia.
    assert ((Z.to_nat st <= List.length s)%nat) as Le.
    { destruct (Nat.le_gt_cases (Z.to_nat st) (List.length s)) as [|Gt]; [assumption|]. exfalso. apply C0. apply utf8_zero; [exact S|].
      rewrite <- F. rewrite firstn_app. apply in_or_app. right.
      assert (Z.to_nat st - List.length s = Datatypes.S (pred (Z.to_nat st - List.length s)))%nat as -> by lia. now left. }
    exists (skipn (Z.to_nat st) s). rewrite <- F, firstn_app.
    assert (Z.to_nat st - List.length s = 0)%nat as -> by lia. cbn [firstn]. now rewrite app_nil_r, firstn_skipn.
  - right. split; [lia|]. intros c' more S Es'.
    assert (iterate (s ++ [0]) 4 = Ok (zlen (utf8 c'), c')) as I'.
    { rewrite Es', <- app_assoc. now apply iterate_complete. }
    rewrite (iterate_padded s N), E, I in I'. injection I' as E1 E2. pose proof (utf8_length c' S). lia.
Qed.

Lemma string_loop : forall fuel s, (List.length s <= fuel)%nat -> string_bytes s ->
  exists cs rest, decoded_part s cs rest /\
    cstring_to_text fuel s = Ok (map (mkchar false) cs, match rest with [] => true | _ => false end).
Proof.
  induction fuel as [|fuel IH]; intros s L B.
  - destruct s; [|cbn in L; lia]. exists [], []. split; [|reflexivity]. split; [constructor|]. split; [reflexivity|].
    intros c more S Q. pose proof (utf8_length c S). destruct (utf8 c); [cbn in *; lia|discriminate Q].
  - destruct s as [|b t].
    + exists [], []. split; [|reflexivity]. split; [constructor|]. split; [reflexivity|].
      intros c more S Q. pose proof (utf8_length c S). destruct (utf8 c); [cbn in *; lia|discriminate Q].
    + destruct (iterate_string (b :: t) ltac:(discriminate) B) as (st & c & I & [(P & S & C0 & Zl & more & Es)|(P & No)]).
      * assert (skipn (Z.to_nat st) (b :: t) = more) as K.
        { rewrite Es, <- Zl. unfold zlen. rewrite Nat2Z.id, skipn_app, skipn_all, Nat.sub_diag. reflexivity. }
        assert (string_bytes more) as Bm.
        { unfold string_bytes in *. rewrite Es in B. apply Forall_app in B. tauto. }
        destruct (IH more) as (cs & rest & (Sc & Em & No) & R).
        { apply (f_equal (@List.length Z)) in Es. rewrite app_length in Es. pose proof (utf8_length c S) as U. unfold zlen in U. cbn [List.length] in L, Es. lia. }
        { exact Bm. }
        exists (c :: cs), rest. split.
        -- split; [now constructor|]. split; [|exact No]. cbn [utf8s flat_map]. rewrite <- app_assoc. rewrite Es, Em. reflexivity.
        -- cbn [cstring_to_text]. rewrite I. cbn [obind]. destruct (Z.ltb_spec st 1); [lia|]. rewrite K, R. reflexivity.
      * exists [], (b :: t). split.
        -- split; [constructor|]. split; [reflexivity|exact No].
        -- cbn [cstring_to_text]. rewrite I. cbn [obind]. destruct (Z.ltb_spec st 1); [|lia]. reflexivity.
Qed.

(** C77: for every string, cstring_to_text stays within the string and its NUL and ends; the characters it appends, none of
    them marked, are those of the longest part that can be decoded, and the result is true exactly if nothing remains. *)
Theorem C77_string : forall s, string_bytes s ->
  exists cs rest, decoded_part s cs rest /\
    cstring_to_text (List.length s) s = Ok (map (mkchar false) cs, match rest with [] => true | _ => false end).
Proof. intros s B. apply string_loop; [lia|exact B]. Qed.
Print Assumptions C77_string.

(** C77: the result is true exactly for the encodings of sequences of characters, and the text then consists of these. *)
Theorem C77_valid : forall s cs, string_bytes s ->
  (cstring_to_text (List.length s) s = Ok (map (mkchar false) cs, true) <-> Forall scalar cs /\ s = utf8s cs).
Proof.
  assert (forall c1 c2 : list Z, map (mkchar false) c1 = map (mkchar false) c2 -> c1 = c2) as Inj.
  { induction c1 as [|x l IH]; intros [|y k] Q; try discriminate Q; [reflexivity|]. injection Q as -> Q. f_equal. auto. }
  intros s cs B. destruct (C77_string s B) as (cs' & rest & (Sc & Es & No) & ->). split.
  - intros Q. injection Q as Q1 Q2. apply Inj in Q1. subst cs'. destruct rest; [|discriminate Q2]. rewrite app_nil_r in Es. auto.
  - intros [S2 E2].
    assert (cs' = cs /\ rest = []) as [-> ->]; [|reflexivity].
    assert (forall cs' cs rest, Forall scalar cs' -> Forall scalar cs -> (forall c more, scalar c -> rest <> utf8 c ++ more) -> utf8s cs' ++ rest = utf8s cs -> cs' = cs /\ rest = []) as W.
    { clear. induction cs' as [|c l IH]; intros [|d k] rest S1 S2 No E.
      - cbn in E. auto.
      - exfalso. inversion S2; subst. cbn [utf8s flat_map app] in E. exact (No d (utf8s k) H1 E).
      - exfalso. inversion S1; subst. cbn in E. pose proof (utf8_length c H1). destruct (utf8 c); [cbn in *; lia|discriminate E].
      - inversion S1; inversion S2; subst. cbn [utf8s flat_map] in E. rewrite <- app_assoc in E.
        destruct (iterate_complete c (utf8s l ++ rest) H1) as (_ & I1 & _). destruct (iterate_complete d (utf8s k) H5) as (_ & I2 & _).
        unfold utf8s in I1, I2. rewrite E, I2 in I1. injection I1 as _ ->. apply app_inv_head in E.
        destruct (IH k rest) as [-> ->]; auto. }
    apply W; auto. congruence.
Qed.
Print Assumptions C77_valid.

(** C77: a text read from a file and a text made of the string of its bytes are the same. *)
Theorem C77_file : forall uc line buf s cs, junk_ok line buf -> string_bytes s ->
  (cstring_to_text (List.length s) s = Ok (map (mkchar false) cs, true) <->
   read_text uc line buf plain_opt [] s = Ok (map (mkchar false) cs, false)).
Proof.
  intros uc line buf s cs J B. rewrite C77_valid by exact B. symmetry. apply C08_decode; [exact J|].
  unfold string_bytes in B. rewrite Forall_forall in B |- *. intros b Hb. apply (B b Hb).
Qed.
Print Assumptions C77_file.

Example C77_ex :
  cstring_to_text 10 [97; 195; 169; 226; 130; 172; 240; 159; 152; 128] = Ok (map (mkchar false) [97; 233; 8364; 128512], true) /\
  cstring_to_text 4 [98; 97; 226; 130] = Ok (map (mkchar false) [98; 97], false) /\
  cstring_to_text 0 [] = Ok ([], true) /\
  string_bytes [97; 195; 169; 226; 130; 172; 240; 159; 152; 128] /\ decoded_part [98; 97; 226; 130] [98; 97] [226; 130].
Proof.
  split; [reflexivity|]. split; [reflexivity|]. split; [reflexivity|]. split; [unfold string_bytes; repeat constructor; unfold is_byte; lia|].
  split; [repeat constructor; unfold scalar; lia|]. split; [reflexivity|].
  intros c more S Q. destruct (iterate_complete c (more ++ [0]) S) as (_ & I & _). rewrite app_assoc, <- Q in I. cbn in I.
  unfold INVALIDUTF8 in I. injection I as Q1 Q2. pose proof (utf8_length c S). lia.
Qed.
