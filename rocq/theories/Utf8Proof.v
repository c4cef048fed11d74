(** UTF-8 decoding and encoding by utf8proc agree with RFC 3629. *)
From Verif Require Import Base Utf8Model TextModel TextSpec.
From Coq Require Import String.
Local Open Scope Z_scope.
Local Open Scope list_scope.

Lemma byte_forall (p : Z -> bool) :
  forallb p (zrange 0 256) = true -> forall b, 0 <= b < 256 -> p b = true.
Proof.
  intros H b Hb. rewrite forallb_forall in H. apply H. apply In_zrange. cbn. lia.
Qed.

Lemma lor_add a n b : 0 <= n -> 0 <= b < 2 ^ n -> Z.lor (Z.shiftl a n) b = a * 2 ^ n + b.
Proof.
  intros Hn Hb. rewrite <- Z.shiftl_mul_pow2 by lia.
  assert (Z.land (Z.shiftl a n) b = 0) as L.
  { apply Z.bits_inj'. intros i Hi. rewrite Z.land_spec, Z.bits_0.
    rewrite Z.shiftl_spec by lia.
    destruct (Z.ltb_spec i n).
    - rewrite (Z.testbit_neg_r a) by lia. reflexivity.
    - assert (Z.testbit b i = false) as ->.
      { rewrite <- (Z.mod_small b (2 ^ n)) by lia. now apply Z.mod_pow2_bits_high. }
      apply andb_false_r. }
  rewrite Z.add_nocarry_lxor by exact L. now rewrite Z.lxor_lor.
Qed.

Lemma land63 b : Z.land b 63 = b mod 64.
Proof. change 63 with (Z.ones 6). now rewrite Z.land_ones. Qed.
Lemma land31 b : Z.land b 31 = b mod 32.
Proof. change 31 with (Z.ones 5). now rewrite Z.land_ones. Qed.
Lemma land15 b : Z.land b 15 = b mod 16.
Proof. change 15 with (Z.ones 4). now rewrite Z.land_ones. Qed.
Lemma land7 b : Z.land b 7 = b mod 8.
Proof. change 7 with (Z.ones 3). now rewrite Z.land_ones. Qed.

Lemma utf_cont_spec b : 0 <= b < 256 -> utf_cont b = (128 <=? b) && (b <? 192).
Proof.
  intros Hb. apply eqb_prop.
  apply (byte_forall (fun b => Bool.eqb (utf_cont b) ((128 <=? b) && (b <? 192)))); [|exact Hb].
  vm_compute. reflexivity.
Qed.

Lemma join2 a b : Z.lor (Z.shiftl a 6) (b mod 64) = a * 64 + b mod 64.
Proof. apply (lor_add a 6); [lia|]. apply Z.mod_pos_bound. lia. Qed.
Lemma join3 a b c :
  Z.lor (Z.lor (Z.shiftl a 12) (Z.shiftl (b mod 64) 6)) (c mod 64)
  = (a * 64 + b mod 64) * 64 + c mod 64.
Proof.
  rewrite <- join2, <- join2, Z.shiftl_lor, Z.shiftl_shiftl by lia. reflexivity.
Qed.
Lemma join4 a b c d :
  Z.lor (Z.lor (Z.lor (Z.shiftl a 18) (Z.shiftl (b mod 64) 12)) (Z.shiftl (c mod 64) 6)) (d mod 64)
  = ((a * 64 + b mod 64) * 64 + c mod 64) * 64 + d mod 64.
Proof.
  rewrite <- join2, <- join2, <- join2, !Z.shiftl_lor, !Z.shiftl_shiftl by lia. reflexivity.
Qed.

Ltac eucl := Z.to_euclidean_division_equations; lia.

(** Decoding four bytes: the result is the character whose encoding is a prefix. *)
Lemma iterate_sound b0 b1 b2 b3 st c :
  is_byte b0 -> is_byte b1 -> is_byte b2 -> is_byte b3 ->
  iterate [b0; b1; b2; b3] 4 = Ok (st, c) -> 0 < st ->
  scalar c /\ st = zlen (utf8 c) /\ st = utf8class b0 /\
  firstn (Z.to_nat st) [b0; b1; b2; b3] = utf8 c.
Proof.
  unfold is_byte. intros H0 H1 H2 H3. unfold iterate. cbn [Z.eqb].
  change (rd "str" [b0; b1; b2; b3] 0) with (Ok b0).
  change (rd "str" [b0; b1; b2; b3] 1) with (Ok b1).
  change (rd "str" [b0; b1; b2; b3] 2) with (Ok b2).
  change (rd "str" [b0; b1; b2; b3] 3) with (Ok b3).
  cbn [obind]. rewrite !utf_cont_spec by assumption.
  rewrite ?land63, ?land31, ?land15, ?land7, ?join2, ?join3, ?join4.
  unfold scalar, utf8class, utf8, INVALIDUTF8.
  destruct (Z.ltb_spec b0 128).
  { intros [= <- <-] _. destruct (Z.ltb_spec b0 128); [|lia].
    cbn. repeat split; lia. }
  destruct (Z.ltb_spec b0 194); cbn [orb]; [intros [= <- <-]; lia|].
  destruct (Z.ltb_spec 244 b0); [intros [= <- <-]; lia|].
  destruct (Z.ltb_spec b0 192); [lia|].
  destruct (Z.ltb_spec b0 224).
  { cbn [Z.leb Z.compare Pos.compare Pos.compare_cont].
    destruct (Z.leb_spec 128 b1); cbn [andb]; [|intros [= <- <-]; lia].
    destruct (Z.ltb_spec b1 192); [|intros [= <- <-]; lia].
    intros [= <- <-] _. set (c := b0 mod 32 * 64 + b1 mod 64).
    assert (c = (b0 - 192) * 64 + (b1 - 128)) as Ec by (subst c; eucl). clearbody c.
    destruct (Z.ltb_spec c 128); [lia|]. destruct (Z.ltb_spec c 2048); [|lia].
    split; [lia|]. split; [reflexivity|]. split; [reflexivity|].
    change (Z.to_nat 2) with 2%nat; cbn [firstn].
    f_equal; [eucl|]. f_equal. eucl. }
  destruct (Z.ltb_spec b0 240).
  { cbn [Z.leb Z.compare Pos.compare Pos.compare_cont].
    destruct (Z.leb_spec 128 b1); cbn [andb]; [|intros [= <- <-]; lia].
    destruct (Z.ltb_spec b1 192); [|intros [= <- <-]; lia].
    destruct (Z.leb_spec 128 b2); cbn [andb]; [|intros [= <- <-]; lia].
    destruct (Z.ltb_spec b2 192); [|intros [= <- <-]; lia].
    destruct (Z.eqb_spec b0 237), (Z.ltb_spec 159 b1); cbn [andb];
      try (intros [= <- <-]; lia);
      set (v := (b0 mod 16 * 64 + b1 mod 64) * 64 + b2 mod 64);
      assert (v = ((b0 - 224) * 64 + (b1 - 128)) * 64 + (b2 - 128)) as Ec by (subst v; eucl);
      clearbody v;
      (destruct (Z.ltb_spec v 2048); [intros [= <- <-]; lia|]);
      intros [= <- <-] _;
      (destruct (Z.ltb_spec v 128); [lia|]);
      (destruct (Z.ltb_spec v 2048); [lia|]); (destruct (Z.ltb_spec v 65536); [|lia]);
      (split; [lia|]; split; [reflexivity|]; split; [reflexivity|]); change (Z.to_nat 3) with 3%nat; cbn [firstn];
      (f_equal; [eucl|]; f_equal; [eucl|]; f_equal; eucl). }
  destruct (Z.ltb_spec b0 248); [|lia].
  cbn [Z.leb Z.compare Pos.compare Pos.compare_cont].
  destruct (Z.leb_spec 128 b1); cbn [andb]; [|intros [= <- <-]; lia].
  destruct (Z.ltb_spec b1 192); [|intros [= <- <-]; lia].
  destruct (Z.leb_spec 128 b2); cbn [andb]; [|intros [= <- <-]; lia].
  destruct (Z.ltb_spec b2 192); [|intros [= <- <-]; lia].
  destruct (Z.leb_spec 128 b3); cbn [andb]; [|intros [= <- <-]; lia].
  destruct (Z.ltb_spec b3 192); [|intros [= <- <-]; lia].
  destruct (Z.eqb_spec b0 240), (Z.ltb_spec b1 144), (Z.eqb_spec b0 244), (Z.ltb_spec 143 b1);
    cbn [andb orb]; try (intros [= <- <-]; lia); intros [= <- <-] _; try lia;
    set (c := ((b0 mod 8 * 64 + b1 mod 64) * 64 + b2 mod 64) * 64 + b3 mod 64);
    assert (c = (((b0 - 240) * 64 + (b1 - 128)) * 64 + (b2 - 128)) * 64 + (b3 - 128)) as Ec
      by (subst c; eucl);
    clearbody c;
    (destruct (Z.ltb_spec c 128); [lia|]);
    (destruct (Z.ltb_spec c 2048); [lia|]); (destruct (Z.ltb_spec c 65536); [lia|]);
    (split; [lia|]; split; [reflexivity|]; split; [reflexivity|]); change (Z.to_nat 4) with 4%nat; cbn [firstn];
    (f_equal; [eucl|]; f_equal; [eucl|]; f_equal; [eucl|]; f_equal; eucl).
Qed.

(** Decoding an encoding, whatever follows it. *)
Lemma iterate_complete c rest :
  scalar c ->
  Forall is_byte (utf8 c) /\ iterate (utf8 c ++ rest) 4 = Ok (zlen (utf8 c), c) /\
  exists b0 t, utf8 c = b0 :: t /\ utf8class b0 = zlen (utf8 c).
Proof.
  intros [Hc Hs]. unfold utf8.
  destruct (Z.ltb_spec c 128).
  { split; [|split].
    - repeat constructor; lia.
    - unfold iterate. cbn [Z.eqb app]. change (rd "str" (c :: rest) 0) with (Ok c).
      cbn [obind]. destruct (Z.ltb_spec c 128); [reflexivity|lia].
    - exists c, []. split; [reflexivity|]. unfold utf8class.
      destruct (Z.ltb_spec c 128); [reflexivity|lia]. }
  destruct (Z.ltb_spec c 2048).
  { set (b0 := 192 + c / 64). set (b1 := 128 + c mod 64).
    assert (194 <= b0 < 224 /\ 128 <= b1 < 192 /\ c = (b0 - 192) * 64 + (b1 - 128)) as E
      by (subst b0 b1; eucl).
    clearbody b0 b1. split; [repeat constructor; unfold is_byte; lia|]. split.
    - unfold iterate. cbn [Z.eqb app].
      change (rd "str" (b0 :: b1 :: rest) 0) with (Ok b0).
      change (rd "str" (b0 :: b1 :: rest) 1) with (Ok b1). cbn [obind].
      rewrite !utf_cont_spec by lia. rewrite land63, land31, join2.
      destruct (Z.ltb_spec b0 128); [lia|]. destruct (Z.ltb_spec b0 194); [lia|].
      destruct (Z.ltb_spec 244 b0); [lia|]. destruct (Z.ltb_spec b0 224); [|lia].
      cbn [orb Z.leb Z.compare Pos.compare Pos.compare_cont].
      destruct (Z.leb_spec 128 b1); [|lia]. destruct (Z.ltb_spec b1 192); [|lia].
      cbn [andb]. do 2 f_equal. eucl.
    - exists b0, [b1]. split; [reflexivity|]. unfold utf8class.
      destruct (Z.ltb_spec b0 128); [lia|]. destruct (Z.ltb_spec b0 192); [lia|].
      destruct (Z.ltb_spec b0 224); [reflexivity|lia]. }
  destruct (Z.ltb_spec c 65536).
  { set (b0 := 224 + c / 4096). set (b1 := 128 + (c / 64) mod 64). set (b2 := 128 + c mod 64).
    assert (224 <= b0 < 240 /\ 128 <= b1 < 192 /\ 128 <= b2 < 192 /\
            c = ((b0 - 224) * 64 + (b1 - 128)) * 64 + (b2 - 128)) as E by (subst b0 b1 b2; eucl).
    clearbody b0 b1 b2. split; [repeat constructor; unfold is_byte; lia|]. split.
    - unfold iterate. cbn [Z.eqb app].
      change (rd "str" (b0 :: b1 :: b2 :: rest) 0) with (Ok b0).
      change (rd "str" (b0 :: b1 :: b2 :: rest) 1) with (Ok b1).
      change (rd "str" (b0 :: b1 :: b2 :: rest) 2) with (Ok b2). cbn [obind].
      rewrite !utf_cont_spec by lia. rewrite ?land63, ?land31, ?land15, ?join2, ?join3.
      destruct (Z.ltb_spec b0 128); [lia|]. destruct (Z.ltb_spec b0 194); [lia|].
      destruct (Z.ltb_spec 244 b0); [lia|]. destruct (Z.ltb_spec b0 224); [lia|].
      destruct (Z.ltb_spec b0 240); [|lia].
      cbn [orb Z.leb Z.compare Pos.compare Pos.compare_cont].
      destruct (Z.leb_spec 128 b1); [|lia]. destruct (Z.ltb_spec b1 192); [|lia].
      destruct (Z.leb_spec 128 b2); [|lia]. destruct (Z.ltb_spec b2 192); [|lia].
      cbn [andb].
      assert ((b0 mod 16 * 64 + b1 mod 64) * 64 + b2 mod 64 = c) as -> by eucl.
      destruct (Z.ltb_spec c 2048); [lia|].
      destruct (Z.eqb_spec b0 237), (Z.ltb_spec 159 b1); cbn [andb]; try reflexivity. lia.
    - exists b0, [b1; b2]. split; [reflexivity|]. unfold utf8class.
      destruct (Z.ltb_spec b0 128); [lia|]. destruct (Z.ltb_spec b0 192); [lia|].
      destruct (Z.ltb_spec b0 224); [lia|]. destruct (Z.ltb_spec b0 240); [reflexivity|lia]. }
  set (b0 := 240 + c / 262144). set (b1 := 128 + (c / 4096) mod 64).
  set (b2 := 128 + (c / 64) mod 64). set (b3 := 128 + c mod 64).
  assert (240 <= b0 < 245 /\ 128 <= b1 < 192 /\ 128 <= b2 < 192 /\ 128 <= b3 < 192 /\
          c = (((b0 - 240) * 64 + (b1 - 128)) * 64 + (b2 - 128)) * 64 + (b3 - 128)) as E
    by (subst b0 b1 b2 b3; eucl).
  clearbody b0 b1 b2 b3. split; [repeat constructor; unfold is_byte; lia|]. split.
  - unfold iterate. cbn [Z.eqb app].
    change (rd "str" (b0 :: b1 :: b2 :: b3 :: rest) 0) with (Ok b0).
    change (rd "str" (b0 :: b1 :: b2 :: b3 :: rest) 1) with (Ok b1).
    change (rd "str" (b0 :: b1 :: b2 :: b3 :: rest) 2) with (Ok b2).
    change (rd "str" (b0 :: b1 :: b2 :: b3 :: rest) 3) with (Ok b3). cbn [obind].
    rewrite !utf_cont_spec by lia. rewrite ?land63, ?land31, ?land15, ?land7, ?join2, ?join3, ?join4.
    destruct (Z.ltb_spec b0 128); [lia|]. destruct (Z.ltb_spec b0 194); [lia|].
    destruct (Z.ltb_spec 244 b0); [lia|]. destruct (Z.ltb_spec b0 224); [lia|].
    destruct (Z.ltb_spec b0 240); [lia|].
    cbn [orb Z.leb Z.compare Pos.compare Pos.compare_cont].
    destruct (Z.leb_spec 128 b1); [|lia]. destruct (Z.ltb_spec b1 192); [|lia].
    destruct (Z.leb_spec 128 b2); [|lia]. destruct (Z.ltb_spec b2 192); [|lia].
    destruct (Z.leb_spec 128 b3); [|lia]. destruct (Z.ltb_spec b3 192); [|lia].
    cbn [andb].
    assert (((b0 mod 8 * 64 + b1 mod 64) * 64 + b2 mod 64) * 64 + b3 mod 64 = c) as -> by eucl.
    destruct (Z.eqb_spec b0 240), (Z.ltb_spec b1 144), (Z.eqb_spec b0 244), (Z.ltb_spec 143 b1);
      cbn [andb orb]; try reflexivity; lia.
  - exists b0, [b1; b2; b3]. split; [reflexivity|]. unfold utf8class.
    destruct (Z.ltb_spec b0 128); [lia|]. destruct (Z.ltb_spec b0 192); [lia|].
    destruct (Z.ltb_spec b0 224); [lia|]. destruct (Z.ltb_spec b0 240); [lia|].
    destruct (Z.ltb_spec b0 248); [reflexivity|lia].
Qed.

Lemma utf8_length c : scalar c -> 1 <= zlen (utf8 c) <= 4.
Proof.
  intros _. unfold utf8.
  destruct (c <? 128), (c <? 2048), (c <? 65536); cbn; lia.
Qed.

(** Encoding of a code point (surrogates included). *)
Lemma encode_char_spec c : 0 <= c <= 1114111 -> encode_char c = utf8 c.
Proof.
  intros Hc. unfold encode_char, utf8.
  rewrite !land63, !Z.shiftr_div_pow2 by lia.
  change (2 ^ 6) with 64. change (2 ^ 12) with 4096. change (2 ^ 18) with 262144.
  destruct (Z.ltb_spec c 0); [lia|].
  destruct (c <? 128), (c <? 2048), (c <? 65536); try reflexivity.
  all: destruct (Z.ltb_spec c 1114112); [reflexivity|lia].
Qed.

(** Never undefined behaviour on four readable bytes. *)
Lemma iterate_total b0 b1 b2 b3 r : exists st c, iterate (b0 :: b1 :: b2 :: b3 :: r) 4 = Ok (st, c).
Proof.
  unfold iterate. cbn [Z.eqb].
  change (rd "str" (b0 :: b1 :: b2 :: b3 :: r) 0) with (Ok b0).
  change (rd "str" (b0 :: b1 :: b2 :: b3 :: r) 1) with (Ok b1).
  change (rd "str" (b0 :: b1 :: b2 :: b3 :: r) 2) with (Ok b2).
  change (rd "str" (b0 :: b1 :: b2 :: b3 :: r) 3) with (Ok b3).
  cbn [obind].
  repeat match goal with
         | |- exists st c, Ok _ = _ => eauto
         | |- exists st c, (if ?b then _ else _) = _ => destruct b
         end.
Qed.
