(** What is read does not depend on the first contents of local buffers. *)
From Coq Require Import String.
From Verif Require Import Base CLib Utf8Model TextModel Utf8Proof TextSpec TextProof TextIO TextProps.
Local Open Scope Z_scope.
Local Open Scope list_scope.

Lemma skip_header_memory fuel : forall line line' n f, zlen line = 100 -> zlen line' = 100 ->
  skip_header fuel line n f = skip_header fuel line' n f.
Proof.
  induction fuel as [|fu IH]; intros line line' n f L L'; cbn [skip_header]; (destruct (n <? 2); [|reflexivity]);
    unfold fgets; (destruct f as [|c f]; [reflexivity|]);
    (destruct (fgets_bytes (Z.to_nat (99 - 1)) (c :: f)) as [s rest] eqn:G);
    pose proof (fgets_bytes_len (Z.to_nat (99 - 1)) (c :: f)) as Le; rewrite G in Le; cbn [fst] in Le;
    (destruct (store_string_ok line s) as (l1 & E1 & L1 & C1); [unfold zlen in *; lia|]);
    (destruct (store_string_ok line' s) as (l2 & E2 & L2 & C2); [unfold zlen in *; lia|]);
    rewrite E1, E2; cbn [obind]; rewrite C1, C2; cbn [obind]; [reflexivity|].
  apply IH; congruence.
Qed.

Lemma read_header_memory line line' f : zlen line = 100 -> zlen line' = 100 -> read_header line f = read_header line' f.
Proof.
  intros L L'. unfold read_header, fgets. destruct f as [|c f]; [reflexivity|].
  destruct (fgets_bytes (Z.to_nat (99 - 1)) (c :: f)) as [s rest] eqn:G.
  pose proof (fgets_bytes_len (Z.to_nat (99 - 1)) (c :: f)) as Le. rewrite G in Le. cbn [fst] in Le.
  destruct (store_string_ok line s) as (l1 & E1 & L1 & C1); [unfold zlen in *; lia|].
  destruct (store_string_ok line' s) as (l2 & E2 & L2 & C2); [unfold zlen in *; lia|].
  rewrite E1, E2. cbn [obind]. rewrite C1, C2. cbn [obind]. destruct (strneq _ _ _); [|reflexivity].
  rewrite (skip_header_memory _ l1 l2); [reflexivity|congruence|congruence].
Qed.

Lemma iterate_memory b y1 y2 y3 z1 z2 z3 : (2 <= utf8class b -> y1 = z1) -> (3 <= utf8class b -> y2 = z2) -> (4 <= utf8class b -> y3 = z3) ->
  1 <= utf8class b -> iterate [b; y1; y2; y3] 4 = iterate [b; z1; z2; z3] 4.
Proof.
  unfold utf8class, iterate. change (4 =? 0) with false. change (4 <=? 1) with false. change (4 <=? 2) with false. change (4 <=? 3) with false. cbv iota.
  change (rd "str" [b; y1; y2; y3] 0) with (Ok b). change (rd "str" [b; z1; z2; z3] 0) with (Ok b).
  change (rd "str" [b; y1; y2; y3] 1) with (Ok y1). change (rd "str" [b; z1; z2; z3] 1) with (Ok z1).
  change (rd "str" [b; y1; y2; y3] 2) with (Ok y2). change (rd "str" [b; z1; z2; z3] 2) with (Ok z2).
  change (rd "str" [b; y1; y2; y3] 3) with (Ok y3). change (rd "str" [b; z1; z2; z3] 3) with (Ok z3).
  cbn [obind]. intros H1 H2 H3 H.
  destruct (b <? 128); [reflexivity|]. destruct (Z.ltb_spec b 192); [lia|].
  destruct ((b <? 194) || (244 <? b)); [reflexivity|]. rewrite (H1 ltac:(destruct (b <? 224), (b <? 240), (b <? 248); lia)).
  destruct (b <? 224); [reflexivity|]. rewrite (H2 ltac:(destruct (b <? 240), (b <? 248); lia)).
  destruct (b <? 240); [reflexivity|]. rewrite (H3 ltac:(destruct (b <? 248); lia)). reflexivity.
Qed.

Lemma read_contents_memory fuel : forall f fm m buf buf' s, List.length buf = 4%nat -> List.length buf' = 4%nat ->
  read_contents fuel f fm m buf s = read_contents fuel f fm m buf' s.
Proof.
  induction fuel as [|fu IH]; intros f fm m buf buf' s L L'; destruct f as [|b f]; try reflexivity.
  destruct buf as [|x0 [|x1 [|x2 [|x3 [|]]]]]; try discriminate L. destruct buf' as [|y0 [|y1 [|y2 [|y3 [|]]]]]; try discriminate L'.
  assert (Next : forall a1 a2 a3 z1 z2 z3 rest,
    iterate [b; a1; a2; a3] 4 = iterate [b; z1; z2; z3] 4 ->
    (let! (status, code_point) := iterate [b; a1; a2; a3] 4 in
     if negb (status =? utf8class b) then Fail "Invalid UTF-8 string was supplied"
     else if fm && (code_point =? m) then read_contents fu rest fm m [b; a1; a2; a3] true
     else let! r := read_contents fu rest fm m [b; a1; a2; a3] false in Ok (mkchar s code_point :: r)) =
    (let! (status, code_point) := iterate [b; z1; z2; z3] 4 in
     if negb (status =? utf8class b) then Fail "Invalid UTF-8 string was supplied"
     else if fm && (code_point =? m) then read_contents fu rest fm m [b; z1; z2; z3] true
     else let! r := read_contents fu rest fm m [b; z1; z2; z3] false in Ok (mkchar s code_point :: r))).
  { intros a1 a2 a3 z1 z2 z3 rest ->. destruct (iterate [b; z1; z2; z3] 4) as [[st c]| | |]; try reflexivity. cbn [obind].
    rewrite (IH rest fm m [b; a1; a2; a3] [b; z1; z2; z3] true eq_refl eq_refl), (IH rest fm m [b; a1; a2; a3] [b; z1; z2; z3] false eq_refl eq_refl). reflexivity. }
  cbn [read_contents]. destruct (utf8class_cases b) as [K|[K|[K|[K|K]]]]; rewrite K in *.
  - reflexivity.
  - apply (Next x1 x2 x3 y1 y2 y3 f). apply iterate_memory; lia.
  - destruct f as [|f1 f]; [reflexivity|]. apply (Next f1 x2 x3 f1 y2 y3 f). apply iterate_memory; lia.
  - destruct f as [|f1 [|f2 f]]; try reflexivity. apply (Next f1 f2 x3 f1 f2 y3 f). apply iterate_memory; lia.
  - destruct f as [|f1 [|f2 [|f3 f]]]; reflexivity.
Qed.

(** Reading gives the same, whatever the buffers contain at first, for any file. *)
Lemma read_text_memory uc line line' buf buf' opt text f : junk_ok line buf -> junk_ok line' buf' ->
  read_text uc line buf opt text f = read_text uc line' buf' opt text f.
Proof.
  intros (L & B & _) (L' & B' & _). unfold read_text. rewrite (read_header_memory line line' f L L').
  destruct (if find_header opt then read_header line' f else Ok (false, f)) as [[h g]| | |]; try reflexivity. cbn [obind].
  rewrite (read_contents_memory _ g _ _ buf buf' false B B'). reflexivity.
Qed.
