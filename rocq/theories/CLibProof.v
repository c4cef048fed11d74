(** Facts about number formatting and scanning. *)
From Coq Require Import String.
From Verif Require Import Base CLib.
Local Open Scope Z_scope.
Local Open Scope list_scope.

Lemma to_digits_len fuel b n k :
  1 < b -> 0 <= n < b ^ Z.of_nat (S k) -> (List.length (to_digits fuel b n) <= S k)%nat.
Proof.
  intros Hb. revert n k; induction fuel as [|f IH]; intros n k Hn; cbn [to_digits]; [cbn; lia|].
  destruct (Z.ltb_spec n b); [cbn; lia|].
  destruct k as [|k].
  { change (Z.of_nat 1) with 1 in Hn. rewrite Z.pow_1_r in Hn. lia. }
  rewrite app_length. cbn [List.length].
  assert (0 <= n / b < b ^ Z.of_nat (S k)) as Hd.
  { split; [apply Z.div_pos; lia|]. apply Z.div_lt_upper_bound; [lia|].
    rewrite <- Z.pow_succ_r by lia. now rewrite <- Nat2Z.inj_succ. }
  specialize (IH (n / b) k Hd). lia.
Qed.

Lemma digits_len b n k : 1 < b -> 0 <= n < b ^ Z.of_nat (S k) -> (List.length (digits b n) <= S k)%nat.
Proof. apply to_digits_len. Qed.

Lemma to_digits_range fuel b n :
  1 < b -> 0 <= n -> Forall (fun d => 0 <= d < b) (to_digits fuel b n).
Proof.
  intros Hb. revert n; induction fuel as [|f IH]; intros n Hn; cbn [to_digits]; [constructor|].
  destruct (Z.ltb_spec n b); [repeat constructor; lia|].
  apply Forall_app. split; [apply IH, Z.div_pos; lia|]. repeat constructor; apply Z.mod_pos_bound; lia.
Qed.

Lemma to_digits_nonempty fuel b n : to_digits (S fuel) b n <> [].
Proof. cbn. destruct (n <? b); [discriminate|]. destruct (to_digits fuel b (n / b)); discriminate. Qed.

Lemma of_digits_app b l d : of_digits b (l ++ [d]) = of_digits b l * b + d.
Proof. unfold of_digits. now rewrite fold_left_app. Qed.

Lemma log2_div_lt b n : 1 < b -> b <= n -> Z.log2 (n / b) < Z.log2 n.
Proof.
  intros Hb Hn.
  assert (0 < n / b) by (apply Z.div_str_pos; lia).
  assert (n / b <= n / 2) by (apply Z.div_le_compat_l; lia).
  assert (Z.log2 (n / b) <= Z.log2 (n / 2)) by (apply Z.log2_le_mono; lia).
  assert (2 * (n / 2) <= n) by (apply Z.mul_div_le; lia).
  assert (0 < n / 2) by (apply Z.div_str_pos; lia).
  assert (Z.log2 (2 * (n / 2)) = Z.succ (Z.log2 (n / 2))) by (apply Z.log2_double; lia).
  assert (Z.log2 (2 * (n / 2)) <= Z.log2 n) by (apply Z.log2_le_mono; lia). lia.
Qed.

Lemma to_digits_value fuel b n :
  1 < b -> 0 <= n -> (Z.to_nat (Z.log2 n) < fuel)%nat -> of_digits b (to_digits fuel b n) = n.
Proof.
  intros Hb. revert n; induction fuel as [|f IH]; intros n Hn Hf; [lia|]. cbn [to_digits].
  destruct (Z.ltb_spec n b); [unfold of_digits; cbn; lia|].
  pose proof (log2_div_lt b n Hb ltac:(lia)).
  rewrite of_digits_app, IH.
  - pose proof (Z.div_mod n b ltac:(lia)). lia.
  - apply Z.div_pos; lia.
  - pose proof (Z.log2_nonneg (n / b)). lia.
Qed.

Lemma digits_value b n : 1 < b -> 0 <= n -> of_digits b (digits b n) = n.
Proof. intros. unfold digits. apply to_digits_value; auto; lia. Qed.

Lemma digits_range b n : 1 < b -> 0 <= n -> Forall (fun d => 0 <= d < b) (digits b n).
Proof. intros. now apply to_digits_range. Qed.

Lemma digits_nonempty b n : digits b n <> [].
Proof. apply to_digits_nonempty. Qed.

Lemma pad_len c w s k : (List.length s <= k)%nat -> (w <= k)%nat -> (List.length (pad c w s) <= k)%nat.
Proof. intros. unfold pad. rewrite app_length, repeat_length. lia. Qed.

Lemma hexpad_len w n k :
  0 <= n < 16 ^ Z.of_nat (S k) -> (w <= S k)%nat -> zlen (hexpad w n) <= Z.of_nat (S k).
Proof.
  intros Hn Hw. unfold zlen. apply Nat2Z.inj_le. unfold hexpad. apply pad_len; [|exact Hw].
  rewrite map_length. now apply digits_len.
Qed.
