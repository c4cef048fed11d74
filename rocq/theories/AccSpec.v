(** Specification of accuracy's figures.  A group is an item of the synchronisation; its
    correct part belongs to the first text, its generated part to the second. *)
From Coq Require Import String.
From Verif Require Import Base Utf8Model TextModel TextSpec CharclassModel CompareModel
  SyncModel SyncSpec AccModel.
Local Open Scope Z_scope.
Local Open Scope list_scope.

(** Sums and counting. *)
Definition zsum (l : list Z) : Z := fold_right Z.add 0 l.
Definition num (p : char -> bool) (l : list char) : Z := zlen (filter p l).
(** f 0 + f 1 + ... + f (n - 1) *)
Definition sum_to (n : Z) (f : Z -> Z) : Z := zsum (map f (zrange 0 (Z.to_nat n))).

Definition is_tilde (c : char) : bool := value c =? 126.
Definition plain (c : char) : bool := negb (is_tilde c).
Definition plain_suspect (c : char) : bool := plain c && suspect c.
Definition plain_value (v : Z) (c : char) : bool := plain c && (value c =? v).

(** The characters of a substring, and the two parts of a group. *)
Definition part (t : list char) (s : substr) : list char :=
  firstn (Z.to_nat (slen s)) (skipn (Z.to_nat (start s)) t).
Definition nth_part (t : list char) (it : item) (i : Z) : list char :=
  match znth (isubs it) i with Some s => part t s | None => [] end.

Section Groups.
Variables t0 t1 : list char.
Definition correct (it : item) : list char := nth_part t0 it 0.
Definition generated (it : item) : list char := nth_part t1 it 1.

(** Each '~' of the correct part stands for one arbitrary character of the generated part. *)
Definition group_chars (it : item) : Z := num plain (correct it).
Definition group_gen (it : item) : Z :=
  Z.max 0 (zlen (generated it) - num is_tilde (correct it)).
Definition group_errors (it : item) : Z := Z.max (group_chars it) (group_gen it).
Definition group_marked (it : item) : bool :=
  existsb (fun c => is_tilde c || suspect c) (generated it).
End Groups.

Definition unmatched_items (l : list item) : list item := filter (fun it => negb (is_match it)) l.
Definition matched_items (l : list item) : list item := filter is_match l.

(** How a character is shown in a report. *)
Definition display (uc : unicode_data) (v : Z) : list Z :=
  if v =? 10 then bytes "<\n>"
  else if is_graphic uc v then (if is_combining uc v then utf8 9676 else []) ++ utf8 v
  else bytes "<" ++ CLib.hexpad (if v <? 256 then 2 else 4) v ++ bytes ">".

(** How one side of a confusion is shown: all its characters if they take at most 24 bytes,
    otherwise as many as fit and an ellipsis. *)
Inductive shown (uc : unicode_data) : list Z -> list Z -> Prop :=
| shown_all vs : zlen (flat_map (display uc) vs) <= 24 -> shown uc vs (flat_map (display uc) vs)
| shown_cut vs v rest :
    zlen (flat_map (display uc) vs) <= 24 ->
    24 < zlen (flat_map (display uc) vs) + zlen (display uc v) ->
    shown uc (vs ++ v :: rest) (flat_map (display uc) vs ++ bytes "...").

(** The key of a confusion, as it appears in the report. *)
Definition is_key (uc : unicode_data) (vs0 vs1 key : list Z) : Prop :=
  exists s0 s1, shown uc vs0 s0 /\ shown uc vs1 s1 /\
    key = bytes "{" ++ s0 ++ bytes "}-{" ++ s1 ++ bytes "}" ++ [10].
Definition group_key (uc : unicode_data) (t0 t1 : list char) (it : item) (key : list Z) : Prop :=
  is_key uc (map value (correct t0 it)) (map value (generated t1 it)) key.

(** About the Unicode data base: NUL is not a graphic character. *)
Definition nul_hidden (uc : unicode_data) : Prop := is_graphic uc 0 = false.

(** The confusion table as a map: the figures listed under a key. *)
Definition conf_errors (l : list conf) (key : list Z) : Z :=
  zsum (map (fun c => if list_eq_dec Z.eq_dec (ckey c) key then cerrors c else 0) l).
Definition conf_marked (l : list conf) (key : list Z) : Z :=
  zsum (map (fun c => if list_eq_dec Z.eq_dec (ckey c) key then cmarked c else 0) l).

Definition in_class (j v : Z) : bool :=
  match charclass v with Ok k => k =? j | _ => false end.

(** The class tables are consistent with each other. *)
Record tables_consistent (d : accdata) : Prop := {
  tc_range : forall v, ~ (0 <= v < 1114111) -> small d v = no_class;
  tc_missed : forall v, 0 <= cmissed (small d v) <= ccount (small d v);
  tc_large_count : forall j, 0 <= j < 256 -> ccount (large d j) =
    sum_to 1114111 (fun v => if in_class j v then ccount (small d v) else 0);
  tc_large_missed : forall j, 0 <= j < 256 -> cmissed (large d j) =
    sum_to 1114111 (fun v => if in_class j v then cmissed (small d v) else 0);
  tc_total_small_count : ccount (total_class d) = sum_to 1114111 (fun v => ccount (small d v));
  tc_total_small_missed : cmissed (total_class d) = sum_to 1114111 (fun v => cmissed (small d v));
  tc_total_large_count : ccount (total_class d) = sum_to 256 (fun j => ccount (large d j));
  tc_total_large_missed : cmissed (total_class d) = sum_to 256 (fun j => cmissed (large d j)) }.

Definition ops_consistent (o : accops) : Prop :=
  errs o = ins o + subst o + del o /\ 0 <= ins o /\ 0 <= subst o /\ 0 <= del o.

(** The confusion table is consistent. *)
Definition confs_consistent (l : list conf) : Prop :=
  NoDup (map ckey l) /\ Forall (fun c => 0 < cerrors c /\ 0 <= cmarked c <= cerrors c) l.

(** All figures of a report fit together. *)
Record consistent (d : accdata) : Prop := {
  co_tables : tables_consistent d;
  co_characters : characters d = ccount (total_class d);
  co_total : total_ops d = mkops (ins (marked_ops d) + ins (unmarked_ops d))
                                 (subst (marked_ops d) + subst (unmarked_ops d))
                                 (del (marked_ops d) + del (unmarked_ops d))
                                 (errs (marked_ops d) + errs (unmarked_ops d));
  co_marked : ops_consistent (marked_ops d);
  co_unmarked : ops_consistent (unmarked_ops d);
  co_errors : errors d = errs (total_ops d);
  co_confs : confs_consistent (conftable d);
  co_conf_errors : zsum (map cerrors (conftable d)) = errors d;
  co_conf_marked : zsum (map cmarked (conftable d)) = errs (marked_ops d);
  co_rejects : 0 <= rejects d;
  co_false : 0 <= false_marks d <= suspects d }.

(** The texts delivered by read_text consist of Unicode scalar values. *)
Definition text_ok (t : list char) : Prop := Forall (fun c => scalar (value c)) t.
(** U+10FFFF, for which the tables have no room, does not occur in the correct text. *)
Definition tabulable (t : list char) : Prop := Forall (fun c => value c <> 1114111) t.
