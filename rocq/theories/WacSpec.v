(** Specification of the word accuracy figures. *)
From Verif Require Import Base LcsSpec WacModel.
Local Open Scope Z_scope.

(** How many occurrences of words satisfying [P] there are in the correct text, and how many
    of these are not marked as recognized. *)
Definition count_if {A} (P : A -> bool) (l : list A) : Z := zlen (filter P l).
Definition tally (P : list Z -> bool) (words : list (list Z)) (marks : list bool) : wac :=
  mkwac (count_if (fun wm => P (fst wm)) (combine words marks))
        (count_if (fun wm => P (fst wm) && negb (snd wm)) (combine words marks)).

(** Equality of words. *)
Definition word_eqb (v w : list Z) : bool := if list_eq_dec Z.eq_dec v w then true else false.
(** The figures of one word. *)
Definition of_word (w : list Z) := tally (word_eqb w).
(** The distinct words of a text. *)
Definition distinct_words (words : list (list Z)) : list (list Z) :=
  nodup (list_eq_dec Z.eq_dec) words.

(** How many distinct words satisfy [P], and how many of these were never recognized. *)
Definition tally_distinct (P : list Z -> bool) (words : list (list Z)) (marks : list bool) : wac :=
  let ws := filter P (distinct_words words) in
  mkwac (zlen ws)
        (count_if (fun w => wcount (of_word w words marks) =? wmissed (of_word w words marks)) ws).

(** The figures for a class [P] of words (stopwords, or the others). *)
Record class_figures (P : list Z -> bool) (words : list (list Z)) (marks : list bool)
  (by_length : list wac) (terms : list term) : Prop := {
  cf_size : zlen by_length = MAX_WORDLENGTH + 1;
  cf_total : znth by_length 0 = Some (tally P words marks);
  cf_length : forall len, 1 <= len <= MAX_WORDLENGTH ->
    znth by_length len = Some (tally (fun w => P w && (zlen w =? len)) words marks);
  cf_keys : NoDup (map tkey terms);
  cf_words : forall w, In w (map tkey terms) <-> In w words /\ P w = true;
  cf_terms : forall t, In t terms -> twac t = of_word (tkey t) words marks }.

Record figures (is_stopword : list Z -> bool) (words : list (list Z)) (marks : list bool)
  (d : wacdata) : Prop := {
  fg_words : wcount (wtotal d) = zlen words;
  fg_missed : wmissed (wtotal d) = zlen words - zlen (select marks words);
  fg_stop : class_figures is_stopword words marks (stopword d) (stop_terms d);
  fg_non : class_figures (fun w => negb (is_stopword w)) words marks (non_stopword d) (non_terms d);
  fg_sum : wcount (wtotal d) =
    wcount (tally is_stopword words marks) + wcount (tally (fun w => negb (is_stopword w)) words marks);
  fg_distinct_size : zlen (distinct d) = MAX_OCCURRENCES + 2;
  fg_distinct : znth (distinct d) 0 =
    Some (tally_distinct (fun w => negb (is_stopword w)) words marks);
  fg_occurs : forall c, 1 <= c <= MAX_OCCURRENCES -> znth (distinct d) c =
    Some (tally_distinct (fun w => negb (is_stopword w) && (wcount (of_word w words marks) =? c)) words marks);
  fg_more : znth (distinct d) (MAX_OCCURRENCES + 1) =
    Some (tally_distinct (fun w => negb (is_stopword w) &&
            (MAX_OCCURRENCES <? wcount (of_word w words marks))) words marks) }.

(** The phrases of [len] consecutive words: one beginning at each word but the last len - 1;
    missed unless all its words are recognized. *)
Definition phrase_marks (len : Z) (marks : list bool) : list (list bool) :=
  map (fun i => firstn (Z.to_nat len) (skipn (Z.to_nat i) marks))
      (zrange 0 (Z.to_nat (zlen marks - len + 1))).
Definition phrase_figures (len : Z) (marks : list bool) : wac :=
  mkwac (Z.max 0 (zlen marks - len + 1))
        (count_if (fun p => negb (forallb (fun r => r) p)) (phrase_marks len marks)).
Record phrases (marks : list bool) (ps : list wac) : Prop := {
  ph_size : zlen ps = MAX_PHRASELENGTH + 1;
  ph_unused : znth ps 0 = Some no_wac;
  ph_len : forall len, 1 <= len <= MAX_PHRASELENGTH -> znth ps len = Some (phrase_figures len marks) }.

(** Bytes that begin a character of a UTF-8 string: all but 10xxxxxx. *)
Definition num_characters (w : list Z) : Z := count_if (fun b => negb (b / 64 =? 2)) w.
