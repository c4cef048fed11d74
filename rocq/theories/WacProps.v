(** Word accuracy: C37-C40. *)
From Coq Require Import String Permutation.
From Verif Require Import Base CLib LcsModel LcsSpec LcsTop WacModel WacSpec WacProof.
Local Open Scope Z_scope.
Local Open Scope list_scope.

(** The words marked as recognized are a longest common subsequence of the two texts. *)
Theorem C37_longest_common_subsequence words0 words1 :
  zlen (shared words0 words1) <= 65535 ->
  exists marks, recognize words0 words1 = Ok marks /\ lcs_marks marks words0 words1.
Proof. rewrite <- common_shared. apply recognize_ok. Qed.
Print Assumptions C37_longest_common_subsequence.

(** Otherwise an error is reported. *)
Theorem C37_too_long words0 words1 :
  65535 < zlen (shared words0 words1) -> recognize words0 words1 = Fail "text stream is too long".
Proof. rewrite <- common_shared. apply recognize_ok. Qed.
Print Assumptions C37_too_long.

(** Misrecognized = Words - length of the longest common subsequence. *)
Theorem C37_misrecognized is_stopword order words0 words1 :
  (forall l, Permutation (order l) l) -> zlen (shared words0 words1) <= 65535 ->
  (forall w, In w words0 -> 1 <= zlen w <= MAX_WORDLENGTH) ->
  exists d c, wordacc is_stopword order words0 words1 = Ok d /\
    subseq c words0 /\ subseq c words1 /\
    (forall c', subseq c' words0 -> subseq c' words1 -> zlen c' <= zlen c) /\
    wcount (wtotal d) = zlen words0 /\ wmissed (wtotal d) = zlen words0 - zlen c.
Proof.
  intros Ord Sh H. destruct (wordacc_ok is_stopword order words0 words1 Ord Sh H) as (marks & d & (L0 & L1 & L2) & E & F & _).
  exists d, (select marks words0). split; [exact E|]. split; [apply subseq_select|]. split; [exact L1|]. split; [exact L2|].
  split; [exact (fg_words _ _ _ _ F)|exact (fg_missed _ _ _ _ F)].
Qed.
Print Assumptions C37_misrecognized.

Theorem C38_figures is_stopword order words0 words1 :
  (forall l, Permutation (order l) l) -> zlen (shared words0 words1) <= 65535 ->
  (forall w, In w words0 -> 1 <= zlen w <= MAX_WORDLENGTH) ->
  exists marks d, lcs_marks marks words0 words1 /\
    wordacc is_stopword order words0 words1 = Ok d /\ figures is_stopword words0 marks d.
Proof.
  intros Ord Sh H. destruct (wordacc_ok is_stopword order words0 words1 Ord Sh H) as (marks & d & L & E & F & _).
  exists marks, d. auto.
Qed.
Print Assumptions C38_figures.

Theorem C39_phrases is_stopword order words0 words1 :
  (forall l, Permutation (order l) l) -> zlen (shared words0 words1) <= 65535 ->
  (forall w, In w words0 -> 1 <= zlen w <= MAX_WORDLENGTH) ->
  exists marks d, lcs_marks marks words0 words1 /\
    wordacc is_stopword order words0 words1 = Ok d /\ phrases marks (phrase d).
Proof.
  intros Ord Sh H. destruct (wordacc_ok is_stopword order words0 words1 Ord Sh H) as (marks & d & L & E & _ & P).
  exists marks, d. auto.
Qed.
Print Assumptions C39_phrases.

(** A word of more than 50 bytes makes the program write outside its tables. *)
Theorem C40_long_words_refuted is_stopword order words0 words1 w :
  (forall l, Permutation (order l) l) -> zlen (shared words0 words1) <= 65535 ->
  (forall w, In w words0 -> 1 <= zlen w) -> In w words0 -> MAX_WORDLENGTH < zlen w ->
  wordacc is_stopword order words0 words1 = UB "wac[index]".
Proof. apply wordacc_long. Qed.
Print Assumptions C40_long_words_refuted.

(** The length of a word is taken in bytes, not in characters: one letter, e with acute
    accent, is listed under length 2. *)
Theorem C40_length_in_bytes_refuted :
  exists w d, num_characters w = 1 /\ wordacc (fun _ => false) (fun l => l) [w] [w] = Ok d /\
    znth (non_stopword d) 1 = Some no_wac /\ znth (non_stopword d) 2 = Some (mkwac 1 0).
Proof. exists [195; 169]. eexists. split; [reflexivity|]. split; [vm_compute; reflexivity|]. split; reflexivity. Qed.
Print Assumptions C40_length_in_bytes_refuted.

(** What holds: words of ASCII characters, at most 50 of them, are tabulated by their number
    of characters.  Missing: longer words, and words with other characters. *)
Theorem C40_short_ascii_words_partial is_stopword order words0 words1 :
  (forall l, Permutation (order l) l) -> zlen (shared words0 words1) <= 65535 ->
  (forall w, In w words0 -> Forall (fun b => 0 <= b < 128) w /\ 1 <= num_characters w <= 50) ->
  exists marks d, lcs_marks marks words0 words1 /\ wordacc is_stopword order words0 words1 = Ok d /\
    forall len, 1 <= len <= 50 ->
      znth (stopword d) len =
        Some (tally (fun w => is_stopword w && (num_characters w =? len)) words0 marks) /\
      znth (non_stopword d) len =
        Some (tally (fun w => negb (is_stopword w) && (num_characters w =? len)) words0 marks).
Proof.
  intros Ord Sh H. destruct (wordacc_ok is_stopword order words0 words1 Ord Sh) as (marks & d & L & E & F & _).
  { intros w I. destruct (H w I) as [A B]. rewrite (ascii_characters _ A) in B. exact B. }
  exists marks, d. split; [exact L|]. split; [exact E|]. intros len B.
  rewrite (cf_length _ _ _ _ _ (fg_stop _ _ _ _ F) len B), (cf_length _ _ _ _ _ (fg_non _ _ _ _ F) len B).
  split; f_equal; apply tally_ext; intros w I; destruct (H w I) as [A _]; now rewrite (ascii_characters _ A).
Qed.
Print Assumptions C40_short_ascii_words_partial.

(** Non-vacuity: "the cat sat on the mat" read as "the cot sat the on mat". *)
Definition example0 : list (list Z) := map bytes ["the"; "cat"; "sat"; "on"; "the"; "mat"]%string.
Definition example1 : list (list Z) := map bytes ["the"; "cot"; "sat"; "the"; "on"; "mat"]%string.
Example C37_example : zlen (shared example0 example1) = 5 /\
  recognize example0 example1 = Ok [true; false; true; true; false; true].
Proof. vm_compute. auto. Qed.
Example C38_example : exists d,
  wordacc (fun w => streq w (bytes "the") || streq w (bytes "on")) (@rev term) example0 example1 = Ok d /\
  wtotal d = mkwac 6 2 /\ znth (stopword d) 0 = Some (mkwac 3 1) /\ znth (non_stopword d) 3 = Some (mkwac 3 1) /\
  znth (distinct d) 1 = Some (mkwac 3 1) /\ znth (phrase d) 2 = Some (mkwac 5 4).
Proof. eexists. split; [vm_compute; reflexivity|]. repeat split; vm_compute; reflexivity. Qed.
Example C40_example : zlen (bytes "pneumonoultramicroscopicsilicovolcanoconiosisandmoreletters") = 59.
Proof. reflexivity. Qed.
