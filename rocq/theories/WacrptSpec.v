(** Specification of word accuracy reports: the figures of a report, and what a report is. *)
From Coq Require Import String.
From Verif Require Import Base CLib AccSpec ReportSpec WacModel.
Local Open Scope Z_scope.
Local Open Scope list_scope.

(** Everything that is counted.  The flag [missed] selects the second figure of a row. *)
Inductive wfigure :=
| WWords (missed : bool)
| WStop (missed : bool) (len : Z)
| WNon (missed : bool) (len : Z)
| WDistinct (missed : bool) (occurs : Z)
| WPhrase (missed : bool) (len : Z)
| WStopword (missed : bool) (word : list Z)
| WNonStopword (missed : bool) (word : list Z).

Definition wcell (missed : bool) (w : wac) : Z := if missed then wmissed w else wcount w.
(** A row of a table; the rows outside of the table are zero. *)
Definition row (ws : list wac) (i : Z) : wac :=
  match znth ws i with Some w => w | None => no_wac end.
(** The figure of a word. *)
Definition word_fig (missed : bool) (l : list term) (k : list Z) : Z :=
  zsum (map (fun t => if list_eq_dec Z.eq_dec (tkey t) k then wcell missed (twac t) else 0) l).

Definition wfig (x : wfigure) (d : wacdata) : Z :=
  match x with
  | WWords m => wcell m (wtotal d)
  | WStop m i => wcell m (row (stopword d) i)
  | WNon m i => wcell m (row (non_stopword d) i)
  | WDistinct m i => wcell m (row (distinct d) i)
  | WPhrase m i => wcell m (row (phrase d) i)
  | WStopword m k => word_fig m (stop_terms d) k
  | WNonStopword m k => word_fig m (non_terms d) k
  end.

Definition wsame (a b : wacdata) : Prop := forall x, wfig x a = wfig x b.
(** [c] is the total of the data [ds]. *)
Definition wtotal_of (ds : list wacdata) (c : wacdata) : Prop :=
  forall x, wfig x c = zsum (map (wfig x) ds).
Definition wbelow (n : Z) (d : wacdata) : Prop := forall x, wfig x d < n.

(** A word as a report shows it: at most 68 bytes, no newline. *)
Definition report_word (k : list Z) : Prop :=
  ~ In 10 k /\ Forall (fun c => 0 < c < 256) k /\ zlen k <= 68.
Definition sane (w : wac) : Prop := 0 <= wmissed w <= wcount w.

(** A table of words with the given number of occurrences. *)
Record words_ok (l : list term) (count : Z) : Prop := {
  wo_keys : NoDup (map tkey l);
  wo_words : Forall (fun t => report_word (tkey t)) l;
  wo_sane : Forall (fun t => sane (twac t) /\ 0 < wcount (twac t)) l;
  wo_count : count = zsum (map (fun t => wcount (twac t)) l) }.

(** The data of a report. *)
Record wreportable (d : wacdata) : Prop := {
  wr_stop : zlen (stopword d) = MAX_WORDLENGTH + 1;
  wr_non : zlen (non_stopword d) = MAX_WORDLENGTH + 1;
  wr_distinct : zlen (distinct d) = MAX_OCCURRENCES + 2;
  wr_phrase : zlen (phrase d) = MAX_PHRASELENGTH + 1;
  wr_phrase0 : row (phrase d) 0 = no_wac;
  wr_phrases : wcount (wtotal d) = 0 -> forall i, row (phrase d) i = no_wac;
  wr_total : sane (wtotal d);
  wr_sane : Forall sane (stopword d) /\ Forall sane (non_stopword d) /\
            Forall sane (distinct d) /\ Forall sane (phrase d);
  wr_sum : wcount (wtotal d) = wcount (row (stopword d) 0) + wcount (row (non_stopword d) 0);
  wr_stop_terms : words_ok (stop_terms d) (wcount (row (stopword d) 0));
  wr_non_terms : words_ok (non_terms d) (wcount (row (non_stopword d) 0)) }.

(** The lines with which a word accuracy report starts. *)
Definition word_header : list want :=
  [Starts (bytes "ocreval Word Accuracy Report Version 7.");
   Is (bytes "----------------------------------------" ++ [10]);
   Numbers 1; Numbers 1; Any; Any].
