(** Specification of the memory of words. *)
From Coq Require Import String.
From Verif Require Import Base ListModel ListSpec TextModel WordModel MemTextModel MemTextSpec.
Local Open Scope Z_scope.
Local Open Scope list_scope.

(** At [s] there is the string [w]. *)
Definition string_at (m : memory) (s : addr) (w : list Z) : Prop :=
  s <> NULL /\ live m s = true /\ bytes m s = w ++ [0].

(** The pointers that are not NULL. *)
Definition real (ss : list addr) : list addr := filter (fun s => negb (s =? NULL)) ss.

(** The list consists of the allocated words [xs] with the strings at [ss], which are the words [ws];
    a string is missing (NULL) when utf8proc had no memory for it.  All blocks are different. *)
Record holds_words (l : header) (m : memory) (xs ss : list addr) (ws : list (list Z)) : Prop := {
  hw_list : presents l (links m) xs;
  hw_live : Forall (fun a => live m a = true) xs;
  hw_strings : map (words m) xs = ss;
  hw_words : Forall2 (fun s w => s = NULL \/ string_at m s w) ss ws;
  hw_different : NoDup (xs ++ real ss) }.

(** The table has a term for each different word of [ws], and for no other, with the number of times
    it occurs; the keys are blocks of their own. *)
Definition occurrences (w : list Z) (ws : list (list Z)) : Z :=
  zlen (filter (fun v => if list_eq_dec Z.eq_dec v w then true else false) ws).
Record holds_terms (m : memory) (terms : list (addr * Z)) (ws : list (list Z)) : Prop := {
  ht_keys : Forall (fun t => exists w, string_at m (fst t) w /\ snd t = occurrences w ws /\ In w ws) terms;
  ht_all : forall w, In w ws -> exists t, In t terms /\ string_at m (fst t) w;
  ht_once : forall t t' w, In t terms -> In t' terms -> string_at m (fst t) w -> string_at m (fst t') w -> t = t';
  ht_blocks : NoDup (map fst terms) }.
