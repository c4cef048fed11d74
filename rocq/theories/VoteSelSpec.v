(** Specification of the selection of voters. *)
From Coq Require Import Sorted Permutation.
From Verif Require Import Base TextModel AccSpec WacSpec NgramSpec.
Local Open Scope Z_scope.
Local Open Scope list_scope.

(** How often the pair of values [vs] occurs in a text, as two neighbouring characters. *)
Definition occurrences (vs : list Z) (text : list char) : Z := count_of vs (sequences 2 text).

(** [m2] is twice the median of [counts]: the middle one, or the mean of the two in the middle,
    of the counts in increasing order. *)
Definition twice_median (counts : list Z) (m2 : Z) : Prop :=
  exists l a b, Permutation counts l /\ StronglySorted Z.le l /\
    znth l ((zlen l - 1) / 2) = Some a /\ znth l (zlen l / 2) = Some b /\ m2 = a + b.

(** What is expected of a voter for a pair: the median of all the voters, or nothing if there is
    a reject character in the pair. *)
Definition twice_expected (texts : list (list char)) (vs : list Z) (m2 : Z) : Prop :=
  (In 126 vs /\ m2 = 0) \/ (~ In 126 vs /\ twice_median (map (occurrences vs) texts) m2).

(** Twice the distance of a text: the sum, over the pairs that occur in any text, of how far the
    number of times it occurs is from what is expected. *)
Definition twice_distance (texts : list (list char)) (text : list char) (d2 : Z) : Prop :=
  exists rows : list (list Z * Z),
    NoDup (map fst rows) /\
    (forall vs, In vs (map fst rows) <-> exists t, In t texts /\ 0 < occurrences vs t) /\
    (forall vs m2, In (vs, m2) rows -> twice_expected texts vs m2) /\
    d2 = zsum (map (fun r => Z.abs (2 * occurrences (fst r) text - snd r)) rows).

(** Voters by number: [i] comes before [j] if its distance is less, or the same and its number
    is less. *)
Definition nearer (ds : list Z) (i j : Z) : Prop :=
  exists di dj, znth ds i = Some di /\ znth ds j = Some dj /\ (di < dj \/ di = dj /\ i < j).

(** The voters in order. *)
Definition ranking (texts : list (list char)) (ds : list Z) (ranks : list Z) : Prop :=
  Forall2 (twice_distance texts) texts ds /\
  Permutation (zrange 0 (List.length texts)) ranks /\
  StronglySorted (nearer ds) ranks.

(** The texts of the voters [is]. *)
Definition texts_of (texts : list (list char)) (is : list Z) (chosen : list (list char)) : Prop :=
  Forall2 (fun i t => znth texts i = Some t) is chosen.
