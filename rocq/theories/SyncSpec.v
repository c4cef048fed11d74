(** Specification of the three synchronisation functions. *)
From Verif Require Import Base SyncModel.

(** A text is a list of character values; 126 is the reject character '~'. *)
Notation tilde := 126.

(** [edits a b c]: [a] can be turned into [b] by single-character insertions, deletions
    and substitutions, of which there are [c]; a character is kept for free only when it
    is the same on both sides and not '~'. *)
Inductive edits : list Z -> list Z -> Z -> Prop :=
| edits_nil : edits [] [] 0
| edits_keep x a b c : x <> tilde -> edits a b c -> edits (x :: a) (x :: b) c
| edits_subst x y a b c : edits a b c -> edits (x :: a) (y :: b) (c + 1)
| edits_delete x a b c : edits a b c -> edits (x :: a) b (c + 1)
| edits_insert y a b c : edits a b c -> edits a (y :: b) (c + 1).

(** The minimum number of edits. *)
Definition distance (a b : list Z) (d : Z) : Prop :=
  edits a b d /\ forall c, edits a b c -> d <= c.

(** The [len] characters of [t] from position [st]. *)
Definition slice (t : list Z) (st len : Z) : list Z :=
  firstn (Z.to_nat len) (skipn (Z.to_nat st) t).

(** The substrings [ss] follow one another without gap or overlap from [pos] to [fin], and
    their three fields agree. *)
Fixpoint consecutive (pos : Z) (ss : list substr) (fin : Z) : Prop :=
  match ss with
  | [] => pos = fin
  | s :: r =>
      start s = pos /\ 0 <= slen s /\ stop s = start s + slen s - 1 /\
      consecutive (start s + slen s) r fin
  end.

(** Column [t] of a list of items: the substrings of text number [t]. *)
Definition column (t : Z) (l : list item) : list substr :=
  map (fun it => match znth (isubs it) t with Some s => s | None => mksub (-1) (-1) (-1) end) l.

(** The items partition all the texts, in order; no item is empty in all of them. *)
Definition partition (texts : list (list Z)) (l : list item) : Prop :=
  Forall (fun it => zlen (isubs it) = zlen texts) l /\
  (forall t text, znth texts t = Some text -> consecutive 0 (column t l) (zlen text)) /\
  Forall (fun it => Exists (fun s => 0 < slen s) (isubs it)) l.

(** The item is a genuine match: the same non-empty string, free of '~', in each text. *)
Definition genuine (texts : list (list Z)) (it : item) : Prop :=
  exists w, w <> [] /\ ~ In tilde w /\
    forall t text, znth texts t = Some text ->
      exists s, znth (isubs it) t = Some s /\ slen s = zlen w /\ slice text (start s) (slen s) = w.

Definition is_match (it : item) : bool := match inum it with Some _ => true | None => false end.

(** Matches are genuine and numbered 1, 2, 3, ... in order. *)
Definition matches_genuine (texts : list (list Z)) (l : list item) : Prop :=
  Forall (fun it => is_match it = true -> genuine texts it) l.
Definition numbered_in_order (l : list item) : Prop :=
  map inum (filter is_match l) =
  map Some (zrange 1 (List.length (filter is_match l))).

(** Cost of an unmatched item: its larger length. *)
Definition item_cost (it : item) : Z :=
  if is_match it then 0 else fold_right Z.max 0 (map slen (isubs it)).
Definition total_cost (l : list item) : Z := fold_right Z.add 0 (map item_cost l).

(** All texts have a character inside the item, the same at the beginning (at the end) of
    the item in every text, and it is not '~'. *)
Definition begins_alike (texts : list (list Z)) (ss : list substr) : Prop :=
  exists c, c <> tilde /\
    forall t text, znth texts t = Some text ->
      exists s, znth ss t = Some s /\ 0 < slen s /\ znth text (start s) = Some c.
Definition ends_alike (texts : list (list Z)) (ss : list substr) : Prop :=
  exists c, c <> tilde /\
    forall t text, znth texts t = Some text ->
      exists s, znth ss t = Some s /\ 0 < slen s /\ znth text (start s + slen s - 1) = Some c.

(** No matched item can be extended by one character into its neighbour. *)
Fixpoint no_extension (texts : list (list Z)) (l : list item) : Prop :=
  match l with
  | x :: r =>
      match r with
      | y :: _ =>
          (is_match x = true -> ~ begins_alike texts (isubs y)) /\
          (is_match y = true -> ~ ends_alike texts (isubs x))
      | [] => True
      end /\ no_extension texts r
  | [] => True
  end.

(** [c] occurs in the substring [s] of [text]. *)
Definition occurs (text : list Z) (s : substr) (c : Z) : Prop :=
  exists i, start s <= i < start s + slen s /\ znth text i = Some c.

(** [w] occurs in [t] as a substring. *)
Definition substring (w t : list Z) : Prop := exists u v, t = u ++ w ++ v.
