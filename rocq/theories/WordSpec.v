(** Specification of word segmentation: Unicode Standard Annex #29, section 4.1.1 (Unicode
    8.0), stated on sequences of word break properties.  Independent of the model's code. *)
From Verif Require Import Base WordTable Utf8Model TextSpec.
Local Open Scope Z_scope.
Local Open Scope list_scope.

(** The macros of the annex. *)
Definition newline (p : wb_property) : Prop := p = CR \/ p = LF \/ p = Newline.
Definition ahletter (p : wb_property) : Prop := p = ALetter \/ p = Hebrew_Letter.
Definition midnumletq (p : wb_property) : Prop := p = MidNumLet \/ p = Single_Quote.
Definition extend_or_format (p : wb_property) : Prop := p = Extend \/ p = Format.

(** [joined a b c d]: one of the rules WB3-WB13c forbids a break between [b] and [c], when
    [a] comes before [b] and [d] after [c] ([sot], [eot] where there is none).  Everywhere
    else there is a break: by WB3a and WB3b around newlines, by WB14 otherwise. *)
Inductive joined : wb_property -> wb_property -> wb_property -> wb_property -> Prop :=
| WB3 a d : joined a CR LF d
| WB5 a b c d : ahletter b -> ahletter c -> joined a b c d
| WB6 a b c d : ahletter b -> c = MidLetter \/ midnumletq c -> ahletter d -> joined a b c d
| WB7 a b c d : ahletter a -> b = MidLetter \/ midnumletq b -> ahletter c -> joined a b c d
| WB7a a d : joined a Hebrew_Letter Single_Quote d
| WB7b a : joined a Hebrew_Letter Double_Quote Hebrew_Letter
| WB7c d : joined Hebrew_Letter Double_Quote Hebrew_Letter d
| WB8 a d : joined a Numeric Numeric d
| WB9 a b d : ahletter b -> joined a b Numeric d
| WB10 a c d : ahletter c -> joined a Numeric c d
| WB11 b d : b = MidNum \/ midnumletq b -> joined Numeric b Numeric d
| WB12 a c : c = MidNum \/ midnumletq c -> joined a Numeric c Numeric
| WB13 a d : joined a Katakana Katakana d
| WB13a a b d : ahletter b \/ b = Numeric \/ b = Katakana \/ b = ExtendNumLet ->
    joined a b ExtendNumLet d
| WB13b a c d : ahletter c \/ c = Numeric \/ c = Katakana \/ c = ExtendNumLet ->
    joined a ExtendNumLet c d
| WB13c a d : joined a Regional_Indicator Regional_Indicator d.

(** WB4: X (Extend | Format)* is read as X, except after sot, CR, LF and Newline.
    [ignored prev p]: the character with property [p] is ignored when it comes after the
    character with property [prev] ([None] at the start of the text). *)
Definition ignored (prev : option wb_property) (p : wb_property) : Prop :=
  extend_or_format p /\ exists q, prev = Some q /\ ~ newline q.

(** [remaining prev l r]: [r] is what WB4 leaves of [l]. *)
Inductive remaining : option wb_property -> list wb_property -> list wb_property -> Prop :=
| remaining_end prev : remaining prev [] []
| remaining_drop prev p l r : ignored prev p -> remaining (Some p) l r -> remaining prev (p :: l) r
| remaining_keep prev p l r :
    ~ ignored prev p -> remaining (Some p) l r -> remaining prev (p :: l) (p :: r).

(** The last element of a list, if any. *)
Definition last_of {A} (l : list A) : option A :=
  match rev l with [] => None | x :: _ => Some x end.

(** [boundary l1 l2]: there is a word boundary between [l1] and [l2] in the text whose
    properties are [l1 ++ l2].  WB1, WB2: at the start and at the end of the text; otherwise
    where the next character is not ignored (WB4) and no rule joins its neighbours. *)
Definition boundary (l1 l2 : list wb_property) : Prop :=
  l1 = [] \/ l2 = [] \/
  exists p l2', l2 = p :: l2' /\ ~ ignored (last_of l1) p /\
  exists r1 r2, remaining None l1 r1 /\ remaining (last_of l1) l2 r2 /\
  ~ joined (hd sot (tl (rev r1))) (hd sot (rev r1)) (hd eot r2) (hd eot (tl r2)).

(** The texts for which C35 is claimed: no Extend or Format character at the start or after
    a newline. *)
Definition extends_follow (l : list wb_property) : Prop :=
  forall l1 p l2, l = l1 ++ p :: l2 -> extend_or_format p ->
  exists l0 q, l1 = l0 ++ [q] /\ ~ newline q.

(** [segments] cuts [text] into non-empty consecutive pieces. *)
Definition cuts {A} (text : list A) (segments : list (list A)) : Prop :=
  concat segments = text /\ Forall (fun s => s <> []) segments.

(** [segments] ends exactly at the places [P]. *)
Definition ends_at {A} (P : list A -> list A -> Prop) (text : list A) (segments : list (list A))
  : Prop :=
  forall l1 l2, l1 ++ l2 = text ->
  ((exists s1 s2, segments = s1 ++ s2 /\ l1 = concat s1) <-> P l1 l2).

(** Letters, marks, numbers, connector punctuation and private use characters. *)
Definition wordy (k : category) : bool :=
  match k with
  | LU | LL | LT | LM | LO | MN | MC | ME | ND | NL | NO | PC | CO => true
  | _ => false
  end.

(** Does a segment start like a word? *)
Definition starts_word (uc : unicode_data) (segment : list Z) : bool :=
  match segment with [] => false | c :: _ => wordy (cat uc c) end.

(** The part before the first NUL character. *)
Fixpoint before_nul (segment : list Z) : list Z :=
  match segment with
  | [] => []
  | c :: l => if c =? 0 then [] else c :: before_nul l
  end.

(** The words of a segmented text: the segments that start like words, in UTF-8 and
    normalised. *)
Definition words_of (uc : unicode_data) (NFC : list Z -> list Z) (segments : list (list Z))
  : list (list Z) :=
  map (fun s => NFC (utf8s (before_nul s))) (filter (starts_word uc) segments).

(** C33: the ranges of a table that contain a code point. *)
Definition in_range (c : Z) (r : wb_range) : Prop := start r <= c <= stop r.

(** The property of a code point according to the table (Other when it is in no range). *)
Definition has_property (c : Z) (p : wb_property) : Prop :=
  (exists r, In r WORD_BREAK_PROPERTY /\ in_range c r /\ wb_value r = p) \/
  ((forall r, In r WORD_BREAK_PROPERTY -> ~ in_range c r) /\ p = Other).

(** A property of texts, from one of the sequences of their properties. *)
Definition of_properties (P : list wb_property -> Prop) (text : list Z) : Prop :=
  exists props, Forall2 has_property text props /\ P props.

(** Word boundaries of texts. *)
Definition word_boundary (l1 l2 : list Z) : Prop :=
  exists p1 p2, Forall2 has_property l1 p1 /\ Forall2 has_property l2 p2 /\ boundary p1 p2.

(** WB4 without its exception: every Extend or Format character belongs to what precedes it,
    and those at the start of the text to the first character that is neither. *)
Definition mains (l : list wb_property) : list wb_property :=
  filter (fun p => match p with Extend | Format => false | _ => true end) l.
Definition loose_boundary (l1 l2 : list wb_property) : Prop :=
  l1 = [] \/ l2 = [] \/
  exists p l2', l2 = p :: l2' /\ ~ extend_or_format p /\ mains l1 <> [] /\
  ~ joined (hd sot (tl (rev (mains l1)))) (hd sot (rev (mains l1)))
           (hd eot (mains l2)) (hd eot (tl (mains l2))).
Definition loose_word_boundary (l1 l2 : list Z) : Prop :=
  exists p1 p2, Forall2 has_property l1 p1 /\ Forall2 has_property l2 p2 /\ loose_boundary p1 p2.
