(** Specification for C93: characters that only separate. *)
From Verif Require Import Base Utf8Model WordTable WordSpec.
Local Open Scope Z_scope.
Local Open Scope list_scope.

(** The characters that may stand between the letters or digits of one word (colon, full stop, comma,
    quotation marks, ...) do not start words themselves: a fact about the categories of the Unicode data
    base, where they are punctuation. *)
Definition separators (uc : unicode_data) : Prop :=
  forall c p, has_property c p ->
  p = MidLetter \/ p = MidNum \/ p = MidNumLet \/ p = Single_Quote \/ p = Double_Quote ->
  wordy (cat uc c) = false.
