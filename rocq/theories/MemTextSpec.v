(** Specification of the memory of texts. *)
From Coq Require Import String.
From Verif Require Import Base ListModel ListSpec TextModel MemTextModel.
Local Open Scope Z_scope.
Local Open Scope list_scope.

(** calloc returns NULL or a block that is not in use (it may be one that was freed before). *)
Definition sound_allocator (alloc : (addr -> bool) -> Z -> addr) : Prop :=
  forall used n, alloc used n = NULL \/ used (alloc used n) = false.

(** The list consists of the allocated items [xs], which hold the characters [t]. *)
Definition holds_text (l : header) (m : memory) (xs : list addr) (t : list char) : Prop :=
  presents l (links m) xs /\ map (chars m) xs = t /\ Forall (fun a => live m a = true) xs.

(** Blocks that are allocated and not in [xs] are the same before and after. *)
Definition others_unchanged (xs : list addr) (m m' : memory) : Prop :=
  forall a, live m a = true -> ~ In a xs -> live m' a = true /\ links m' a = links m a /\ chars m' a = chars m a /\
    words m' a = words m a /\ bytes m' a = bytes m a.
