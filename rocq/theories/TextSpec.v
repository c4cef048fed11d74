(** Specification vocabulary for texts: UTF-8, suspect markers, canonical spacing, headers.
    Independent of the model's code. *)
From Coq Require Import String.
From Verif Require Import Base TextModel Utf8Model.
Local Open Scope Z_scope.
Local Open Scope list_scope.

(** Unicode scalar values. *)
Definition scalar (c : Z) : Prop := 0 <= c <= 1114111 /\ ~ (55296 <= c <= 57343).

Definition is_byte (b : Z) : Prop := 0 <= b < 256.

(** RFC 3629, section 3: the UTF-8 encoding of a code point. *)
Definition utf8 (c : Z) : list Z :=
  if c <? 128 then [c]
  else if c <? 2048 then [192 + c / 64; 128 + c mod 64]
  else if c <? 65536 then [224 + c / 4096; 128 + (c / 64) mod 64; 128 + c mod 64]
  else [240 + c / 262144; 128 + (c / 4096) mod 64; 128 + (c / 64) mod 64; 128 + c mod 64].

Definition utf8s (cs : list Z) : list Z := flat_map utf8 cs.

(** [marked m cs out]: every run of the marker [m] in [cs] is dropped and makes exactly the
    next character suspect. *)
Inductive marked (m : Z) : list Z -> list char -> Prop :=
| marked_end n : marked m (repeat m n) []
| marked_char n c cs out :
    c <> m -> marked m cs out ->
    marked m (repeat m n ++ c :: cs) (mkchar (Nat.ltb 0 n) c :: out).

(** Blank-like characters: tab, vertical tab, form feed, carriage return, no-break space and
    the Unicode separators (categories Zs, Zl, Zp); U+0020 itself; not the newline. *)
Definition blankish (uc : unicode_data) (c : Z) : Prop :=
  c <> 10 /\
  (c = 9 \/ c = 11 \/ c = 12 \/ c = 13 \/ c = 32 \/ c = 160 \/
   cat uc c = ZS \/ cat uc c = ZL \/ cat uc c = ZP).
Definition spacing (uc : unicode_data) (c : char) : Prop :=
  value c = 10 \/ blankish uc (value c).

(** Canonical spacing (C10). *)
Definition canonical (uc : unicode_data) (t : list char) : Prop :=
  (forall c, In c t -> blankish uc (value c) -> value c = 32) /\
  (forall a x y b, t = a ++ x :: y :: b ->
     ~ (spacing uc x /\ spacing uc y)) /\
  (forall x b, t = x :: b -> ~ spacing uc x) /\
  (forall a x, t = a ++ [x] -> ~ blankish uc (value x)).

(** What remains of the spacing [g] between two content characters ([last = false]) or after
    the last one ([last = true]). *)
Inductive gap_kept : bool -> list char -> list char -> Prop :=
| gap_newline last a n b :
    Forall (fun c => value c <> 10) a -> value n = 10 -> gap_kept last (a ++ n :: b) [n]
| gap_none last : gap_kept last [] []
| gap_end g : Forall (fun c => value c <> 10) g -> gap_kept true g []
| gap_blank g : g <> [] -> Forall (fun c => value c <> 10) g ->
    gap_kept false g [mkchar (existsb suspect g) 32].

(** [normalised uc t u]: [u] keeps the content characters of [t] and one newline or blank (or
    nothing) for each gap. *)
Inductive normalised_body (uc : unicode_data) : list char -> list char -> Prop :=
| nb_last x g r :
    ~ spacing uc x -> Forall (spacing uc) g -> gap_kept true g r ->
    normalised_body uc (x :: g) (x :: r)
| nb_more x g r t u :
    ~ spacing uc x -> Forall (spacing uc) g -> gap_kept false g r ->
    normalised_body uc t u ->
    normalised_body uc (x :: g ++ t) (x :: r ++ u).
Inductive normalised (uc : unicode_data) : list char -> list char -> Prop :=
| n_empty t : Forall (spacing uc) t -> normalised uc t []
| n_text g t u : Forall (spacing uc) g -> normalised_body uc t u ->
    normalised uc (g ++ t) u.

(** What the Unicode data base says about spacing and case: lower-casing neither creates nor
    removes spacing. *)
Definition lower_keeps_spacing (uc : unicode_data) : Prop :=
  forall c, (tolower uc c = 10 <-> c = 10) /\ (tolower uc c = 32 <-> c = 32) /\
            (blankish uc (tolower uc c) <-> blankish uc c).

(** Header (C13).  The title is recognised up to the version number. *)
Definition title_start : list Z := bytes "ocreval Vendor-Independent Interface Version ".
Definition divider : list Z := repeat 45 48 ++ [10].
Definition starts_with (p f : list Z) : Prop := exists r, f = p ++ r.
(** A line of at most 98 bytes, newline included. *)
Definition short_line (l : list Z) : Prop :=
  exists b, l = b ++ [10] /\ ~ In 10 b /\ zlen l <= 98.
