(** How a character is shown: the cases, in terms of the Unicode general category. *)
From Coq Require Import String.
From Verif Require Import Base Utf8Model TextSpec.
Local Open Scope Z_scope.
Local Open Scope list_scope.

(** The major classes of the Unicode general categories. *)
Inductive major := Letter | Mark | Number | Punctuation | Symbol | Separator | Other.
Definition major_of (k : category) : major :=
  match k with
  | LU | LL | LT | LM | LO => Letter
  | MN | MC | ME => Mark
  | ND | NL | NO => Number
  | PC | PD | PS | PE | PI | PF | PO => Punctuation
  | SM | SC | SK | SO => Symbol
  | ZS | ZL | ZP => Separator
  | CC | CF | CS | CO | CN => Other
  end.

(** A combining mark; a character that can be seen (or is the space, or is kept for private use). *)
Definition combining (uc : unicode_data) (v : Z) : Prop := major_of (cat uc v) = Mark.
Definition visible (uc : unicode_data) (v : Z) : Prop :=
  v = 32 \/ cat uc v = CO \/
  (major_of (cat uc v) <> Separator /\ major_of (cat uc v) <> Other).

(** An upper-case hexadecimal digit. *)
Definition upper_hex (d c : Z) : Prop := (0 <= d <= 9 /\ c = 48 + d) \/ (10 <= d <= 15 /\ c = 55 + d).

(** [h] is [v] in hexadecimal with at least [w] digits, padded with zeros no further than that. *)
Definition hex_text (w : nat) (v : Z) (h : list Z) : Prop :=
  exists ds, Forall2 upper_hex ds h /\ fold_left (fun a d => 16 * a + d) ds 0 = v /\
    (w <= List.length h)%nat /\ ((w < List.length h)%nat -> exists d r, ds = d :: r /\ d <> 0).

(** [shows uc named v s]: [s] is how the value [v] is shown; [named]: is the end of a line
    shown by a name? *)
Inductive shows_value (uc : unicode_data) (named : bool) (v : Z) : list Z -> Prop :=
| shows_named : v = 10 -> named = true -> shows_value uc named v [60; 92; 110; 62]
| shows_newline : v = 10 -> named = false -> shows_value uc named v [10]
| shows_itself : v <> 10 -> visible uc v -> ~ combining uc v -> shows_value uc named v (utf8 v)
| shows_mark : v <> 10 -> visible uc v -> combining uc v -> shows_value uc named v (utf8 9676 ++ utf8 v)
| shows_escape2 h : v <> 10 -> ~ visible uc v -> v < 256 -> hex_text 2 v h ->
    shows_value uc named v (60 :: h ++ [62])
| shows_escape4 h : v <> 10 -> ~ visible uc v -> 256 <= v -> hex_text 4 v h ->
    shows_value uc named v (60 :: h ++ [62]).
