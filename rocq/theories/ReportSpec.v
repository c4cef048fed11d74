(** Vocabulary for reports as files of lines. *)
From Verif Require Import Base.

(** A line that the readers take in one piece. *)
Definition report_line (l : list Z) : Prop :=
  exists body, l = body ++ [10] /\ ~ In 10 body /\ ~ In 0 body /\ zlen l <= 98.

(** The static buffer: 100 bytes, zero when the program starts, of which fgets(line, 99, f)
    can change all but the last. *)
Definition line_buffer (b : list Z) : Prop := zlen b = 100 /\ znth b 99 = Some 0.

(** ** What a report file looks like *)

(** The reader takes a file apart into lines: up to and including a newline, but at most 98
    bytes at a time. *)
Definition takes (f l rest : list Z) : Prop :=
  f = l ++ rest /\ l <> [] /\ zlen l <= 98 /\
  ((exists body, l = body ++ [10] /\ ~ In 10 body) \/
   (~ In 10 l /\ (zlen l = 98 \/ rest = []))).
Inductive takes_all : list Z -> list (list Z) -> list Z -> Prop :=
| takes_none f : takes_all f [] f
| takes_more f l rest ls rest' :
    takes f l rest -> takes_all rest ls rest' -> takes_all f (l :: ls) rest'.

(** The text of a line: what precedes the first NUL. *)
Definition text_of (l s : list Z) : Prop :=
  ~ In 0 s /\ (l = s \/ exists r, l = s ++ 0 :: r).

(** The text starts with [k] numbers. *)
Definition blank_char (c : Z) : Prop := 9 <= c <= 13 \/ c = 32.
Definition digit_char (c : Z) : Prop := 48 <= c <= 57.
Inductive numbers : nat -> list Z -> Prop :=
| numbers_none s : numbers 0 s
| numbers_more k sp sign ds rest :
    Forall blank_char sp -> (sign = [] \/ sign = [43] \/ sign = [45]) ->
    ds <> [] -> Forall digit_char ds ->
    (match rest with [] => True | c :: _ => ~ digit_char c end) ->
    numbers k rest -> numbers (S k) (sp ++ sign ++ ds ++ rest).

(** What is required of a line. *)
Inductive want := Starts (t : list Z) | Is (t : list Z) | Numbers (k : nat) | Any.
Definition meets (w : want) (l : list Z) : Prop :=
  match w with
  | Starts t => exists s r, text_of l s /\ s = t ++ r
  | Is t => text_of l t
  | Numbers k => exists s, text_of l s /\ numbers k s
  | Any => True
  end.
Definition shaped (ws : list want) (f : list Z) : Prop :=
  exists ls rest, takes_all f ls rest /\ Forall2 meets ws ls.
