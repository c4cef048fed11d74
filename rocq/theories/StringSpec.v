(** Strings and their characters. *)
From Verif Require Import Base TextSpec.

(** A C string, without its terminating NUL. *)
Definition string_bytes (s : list Z) : Prop := Forall (fun b => is_byte b /\ b <> 0) s.

(** [cs] is as much of [s] as can be decoded: [rest] is what remains, and no encoded character begins it. *)
Definition decoded_part (s : list Z) (cs : list Z) (rest : list Z) : Prop :=
  Forall scalar cs /\ s = utf8s cs ++ rest /\ forall c more, scalar c -> rest <> utf8 c ++ more.
