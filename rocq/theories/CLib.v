(** The C library functions used by the modelled code (ISO C, POSIX locale).  A file being
    read is the list of its remaining bytes; a string is the list of the bytes before its
    NUL; a char buffer is the list of all its bytes. *)
From Verif Require Import Base.
From Coq Require Import String.

(** The string stored in a buffer from offset [off]: the bytes up to the first NUL; reading
    past the end of the buffer is undefined behaviour. *)
Fixpoint upto_nul (l : list Z) : outcome (list Z) :=
  match l with
  | [] => UB "string not terminated"
  | x :: t => if x =? 0 then Ok [] else let! r := upto_nul t in Ok (x :: r)
  end.
Definition cstr (buf : list Z) (off : Z) : outcome (list Z) :=
  if (0 <=? off) && (off <=? zlen buf) then upto_nul (skipn (Z.to_nat off) buf)
  else UB "pointer outside buffer".

(** fgets(s, n, f): at most n-1 bytes, stopping after a newline; [None] at end of file.
    Returns the bytes stored before the NUL and the remaining input. *)
Fixpoint fgets_bytes (room : nat) (f : list Z) : list Z * list Z :=
  match room, f with
  | S r, c :: f' =>
      if c =? 10 then ([c], f')
      else let (l, rest) := fgets_bytes r f' in (c :: l, rest)
  | _, _ => ([], f)
  end.
Definition fgets (n : Z) (f : list Z) : option (list Z * list Z) :=
  match f with
  | [] => None
  | _ => Some (fgets_bytes (Z.to_nat (n - 1)) f)
  end.

(** Storing the bytes [s] and a NUL at the beginning of a buffer. *)
Definition store_string (buf s : list Z) : outcome (list Z) :=
  if zlen s <? zlen buf then Ok (s ++ 0 :: skipn (S (List.length s)) buf)
  else UB "buffer overflow".

(** strncmp(a, b, n) == 0 and strcmp(a, b) == 0 for strings [a], [b] (no NUL inside). *)
Fixpoint strneq (a b : list Z) (n : nat) {struct n} : bool :=
  match n with
  | O => true
  | S n' =>
      match a, b with
      | [], [] => true
      | x :: a', y :: b' => (x =? y) && strneq a' b' n'
      | _, _ => false
      end
  end.
Fixpoint streq (a b : list Z) : bool :=
  match a, b with
  | [], [] => true
  | x :: a', y :: b' => (x =? y) && streq a' b'
  | _, _ => false
  end.

Definition is_space (c : Z) : bool := ((9 <=? c) && (c <=? 13)) || (c =? 32).
Definition is_digit (c : Z) : bool := (48 <=? c) && (c <=? 57).

Fixpoint skip_space (s : list Z) : list Z :=
  match s with
  | c :: t => if is_space c then skip_space t else s
  | [] => []
  end.

(** The longest prefix of bytes satisfying [p], and the rest. *)
Fixpoint span (p : Z -> bool) (s : list Z) : list Z * list Z :=
  match s with
  | c :: t => if p c then let (a, b) := span p t in (c :: a, b) else ([], s)
  | [] => ([], [])
  end.

(** Value of a sequence of digits. *)
Definition of_digits (b : Z) (ds : list Z) : Z := fold_left (fun a d => a * b + d) ds 0.

Definition LONG_MAX : Z := 9223372036854775807.
Definition LONG_MIN : Z := -9223372036854775808.

(** Optional sign. *)
Definition scan_sign (s : list Z) : bool * list Z :=
  match s with
  | c :: t => if c =? 45 then (true, t) else if c =? 43 then (false, t) else (false, s)
  | [] => (false, s)
  end.

(** One %ld conversion of sscanf (strtol with saturation); [None] on a matching failure. *)
Definition scan_long (s : list Z) : option (Z * list Z) :=
  let (neg, s) := scan_sign (skip_space s) in
  let (ds, rest) := span is_digit s in
  match ds with
  | [] => None
  | _ => let v := of_digits 10 (map (fun c => c - 48) ds) in
         Some (if neg then Z.max LONG_MIN (- v) else Z.min LONG_MAX v, rest)
  end.

(** atoi: like %ld converted to int (reduction modulo 2^32); 0 when there is no number. *)
Definition wrap32 (z : Z) : Z := (z + 2147483648) mod 4294967296 - 2147483648.
Definition atoi (s : list Z) : Z :=
  match scan_long s with Some (v, _) => wrap32 v | None => 0 end.

(** sscanf(s, "%ld %ld", ...) == 2 *)
Definition scan_two (s : list Z) : option (Z * Z) :=
  match scan_long s with
  | Some (a, s) => match scan_long s with Some (b, _) => Some (a, b) | None => None end
  | None => None
  end.

(** sscanf(s, "%ld %ld %ld %ld", ...) == 4 *)
Definition scan_four (s : list Z) : option (Z * Z * Z * Z) :=
  match scan_long s with
  | Some (a, s) =>
      match scan_long s with
      | Some (b, s) =>
          match scan_long s with
          | Some (c, s) =>
              match scan_long s with Some (d, _) => Some (a, b, c, d) | None => None end
          | None => None
          end
      | None => None
      end
  | None => None
  end.

(** Digits of [n] >= 0 in base [b], most significant first. *)
Fixpoint to_digits (fuel : nat) (b n : Z) : list Z :=
  match fuel with
  | O => []
  | S f => if n <? b then [n] else to_digits f b (n / b) ++ [n mod b]
  end.
Definition digits (b n : Z) : list Z := to_digits (S (Z.to_nat (Z.log2 n))) b n.

Definition dec_digit (d : Z) : Z := d + 48.
Definition hex_digit (d : Z) : Z := if d <? 10 then d + 48 else d + 55.

(** "%ld" *)
Definition dec (n : Z) : list Z :=
  if n <? 0 then 45 :: map dec_digit (digits 10 (- n)) else map dec_digit (digits 10 n).

(** Right-justify in [w] columns with byte [c]. *)
Definition pad (c : Z) (w : nat) (s : list Z) : list Z :=
  repeat c (w - List.length s) ++ s.

(** "%8ld" *)
Definition dec8 (n : Z) : list Z := pad 32 8 (dec n).

(** "%02X" / "%04X" of an unsigned value *)
Definition hexpad (w : nat) (n : Z) : list Z := pad 48 w (map hex_digit (digits 16 n)).

(** One %x conversion of sscanf into an unsigned int: optional sign and 0x prefix,
    saturation at ULONG_MAX, then reduction modulo 2^32. *)
Definition hex_value (c : Z) : option Z :=
  if (48 <=? c) && (c <=? 57) then Some (c - 48)
  else if (65 <=? c) && (c <=? 70) then Some (c - 55)
  else if (97 <=? c) && (c <=? 102) then Some (c - 87)
  else None.
Definition is_hex (c : Z) : bool := match hex_value c with Some _ => true | None => false end.
Definition hex_of (c : Z) : Z := match hex_value c with Some v => v | None => 0 end.
Definition ULONG_MAX : Z := 18446744073709551615.
Definition scan_hex (s : list Z) : option (Z * list Z) :=
  let (neg, s) := scan_sign (skip_space s) in
  let s := match s with
           | 48 :: x :: c :: t =>
               if ((x =? 120) || (x =? 88)) && is_hex c then c :: t else s
           | _ => s
           end in
  let (ds, rest) := span is_hex s in
  match ds with
  | [] => None
  | _ => let v := Z.min ULONG_MAX (of_digits 16 (map hex_of ds)) in
         Some ((if neg then - v else v) mod 4294967296, rest)
  end.
