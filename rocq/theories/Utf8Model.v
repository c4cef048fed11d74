(** Model of the utf8proc functions called by text.c and accrpt.c (utf8proc is a library,
    not part of the repository; this follows its sources, utf8proc.c). *)
From Verif Require Import Base.
From Coq Require Import String.

(** utf8proc.c utf8proc_utf8class: length announced by the lead byte, 0 if invalid. *)
Definition utf8class (b : Z) : Z :=
  if b <? 128 then 1 else if b <? 192 then 0 else if b <? 224 then 2
  else if b <? 240 then 3 else if b <? 248 then 4 else 0.

Definition INVALIDUTF8 : Z := -3.

(** utf8proc.c utf_cont: is this a continuation byte? *)
Definition utf_cont (b : Z) : bool := Z.land b 192 =? 128.

(** utf8proc.c utf8proc_iterate(str, strlen, dst) for strlen >= 0: returns the status and
    the value stored in *dst. *)
Definition iterate (str : list Z) (n : Z) : outcome (Z * Z) :=
  if n =? 0 then Ok (0, -1)
  else
    let! uc := rd "str" str 0 in
    if uc <? 128 then Ok (1, uc)
    else if (uc <? 194) || (244 <? uc) then Ok (INVALIDUTF8, -1)
    else if uc <? 224 then
      if n <=? 1 then Ok (INVALIDUTF8, -1)
      else
        let! s0 := rd "str" str 1 in
        if utf_cont s0
        then Ok (2, Z.lor (Z.shiftl (Z.land uc 31) 6) (Z.land s0 63))
        else Ok (INVALIDUTF8, -1)
    else if uc <? 240 then
      if n <=? 2 then Ok (INVALIDUTF8, -1)
      else
        let! s0 := rd "str" str 1 in
        if utf_cont s0 then
          let! s1 := rd "str" str 2 in
          if utf_cont s1 then
            if (uc =? 237) && (159 <? s0) then Ok (INVALIDUTF8, -1)
            else
              let v := Z.lor (Z.lor (Z.shiftl (Z.land uc 15) 12) (Z.shiftl (Z.land s0 63) 6))
                             (Z.land s1 63) in
              if v <? 2048 then Ok (INVALIDUTF8, -1) else Ok (3, v)
          else Ok (INVALIDUTF8, -1)
        else Ok (INVALIDUTF8, -1)
    else
      if n <=? 3 then Ok (INVALIDUTF8, -1)
      else
        let! s0 := rd "str" str 1 in
        if utf_cont s0 then
          let! s1 := rd "str" str 2 in
          if utf_cont s1 then
            let! s2 := rd "str" str 3 in
            if utf_cont s2 then
              if ((uc =? 240) && (s0 <? 144)) || ((uc =? 244) && (143 <? s0))
              then Ok (INVALIDUTF8, -1)
              else Ok (4, Z.lor (Z.lor (Z.lor (Z.shiftl (Z.land uc 7) 18)
                                              (Z.shiftl (Z.land s0 63) 12))
                                       (Z.shiftl (Z.land s1 63) 6))
                                (Z.land s2 63))
            else Ok (INVALIDUTF8, -1)
          else Ok (INVALIDUTF8, -1)
        else Ok (INVALIDUTF8, -1).

(** utf8proc.c utf8proc_encode_char: the bytes written; [] stands for a returned 0. *)
Definition encode_char (uc : Z) : list Z :=
  if uc <? 0 then []
  else if uc <? 128 then [uc]
  else if uc <? 2048 then [192 + Z.shiftr uc 6; 128 + Z.land uc 63]
  else if uc <? 65536 then
    [224 + Z.shiftr uc 12; 128 + Z.land (Z.shiftr uc 6) 63; 128 + Z.land uc 63]
  else if uc <? 1114112 then
    [240 + Z.shiftr uc 18; 128 + Z.land (Z.shiftr uc 12) 63;
     128 + Z.land (Z.shiftr uc 6) 63; 128 + Z.land uc 63]
  else [].

(** Unicode general categories (utf8proc.h utf8proc_category_t). *)
Inductive category :=
| CN | LU | LL | LT | LM | LO | MN | MC | ME | ND | NL | NO | PC | PD | PS | PE | PI | PF | PO
| SM | SC | SK | SO | ZS | ZL | ZP | CC | CF | CS | CO.

(** The Unicode character database as known to utf8proc: general category
    (utf8proc_get_property(c)->category, utf8proc_category) and simple lower-case mapping
    (utf8proc_tolower).  The model is parameterised by it. *)
(* Models text.c:142, 211, 258 and 304, word.c:301 *)
Record unicode_data := mkuc { cat : Z -> category; tolower : Z -> Z }.
