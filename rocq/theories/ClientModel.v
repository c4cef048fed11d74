(** Model of the use of hash tables as counters: the functions that look up a key and, if it is new,
    allocate and insert an entry, on the linked lists of TableModel. *)
From Coq Require Import String.
From Verif Require Import Base CLib ListModel TableModel CompareModel WacModel NgramModel VoteModel VoteSelModel LcsModel StopModel.
Local Open Scope Z_scope.
Local Open Scope list_scope.

(** util.c:51-59 allocate: [malloc n] is the address returned by the n-th call of calloc, NULL if
    there is no memory left. *)
Definition allocate (malloc : Z -> addr) (n : Z) : outcome addr :=
  if malloc n =? NULL then Fail "unable to allocate memory" else Ok (malloc n).

(** A table and its entries: the links and the key of each entry, its other fields, and the number
    of calls of allocate so far.  (The copies of keys made by strdup are not counted.) *)
(* Models table.h:60-78 *)
Record client (V : Type) := mkclient {
  ctable : table; cheap : heap; ckeys : keymap; cfields : addr -> V; callocs : Z }.
Arguments mkclient {V}. Arguments ctable {V}. Arguments cheap {V}. Arguments ckeys {V}.
Arguments cfields {V}. Arguments callocs {V}.

Section Client.
Variable malloc : Z -> addr.

(** A table at the start of a program: all zero (static data; the state of other memory, which the
    program has not obtained yet, is arbitrary). *)
(* Models table.c:36-44 *)
Definition new_client {V} (h : heap) (ks : keymap) (fs : addr -> V) : client V :=
  mkclient table_initialize h ks fs 0.

(** NEW, the assignment of the key and of the fields, table_insert. *)
(* Models accrpt.c:82-86, wacrpt.c:57-59 *)
Definition insert_entry {V} (c : client V) (key : list Z) (v : V) : outcome (addr * client V) :=
  let! e := allocate malloc (callocs c) in
  let ks := upd (ckeys c) e key in
  let! (t, h) := table_insert (ctable c) (cheap c) ks e in
  Ok (e, mkclient t h ks (upd (cfields c) e v) (callocs c + 1)).

(** Assignment to the fields of an entry. *)
(* Models accrpt.c:77-78, wacrpt.c:43-44 *)
Definition set_fields {V} (c : client V) (e : addr) (v : V) : client V :=
  mkclient (ctable c) (cheap c) (ckeys c) (upd (cfields c) e v) (callocs c).

(* Models table.c:59-67 *)
Definition lookup_entry {V} (c : client V) (key : list Z) : outcome addr :=
  table_lookup (ctable c) (cheap c) (ckeys c) key.

(** accrpt.c:68-88 add_conf; the fields errors and marked *)
Definition add_conf_entry (c : client (Z * Z)) (key : list Z) (errors marked : Z) : outcome (client (Z * Z)) :=
  let! e := lookup_entry c key in
  if negb (e =? NULL) then
    Ok (set_fields c e (fst (cfields c e) + errors, snd (cfields c e) + marked))
  else let! (_, c) := insert_entry c key (errors, marked) in Ok c.

(** wacrpt.c:48-62 add_term; the field wac, cleared by calloc *)
Definition add_term_entry (c : client wac) (key : list Z) (count missed : Z) : outcome (client wac) :=
  let! e := lookup_entry c key in
  let! (e, c) := if e =? NULL then insert_entry c key no_wac else Ok (e, c) in
  Ok (set_fields c e (increment_wac (cfields c e) count missed)).

(** ngram.c:67-90 add_sequence without the totals; the fields value, count and suspect *)
Definition add_ngram_entry (c : client sequence) (key value : list Z) (susp : bool) : outcome (client sequence) :=
  let! e := lookup_entry c key in
  let! (e, c) := if e =? NULL then insert_entry c key (mkseq value 0 0) else Ok (e, c) in
  let s := mkseq (svalue (cfields c e)) (scount (cfields c e) + 1) (ssuspect (cfields c e)) in
  let s := if susp then mkseq (svalue s) (scount s) (ssuspect s + 1) else s in
  Ok (set_fields c e s).

(** vote.c:130-146 add_sequence; the array count and whether median was set to 1 *)
Definition add_vote_entry (c : client (list Z * bool)) (key : list Z) (reject : bool) (index : Z)
  : outcome (client (list Z * bool)) :=
  let! e := lookup_entry c key in
  let! (e, c) := if e =? NULL then insert_entry c key (repeat 0 (Z.to_nat MAX_VOTERS), reject) else Ok (e, c) in
  let! n := rd "count[index]" (fst (cfields c e)) index in
  let! count := wr "count[index]" (fst (cfields c e)) index (n + 1) in
  Ok (set_fields c e (count, snd (cfields c e))).

(** stopword.c:69-82 save_stopword; the keys of the warnings *)
Definition save_stopword_entry (st : client unit * list (list Z)) (key : list Z) : outcome (client unit * list (list Z)) :=
  let (c, warnings) := st in
  let! e := lookup_entry c key in
  if negb (e =? NULL) then Ok (c, warnings ++ [key])
  else let! (_, c) := insert_entry c key tt in Ok (c, warnings).

(** wordacc.c:106-117: one word of text number [side]; the symbols so far, which are pointers *)
Definition setup_word_entry (side : bool) (st : client (bool * bool) * list addr) (w : list Z)
  : outcome (client (bool * bool) * list addr) :=
  let (c, symbols) := st in
  let! e := lookup_entry c w in
  let! (e, c) := if e =? NULL then insert_entry c w (false, false) else Ok (e, c) in
  Ok (set_fields c e (mark_found side (cfields c e)), symbols ++ [e]).

(** table_in_array and the fields of the entries in the array (accrpt.c:357, ngram.c:158,
    vote.c:231, wacrpt.c:224, wordacc.c:216, wordfreq.c:84). *)
Definition entries_in_array {V} (c : client V) : outcome (list (list Z * V)) :=
  let! t := table_in_array (ctable c) (cheap c) in
  Ok (map (fun e => (ckeys c e, cfields c e)) (match tarray t with Some a => a | None => [] end)).
End Client.
