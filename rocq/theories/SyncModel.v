(** Model of sync.c: synchronize, transpose_sync and fastukk_sync.
    A text is the list of the [value] fields of its characters (the only field sync.c
    reads); list_in_array makes it available as an array (C02). *)
From Verif Require Import Base.
From Coq Require Import String.

(** text.h: REJECT_CHARACTER '~' *)
Definition REJECT : Z := 126.

(** sync.c:29-30 *)
Definition MIN_STREAMS : Z := 2.
Definition MAX_STREAMS : Z := 16.
(** sync.c:36 MAX_F = INT_FAST32_MAX, 2^63 - 1 where uint_fast32_t has 64 bits. *)
Definition MAX_F : Z := 9223372036854775807.

(** sync.h: Substr *)
Record substr := mksub { start : Z; stop : Z; slen : Z }.

(** sync.h: Sync.  [sid] stands for the address of the item, [mptr] for the [match]
    pointer ([None] = NULL). *)
Record sync := mksync { sid : Z; subs : list substr; mptr : option Z }.

(** Synclist, used as the sequence of its items (justified by C01); [fresh] is the next
    unused address. *)
(* Models sync.h:56-57 *)
Record synclist := mkslist { items : list sync; fresh : Z }.

(** What a caller sees of an item: its substrings and its match number. *)
(* Models sync.h:49-54 *)
Record item := mkitem { isubs : list substr; inum : option Z }.

(** sync.c:79-88 valid_sync *)
Definition valid_sync (ss : list substr) : bool := existsb (fun s => 0 <? slen s) ss.

(** sync.c:91-111 initialize_synclist *)
Definition initialize_synclist (texts : list (list Z)) (addr : Z) : synclist :=
  let ss := map (fun t : list Z => mksub 0 (zlen t - 1) (zlen t)) texts in
  if valid_sync ss then mkslist [mksync addr ss None] (addr + 1) else mkslist [] addr.

(** List operations by item address (list.c; see C01). *)
Fixpoint get_item (l : list sync) (id : Z) : option sync :=
  match l with
  | [] => None
  | s :: t => if sid s =? id then Some s else get_item t id
  end.
Fixpoint insert_before (l : list sync) (id : Z) (x : sync) : list sync :=
  match l with
  | [] => []
  | s :: t => if sid s =? id then x :: s :: t else s :: insert_before t id x
  end.
Fixpoint insert_after (l : list sync) (id : Z) (x : sync) : list sync :=
  match l with
  | [] => []
  | s :: t => if sid s =? id then s :: x :: t else s :: insert_after t id x
  end.
Fixpoint update_item (l : list sync) (id : Z) (x : sync) : list sync :=
  match l with
  | [] => []
  | s :: t => if sid s =? id then x :: t else s :: update_item t id x
  end.
(** sync->prev and sync->next; [None] is NULL. *)
(* Models sync.c:218-221 *)
Fixpoint prev_id (before : option Z) (l : list sync) (id : Z) : option Z :=
  match l with
  | [] => None
  | s :: t => if sid s =? id then before else prev_id (Some (sid s)) t id
  end.
(* Models sync.c:218-221 *)
Fixpoint next_id (l : list sync) (id : Z) : option Z :=
  match l with
  | [] => None
  | s :: t => if sid s =? id then option_map sid (hd_error t) else next_id t id
  end.

(** sync.c:144-177 save_match: the body of the loop for one text. *)
Definition left_sub (s : substr) (st len : Z) : substr :=
  mksub (start s) (st - 1) (st - start s).
Definition right_sub (s : substr) (st len : Z) : substr :=
  let sp := st + len - 1 in mksub (sp + 1) (stop s) (stop s - sp).
Definition mid_sub (s : substr) (st len : Z) : substr :=
  mksub st (st + len - 1) len.

Definition zip_starts (f : substr -> Z -> Z -> substr) (ss : list substr) (sts : list Z)
    (len : Z) : list substr :=
  map (fun p => f (fst p) (snd p) len) (combine ss sts).

(** sync.c:144-177 save_match.  [starts] has one element per text.  The two new items take
    the next two addresses. *)
Definition save_match (sl : synclist) (id : Z) (starts : list Z) (len : Z) (m : Z)
  : outcome synclist :=
  match get_item (items sl) id with
  | None => UB "no such sync item"
  | Some s =>
      let left  := mksync (fresh sl) (zip_starts left_sub (subs s) starts len) None in
      let right := mksync (fresh sl + 1) (zip_starts right_sub (subs s) starts len) None in
      let s' := mksync id (zip_starts mid_sub (subs s) starts len) (Some m) in
      let l := update_item (items sl) id s' in
      let l := if valid_sync (subs left) then insert_before l id left else l in
      let l := if valid_sync (subs right) then insert_after l id right else l in
      Ok (mkslist l (fresh sl + 2))
  end.

(** sync.c:180-188 number_matches: the number stored through each match pointer, in list
    order from [n] + 1. *)
Fixpoint number_matches (l : list sync) (n : Z) (mem : Z -> Z) : Z -> Z :=
  match l with
  | [] => mem
  | s :: t =>
      match mptr s with
      | Some p => number_matches t (n + 1) (fun q => if q =? p then n + 1 else mem q)
      | None => number_matches t n mem
      end
  end.

Definition view (mem : Z -> Z) (l : list sync) : list item :=
  map (fun s => mkitem (subs s) (option_map mem (mptr s))) l.

(** calloc'ed match numbers are 0 before number_matches. *)
(* Models sync.c:217 *)
Definition no_numbers : Z -> Z := fun _ => 0.

(** *** longest_match *)

(** sync.c:127-129: extend a match from (i1, i2); returns the final i1. *)
Fixpoint extend (fuel : nat) (c1 c2 : list Z) (i1 stop1 i2 stop2 : Z) : outcome Z :=
  if (i1 <=? stop1) && (i2 <=? stop2) then
    let! x := rd "c1" c1 i1 in
    let! y := rd "c2" c2 i2 in
    if (x =? y) && negb (x =? REJECT) then
      match fuel with
      | O => OutOfFuel
      | S f => extend f c1 c2 (i1 + 1) stop1 (i2 + 1) stop2
      end
    else Ok i1
  else Ok i1.

Record lmstate := mklm {
  s1limit : Z; s2limit : Z; lmax : Z; m1 : option Z; m2 : option Z }.

(** sync.c:124-139: the body of the inner loop. *)
Definition lm_body (c1 c2 : list Z) (stop1 stop2 s1 s2 : Z) (st : lmstate)
  : outcome lmstate :=
  let! x := rd "c1" c1 s1 in
  let! y := rd "c2" c2 s2 in
  if (x =? y) && negb (x =? REJECT) then
    let! i1 := extend (Z.to_nat (stop1 - s1)) c1 c2 (s1 + 1) stop1 (s2 + 1) stop2 in
    let increase := i1 - s1 - lmax st in
    if 0 <? increase
    then Ok (mklm (s1limit st - increase) (s2limit st - increase) (lmax st + increase)
                  (Some s1) (Some s2))
    else Ok st
  else Ok st.

(** sync.c:123 *)
Fixpoint lm_inner (fuel : nat) (c1 c2 : list Z) (stop1 stop2 s1 s2 : Z) (st : lmstate)
  : outcome lmstate :=
  if s2 <=? s2limit st then
    match fuel with
    | O => OutOfFuel
    | S f => let! st := lm_body c1 c2 stop1 stop2 s1 s2 st in
             lm_inner f c1 c2 stop1 stop2 s1 (s2 + 1) st
    end
  else Ok st.

(** sync.c:122 *)
Fixpoint lm_outer (fuel : nat) (c1 c2 : list Z) (stop1 start2 stop2 s1 : Z) (st : lmstate)
  : outcome lmstate :=
  if s1 <=? s1limit st then
    match fuel with
    | O => OutOfFuel
    | S f => let! st := lm_inner (Z.to_nat (stop2 - start2 + 1)) c1 c2 stop1 stop2 s1 start2 st in
             lm_outer f c1 c2 stop1 start2 stop2 (s1 + 1) st
    end
  else Ok st.

(** sync.c:114-141 longest_match.  [p1], [p2] are the previous contents of *mstart1 and
    *mstart2 ([None]: not yet set). *)
Definition longest_match (maxlen : Z) (c1 : list Z) (start1 stop1 : Z)
    (c2 : list Z) (start2 stop2 : Z) (p1 p2 : option Z)
  : outcome (Z * option Z * option Z) :=
  let! st := lm_outer (Z.to_nat (stop1 - start1 + 1)) c1 c2 stop1 start2 stop2 start1
               (mklm (stop1 - maxlen) (stop2 - maxlen) maxlen p1 p2) in
  Ok (lmax st, m1 st, m2 st).

Definition get_set {A} (msg : string) (o : option A) : outcome A :=
  match o with Some x => Ok x | None => UB msg end.

(** *** synchronize *)

(** sync.c:204-216: match the current substring of text 0 against texts 1, 2, ... .
    [starts] are start[0..i-1]; the result is [None] when some match is empty. *)
Fixpoint match_rest (t0 : list Z) (rest : list (list Z * substr)) (starts : list Z) (len : Z)
  : outcome (option (list Z * Z)) :=
  match rest with
  | [] => Ok (Some (starts, len))
  | (t, s) :: rest' =>
      let! s0 := rd "start[0]" starts 0 in
      let! (len', new_start, starti) :=
        longest_match 0 t0 s0 (s0 + len - 1) t (start s) (stop s) None None in
      if len' =? 0 then Ok None
      else
        let! ns := get_set "new_start" new_start in
        let! si := get_set "start[i]" starti in
        let change := ns - s0 in
        let starts := if 0 <? change then map (fun x => x + change) starts else starts in
        match_rest t0 rest' (starts ++ [si]) len'
  end.

(** sync.c:191-222 recursive_sync *)
Fixpoint recursive_sync (fuel : nat) (texts : list (list Z)) (sl : synclist) (id : Z)
  : outcome synclist :=
  match fuel with
  | O => OutOfFuel
  | S f =>
      match get_item (items sl) id with
      | None => UB "no such sync item"
      | Some s =>
          if existsb (fun u => slen u =? 0) (subs s) then Ok sl
          else
            match texts, subs s with
            | t0 :: trest, s0 :: srest =>
                let! r := match_rest t0 (combine trest srest) [start s0] (slen s0) in
                match r with
                | None => Ok sl
                | Some (starts, len) =>
                    let m := fresh sl in
                    let! sl := save_match (mkslist (items sl) (fresh sl + 1)) id starts len m in
                    let! sl := match prev_id None (items sl) id with
                               | Some p => recursive_sync f texts sl p
                               | None => Ok sl
                               end in
                    match next_id (items sl) id with
                    | Some q => recursive_sync f texts sl q
                    | None => Ok sl
                    end
                end
            | _, _ => UB "no text"
            end
      end
  end.

(** sync.c:225-236 synchronize; the depth of the recursion is bounded by the number of
    characters of the first text. *)
Definition synchronize (texts : list (list Z)) : outcome (list item) :=
  if (zlen texts <? MIN_STREAMS) || (MAX_STREAMS <? zlen texts)
  then Fail "invalid number of text streams"
  else
    let sl := initialize_synclist texts 1 in
    let! sl := match items sl with
               | s :: _ => recursive_sync (S (List.length (hd [] texts))) texts sl (sid s)
               | [] => Ok sl
               end in
    Ok (view (number_matches (items sl) 0 no_numbers) (items sl)).

(** *** transpose_sync *)

(* Models sync.c:243-244 *)
Record trstate := mktr {
  trlen : Z; tr1 : option Z; tr2 : option Z;       (* sync1, sync2 *)
  trs1 : option Z; trs2 : option Z }.              (* start1, start2 *)

(* Models sync.c:251 and 253 *)
Definition unmatched (s : sync) : bool := match mptr s with None => true | Some _ => false end.

(** [s->substr->...]: the single substring of an item. *)
(* Models sync.c:251 *)
Definition sub0 (s : sync) : outcome substr :=
  match subs s with u :: _ => Ok u | [] => UB "substr" end.

(** sync.c:252-265: the loop over the second list. *)
Definition tr_inner (t1 t2 : list Z) (s1 : sync) (l2 : list sync) (st : trstate)
  : outcome trstate :=
  ofold (fun st s2 =>
           let! u1 := sub0 s1 in
           let! u2 := sub0 s2 in
           if unmatched s2 && (trlen st <? slen u2) then
             let! (newlen, a1, a2) :=
               longest_match (trlen st) t1 (start u1) (stop u1) t2 (start u2) (stop u2)
                             (trs1 st) (trs2 st) in
             if trlen st <? newlen
             then Ok (mktr newlen (Some (sid s1)) (Some (sid s2)) a1 a2)
             else Ok (mktr (trlen st) (tr1 st) (tr2 st) a1 a2)
           else Ok st) l2 st.

(** sync.c:249-265: one search for the longest match between unmatched items. *)
Definition tr_search (t1 t2 : list Z) (l1 l2 : list sync) (st : trstate) : outcome trstate :=
  ofold (fun st s1 =>
           let! u1 := sub0 s1 in
           if unmatched s1 && (trlen st <? slen u1) then tr_inner t1 t2 s1 l2 st
           else Ok st) l1 (mktr 0 (tr1 st) (tr2 st) (trs1 st) (trs2 st)).

(** sync.c:247-271: the main loop.  [m] is the address of the next match number. *)
Fixpoint tr_loop (fuel : nat) (t1 t2 : list Z) (sl1 sl2 : synclist) (m : Z) (st : trstate)
  : outcome (synclist * synclist) :=
  let! st := tr_search t1 t2 (items sl1) (items sl2) st in
  if trlen st =? 0 then Ok (sl1, sl2)
  else
    match fuel with
    | O => OutOfFuel
    | S f =>
        let! sync1 := get_set "sync1" (tr1 st) in
        let! sync2 := get_set "sync2" (tr2 st) in
        let! start1 := get_set "start1" (trs1 st) in
        let! start2 := get_set "start2" (trs2 st) in
        let! sl1 := save_match sl1 sync1 [start1] (trlen st) m in
        let! sl2 := save_match sl2 sync2 [start2] (trlen st) m in
        tr_loop f t1 t2 sl1 sl2 (m + 1) st
    end.

(** sync.c:239-273 transpose_sync *)
Definition transpose_sync (t1 t2 : list Z) : outcome (list item * list item) :=
  let! (sl1, sl2) := tr_loop (List.length t1) t1 t2
                       (initialize_synclist [t1] 1) (initialize_synclist [t2] 1)
                       1 (mktr 0 None None None None) in
  let mem := number_matches (items sl1) 0 no_numbers in
  Ok (view mem (items sl1), view mem (items sl2)).

(** *** fastukk_sync *)

(** sync.c:46-49 Path *)
Record path := mkpath { pp : Z; start_k : Z; stop_k : Z; pf : list Z }.

(** sync.c:287-297: the loop of initial_f for i = lo, lo+1, ..., hi. *)
Fixpoint initial_f_loop (fuel : nat) (k i hi : Z) (pr : path) (result : Z) (pk : option Z)
  : outcome (Z * option Z) :=
  if i <=? hi then
    match fuel with
    | O => OutOfFuel
    | S f =>
        let! v := rd "path->f" (pf pr) (i - start_k pr) in
        let v := if k <=? i then v + 1 else v in
        if result <=? v then initial_f_loop f k (i + 1) hi pr v (Some i)
        else initial_f_loop f k (i + 1) hi pr result pk
    end
  else Ok (result, pk).

(** sync.c:276-300 initial_f; returns the result and *prev_k ([None] = not assigned). *)
Definition initial_f (k : Z) (prev_path : option path) : outcome (Z * option Z) :=
  match prev_path with
  | None => Ok (0, None)
  | Some pr =>
      let lo := Z.max (k - 1) (start_k pr) in
      let hi := Z.min (k + 1) (stop_k pr) in
      if hi <? lo then Fail "internal synchronization error"
      else initial_f_loop 3 k lo hi pr 0 None
  end.

(** sync.c:311-316: follow the diagonal while the characters agree; returns i. *)
Fixpoint snake (fuel : nat) (a b : list Z) (i j : Z) : outcome Z :=
  if (i <? zlen a) && (j <? zlen b) then
    let! x := rd "a" a i in
    let! y := rd "b" b j in
    if (x =? y) && negb (x =? REJECT) then
      match fuel with O => OutOfFuel | S f => snake f a b (i + 1) (j + 1) end
    else Ok i
  else Ok i.

(** The static variables min_k and max_k and the row under construction: its start_k and
    stop_k and the contents of diaglist. *)
(* Models sync.c:46-49 and 57 *)
Record frow := mkfrow {
  min_k : Z; max_k : Z; row_start : Z; row_stop : Z; diags : list Z }.

(** sync.c:303-346 compute_f for row [p], whose predecessor is [prev_path]. *)
Definition compute_f (a b : list Z) (p : Z) (prev_path : option path) (k : Z) (st : frow)
  : outcome frow :=
  let m := zlen a in
  let n := zlen b in
  let n_m := n - m in
  let! (i, _) := initial_f k prev_path in
  let! i := snake (List.length a) a b i (i + k) in
  let j := i + k in
  let mn := if i =? m then k + 1 else min_k st in
  let mx := if j =? n then k - 1 else max_k st in
  let bound := p + Z.max m (n - k) - i in
  let v1 := Z.shiftr (1 - bound + n_m) 1 in
  let mn := if mn <? v1 then v1 else mn in
  let v2 := Z.shiftr (bound + n_m) 1 in
  let mx := if v2 <? mx then v2 else mx in
  match diags st with
  | [] => Ok (mkfrow mn mx k k [i])
  | _ => if k <? row_start st
         then Ok (mkfrow mn mx k (row_stop st) (i :: diags st))
         else Ok (mkfrow mn mx (row_start st) k (diags st ++ [i]))
  end.

(** sync.c:372-373 and 381-382: for (; k >= max(min_k, -p); k--) compute_f *)
Fixpoint down_loop (fuel : nat) (a b : list Z) (p : Z) (pr : option path) (k : Z) (st : frow)
  : outcome frow :=
  if Z.max (min_k st) (- p) <=? k then
    match fuel with
    | O => OutOfFuel
    | S f => let! st := compute_f a b p pr k st in down_loop f a b p pr (k - 1) st
    end
  else Ok st.

(** sync.c:374-375 and 379-380: for (; k <= min(max_k, p); k++) compute_f *)
Fixpoint up_loop (fuel : nat) (a b : list Z) (p : Z) (pr : option path) (k : Z) (st : frow)
  : outcome frow :=
  if k <=? Z.min (max_k st) p then
    match fuel with
    | O => OutOfFuel
    | S f => let! st := compute_f a b p pr k st in up_loop f a b p pr (k + 1) st
    end
  else Ok st.

(** sync.c:367-402: the body of the loop of compute_pathlist for row [p]. *)
Definition compute_row (a b : list Z) (p : Z) (pr : option path) (mn mx : Z)
  : outcome frow :=
  let m := zlen a in
  let n := zlen b in
  let n_m := n - m in
  let fuel := Z.to_nat (2 * p + 1) in
  let st := mkfrow mn mx 0 0 [] in
  if m <=? n then
    let! st := down_loop fuel a b p pr (Z.min n_m p) st in
    up_loop fuel a b p pr (n_m + 1) st
  else
    let! st := up_loop fuel a b p pr (Z.max n_m (- p)) st in
    down_loop fuel a b p pr (n_m - 1) st.

(** sync.c:365-403: [paths] is pathlist, last row first. *)
Fixpoint pathlist_loop (fuel : nat) (a b : list Z) (p : Z) (paths : list path) (mn mx : Z)
  : outcome (list path) :=
  if mn <=? zlen b - zlen a then
    match fuel with
    | O => OutOfFuel
    | S f =>
        let! st := compute_row a b p (hd_error paths) mn mx in
        pathlist_loop f a b (p + 1)
          (mkpath p (row_start st) (row_stop st) (diags st) :: paths) (min_k st) (max_k st)
    end
  else Ok paths.

(** sync.c:349-409 compute_pathlist (without the SHOW_FASTUKK_REDUCTION statistics) *)
Definition compute_pathlist (a b : list Z) : outcome (list path) :=
  pathlist_loop (S (Z.to_nat (Z.max (zlen a) (zlen b)))) a b 0 [] (- zlen a) (zlen b).

(** sync.c:418-433: the loop of obtain_matches; [k] is [None] when unset. *)
Fixpoint obtain_loop (paths : list path) (k : option Z) (sl : synclist) : outcome synclist :=
  match paths with
  | [] => Ok sl
  | pa :: rest =>
      let! k := get_set "prev_k" k in
      let! f := rd "path->f" (pf pa) (k - start_k pa) in
      let! (s0, prev_k) := initial_f k (hd_error rest) in
      let! sl :=
        if s0 <? f then
          match items sl with
          | [] => UB "synclist->first is NULL"
          | s :: _ => save_match (mkslist (items sl) (fresh sl + 1)) (sid s)
                        [s0; s0 + k] (f - s0) (fresh sl)
          end
        else Ok sl in
      obtain_loop rest prev_k sl
  end.

(** sync.c:437-447 fastukk_sync (obtain_matches is sync.c:412-434) *)
Definition fastukk_sync (a b : list Z) : outcome (list item) :=
  if MAX_F <? zlen a then Fail "text stream is too long"
  else
    let sl := initialize_synclist [a; b] 1 in
    let! paths := compute_pathlist a b in
    let! sl := obtain_loop paths (Some (zlen b - zlen a)) sl in
    Ok (view (number_matches (items sl) 0 no_numbers) (items sl)).
