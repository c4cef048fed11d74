(** Model of sync.c on the linked lists of ListModel, with allocation and release of the items, their arrays,
    the match numbers and the rows of the computation. *)
From Coq Require Import String.
From Verif Require Import Base CLib ListModel SyncModel.
Local Open Scope Z_scope.
Local Open Scope list_scope.

(** What a block contains: sync.h Sync (substr, match; the links are apart), an array of Substr, a long; sync.c
    Diag (38-40), Path (46-49), an array of F; editop.c an array of Candidate (44-49); anything else in the program. *)
Inductive block :=
| BSync (substr match_ : addr)
| BSubs (ss : list substr)
| BLong (v : Z)
| BDiag (f : Z)
| BPath (p start_k stop_k : Z) (f : addr)
| BFs (fs : list Z)
| BCands (cs : list (bool * bool * addr))
| BOther.

(** The memory: the links of the items of lists, the contents of the allocated blocks ([None]: not allocated), and the
    number of allocations so far. *)
(* Models sync.c:61-76, util.c:51-59 *)
Record store := mkstore { slinks : heap; held : addr -> option block; scalls : Z }.

(* Models sync.c:61-76, util.c:51-59 *)
Definition in_use (m : store) (a : addr) : bool := match held m a with Some _ => true | None => false end.

(** An access to a block: it has to be allocated (not NULL, not freed). *)
(* Models sync.c:61-76, util.c:51-59 *)
Definition at_ (m : store) (a : addr) : outcome block :=
  if a =? NULL then UB "access through NULL"
  else match held m a with Some b => Ok b | None => UB "access to a block that is not allocated" end.
(* Models sync.c:61-76, util.c:51-59 *)
Definition touch_ (m : store) (a : addr) : outcome unit :=
  if a =? NULL then Ok tt else let! _ := at_ m a in Ok tt.
(* Models sync.c:61-76, util.c:51-59 *)
Definition put (m : store) (a : addr) (b : block) : outcome store :=
  let! _ := at_ m a in Ok (mkstore (slinks m) (upd (held m) a (Some b)) (scalls m)).

(* Models sync.c:61-76, util.c:51-59 *)
Definition get_sync (m : store) (a : addr) : outcome (addr * addr) :=
  let! b := at_ m a in match b with BSync u p => Ok (u, p) | _ => UB "not a Sync" end.
(* Models sync.c:61-76, util.c:51-59 *)
Definition get_subs (m : store) (a : addr) : outcome (list substr) :=
  let! b := at_ m a in match b with BSubs ss => Ok ss | _ => UB "not an array of Substr" end.
(* Models sync.c:38-40 *)
Definition get_diag (m : store) (a : addr) : outcome Z :=
  let! b := at_ m a in match b with BDiag f => Ok f | _ => UB "not a Diag" end.
(* Models sync.c:46-49 *)
Definition get_path (m : store) (a : addr) : outcome (Z * Z * Z * addr) :=
  let! b := at_ m a in match b with BPath p k1 k2 f => Ok (p, k1, k2, f) | _ => UB "not a Path" end.
(* Models sync.c:46-49 *)
Definition get_fs (m : store) (a : addr) : outcome (list Z) :=
  let! b := at_ m a in match b with BFs fs => Ok fs | _ => UB "not an array of F" end.

(** free; nothing happens for NULL. *)
(* Models sync.c:71-76 *)
Definition release (m : store) (a : addr) : outcome store :=
  if a =? NULL then Ok m else let! _ := at_ m a in Ok (mkstore (slinks m) (upd (held m) a None) (scalls m)).

(** list.c, with the items that are accessed. *)
Definition relink (m : store) (r : outcome (header * heap)) : outcome (header * store) :=
  let! (l, h) := r in Ok (l, mkstore h (held m) (scalls m)).
Definition put_first (l : header) (m : store) (a : addr) : outcome (header * store) :=
  let! _ := at_ m a in let! _ := touch_ m (first l) in relink m (list_insert_first l (slinks m) a).
Definition put_last (l : header) (m : store) (a : addr) : outcome (header * store) :=
  let! _ := at_ m a in let! _ := touch_ m (last l) in relink m (list_insert_last l (slinks m) a).
Definition put_before (l : header) (m : store) (a ref : addr) : outcome (header * store) :=
  let! _ := at_ m a in let! _ := at_ m ref in let! _ := touch_ m (prev (slinks m ref)) in relink m (list_insert_before l (slinks m) a ref).
Definition put_after (l : header) (m : store) (ref a : addr) : outcome (header * store) :=
  let! _ := at_ m a in let! _ := at_ m ref in let! _ := touch_ m (next (slinks m ref)) in relink m (list_insert_after l (slinks m) ref a).
Definition take_out (l : header) (m : store) (a : addr) : outcome (header * store) :=
  let! _ := at_ m a in let! _ := touch_ m (prev (slinks m a)) in let! _ := touch_ m (next (slinks m a)) in relink m (list_remove l (slinks m) a).

Section Sync.
(** calloc: given the blocks in use and the number of calls so far. *)
Variable alloc : (addr -> bool) -> Z -> addr.

(** util.c allocate (51-59): NEW and NEW_ARRAY; [b] is what a cleared block of this type contains. *)
Definition new (m : store) (b : block) : outcome (addr * store) :=
  let e := alloc (in_use m) (scalls m) in
  if e =? NULL then Fail "unable to allocate memory"
  else Ok (e, mkstore (upd (slinks m) e (mknode NULL NULL)) (upd (held m) e (Some b)) (scalls m + 1)).

(** sync.c:61-68 create_sync *)
Definition create_sync (m : store) (num_text : nat) : outcome (addr * store) :=
  let! (s, m) := new m (BSync NULL NULL) in
  let! (u, m) := new m (BSubs (repeat (mksub 0 0 0) num_text)) in
  let! (_, p) := get_sync m s in
  let! m := put m s (BSync u p) in
  Ok (s, m).

(** sync.c:71-76 destroy_sync *)
Definition destroy_sync (m : store) (s : addr) : outcome store :=
  let! (u, _) := get_sync m s in
  let! m := release m u in
  release m s.

(** sync->substr *)
(* Models sync.c:85 *)
Definition subs_of (m : store) (s : addr) : outcome (list substr) :=
  let! (u, _) := get_sync m s in get_subs m u.

(** sync->substr[i] = ... for all i: the array has [num_text] elements. *)
(* Models sync.c:100-106 and 155-167 *)
Definition fill (m : store) (s : addr) (ss : list substr) : outcome store :=
  let! (u, _) := get_sync m s in
  let! old := get_subs m u in
  if Nat.eqb (List.length old) (List.length ss) then put m u (BSubs ss) else UB "substr[i]".

(** sync.c:91-111 initialize_synclist; a text is the list of its values.  The arrays made by list_in_array (C02) are
    not in this memory. *)
Definition initialize_list (m : store) (texts : list (list Z)) : outcome (header * store) :=
  let l := list_initialize in
  let! (s, m) := create_sync m (List.length texts) in
  let! m := fill m s (map (fun t : list Z => mksub 0 (zlen t - 1) (zlen t)) texts) in
  let! ss := subs_of m s in
  if valid_sync ss then put_first l m s
  else let! m := destroy_sync m s in Ok (l, m).

(** sync.c:144-177 save_match; [starts] has [num_text] elements and [p] is the pointer to the number. *)
Definition save (num_text : nat) (l : header) (m : store) (s : addr) (starts : list Z) (len : Z) (p : addr) : outcome (header * store) :=
  let! (lft, m) := create_sync m num_text in
  let! (rgt, m) := create_sync m num_text in
  let! ss := subs_of m s in
  if negb (Nat.eqb (List.length starts) num_text) then UB "start[i]"
  else if negb (Nat.eqb (List.length ss) num_text) then UB "substr[i]"
  else
    let! m := fill m lft (zip_starts left_sub ss starts len) in
    let! m := fill m rgt (zip_starts right_sub ss starts len) in
    let! m := fill m s (zip_starts mid_sub ss starts len) in
    let! (u, _) := get_sync m s in
    let! m := put m s (BSync u p) in
    let! sl := subs_of m lft in
    let! (l, m) := if valid_sync sl then put_before l m lft s
                   else let! m := destroy_sync m lft in Ok (l, m) in
    let! sr := subs_of m rgt in
    if valid_sync sr then put_after l m s rgt
    else let! m := destroy_sync m rgt in Ok (l, m).

(** sync.c:180-188 number_matches, from the item [s] on. *)
Fixpoint number_items (fuel : nat) (m : store) (s : addr) (n : Z) : outcome store :=
  if s =? NULL then Ok m
  else match fuel with
       | O => OutOfFuel
       | S f =>
         let! (_, p) := get_sync m s in
         if p =? NULL then number_items f m (next (slinks m s)) n
         else let! m := put m p (BLong (n + 1)) in number_items f m (next (slinks m s)) (n + 1)
       end.
Definition number_list (l : header) (m : store) : outcome store := number_items (Z.to_nat (count l)) m (first l) 0.

(** sync.c:191-222 recursive_sync *)
Fixpoint sync_rec (fuel : nat) (texts : list (list Z)) (l : header) (m : store) (s : addr) : outcome (header * store) :=
  match fuel with
  | O => OutOfFuel
  | S f =>
    let! ss := subs_of m s in
    if existsb (fun u => slen u =? 0) ss then Ok (l, m)
    else match texts, ss with
         | t0 :: trest, s0 :: srest =>
           let! r := match_rest t0 (combine trest srest) [start s0] (slen s0) in
           match r with
           | None => Ok (l, m)
           | Some (starts, len) =>
             let! (p, m) := new m (BLong 0) in
             let! (l, m) := save (List.length texts) l m s starts len p in
             let! _ := at_ m s in
             let before := prev (slinks m s) in
             let! (l, m) := if before =? NULL then Ok (l, m) else sync_rec f texts l m before in
             let! _ := at_ m s in
             let after := next (slinks m s) in
             if after =? NULL then Ok (l, m) else sync_rec f texts l m after
           end
         | _, _ => UB "no text"
         end
  end.

(** sync.c:225-236 synchronize *)
Definition synchronize_list (m : store) (texts : list (list Z)) : outcome (header * store) :=
  if (zlen texts <? MIN_STREAMS) || (MAX_STREAMS <? zlen texts) then Fail "invalid number of text streams"
  else
    let! (l, m) := initialize_list m texts in
    let! (l, m) := if first l =? NULL then Ok (l, m) else sync_rec (S (List.length (hd [] texts))) texts l m (first l) in
    let! m := number_list l m in
    Ok (l, m).

(** s->substr->...: the first element of the array. *)
(* Models sync.c:251-257 *)
Definition sub0_of (m : store) (s : addr) : outcome substr :=
  let! ss := subs_of m s in match ss with u :: _ => Ok u | [] => UB "substr" end.

(** sync.c:252-265: the loop over the second list, from [s2] on. *)
Fixpoint search_inner (fuel : nat) (t1 t2 : list Z) (m : store) (s1 s2 : addr) (st : trstate) : outcome trstate :=
  if s2 =? NULL then Ok st
  else match fuel with
       | O => OutOfFuel
       | S f =>
         let! (_, p2) := get_sync m s2 in
         let! u1 := sub0_of m s1 in
         let! u2 := sub0_of m s2 in
         let! st :=
           if (p2 =? NULL) && (trlen st <? slen u2) then
             let! (newlen, a1, a2) :=
               longest_match (trlen st) t1 (start u1) (stop u1) t2 (start u2) (stop u2) (trs1 st) (trs2 st) in
             if trlen st <? newlen then Ok (mktr newlen (Some s1) (Some s2) a1 a2)
             else Ok (mktr (trlen st) (tr1 st) (tr2 st) a1 a2)
           else Ok st in
         search_inner f t1 t2 m s1 (next (slinks m s2)) st
       end.

(** sync.c:249-265: the loop over the first list, from [s1] on. *)
Fixpoint search_outer (fuel : nat) (t1 t2 : list Z) (l2 : header) (m : store) (s1 : addr) (st : trstate) : outcome trstate :=
  if s1 =? NULL then Ok st
  else match fuel with
       | O => OutOfFuel
       | S f =>
         let! (_, p1) := get_sync m s1 in
         let! u1 := sub0_of m s1 in
         let! st := if (p1 =? NULL) && (trlen st <? slen u1) then search_inner (Z.to_nat (count l2)) t1 t2 m s1 (first l2) st
                    else Ok st in
         search_outer f t1 t2 l2 m (next (slinks m s1)) st
       end.

(** sync.c:247-271: the main loop. *)
Fixpoint transpose_loop (fuel : nat) (t1 t2 : list Z) (l1 l2 : header) (m : store) (st : trstate) : outcome (header * header * store) :=
  let! st := search_outer (Z.to_nat (count l1)) t1 t2 l2 m (first l1) (mktr 0 (tr1 st) (tr2 st) (trs1 st) (trs2 st)) in
  if trlen st =? 0 then Ok (l1, l2, m)
  else match fuel with
       | O => OutOfFuel
       | S f =>
         let! (p, m) := new m (BLong 0) in
         let! sync1 := get_set "sync1" (tr1 st) in
         let! sync2 := get_set "sync2" (tr2 st) in
         let! start1 := get_set "start1" (trs1 st) in
         let! start2 := get_set "start2" (trs2 st) in
         let! (l1, m) := save 1 l1 m sync1 [start1] (trlen st) p in
         let! (l2, m) := save 1 l2 m sync2 [start2] (trlen st) p in
         transpose_loop f t1 t2 l1 l2 m st
       end.

(** sync.c:239-273 transpose_sync *)
Definition transpose_lists (m : store) (t1 t2 : list Z) : outcome (header * header * store) :=
  let! (l1, m) := initialize_list m [t1] in
  let! (l2, m) := initialize_list m [t2] in
  let! (l1, l2, m) := transpose_loop (List.length t1) t1 t2 l1 l2 m (mktr 0 None None None None) in
  let! m := number_list l1 m in
  Ok (l1, l2, m).

(** A row with its array, if the pointer is not NULL. *)
(* Models sync.c:289 and 421 *)
Definition path_at (m : store) (q : addr) : outcome (option path) :=
  if q =? NULL then Ok None
  else let! (p, k1, k2, f) := get_path m q in let! fs := get_fs m f in Ok (Some (mkpath p k1 k2 fs)).

(** The static variables of sync.c that change: min_k, max_k and diaglist. *)
Record kstate := mkk { kmin : Z; kmax : Z; diaglist : header }.

(** sync.c:303-346 compute_f for the row [pa]. *)
Definition row_value (a b : list Z) (pa : addr) (k : Z) (st : kstate * store) : outcome (kstate * store) :=
  let (ks, m) := st in
  let la := zlen a in
  let lb := zlen b in
  let n_m := lb - la in
  let! (p, k1, k2, pf) := get_path m pa in
  let! pr := path_at m (prev (slinks m pa)) in
  let! (i, _) := initial_f k pr in
  let! i := snake (List.length a) a b i (i + k) in
  let j := i + k in
  let mn := if i =? la then k + 1 else kmin ks in
  let mx := if j =? lb then k - 1 else kmax ks in
  let bound := p + Z.max la (lb - k) - i in
  let v1 := Z.shiftr (1 - bound + n_m) 1 in
  let mn := if mn <? v1 then v1 else mn in
  let v2 := Z.shiftr (bound + n_m) 1 in
  let mx := if v2 <? mx then v2 else mx in
  let! (d, m) := new m (BDiag 0) in
  let! m := put m d (BDiag i) in
  let dl := diaglist ks in
  if count dl =? 0 then
    let! m := put m pa (BPath p k k pf) in
    let! (dl, m) := put_last dl m d in
    Ok (mkk mn mx dl, m)
  else if k <? k1 then
    let! m := put m pa (BPath p k k2 pf) in
    let! (dl, m) := put_first dl m d in
    Ok (mkk mn mx dl, m)
  else
    let! m := put m pa (BPath p k1 k pf) in
    let! (dl, m) := put_last dl m d in
    Ok (mkk mn mx dl, m).

(** sync.c:372-373 and 381-382 *)
Fixpoint row_down (fuel : nat) (a b : list Z) (p : Z) (pa : addr) (k : Z) (st : kstate * store) : outcome (kstate * store) :=
  if Z.max (kmin (fst st)) (- p) <=? k then
    match fuel with
    | O => OutOfFuel
    | S f => let! st := row_value a b pa k st in row_down f a b p pa (k - 1) st
    end
  else Ok st.

(** sync.c:374-375 and 379-380 *)
Fixpoint row_up (fuel : nat) (a b : list Z) (p : Z) (pa : addr) (k : Z) (st : kstate * store) : outcome (kstate * store) :=
  if k <=? Z.min (kmax (fst st)) p then
    match fuel with
    | O => OutOfFuel
    | S f => let! st := row_value a b pa k st in row_up f a b p pa (k + 1) st
    end
  else Ok st.

(** sync.c:370-383 *)
Definition row_values (a b : list Z) (p : Z) (pa : addr) (st : kstate * store) : outcome (kstate * store) :=
  let n_m := zlen b - zlen a in
  let fuel := Z.to_nat (2 * p + 1) in
  if zlen a <=? zlen b then
    let! st := row_down fuel a b p pa (Z.min n_m p) st in
    row_up fuel a b p pa (n_m + 1) st
  else
    let! st := row_up fuel a b p pa (Z.max n_m (- p)) st in
    row_down fuel a b p pa (n_m - 1) st.

(** sync.c:395-401: the values of the row move from diaglist into the array [pf]. *)
Fixpoint drain (fuel : nat) (dl : header) (m : store) (pf : addr) (i : Z) : outcome (header * store) :=
  if first dl =? NULL then Ok (dl, m)
  else match fuel with
       | O => OutOfFuel
       | S f =>
         let d := first dl in
         let! (dl, m) := take_out dl m d in
         let! v := get_diag m d in
         let! fs := get_fs m pf in
         let! fs := wr "path->f" fs i v in
         let! m := put m pf (BFs fs) in
         let! m := release m d in
         drain f dl m pf (i + 1)
       end.

(** sync.c:365-403: the loop of compute_pathlist, for the row [p]. *)
Fixpoint path_rows (fuel : nat) (a b : list Z) (p : Z) (pl : header) (st : kstate * store) : outcome (header * (kstate * store)) :=
  let (ks, m) := st in
  if kmin ks <=? zlen b - zlen a then
    match fuel with
    | O => OutOfFuel
    | S f =>
      let! (pa, m) := new m (BPath 0 0 0 NULL) in
      let! m := put m pa (BPath p 0 0 NULL) in
      let! (pl, m) := put_last pl m pa in
      let! (ks, m) := row_values a b p pa (ks, m) in
      let n := count (diaglist ks) in
      let! (pf, m) := new m (BFs (repeat 0 (Z.to_nat n))) in
      let! (p', k1, k2, _) := get_path m pa in
      let! m := put m pa (BPath p' k1 k2 pf) in
      let! (dl, m) := drain (Z.to_nat n) (diaglist ks) m pf 0 in
      path_rows f a b (p + 1) pl (mkk (kmin ks) (kmax ks) dl, m)
    end
  else Ok (pl, st).

(** sync.c:412-434 obtain_matches; [k] is [None] when prev_k was not set. *)
Fixpoint obtain (fuel : nat) (l pl : header) (m : store) (k : option Z) : outcome (header * header * store) :=
  if last pl =? NULL then Ok (l, pl, m)
  else match fuel with
       | O => OutOfFuel
       | S f =>
         let pa := last pl in
         let! (_, k1, _, pf) := get_path m pa in
         let! k := get_set "prev_k" k in
         let! fs := get_fs m pf in
         let! v := rd "path->f" fs (k - k1) in
         let! pr := path_at m (prev (slinks m pa)) in
         let! (s0, prev_k) := initial_f k pr in
         let! (l, m) :=
           if s0 <? v then
             let! (q, m) := new m (BLong 0) in
             save 2 l m (first l) [s0; s0 + k] (v - s0) q
           else Ok (l, m) in
         let! (pl, m) := take_out pl m pa in
         let! (_, _, _, pf) := get_path m pa in
         let! m := release m pf in
         let! m := release m pa in
         obtain f l pl m prev_k
       end.

(** sync.c:437-447 fastukk_sync; [dl] and [pl] are the static lists diaglist and pathlist.  The minimum and maximum of k
    are set at the beginning (sync.c:363-364). *)
Definition fastukk_list (dl pl : header) (m : store) (a b : list Z) : outcome (header * header * header * store) :=
  if MAX_F <? zlen a then Fail "text stream is too long"
  else
    let! (l, m) := initialize_list m [a; b] in
    let! (pl, (ks, m)) := path_rows (S (Z.to_nat (Z.max (zlen a) (zlen b)))) a b 0 pl (mkk (- zlen a) (zlen b) dl, m) in
    let! (l, pl, m) := obtain (Z.to_nat (count pl)) l pl m (Some (zlen b - zlen a)) in
    let! m := number_list l m in
    Ok (l, diaglist ks, pl, m).

End Sync.
