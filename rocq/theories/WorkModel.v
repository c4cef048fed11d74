(** Model of the work of fastukk_sync: compute_pathlist with a count of the comparisons of two
    characters (sync.c:311-312).  Erasing the count gives SyncModel (WorkProof). *)
From Coq Require Import String.
From Verif Require Import Base SyncModel.
Local Open Scope Z_scope.
Local Open Scope list_scope.

(** sync.c:311-316; [w] comparisons so far *)
Fixpoint snake_counted (fuel : nat) (a b : list Z) (i j w : Z) : outcome (Z * Z) :=
  if (i <? zlen a) && (j <? zlen b) then
    let! x := rd "a" a i in
    let! y := rd "b" b j in
    if (x =? y) && negb (x =? REJECT) then
      match fuel with O => OutOfFuel | S f => snake_counted f a b (i + 1) (j + 1) (w + 1) end
    else Ok (i, w + 1)
  else Ok (i, w).

(** sync.c:303-346 compute_f *)
Definition compute_f_counted (a b : list Z) (p : Z) (prev_path : option path) (k : Z) (st : frow) (w : Z)
  : outcome (frow * Z) :=
  let m := zlen a in
  let n := zlen b in
  let n_m := n - m in
  let! (i, _) := initial_f k prev_path in
  let! (i, w) := snake_counted (List.length a) a b i (i + k) w in
  let j := i + k in
  let mn := if i =? m then k + 1 else min_k st in
  let mx := if j =? n then k - 1 else max_k st in
  let bound := p + Z.max m (n - k) - i in
  let v1 := Z.shiftr (1 - bound + n_m) 1 in
  let mn := if mn <? v1 then v1 else mn in
  let v2 := Z.shiftr (bound + n_m) 1 in
  let mx := if v2 <? mx then v2 else mx in
  match diags st with
  | [] => Ok (mkfrow mn mx k k [i], w)
  | _ => if k <? row_start st
         then Ok (mkfrow mn mx k (row_stop st) (i :: diags st), w)
         else Ok (mkfrow mn mx (row_start st) k (diags st ++ [i]), w)
  end.

(** sync.c:372-373 and 381-382 *)
Fixpoint down_loop_counted (fuel : nat) (a b : list Z) (p : Z) (pr : option path) (k : Z) (st : frow) (w : Z)
  : outcome (frow * Z) :=
  if Z.max (min_k st) (- p) <=? k then
    match fuel with
    | O => OutOfFuel
    | S f => let! (st, w) := compute_f_counted a b p pr k st w in down_loop_counted f a b p pr (k - 1) st w
    end
  else Ok (st, w).

(** sync.c:374-375 and 379-380 *)
Fixpoint up_loop_counted (fuel : nat) (a b : list Z) (p : Z) (pr : option path) (k : Z) (st : frow) (w : Z)
  : outcome (frow * Z) :=
  if k <=? Z.min (max_k st) p then
    match fuel with
    | O => OutOfFuel
    | S f => let! (st, w) := compute_f_counted a b p pr k st w in up_loop_counted f a b p pr (k + 1) st w
    end
  else Ok (st, w).

(** sync.c:367-402 *)
Definition compute_row_counted (a b : list Z) (p : Z) (pr : option path) (mn mx w : Z)
  : outcome (frow * Z) :=
  let m := zlen a in
  let n := zlen b in
  let n_m := n - m in
  let fuel := Z.to_nat (2 * p + 1) in
  let st := mkfrow mn mx 0 0 [] in
  if m <=? n then
    let! (st, w) := down_loop_counted fuel a b p pr (Z.min n_m p) st w in
    up_loop_counted fuel a b p pr (n_m + 1) st w
  else
    let! (st, w) := up_loop_counted fuel a b p pr (Z.max n_m (- p)) st w in
    down_loop_counted fuel a b p pr (n_m - 1) st w.

(** sync.c:365-403 *)
Fixpoint pathlist_counted (fuel : nat) (a b : list Z) (p : Z) (paths : list path) (mn mx w : Z)
  : outcome (list path * Z) :=
  if mn <=? zlen b - zlen a then
    match fuel with
    | O => OutOfFuel
    | S f =>
        let! (st, w) := compute_row_counted a b p (hd_error paths) mn mx w in
        pathlist_counted f a b (p + 1)
          (mkpath p (row_start st) (row_stop st) (diags st) :: paths) (min_k st) (max_k st) w
    end
  else Ok (paths, w).

(** sync.c:349-409 compute_pathlist *)
Definition compute_pathlist_counted (a b : list Z) : outcome (list path * Z) :=
  pathlist_counted (S (Z.to_nat (Z.max (zlen a) (zlen b)))) a b 0 [] (- zlen a) (zlen b) 0.
