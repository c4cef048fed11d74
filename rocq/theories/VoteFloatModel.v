(** Model of vote.c with option -O, with the medians as float and the distances as double.  The
    texts, the table and the sorting are those of VoteSelModel. *)
From Flocq Require Import IEEE754.BinarySingleNaN.
From Coq Require Import String ZArith.
From Flocq Require Import Core.
From Verif Require Import Base CLib Utf8Model TextModel SortModel CompareModel DoubleModel PctModel SyncModel VoteModel VoteSelModel.
Local Open Scope Z_scope.
Local Open Scope list_scope.

(** float: IEEE 754 binary32. *)
(* Models vote.c:67 *)
Definition single : Type := binary_float 24 128.
(* Models vote.c:67 *)
Definition Hps : Prec_gt_0 24 := eq_refl.
(* Models vote.c:67 *)
Definition Hms : Prec_lt_emax 24 128 := eq_refl.

(** Conversions: of an integer, of a double, and to a double. *)
(* Models vote.c:194-195 and 207 *)
Definition single_of_int (z : Z) : single := @binary_normalize 24 128 Hps Hms mode_NE z 0 false.
(* Models vote.c:194-195 and 207 *)
Definition to_single (x : double) : single :=
  match x with
  | B754_zero s => B754_zero s
  | B754_infinity s => B754_infinity s
  | B754_nan => B754_nan
  | B754_finite s m e _ => @binary_normalize 24 128 Hps Hms mode_NE (cond_Zopp s (Zpos m)) e s
  end.
(* Models vote.c:194-195 and 207 *)
Definition to_double (x : single) : double :=
  match x with
  | B754_zero s => B754_zero s
  | B754_infinity s => B754_infinity s
  | B754_nan => B754_nan
  | B754_finite s m e _ => @binary_normalize 53 1024 Hp Hm mode_NE (cond_Zopp s (Zpos m)) e s
  end.
(* Models vote.c:194-195 and 207 *)
Definition ssub (x y : single) : single := @Bminus 24 128 Hps Hms mode_NE x y.
(* Models vote.c:209 *)
Definition fopp (x : double) : double := Bopp x.
(* Models vote.c:186 and 218 *)
Definition feq (x y : double) : bool := Beqb x y.

(** vote.c:181-196 compute_median.  The median is 0 or 1 before; both cases of the conditional
    expression are converted to double, and then to float. *)
Definition compute_median_float (num_voters : Z) (s : vseq) : outcome single :=
  if vreject s then Ok (single_of_int 0)
  else
    let! count := ofold (fun acc i => let! c := rd "count[i]" (vcount s) i in Ok (acc ++ [c]))
                    (zrange 0 (Z.to_nat num_voters)) [] in
    let! count := sort compare_counts num_voters count in
    if Z.odd num_voters then
      let! c := rd "count[i / 2]" count (num_voters / 2) in Ok (to_single (of_int c))
    else
      let! a := rd "count[i / 2 - 1]" count (num_voters / 2 - 1) in
      let! b := rd "count[i / 2]" count (num_voters / 2) in
      Ok (to_single (fdiv (of_int (a + b)) (of_int 2))).

(** vote.c:199-212 compute_distance: a long less a float is a float, the rest is double; the
    distance is 0 at first (allocate clears). *)
Definition compute_distance_float (array : list (vseq * single)) (index : Z) : outcome double :=
  ofold (fun d sm =>
           let! c := rd "count[index]" (vcount (fst sm)) index in
           let difference := to_double (ssub (single_of_int c) (snd sm)) in
           Ok (fadd d (if flt difference (of_int 0) then fopp difference else difference))) array (of_int 0).

(** vote.c:49-56 Voter *)
Record fvoter := mkfvoter { fargnum : Z; ffilename : list Z; fvtext : list char; fdistance : double }.

(** vote.c:215-221 compare_distances *)
Definition compare_distances_float (v1 v2 : fvoter) : Z :=
  if negb (feq (fdistance v1) (fdistance v2)) then (if flt (fdistance v1) (fdistance v2) then -1 else 1)
  else fargnum v1 - fargnum v2.

(** vote.c:239 printf "%11.1f" *)
Definition print11_1 (x : double) : list Z := print_fixed 11 1 x.

Section Select.
Variable uc : unicode_data.
Variable order : list vseq -> list vseq.

(** vote.c:227-236 in select_voters *)
Definition rank_voters_float (voters : list fvoter) : outcome (list fvoter) :=
  let num_voters := zlen voters in
  let! table := ofold (fun t i => let! v := rd "voter[index]" voters i in count_sequences uc t i (fvtext v))
                  (zrange 0 (Z.to_nat num_voters)) [] in
  let array := order table in
  let! array := ofold (fun acc s => let! m := compute_median_float num_voters s in Ok (acc ++ [(s, m)])) array [] in
  let! voters := ofold (fun acc i =>
                    let! v := rd "voter[index]" voters i in
                    let! d := compute_distance_float array i in
                    Ok (acc ++ [mkfvoter (fargnum v) (ffilename v) (fvtext v) d]))
                  (zrange 0 (Z.to_nat num_voters)) [] in
  sort compare_distances_float num_voters voters.

(** vote.c:237-239: what -D prints. *)
Definition debug_lines_float (voters : list fvoter) : list Z :=
  flat_map (fun v => print11_1 (fdistance v) ++ [32] ++ ffilename v ++ [10]) voters.

(** vote.c:224-243 select_voters *)
Definition select_voters_float (debug optimize : bool) (actual : Z) (voters : list fvoter)
  : outcome (list Z * list (list char)) :=
  let! (printed, voters) :=
    if optimize then
      let! voters := rank_voters_float voters in
      Ok (if debug then debug_lines_float voters else [], voters)
    else Ok ([], voters) in
  let! input := ofold (fun acc i => let! v := rd "voter[i]" voters i in Ok (acc ++ [fvtext v]))
                  (zrange 0 (Z.to_nat actual)) [] in
  Ok (printed, input).

(** vote.c:115-126 and 317-319 *)
Definition vote_voters_float (signed debug optimize : bool) (sfraction wfraction : option (list Z)) (voters : list fvoter)
  : outcome (list Z * list char) :=
  let! st := set_options signed (zlen voters) optimize sfraction wfraction in
  let! (printed, input) := select_voters_float debug optimize (actual_voters st) voters in
  let! out := vote_texts st input in
  Ok (printed, out).

(** vote.c:310-322 main, as vote_all in VoteSelModel *)
Definition vote_all_float (junk junk4 : list Z) (signed debug optimize : bool)
    (sfraction wfraction : option (list Z)) (files : list (list Z * list Z))
  : outcome (list Z * list Z) :=
  if (zlen files <? MIN_VOTERS) || (MAX_VOTERS <? zlen files) then Fail "invalid number of voters"
  else
    let! voters := ofold (fun acc f => let! (text, _) := read_text uc junk junk4 vote_opt [] (snd f) in
                                       Ok (acc ++ [mkfvoter (zlen acc) (fst f) text (of_int 0)])) files [] in
    let! (printed, out) := vote_voters_float signed debug optimize sfraction wfraction voters in
    let! content := write_text uc out None in
    Ok (printed, content).
End Select.
