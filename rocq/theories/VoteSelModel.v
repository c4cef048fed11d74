(** Model of vote.c with option -O: the selection of the voters. *)
From Coq Require Import String.
From Verif Require Import Base CLib Utf8Model TextModel SortModel CompareModel AccModel SyncModel VoteModel.
Local Open Scope Z_scope.
Local Open Scope list_scope.

(** vote.c:65-68 an entry of the table: the key, count[MAX_VOTERS], and whether median was left
    at 0 when the entry was made (141-142), which is when the sequence has a reject character. *)
Record vseq := mkvseq { vkey : list Z; vcount : list Z; vreject : bool }.

(** vote.c:145 *)
Definition bump (index : Z) (s : vseq) : outcome vseq :=
  let! c := rd "count[index]" (vcount s) index in
  let! count := wr "count[index]" (vcount s) index (c + 1) in
  Ok (mkvseq (vkey s) count (vreject s)).

(** vote.c:130-146 add_sequence; the table as a map (C05), allocate clears (util.c). *)
Fixpoint add_sequence (t : list vseq) (key : list Z) (reject : bool) (index : Z) : outcome (list vseq) :=
  match t with
  | [] => let! s := bump index (mkvseq key (repeat 0 (Z.to_nat MAX_VOTERS)) reject) in Ok [s]
  | s :: t =>
    if list_eq_dec Z.eq_dec key (vkey s) then let! s := bump index s in Ok (s :: t)
    else let! t := add_sequence t key reject index in Ok (s :: t)
  end.

(** vote.c:60 *)
Definition N : Z := 2.

Section Select.
Variable uc : unicode_data.

(** vote.c:158-168: the loop over the N characters from [l]; None when they run out.  The key
    is built by strcat in key[N * STRING_SIZE]. *)
Fixpoint pair_at (n : nat) (l : list char) (key : list Z) (reject : bool) : outcome (option (list Z * bool)) :=
  match n with
  | O => Ok (Some (key, reject))
  | Datatypes.S n =>
    match l with
    | [] => Ok None
    | c :: l =>
      let! s := char_string uc (value c) in
      if zlen key + zlen s + 1 <=? N * STRING_SIZE then
        pair_at n l (key ++ s) (reject || (value c =? REJECT))
      else UB "key overflow"
    end
  end.

(** vote.c:149-171 count_sequences *)
Fixpoint count_sequences (t : list vseq) (index : Z) (start : list char) : outcome (list vseq) :=
  match start with
  | [] => Ok t
  | _ :: next =>
    let! r := pair_at (Z.to_nat N) start [] false in
    match r with
    | None => Ok t
    | Some (key, reject) =>
      let! t := add_sequence t key reject index in
      count_sequences t index next
    end
  end.

(** vote.c:181-196 compute_median: twice the median (compare_counts is in CompareModel).  The median is a float, a multiple of 1/2;
    it is exact for counts below 2^23. *)
Definition compute_median (num_voters : Z) (s : vseq) : outcome Z :=
  if vreject s then Ok 0
  else
    let! count := ofold (fun acc i => let! c := rd "count[i]" (vcount s) i in Ok (acc ++ [c]))
                    (zrange 0 (Z.to_nat num_voters)) [] in
    let! count := sort compare_counts num_voters count in
    if Z.odd num_voters then
      let! c := rd "count[i / 2]" count (num_voters / 2) in Ok (2 * c)
    else
      let! a := rd "count[i / 2 - 1]" count (num_voters / 2 - 1) in
      let! b := rd "count[i / 2]" count (num_voters / 2) in
      Ok (a + b).

(** vote.c:199-212 compute_distance: twice the distance (exact, as the medians are, below
    2^53); the list has the entries with their medians. *)
Definition compute_distance (array : list (vseq * Z)) (index : Z) : outcome Z :=
  ofold (fun d sm =>
           let! c := rd "count[index]" (vcount (fst sm)) index in
           let difference := 2 * c - snd sm in
           Ok (d + if difference <? 0 then - difference else difference)) array 0.

(** vote.c:49-56 Voter: argnum, filename, text, and twice the distance. *)
Record voter := mkvoter { argnum : Z; filename : list Z; vtext : list char; distance : Z }.

(** vote.c:215-221 compare_distances *)
Definition compare_distances (v1 v2 : voter) : Z :=
  if negb (distance v1 =? distance v2) then (if distance v1 <? distance v2 then -1 else 1)
  else argnum v1 - argnum v2.

(** The order in which table_in_array lists the entries of the table. *)
Variable order : list vseq -> list vseq.

(** vote.c:239 %11.1f of half of [d], which is not negative. *)
Definition dec11_1 (d : Z) : list Z := pad 32 11 (dec (d / 2) ++ bytes (if Z.odd d then ".5" else ".0")).

(** vote.c:227-236 in select_voters: the voters in order of distance. *)
Definition rank_voters (voters : list voter) : outcome (list voter) :=
  let num_voters := zlen voters in
  let! table := ofold (fun t i => let! v := rd "voter[index]" voters i in count_sequences t i (vtext v))
                  (zrange 0 (Z.to_nat num_voters)) [] in
  let array := order table in
  let! array := ofold (fun acc s => let! m := compute_median num_voters s in Ok (acc ++ [(s, m)])) array [] in
  let! voters := ofold (fun acc i =>
                    let! v := rd "voter[index]" voters i in
                    let! d := compute_distance array i in
                    Ok (acc ++ [mkvoter (argnum v) (filename v) (vtext v) d]))
                  (zrange 0 (Z.to_nat num_voters)) [] in
  sort compare_distances num_voters voters.

(** vote.c:237-239: what -D prints. *)
Definition debug_lines (voters : list voter) : list Z :=
  flat_map (fun v => dec11_1 (distance v) ++ [32] ++ filename v ++ [10]) voters.

(** vote.c:224-243 select_voters: what it prints, and input[0 .. actual_voters - 1]. *)
Definition select_voters (debug optimize : bool) (actual : Z) (voters : list voter)
  : outcome (list Z * list (list char)) :=
  let! (printed, voters) :=
    if optimize then
      let! voters := rank_voters voters in
      Ok (if debug then debug_lines voters else [], voters)
    else Ok ([], voters) in
  let! input := ofold (fun acc i => let! v := rd "voter[i]" voters i in Ok (acc ++ [vtext v]))
                  (zrange 0 (Z.to_nat actual)) [] in
  Ok (printed, input).

(** vote.c:115-126 and 317-319: all but reading and writing. *)
Definition vote_voters (signed debug optimize : bool) (sfraction wfraction : option (list Z)) (voters : list voter)
  : outcome (list Z * list char) :=
  let! st := set_options signed (zlen voters) optimize sfraction wfraction in
  let! (printed, input) := select_voters debug optimize (actual_voters st) voters in
  let! out := vote_texts st input in
  Ok (printed, out).

(** vote.c:310-322 main with all its options, on the names and contents of the files: what -D
    prints on the standard output, and the contents of the output file. *)
Definition vote_all (junk junk4 : list Z) (signed debug optimize : bool)
    (sfraction wfraction : option (list Z)) (files : list (list Z * list Z))
  : outcome (list Z * list Z) :=
  if (zlen files <? MIN_VOTERS) || (MAX_VOTERS <? zlen files) then Fail "invalid number of voters"
  else
    let! voters := ofold (fun acc f => let! (text, _) := read_text uc junk junk4 vote_opt [] (snd f) in
                                       Ok (acc ++ [mkvoter (zlen acc) (fst f) text 0])) files [] in
    let! (printed, out) := vote_voters signed debug optimize sfraction wfraction voters in
    let! content := write_text uc out None in
    Ok (printed, content).
End Select.
