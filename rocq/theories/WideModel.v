(** The counters of the programs as C `long` variables of 64 bits.  The other models count with
    unbounded integers; here the same code is given with every addition to a counter checked: a
    sum that is not a `long` is undefined behaviour. *)
From Coq Require Import String.
From Verif Require Import Base CLib Utf8Model TextModel CharclassModel CompareModel SortModel SyncModel
  AccModel ReportModel AccrptModel WordModel StopModel WacModel FreqModel NgramModel EdoModel EditopModel.
Local Open Scope Z_scope.
Local Open Scope list_scope.

(** A value of type long. *)
(* Models accrpt.h:35-49 *)
Definition is_long (z : Z) : bool := (LONG_MIN <=? z) && (z <=? LONG_MAX).
(* Models accrpt.h:35-49 *)
Definition long {A} (ok : bool) (x : A) : outcome A := if ok then Ok x else UB "signed overflow".

(* Models accrpt.h:35-49 *)
Definition class_long (c : accclass) : bool := is_long (ccount c) && is_long (cmissed c).
(* Models accrpt.h:35-49 *)
Definition ops_long (o : accops) : bool :=
  is_long (ins o) && is_long (AccModel.subst o) && is_long (del o) && is_long (errs o).

(** accrpt.c:48-65 update_class and add_class: the three entries that change *)
Definition add_class64 (d : accdata) (v count missed : Z) : outcome accdata :=
  let! k := charclass v in
  let! d := add_class d v count missed in
  long (class_long (large d k) && class_long (total_class d) && class_long (small d v)) d.

(** accrpt.c:68-88 add_conf (only the entry with the key changes) *)
Definition add_conf64 (d : accdata) (key : list Z) (e m : Z) : outcome accdata :=
  let d := add_conf d key e m in
  long (forallb (fun c => is_long (cerrors c) && is_long (cmarked c)) (conftable d)) d.

(** Additions to the single counters of an Accdata, as in AccModel. *)
(* Models accuracy.c:93-110 *)
Definition add_counts64 (d : accdata) (ch er re su fm : Z) : outcome accdata :=
  let d := add_counts d ch er re su fm in
  long (is_long (characters d) && is_long (errors d) && is_long (rejects d) &&
        is_long (suspects d) && is_long (false_marks d)) d.
(** accuracy.c:64-71 add_ops *)
Definition with_ops64 (d : accdata) (m u t : accops) : outcome accdata :=
  let d := with_ops d m u t in
  long (ops_long (marked_ops d) && ops_long (unmarked_ops d) && ops_long (total_ops d)) d.

(** accuracy.c:84-92: the loop over the correct side *)
Definition count_correct_step64 (matched : bool) (st : accdata * Z * Z) (c : char)
  : outcome (accdata * Z * Z) :=
  let '(d, ch, wild) := st in
  if TextModel.value c =? REJECT then let! wild := long (is_long (wild + 1)) (wild + 1) in Ok (d, ch, wild)
  else
    let! ch := long (is_long (ch + 1)) (ch + 1) in
    let! d := add_class64 d (TextModel.value c) 1 (if matched then 0 else 1) in
    Ok (d, ch, wild).
Definition count_correct64 (matched : bool) (cs : list char) (d : accdata)
  : outcome (accdata * Z * Z) :=
  ofold (count_correct_step64 matched) cs (d, 0, 0).

(** accuracy.c:95-99: the loop over the generated side *)
Definition count_generated64 (cs : list char) : outcome (Z * Z) :=
  ofold (fun (st : Z * Z) c =>
           let '(re, su) := st in
           if TextModel.value c =? REJECT then long (is_long (re + 1)) (re + 1, su)
           else if TextModel.suspect c then long (is_long (su + 1)) (re, su + 1) else Ok (re, su)) cs (0, 0).

Section Unicode.
Variable uc : unicode_data.

(** accuracy.c:83-127: one item of the list *)
Definition process_item64 (text0 text1 : list char) (d : accdata) (it : item) : outcome accdata :=
  match isubs it with
  | s0 :: s1 :: _ =>
      let matched := match inum it with Some _ => true | None => false end in
      let! cs0 := sub_chars text0 s0 in
      let! (d, ch, wild) := count_correct64 matched cs0 d in
      let! cs1 := sub_chars text1 s1 in
      let! (re, su) := count_generated64 cs1 in
      let! d := add_counts64 d ch 0 re su 0 in
      if matched then add_counts64 d 0 0 0 0 su
      else
        let! diff := long (is_long (slen s1 - wild)) (slen s1 - wild) in
        let genchars := Z.max 0 diff in
        let er := Z.max ch genchars in
        if 0 <? er then
          let! d := add_counts64 d 0 er 0 0 0 in
          let! i := long (is_long (ch - genchars)) (Z.max 0 (ch - genchars)) in
          let! l := long (is_long (genchars - ch)) (Z.max 0 (genchars - ch)) in
          let ops := mkops i (Z.min ch genchars) l er in
          let! key := make_key uc (map TextModel.value cs0) (map TextModel.value cs1) in
          let! sum := long (is_long (re + su)) (re + su) in
          if 0 <? sum
          then let! d := add_conf64 d key er er in with_ops64 d ops no_ops ops
          else let! d := add_conf64 d key er 0 in with_ops64 d no_ops ops ops
        else Ok d
  | _ => UB "substr"
  end.

(** accuracy.c:74-129 and 143-146 *)
Definition accuracy_data64 (text0 text1 : list char) : outcome accdata :=
  let! l := fastukk_sync (map TextModel.value text0) (map TextModel.value text1) in
  ofold (process_item64 text0 text1) l acc_empty.

(** The differences and sums that write_accrpt computes before it divides (accrpt.c:335-344
    and, for the rows of classes and characters, 295). *)
Definition pct_long (d : accdata) : Prop :=
  is_long (characters d - errors d) = true /\ is_long (rejects d + suspects d) = true /\
  is_long (characters d - errs (unmarked_ops d)) = true /\
  (forall k, is_long (ccount (large d k) - cmissed (large d k)) = true) /\
  is_long (ccount (total_class d) - cmissed (total_class d)) = true /\
  (forall v, is_long (ccount (small d v) - cmissed (small d v)) = true).
End Unicode.

(** accrpt.c:236-241 *)
Fixpoint conf_rows64 (fuel : nat) (d : accdata) (st : rstate) : outcome (accdata * rstate) :=
  let! (r, st) := read_scan scan_two st in
  match r with
  | Some (v1, v2) =>
      let! key := cstr (fst st) CONF_OFFSET in
      match fuel with
      | O => OutOfFuel
      | Datatypes.S fu => let! d := add_conf64 d key v1 v2 in conf_rows64 fu d st
      end
  | None => Ok (d, st)
  end.

(** accrpt.c:243-249 *)
Fixpoint class_rows64 (fuel : nat) (d : accdata) (st : rstate) : outcome (accdata * rstate) :=
  let! (r, st) := read_scan scan_two st in
  match r with
  | Some (v1, v2) =>
      let! v3 := read_char (fst st) CLASS_OFFSET in
      if v3 =? INVALID_CHARVALUE then Fail "invalid character in"
      else
        let! d := add_class64 d v3 v1 v2 in
        match fuel with
        | O => OutOfFuel
        | Datatypes.S fu => class_rows64 fu d st
        end
  | None => Ok (d, st)
  end.

(** accrpt.c:214-254 read_accrpt.  (The additions of the heading are made where AccrptModel
    makes them.) *)
Definition read_accrpt64 (line : list Z) (d : accdata) (f : list Z) : outcome (accdata * list Z) :=
  let fuel := List.length f in
  let st := (line, f) in
  let! st := need_title ACC_TITLE st in
  let! st := need_divider ACC_DIVIDER st in
  let! (ch, st) := need_scan scan_one st in
  let! (er, st) := need_scan scan_one st in
  let! st := need_line st in
  let! st := need_line st in
  let! (re, st) := need_scan scan_one st in
  let! (su, st) := need_scan scan_one st in
  let! (fm, st) := need_scan scan_one st in
  let! st := need_line st in
  let! st := need_line st in
  let! st := need_line st in
  let! st := need_line st in
  let! (mo, st) := need_scan scan_four st in
  let! (uo, st) := need_scan scan_four st in
  let! (to, st) := need_scan scan_four st in
  let! st := need_line st in
  let! d := add_counts64 d ch er re su fm in
  let! d := with_ops64 d (four_ops mo) (four_ops uo) (four_ops to) in
  let! st := skip_to_blank fuel st in
  let! (d, st) := if 0 <? er then
                    let! (ok, st) := read_line st in
                    if (ok : bool) then conf_rows64 fuel d st else Ok (d, st)
                  else Ok (d, st) in
  let! (d, st) := if 0 <? ch then
                    let! (ok, st) := read_line st in
                    if (ok : bool) then class_rows64 fuel d st else Ok (d, st)
                  else Ok (d, st) in
  Ok (d, fst st).

Definition wac_long (w : wac) : bool := is_long (wcount w) && is_long (wmissed w).

(** wacrpt.c:39-45 increment_wac *)
Definition increment_wac64 (w : wac) (count missed : Z) : outcome wac :=
  let w := increment_wac w count missed in long (wac_long w) w.
Definition increment_at64 (ws : list wac) (i count missed : Z) : outcome (list wac) :=
  let! w := rd "wac[index]" ws i in
  let! w := increment_wac64 w count missed in
  wr "wac[index]" ws i w.

(** wacrpt.c:48-62 add_term *)
Fixpoint add_term64 (l : list term) (key : list Z) (count missed : Z) : outcome (list term) :=
  match l with
  | [] => let! w := increment_wac64 no_wac count missed in Ok [mkterm key w]
  | t :: r => if streq (tkey t) key
              then let! w := increment_wac64 (twac t) count missed in Ok (mkterm (tkey t) w :: r)
              else let! r := add_term64 r key count missed in Ok (t :: r)
  end.

(** accsum.c:33-45 main, on the contents of the files *)
Definition accsum64 (uc : unicode_data) (fmt : Z -> Z -> list Z) (order : list conf -> list conf)
  (line : list Z) (files : list (list Z)) : outcome (list Z) :=
  if zlen files <? 2 then Fail "not enough input files"
  else
    let! (d, _) := ofold (fun (st : accdata * list Z) f => read_accrpt64 (snd st) (fst st) f)
                         files (acc_empty, line) in
    write_accrpt uc fmt order d.

(** wordacc.c:218-230 *)
Definition process_term64 (st : wac * list wac * option (list wac)) (t : term)
  : outcome (wac * list wac * option (list wac)) :=
  let '(total, length, occurs) := st in
  let count := wcount (twac t) in
  let missed := wmissed (twac t) in
  let! total := increment_wac64 total count missed in
  let! length := increment_at64 length 0 count missed in
  let! length := increment_at64 length (zlen (tkey t)) count missed in
  let miss := if count =? missed then 1 else 0 in
  match occurs with
  | None => Ok (total, length, None)
  | Some occurs =>
      let! occurs := increment_at64 occurs 0 1 miss in
      let! occurs := increment_at64 occurs (Z.min count (MAX_OCCURRENCES + 1)) 1 miss in
      Ok (total, length, Some occurs)
  end.

(** wordacc.c:239-245 *)
Fixpoint phrases_from64 (recognized : bool) (marks : list bool) (i j : Z) (k : nat)
  (ps : list wac) : outcome (list wac) :=
  match k with
  | O => Ok ps
  | Datatypes.S k =>
      if i + j <? zlen marks then
        let! r := rd "symbol" marks (i + j) in
        let recognized := recognized && r in
        let! ps := increment_at64 ps (j + 1) 1 (if recognized then 0 else 1) in
        phrases_from64 recognized marks i (j + 1) k ps
      else Ok ps
  end.
(** wordacc.c:234-247 process_phrases *)
Definition process_phrases64 (marks : list bool) (ps : list wac) : outcome (list wac) :=
  ofold (fun ps i => phrases_from64 true marks i 0 (Z.to_nat MAX_PHRASELENGTH) ps)
        (zrange 0 (List.length marks)) ps.

Section Terms.
Variable is_stopword : list Z -> bool.
Variable order : list term -> list term.

(** wordacc.c:253-256 *)
Definition tabulate64 (tables : list term * list term) (wm : list Z * bool)
  : outcome (list term * list term) :=
  let (w, recognized) := wm in
  let missed := if recognized then 0 else 1 in
  if is_stopword w then let! t := add_term64 (fst tables) w 1 missed in Ok (t, snd tables)
  else let! t := add_term64 (snd tables) w 1 missed in Ok (fst tables, t).

(** wordacc.c:250-261 determine_wacdata *)
Definition determine_wacdata64 (words : list (list Z)) (marks : list bool) : outcome wacdata :=
  let d := wac_empty in
  let! (st, ns) := ofold tabulate64 (combine words marks) ([], []) in
  let! (total, sw, _) := ofold process_term64 (order st) (wtotal d, stopword d, None) in
  let! (total, nsw, occ) :=
    ofold process_term64 (order ns) (total, non_stopword d, Some (distinct d)) in
  let! ps := process_phrases64 marks (phrase d) in
  Ok (mkwacdata total sw nsw (match occ with Some o => o | None => distinct d end) ps st ns).
End Terms.

(** wordfreq.c:39-49, after the words have been found *)
Definition count_words64 (termtable : list term) (words : list (list Z)) : outcome (list term) :=
  ofold (fun tab w => add_term64 tab w 1 0) words termtable.
(** wordfreq.c:68-79: the total *)
Definition total64 (array : list term) : outcome Z :=
  ofold (fun total t => long (is_long (total + wcount (twac t))) (total + wcount (twac t))) array 0.

(** wordfreq.c:68-79 write_array *)
Definition write_array64 (array : list term) : outcome (list Z) :=
  let! total := total64 array in
  Ok (bytes "   Count" ++ [10] ++
      flat_map (fun t => dec8 (wcount (twac t)) ++ bytes "   " ++ tkey t ++ [10]) array ++
      dec8 total ++ bytes "   Total" ++ [10]).
(** wordfreq.c:82-105 write_report and main, on the contents of the files *)
Definition wordfreq64 (order : list term -> list term) (uc : unicode_data) (NFC : list Z -> list Z)
  (junk junk4 : list Z) (files : list (list Z)) : outcome (list Z) :=
  if zlen files =? 0 then Fail "no text files specified"
  else
    let! termtable :=
      ofold (fun tab f => let! words := words_in uc NFC junk junk4 wordfreq_opt f in
                          count_words64 tab words) files [] in
    let array := order termtable in
    let! array := sort order_by_key (zlen array) array in
    let! first := write_array64 array in
    let! array := sort order_by_count (zlen array) array in
    let! second := write_array64 array in
    Ok (first ++ [10; 10] ++ second).

(** edorpt.c:43-54 and 80-81: additions to the figures of an edit operation report *)
Definition add_at64 (a : list Z) (i n : Z) : outcome (list Z) :=
  let! x := rd "moves[value2]" a i in
  let! x := long (is_long (x + n)) (x + n) in wr "moves[value2]" a i x.
Fixpoint move_rows64 (fuel : nat) (ms : list Z) (st : rstate) : outcome (list Z * rstate) :=
  let! (r, st) := read_scan scan_two st in
  match r with
  | Some (value1, value2) =>
      let! ms := add_at64 ms value2 value1 in
      match fuel with
      | O => OutOfFuel
      | Datatypes.S fu => move_rows64 fu ms st
      end
  | None => Ok (ms, st)
  end.
(** edorpt.c:66-86 read_edorpt *)
Definition read_edorpt64 (line : list Z) (d : edodata) (f : list Z) : outcome (edodata * list Z) :=
  let fuel := List.length f in
  let st := (line, f) in
  let! st := need_title EDO_TITLE st in
  let! st := need_divider EDO_DIVIDER st in
  let! (ins, st) := need_scan scan_one st in
  let! (del, st) := need_scan scan_one st in
  let! (mov, st) := need_scan scan_one st in
  let! ins := long (is_long (insertions d + ins)) (insertions d + ins) in
  let! del := long (is_long (deletions d + del)) (deletions d + del) in
  let! tot := long (is_long (total_moves d + mov)) (total_moves d + mov) in
  let! (ms, st) :=
    if 0 <? mov then
      let! (ok, st) := three_lines st in
      if (ok : bool) then move_rows64 fuel (moves d) st else Ok (moves d, st)
    else Ok (moves d, st) in
  Ok (mkedo ins del tot ms, fst st).

(** editopcost.c:45-56 write_results *)
Definition write_results64 (d : edodata) : outcome (list Z) :=
  let! (out, _, _) :=
    ofold (fun (st : list Z * Z * Z) i =>
             let '(out, ins, mov) := st in
             let! m := rd "moves[i]" (moves d) i in
             let! cost := long (is_long (i * mov) && is_long (ins + i * mov)) (ins + i * mov) in
             let! ins := long (is_long (i * m) && is_long (ins + i * m)) (ins + i * m) in
             let! mov := long (is_long (mov - m)) (mov - m) in
             Ok (out ++ cost_line i cost, ins, mov))
          (zrange 0 (Datatypes.S (Z.to_nat MAX_MOVE_LENGTH))) ([], insertions d, total_moves d) in
  Ok out.

(** editopsum.c:34-46 main, on the contents of the files *)
Definition editopsum64 (line : list Z) (files : list (list Z)) : outcome (list Z) :=
  if zlen files <? 2 then Fail "not enough input files"
  else
    let! (d, _) := ofold (fun (st : edodata * list Z) f => read_edorpt64 (snd st) (fst st) f)
                         files (edo_empty, line) in
    write_edorpt d.

(** editopcost.c:34-42 decrement_edodata *)
Definition decrement_edodata64 (d d2 : edodata) : outcome edodata :=
  let! ms := ofold (fun ms i => let! x := rd "moves[i]" ms i in
                                let! y := rd "moves[i]" (moves d2) i in
                                let! z := long (is_long (x - y)) (x - y) in
                                wr "moves[i]" ms i z)
                   (zrange 1 (Z.to_nat MAX_MOVE_LENGTH)) (moves d) in
  let! ins := long (is_long (insertions d - insertions d2)) (insertions d - insertions d2) in
  let! del := long (is_long (deletions d - deletions d2)) (deletions d - deletions d2) in
  let! tot := long (is_long (total_moves d - total_moves d2)) (total_moves d - total_moves d2) in
  Ok (mkedo ins del tot ms).

(** editopcost.c:59-74 main, on the contents of the files *)
Definition editopcost64 (line : list Z) (files : list (list Z)) : outcome (list Z) :=
  match files with
  | [f] => let! (d, _) := read_edorpt64 line edo_empty f in write_results64 d
  | [f; f2] =>
      let! (d, line) := read_edorpt64 line edo_empty f in
      let! (d2, _) := read_edorpt64 line edo_empty f2 in
      let! d := decrement_edodata64 d d2 in
      write_results64 d
  | _ => Fail "invalid number of files"
  end.

(** ngram.c:67-90 add_sequence (only the entry with the key changes) *)
Definition add_sequence64 (t : seqtable) (key value : list Z) (susp : bool) : outcome seqtable :=
  let t := add_sequence t key value susp in
  long (forallb (fun e => is_long (scount (snd e)) && is_long (ssuspect (snd e))) (entries t) &&
        is_long (total_count t) && is_long (total_suspect t)) t.
(** ngram.c:93-119 process_file on the text read *)
Fixpoint process_text64 (uc : unicode_data) (n : nat) (t : seqtable) (start : list char)
  : outcome seqtable :=
  match start with
  | [] => Ok t
  | _ :: next =>
    let! r := sequence_at uc n start [] [] false in
    match r with
    | None => Ok t
    | Some (key, value, susp) =>
        let! t := add_sequence64 t key value susp in process_text64 uc n t next
    end
  end.

(** ngram.c:167-180 main, on the value of -n and the contents of the files *)
Definition ngram64 (uc : unicode_data) (order : list entry -> list entry) (junk junk4 : list Z)
  (nstring : option (list Z)) (files : list (list Z)) : outcome (list Z) :=
  if zlen files =? 0 then Fail "no text files specified"
  else
    let! n := get_n nstring in
    let! t := ofold (fun t f =>
                let! (text, _) := read_text uc junk junk4 ngram_opt [] f in
                process_text64 uc (Z.to_nat n) t text) files (mktable [] 0 0) in
    NgramModel.write_report order t.

(** editop.c:77-88 count_insertions *)
Fixpoint count_plain64 (fuel : nat) (text : list Z) (i stop total : Z) : outcome Z :=
  if i <=? stop then
    match fuel with
    | O => OutOfFuel
    | Datatypes.S fuel =>
      let! value := rd "text->array" text i in
      let! total := if value =? REJECT then Ok total else long (is_long (total + 1)) (total + 1) in
      count_plain64 fuel text (i + 1) stop total
    end
  else Ok total.
Definition count_insertions64 (synclist : list item) (text : list Z) (total : Z) : outcome Z :=
  ofold (fun total sync =>
    match inum sync with
    | Some _ => Ok total
    | None =>
      let! s := rd "substr" (isubs sync) 0 in
      count_plain64 (List.length text) text (SyncModel.start s) (SyncModel.stop s) total
    end) synclist total.
(** editop.c:91-106 count_deletions *)
Fixpoint count_deletions64 (synclist : list item) (total : Z) : outcome (Z * list block) :=
  match synclist with
  | [] => Ok (total, [])
  | sync :: next =>
    let! s := rd "substr" (isubs sync) 0 in
    match inum sync with
    | None =>
      let! total := long (is_long (total + slen s)) (total + slen s) in count_deletions64 next total
    | Some n =>
      let! (total, rest) := count_deletions64 next total in
      Ok (total, mkblock n (slen s) :: rest)
    end
  end.
(** editop.c:120-139 combine_adjacent *)
Fixpoint combine_from64 (fuel : nat) (before : list block) (sync : block) (rest : list block)
  : outcome (list block) :=
  match fuel with
  | O => OutOfFuel
  | Datatypes.S fuel =>
    match rest with
    | [] => Ok (before ++ [sync])
    | next :: rest =>
      if bmatch next =? bmatch sync + 1 then
        let! len := long (is_long (blen sync + blen next)) (blen sync + blen next) in
        let sync := mkblock (bmatch sync) len in
        let limit := bmatch sync in
        match decrement_match limit [sync] with
        | [sync] => combine_from64 fuel (decrement_match limit before) sync (decrement_match limit rest)
        | _ => OutOfFuel
        end
      else combine_from64 fuel (before ++ [sync]) next rest
    end
  end.
Definition combine_adjacent64 (synclist : list block) : outcome (list block) :=
  match synclist with
  | [] => Ok []
  | sync :: rest => combine_from64 (List.length synclist) [] sync rest
  end.
(** editop.c:185-205 perform_move *)
Definition perform_move64 (synclist : list block) (c : list candidate) (sync : block) (d : edodata)
  : outcome (list block * edodata) :=
  let! l := list_remove synclist sync in
  let! l :=
    if bmatch sync =? 1 then
      let! b := candidate_sync c 2 in list_insert_before l sync b
    else
      let! b := candidate_sync c (bmatch sync - 1) in list_insert_after l b sync in
  let length := Z.min (blen sync) MAX_MOVE_LENGTH in
  let! total := long (is_long (total_moves d + 1)) (total_moves d + 1) in
  let! ms := add_at64 (moves d) length 1 in
  Ok (l, mkedo (insertions d) (deletions d) total ms).
(** editop.c:208-224 count_moves *)
Fixpoint moves_loop64 (fuel : nat) (synclist : list block) (d : edodata) : outcome (list block * edodata) :=
  if 1 <? zlen synclist then
    match fuel with
    | O => OutOfFuel
    | Datatypes.S fuel =>
      let! c := find_candidates synclist in
      let! sync := find_move synclist c in
      let! (l, d) := perform_move64 synclist c sync d in
      let! l := combine_adjacent64 l in
      moves_loop64 fuel l d
    end
  else Ok (synclist, d).
(** editop.c:239-242 in main *)
Definition edit_operations64 (t1 t2 : list Z) : outcome edodata :=
  let! (synclist1, synclist2) := transpose_sync t1 t2 in
  let! ins := count_insertions64 synclist1 t1 0 in
  let! (del, blocks) := count_deletions64 synclist2 0 in
  let! l := combine_adjacent64 blocks in
  let! (_, d) := moves_loop64 (List.length l) l (mkedo ins del 0 (repeat 0 101)) in
  Ok d.
