(** Model of vote.c: voting among several texts. *)
From Coq Require Import String.
From Verif Require Import Base CLib Utf8Model TextModel SyncModel.
Local Open Scope Z_scope.
Local Open Scope list_scope.

(** vote.c:46-47 *)
Definition MIN_VOTERS : Z := 2.
Definition MAX_VOTERS : Z := 16.

(** The value of a char: bytes from 128 are negative where char is signed. *)
(* Models vote.c:89-93 *)
Definition char_val (signed : bool) (b : Z) : Z := if signed && (128 <=? b) then b - 256 else b.

(** vote.c:85-98 valid_fraction on the string [s] (without its final NUL): m and n, if it
    returns True. *)
Definition valid_fraction (signed : bool) (s : list Z) : outcome (option (Z * Z)) :=
  let at_ (i : Z) := let! b := rd "fraction[i]" (s ++ [0]) i in Ok (char_val signed b) in
  let! f0 := at_ 0 in
  if 49 <=? f0 then
    let! f1 := at_ 1 in
    if f1 =? 47 then
      let! f2 := at_ 2 in
      if (f2 <=? 57) && (f0 <=? f2) then
        let! f3 := at_ 3 in
        if f3 =? 0 then Ok (Some (f0 - 48, f2 - 48)) else Ok None
      else Ok None
    else Ok None
  else Ok None.

(** The weights and the threshold (vote.c:62-63), and how many voters there are (58). *)
Record settings := mkset {
  suspect_weight : Z; unmarked_weight : Z; suspect_threshold : Z; actual_voters : Z }.

(** vote.c:115-126 in validate_args, once the files have been read: [n] voters, and the values
    of the options -O, -s and -w. *)
Definition set_options (signed : bool) (n : Z) (optimize : bool) (sfraction wfraction : option (list Z))
  : outcome settings :=
  let actual := if negb optimize || (n <? 3) then n else 3 in
  let! (sw, uw) :=
    match wfraction with
    | None => Ok (1, 1)
    | Some s => let! r := valid_fraction signed s in
                match r with Some mn => Ok mn | None => Fail "invalid weight" end
    end in
  match sfraction with
  | None => Ok (mkset sw uw 0 actual)
  | Some s => let! r := valid_fraction signed s in
              match r with
              | Some (m, n) => Ok (mkset sw uw (Z.quot (actual * uw * m) n) actual)
              | None => Fail "invalid threshold"
              end
  end.

(** vote.c:76-81: candidate[0 .. num_candidates-1]: the character, or NULL, and num_votes. *)
Definition candidates := list (option char * Z).

Section Voting.
Variable st : settings.

(** vote.c:257-261: does the candidate have the value of this vote? *)
Definition same_vote (c : option char) (x : option char) : bool :=
  match c, x with
  | Some c, Some x => value c =? value x
  | None, None => true
  | _, _ => false
  end.

(** vote.c:257-269: find the candidate and add to it, or append a new one. *)
Fixpoint add_votes (cs : candidates) (room : Z) (c : option char) (votes : Z) : outcome candidates :=
  match cs with
  | [] => if 0 <? room then Ok [(c, votes)] else UB "candidate[i]"
  | (x, n) :: cs => if same_vote c x then Ok ((x, n + votes) :: cs)
                    else let! cs := add_votes cs (room - 1) c votes in Ok ((x, n) :: cs)
  end.

(** vote.c:246-270 place_vote *)
Definition place_vote (cs : candidates) (c : option char) : outcome candidates :=
  match c with
  | Some x =>
    if value x =? REJECT then Ok cs
    else add_votes cs MAX_VOTERS c (if suspect x then suspect_weight st else unmarked_weight st)
  | None => add_votes cs MAX_VOTERS c (unmarked_weight st)
  end.

(** vote.c:281-283: the leader *)
Fixpoint find_leader (cs : candidates) (leader : option char * Z) : option char * Z :=
  match cs with
  | [] => leader
  | x :: cs => find_leader cs (if snd leader <? snd x then x else leader)
  end.

(** vote.c:273-291 winner: the character appended to the output, or None when it returns
    False. *)
Definition winner (cs : candidates) : option char :=
  match cs with
  | [] => Some (mkchar false REJECT)
  | x :: cs =>
    let (c, votes) := find_leader cs x in
    match c with
    | None => None
    | Some c => Some (mkchar (votes <=? suspect_threshold st) (value c))
    end
  end.

(** vote.c:301-305: the votes of one round, and the substrings after it (start++). *)
Fixpoint place_votes (input : list (list char)) (subs : list substr) (n : nat) (cs : candidates)
  : outcome (candidates * list substr) :=
  match n with
  | O => Ok (cs, subs)
  | Datatypes.S n =>
    let! text := rd "input[i]" input 0 in
    let! s := rd "substr[i]" subs 0 in
    if start s <=? stop s then
      let! c := rd "input[i].array" text (start s) in
      let! cs := place_vote cs (Some c) in
      let! (cs, subs) := place_votes (tl input) (tl subs) n cs in
      Ok (cs, mksub (start s + 1) (stop s) (slen s) :: subs)
    else
      let! cs := place_vote cs None in
      let! (cs, subs) := place_votes (tl input) (tl subs) n cs in
      Ok (cs, s :: subs)
  end.

(** vote.c:300-306: the rounds for one item of the list; num_candidates is zero at the start
    of each. *)
Fixpoint vote_item (fuel : nat) (input : list (list char)) (subs : list substr)
  : outcome (list char) :=
  match fuel with
  | O => OutOfFuel
  | Datatypes.S fuel =>
    let! (cs, subs) := place_votes input subs (Z.to_nat (actual_voters st)) [] in
    match winner cs with
    | None => Ok []
    | Some c => let! out := vote_item fuel input subs in Ok (c :: out)
    end
  end.

(** vote.c:294-307 perform_vote: the output. *)
Fixpoint perform_vote (fuel : nat) (input : list (list char)) (synclist : list item)
  : outcome (list char) :=
  match synclist with
  | [] => Ok []
  | sync :: next =>
    let! out := vote_item fuel input (isubs sync) in
    let! rest := perform_vote fuel input next in
    Ok (out ++ rest)
  end.

(** vote.c:318-319 in main; a round advances in at least one text, or is the last one. *)
Definition vote_texts (input : list (list char)) : outcome (list char) :=
  let! synclist := synchronize (map (map value) input) in
  perform_vote (Datatypes.S (List.length (concat input))) input synclist.
End Voting.

(** vote.c:44 textopt (the fourth initialiser is find_hex_values, the sixth is missing). *)
Definition vote_opt : textopt := mkopt true true 0 true false.

(** vote.c:310-322 main without -O (select_voters then takes all the voters in order), on the
    contents of the files: the contents of the output. *)
Definition vote (uc : unicode_data) (junk junk4 : list Z) (signed : bool)
    (sfraction wfraction : option (list Z)) (files : list (list Z)) : outcome (list Z) :=
  if (zlen files <? MIN_VOTERS) || (MAX_VOTERS <? zlen files) then Fail "invalid number of voters"
  else
    let! texts := ofold (fun acc f => let! (text, _) := read_text uc junk junk4 vote_opt [] f in
                                      Ok (acc ++ [text])) files [] in
    let! st := set_options signed (zlen files) false sfraction wfraction in
    let! out := vote_texts st texts in
    write_text uc out None.
