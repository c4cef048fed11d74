(** Specification of voting. *)
From Verif Require Import Base TextModel SyncModel SyncSpec.
Local Open Scope Z_scope.
Local Open Scope list_scope.

(** What is settled before the vote: the weight of a marked (suspect) character, of an
    unmarked one, and the highest total that leaves the elected character suspect. *)
Section Election.
Variables marked unmarked threshold : Z.

(** A ballot is the next character of a voter, or nothing at the end of its part. *)
Definition ballot := option char.

(** Reject characters are no votes. *)
Definition abstains (b : ballot) : Prop := exists c, b = Some c /\ value c = tilde.
Definition abstainsb (b : ballot) : bool :=
  match b with Some c => value c =? tilde | None => false end.

Definition weight (b : ballot) : Z :=
  match b with Some c => if suspect c then marked else unmarked | None => unmarked end.

(** Ballots are for the same thing when the values are equal (whatever the marks), or both
    are the end. *)
Definition choice (b : ballot) : option Z := option_map value b.

Definition opt_eqb (x y : option Z) : bool :=
  match x, y with Some x, Some y => x =? y | None, None => true | _, _ => false end.

(** The total weight of the ballots for [k]. *)
Definition tally (bs : list ballot) (k : option Z) : Z :=
  fold_right Z.add 0 (map weight (filter (fun b => negb (abstainsb b) && opt_eqb (choice b) k) bs)).

(** The result of one round: no votes at all elect '~', unmarked; otherwise the choice with the
    greatest tally is elected, the one that occurs first among equals; the elected character
    is marked when its tally does not exceed the threshold. *)
Inductive elects (bs : list ballot) : option char -> Prop :=
| elects_reject : Forall abstains bs -> elects bs (Some (mkchar false tilde))
| elects_leader before b after :
    bs = before ++ b :: after -> ~ abstains b ->
    Forall (fun b' => abstains b' \/ tally bs (choice b') < tally bs (choice b)) before ->
    Forall (fun b' => abstains b' \/ tally bs (choice b') <= tally bs (choice b)) after ->
    elects bs (option_map (fun c => mkchar (tally bs (choice b) <=? threshold) (value c)) b).

(** The rounds over one item: [parts] is what remains of each voter's part; the item ends when
    a round elects the end. *)
Inductive rounds : list (list char) -> list char -> Prop :=
| rounds_end parts : elects (map (@hd_error char) parts) None -> rounds parts []
| rounds_next parts c out :
    elects (map (@hd_error char) parts) (Some c) ->
    rounds (map (@tl char) parts) out -> rounds parts (c :: out).
End Election.

(** The parts of the texts which an item of the synchronisation covers. *)
Definition parts_of (texts : list (list char)) (it : item) : list (list char) :=
  map (fun tu => firstn (Z.to_nat (slen (snd tu))) (skipn (Z.to_nat (start (snd tu))) (fst tu)))
      (combine texts (isubs it)).
