(** Specification of tables: an association list, most recently inserted first. *)
From Verif Require Import Base ListModel TableModel.
From Coq Require Import Permutation.

Definition assoc := list (addr * list Z).

Definition key_eqb (a b : list Z) : bool := if list_eq_dec Z.eq_dec a b then true else false.

(** The entry most recently inserted under [key] and still present; NULL if none. *)
Definition spec_lookup (m : assoc) (key : list Z) : addr :=
  match find (fun p => key_eqb (snd p) key) m with Some p => fst p | None => NULL end.

Definition spec_step (m : assoc) (o : top) : assoc :=
  match o with
  | Tinit => []
  | Tinsert e key => (e, key) :: m
  | Tremove e => filter (fun p => negb (fst p =? e)) m
  | Tin_array => m
  | Tempty _ => []
  end.

(** Conditions on the caller: inserted entries are real and not present, removed entries
    are present; the routine given to table_empty changes no entry other than the one
    it is handed. *)
Definition tlegal (m : assoc) (o : top) : Prop :=
  match o with
  | Tinit | Tin_array => True
  | Tinsert e key => e <> NULL /\ ~ In e (map fst m)
  | Tremove e => In e (map fst m)
  | Tempty pr => forall x y h, In x (map fst m) -> In y (map fst m) -> y <> x ->
                   pr x h y = h y
  end.

Fixpoint tlegal_history (m : assoc) (ops : list top) : Prop :=
  match ops with
  | [] => True
  | o :: t => tlegal m o /\ tlegal_history (spec_step m o) t
  end.

(** The table presents the map [m]. *)
Record tpresents (t : table) (h : heap) (ks : keymap) (m : assoc) : Prop := {
  tp_lookup : forall key, table_lookup t h ks key = Ok (spec_lookup m key);
  tp_count  : tcount t = zlen m;
  tp_nodup  : NoDup (map fst m);
  tp_array  : match tarray t with
              | None => True
              | Some a => Permutation a (map fst m)
              end }.
