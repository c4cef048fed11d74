(** C04-C05: theorems about table.c. *)
From Verif Require Import Base ListModel TableModel TableSpec TableProof.
From Coq Require Import Permutation.

(** C04: after any legal history, looking up any key returns the most recently inserted
    entry with exactly that key still present (NULL if none), and the count is right. *)
Theorem C04_tables_are_maps : forall (ops : list top) (h0 : heap) (k0 : keymap),
  tlegal_history [] ops ->
  exists t h ks, trun ops (table_initialize, h0, k0) = Ok (t, h, ks) /\
    let m := fold_left spec_step ops [] in
    (forall key, table_lookup t h ks key = Ok (spec_lookup m key)) /\
    tcount t = zlen m.
Proof.
  intros ops h0 k0 L.
  destruct (trun_inv ops _ h0 k0 [] (tinv_init h0 k0) L) as (t & h & ks & E & T).
  exists t, h, ks. split; [exact E|]. apply tinv_presents in T. split; apply T.
Qed.
Print Assumptions C04_tables_are_maps.

(** C05, array view: after table_in_array the array holds every entry exactly once (it is
    NULL iff the table is empty) ... *)
Theorem C05_table_array_view : forall (ops : list top) (h0 : heap) (k0 : keymap),
  tlegal_history [] ops ->
  exists t h ks, trun (ops ++ [Tin_array]) (table_initialize, h0, k0) = Ok (t, h, ks) /\
    let m := fold_left spec_step ops [] in
    match m with
    | [] => tarray t = None
    | _ => exists a, tarray t = Some a /\ Permutation a (map fst m) /\ NoDup a /\
                     zlen a = tcount t
    end.
Proof.
  intros ops h0 k0 L.
  destruct (trun_inv ops _ h0 k0 [] (tinv_init h0 k0) L) as (t & h & ks & E & T).
  destruct (table_in_array_spec t h ks _ T) as (t' & E' & T' & Ec & A).
  exists t', h, ks. split.
  - unfold trun in *. rewrite ofold_app, E. cbn. rewrite E'. reflexivity.
  - cbn zeta. destruct (fold_left spec_step ops []) as [|x m] eqn:Em; [exact A|].
    destruct A as (a & Ea & P). exists a. split; [exact Ea|]. split; [exact P|]. split.
    + eapply Permutation_NoDup; [apply Permutation_sym; exact P|apply (ti_nodup _ _ _ _ T)].
    + rewrite (ti_count _ _ _ _ T'). unfold zlen. rewrite (Permutation_length P), map_length.
      reflexivity.
Qed.
Print Assumptions C05_table_array_view.

(** ... and at every point of every history a non-NULL array holds the current entries. *)
Theorem C05_table_array_never_stale : forall ops h0 k0 t h ks a,
  tlegal_history [] ops ->
  trun ops (table_initialize, h0, k0) = Ok (t, h, ks) -> tarray t = Some a ->
  Permutation a (map fst (fold_left spec_step ops [])).
Proof.
  intros ops h0 k0 t h ks a L E Ea.
  destruct (trun_inv ops _ h0 k0 [] (tinv_init h0 k0) L) as (t' & h' & ks' & E' & T).
  rewrite E in E'. injection E' as <- <- <-.
  apply tinv_presents in T. pose proof (tp_array _ _ _ _ T) as P. now rewrite Ea in P.
Qed.
Print Assumptions C05_table_array_never_stale.

(** C05, emptying: the routine is called exactly once for each entry, and the table is
    empty (and usable) afterwards. *)
Theorem C05_table_empty : forall ops h0 k0 process,
  tlegal_history [] ops ->
  let m := fold_left spec_step ops [] in
  tlegal m (Tempty process) ->
  exists t h ks, trun ops (table_initialize, h0, k0) = Ok (t, h, ks) /\
    exists t' h' log, table_empty process t h = Ok (t', h', log) /\
      Permutation log (map fst m) /\ NoDup log /\ tpresents t' h' ks [].
Proof.
  intros ops h0 k0 process L m Lp.
  destruct (trun_inv ops _ h0 k0 [] (tinv_init h0 k0) L) as (t & h & ks & E & T).
  exists t, h, ks. split; [exact E|].
  destruct (table_empty_spec process t h ks m T Lp) as (t' & h' & log & E' & T' & P & _).
  exists t', h', log. split; [exact E'|]. split; [exact P|]. split.
  - eapply Permutation_NoDup; [apply Permutation_sym; exact P|apply (ti_nodup _ _ _ _ T)].
  - now apply tinv_presents.
Qed.
Print Assumptions C05_table_empty.

(** Keys "ab", "ba" and "c" + a duplicate of "ab"; the first two collide. *)
Definition C04_demo : list top :=
  [Tinsert 1 [97; 98]; Tinsert 2 [98; 97]; Tin_array; Tinsert 3 [99];
   Tinsert 4 [97; 98]; Tinsert 5 [200; 255]; Tremove 3; Tin_array].

Example C04_nonvacuous :
  tlegal_history [] C04_demo /\
  table_index [97; 98] = table_index [98; 97] /\
  let m := fold_left spec_step C04_demo [] in
  map (spec_lookup m) [[97; 98]; [98; 97]; [99]; [200; 255]; [97]] = [4; 2; 0; 5; 0].
Proof.
  split; [|split; reflexivity]. cbn. unfold NULL. intuition (try discriminate; try lia).
Qed.

Example C05_nonvacuous :
  match trun C04_demo (table_initialize, fun _ => mknode 7 8, fun _ => []) with
  | Ok (t, h, ks) => tarray t = Some [4; 2; 1; 5] \/ exists a, tarray t = Some a /\ zlen a = 4
  | _ => False
  end.
Proof. vm_compute. right. eexists. split; reflexivity. Qed.
