(** C57, C58: base names and temporary files. *)
From Coq Require Import String.
From Verif Require Import Base CLib CLibProof TextIO ReportProof UtilModel.
Local Open Scope Z_scope.
Local Open Scope list_scope.

Lemma wrap16_id z : -32768 <= z <= 32767 -> wrap16 z = z.
Proof. intros H. unfold wrap16. rewrite Z.mod_small; lia. Qed.

(** Specification: the part of a path after its last slash. *)
Definition base_of (path base : list Z) : Prop :=
  exists dir, path = dir ++ base /\ ~ In 47 base /\ (dir = [] \/ exists d, dir = d ++ [47]).

Lemma back_ok path : zlen path <= 32768 -> forall fuel i, -1 <= i < zlen path -> i + 1 < Z.of_nat fuel ->
  exists k, back_to_slash fuel path i = Ok k /\ -1 <= k <= i /\
    (forall j, k < j <= i -> znth path j <> Some 47) /\ (k = -1 \/ znth path k = Some 47).
Proof.
  intros L. induction fuel as [|fuel IH]; intros i Hi Hf; [lia|]. cbn [back_to_slash].
  destruct (Z.ltb_spec i 0).
  - exists i. split; [reflexivity|]. split; [lia|]. split; [intros; lia|left; lia].
  - destruct (znth_lt_Some path i) as (c & Ec); [lia|]. unfold rd. rewrite Ec. cbn [obind].
    destruct (Z.eqb_spec c 47) as [->|N].
    + exists i. split; [reflexivity|]. split; [lia|]. split; [intros; lia|right; exact Ec].
    + rewrite wrap16_id by lia. destruct (IH (i - 1)) as (k & E & Hk & A & B); [lia|lia|].
      exists k. split; [exact E|]. split; [lia|]. split; [|exact B].
      intros j Hj. destruct (Z.eq_dec j i) as [->|]; [rewrite Ec; congruence|]. apply A. lia.
Qed.

(** C57 for paths of at most 32768 characters.  Missing: longer paths, of which it is false (see
    below). *)
Theorem C57_base_partial : forall path, zlen path <= 32768 -> exists base, basefilename path = Ok base /\ base_of path base.
Proof.
  intros path L. unfold basefilename. pose proof (zlen_nonneg path). rewrite wrap16_id by lia.
  destruct (back_ok path L (S (List.length path)) (zlen path - 1)) as (k & E & Hk & A & B).
  { lia. } { unfold zlen. lia. }
  rewrite E. cbn [obind]. replace (k + 1 <? 0) with false by lia.
  eexists. split; [reflexivity|]. exists (firstn (Z.to_nat (k + 1)) path).
  split; [symmetry; apply firstn_skipn|]. split.
  - intros I. apply In_znth in I as (j & Hj & Ej).
    assert (0 <= j) by lia. clear Hj.
    assert (znth path (k + 1 + j) = Some 47) as X.
    { rewrite <- Ej. unfold znth. replace (j <? 0) with false by lia. replace (k + 1 + j <? 0) with false by lia.
      rewrite <- (firstn_skipn (Z.to_nat (k + 1)) path) at 1.
      rewrite nth_error_app2; rewrite firstn_length; unfold zlen in *; [|lia]. f_equal. lia. }
    pose proof (znth_Some_lt _ _ _ X). apply (A (k + 1 + j)); [lia|exact X].
  - destruct B as [->|B]; [left; reflexivity|]. right. exists (firstn (Z.to_nat k) path).
    pose proof (znth_Some_lt _ _ _ B) as Lk. unfold znth in B. replace (k <? 0) with false in B by lia.
    replace (Z.to_nat (k + 1)) with (S (Z.to_nat k)) by lia.
    clear - B. revert path B. induction (Z.to_nat k) as [|n IH]; intros [|c path] B; try discriminate B.
    + cbn in *. congruence.
    + cbn [nth_error] in B. cbn [firstn app]. f_equal. exact (IH path B).
Qed.
Print Assumptions C57_base_partial.

(** There is one such part. *)
Theorem C57_unique : forall path a b, base_of path a -> base_of path b -> a = b.
Proof.
  assert (H : forall d e a b, d ++ a = e ++ b -> ~ In 47 a -> ~ In 47 b -> (e = [] \/ exists x, e = x ++ [47]) ->
    (List.length d <= List.length e)%nat -> (d = [] \/ exists x, d = x ++ [47]) -> a = b).
  { induction d as [|x d IH]; intros e a b E Ha Hb He L Hd.
    - destruct He as [->|(y & ->)]; [exact E|]. exfalso. apply Ha. cbn in E. rewrite E, <- app_assoc. apply in_or_app. right. now left.
    - destruct e as [|y e]; [cbn in L; lia|]. cbn in E. injection E as -> E.
      destruct He as [He|(u & He)]; [discriminate|]. destruct Hd as [Hd|(v & Hd)]; [discriminate|].
      apply (IH e a b E Ha Hb).
      + destruct u as [|z u]; [left; cbn in He; congruence|right; exists u; cbn in He; congruence].
      + cbn in L. lia.
      + destruct v as [|z v]; [left; cbn in Hd; congruence|right; exists v; cbn in Hd; congruence]. }
  intros path a b (d & E1 & A1 & D1) (e & E2 & A2 & D2). subst path.
  destruct (Nat.le_ge_cases (List.length d) (List.length e)) as [L|L]; [now apply (H d e)|symmetry; now apply (H e d)].
Qed.
Print Assumptions C57_unique.

(** C57 refuted for longer paths: up to 65536 characters the index is negative, *)
Theorem C57_long_refuted : forall path, 32768 < zlen path < 65536 -> basefilename path = UB "&pathname[i + 1]".
Proof.
  intros path L. unfold basefilename.
  assert (wrap16 (zlen path - 1) = zlen path - 1 - 65536) as ->.
  { unfold wrap16. rewrite <- (Z_mod_plus_full _ (-1)). rewrite Z.mod_small; lia. }
  cbn [back_to_slash]. replace (zlen path - 1 - 65536 <? 0) with true by lia. cbn [obind].
  replace (zlen path - 1 - 65536 + 1 <? 0) with true by lia. reflexivity.
Qed.
Print Assumptions C57_long_refuted.

(** and beyond, only the first characters are looked at: with 65537 characters only the first. *)
Theorem C57_longer_refuted : forall c path, c <> 47 -> zlen path = 65536 ->
  basefilename (c :: path) = Ok (c :: path).
Proof.
  intros c path N L. unfold basefilename. rewrite zlen_cons, L.
  change (wrap16 (65536 + 1 - 1)) with 0. cbn [List.length].
  cbn [back_to_slash]. replace (0 <? 0) with false by reflexivity. unfold rd. change (znth (c :: path) 0) with (Some c). cbn [obind].
  replace (c =? 47) with false by lia. change (wrap16 (0 - 1)) with (-1).
  assert (List.length path <> 0)%nat as Hn by (unfold zlen in L; lia).
  destruct (List.length path) as [|n]; [contradiction|]. cbn [back_to_slash]. replace (-1 <? 0) with true by reflexivity.
  cbn [obind]. reflexivity.
Qed.
Print Assumptions C57_longer_refuted.

Example C57_ex : basefilename (bytes "/local/isri/bin/ocr") = Ok (bytes "ocr") /\
  basefilename (bytes "ocr") = Ok (bytes "ocr") /\ basefilename (bytes "a/") = Ok [] /\ basefilename [] = Ok [].
Proof. repeat split; vm_compute; reflexivity. Qed.

(** C58 *)
Lemma dec_inj a b : 0 <= a -> 0 <= b -> dec a = dec b -> a = b.
Proof.
  intros Ha Hb E. unfold dec in E. replace (a <? 0) with false in E by lia. replace (b <? 0) with false in E by lia.
  rewrite <- (dec_value a Ha), <- (dec_value b Hb), E. reflexivity.
Qed.

Section Names.
Variable exec_name : list Z.
Variable pid : Z.

(** The name of a temporary file. *)
Definition temp_name (id : Z) : list Z := bytes "/tmp/." ++ exec_name ++ dec pid ++ bytes "-" ++ dec id.

Lemma temp_name_inj i j : 0 <= i -> 0 <= j -> temp_name i = temp_name j -> i = j.
Proof. intros Hi Hj E. unfold temp_name in E. do 4 apply app_inv_head in E. now apply dec_inj. Qed.

(** The buffer is large enough. *)
Definition short_name : Prop := zlen exec_name + zlen (dec pid) <= 87.

Lemma create_ok id : short_name -> 0 <= id <= 32767 -> create_tempfilename exec_name pid id = Ok (temp_name id).
Proof.
  intros S H. unfold create_tempfilename. fold (temp_name id). replace (zlen (temp_name id) + 1 <=? 100) with true; [reflexivity|].
  symmetry. apply Z.leb_le. unfold temp_name. rewrite !zlen_app. change (zlen (bytes "/tmp/.")) with 6. change (zlen (bytes "-")) with 1.
  assert (zlen (dec id) <= 5); [|unfold short_name in S; lia].
  unfold dec. replace (id <? 0) with false by lia.
  pose proof (digits_len 10 id 4 ltac:(lia) ltac:(change (10 ^ Z.of_nat 5) with 100000; lia)).
  unfold zlen. rewrite map_length. lia.
Qed.

Lemma unlink_spec fs name n : unlink fs name n = true <-> fs n = true /\ n <> name.
Proof.
  unfold unlink. destruct (streq n name) eqn:E.
  - apply streq_spec in E. split; [discriminate|]. tauto.
  - split; [|tauto]. intros H. split; [exact H|]. intros ->. assert (streq name name = true) by (now apply streq_spec). congruence.
Qed.

Lemma delete_some_ok : short_name -> forall n i w, 1 <= i -> 0 <= tempfile_id w <= 32766 -> exists w',
  delete_some exec_name pid n i w = Ok w' /\ tempfile_id w' = tempfile_id w /\
  forall f, existing w' f = true <-> existing w f = true /\ ~ (exists k, i <= k < i + Z.of_nat n /\ k <= tempfile_id w /\ f = temp_name k).
Proof.
  intros S. induction n as [|n IH]; intros i w Hi Hw; cbn [delete_some].
  - exists w. split; [reflexivity|]. split; [reflexivity|]. intros f. split; [|tauto]. intros H. split; [exact H|].
    intros (k & Hk & _). lia.
  - destruct (Z.leb_spec i (tempfile_id w)).
    + rewrite create_ok by (try assumption; lia). cbn [obind]. rewrite wrap16_id by lia.
      destruct (IH (i + 1) (mkworld (tempfile_id w) (unlink (existing w) (temp_name i)))) as (w' & E & T & F); [lia|exact Hw|].
      exists w'. split; [exact E|]. split; [exact T|]. intros f. rewrite F. cbn [existing tempfile_id]. rewrite unlink_spec.
      split.
      * intros ([A N] & B). split; [exact A|]. intros (k & Hk & Hl & Ef). destruct (Z.eq_dec k i) as [->|]; [contradiction|].
        apply B. exists k. split; [lia|]. auto.
      * intros (A & B). split; [split; [exact A|]|].
        -- intros ->. apply B. exists i. split; [lia|]. split; [lia|reflexivity].
        -- intros (k & Hk & Hl & Ef). apply B. exists k. split; [lia|]. auto.
    + exists w. split; [reflexivity|]. split; [reflexivity|]. intros f. split; [|tauto]. intros A. split; [exact A|].
      intros (k & Hk & Hl & _). lia.
Qed.

Lemma delete_loop_some fuel : forall i w w', -32768 <= i <= 32767 -> tempfile_id w <= 32766 -> tempfile_id w < i + Z.of_nat fuel ->
  delete_some exec_name pid fuel i w = Ok w' -> delete_loop exec_name pid (S fuel) i w = Ok w'.
Proof.
  induction fuel as [|fuel IH]; intros i w w' Hi Hw Hf E.
  - cbn [delete_some delete_loop] in *. replace (i <=? tempfile_id w) with false by lia. exact E.
  - cbn [delete_some] in E. cbn [delete_loop]. destruct (Z.leb_spec i (tempfile_id w)); [|exact E].
    destruct (create_tempfilename exec_name pid i) as [name| | |]; cbn [obind] in *; try discriminate E.
    apply IH; cbn [tempfile_id]; [unfold wrap16; pose proof (Z.mod_pos_bound (i + 1 + 32768) 65536); lia|exact Hw| |exact E].
    rewrite wrap16_id by lia. lia.
Qed.

Lemma quit_ok : short_name -> forall w fuel, 0 <= tempfile_id w <= 32766 -> tempfile_id w < Z.of_nat fuel -> exists fs,
  quit exec_name pid fuel w = Ok fs /\
  forall f, fs f = true <-> existing w f = true /\ ~ (exists k, 1 <= k <= tempfile_id w /\ f = temp_name k).
Proof.
  intros S w fuel Hw Hf. destruct fuel as [|fuel]; [lia|].
  destruct (delete_some_ok S fuel 1 w ltac:(lia) Hw) as (w' & E & T & F).
  exists (existing w'). unfold quit, delete_tempfiles. rewrite (delete_loop_some fuel 1 w w') by (try assumption; lia). cbn [obind].
  split; [reflexivity|]. intros f. rewrite F. split; intros [A B]; (split; [exact A|]); intros (k & Hk & X); apply B; exists k.
  - destruct Hk. split; [lia|]. auto.
  - destruct X as [X Y]. split; [lia|]. exact Y.
Qed.

(** How many names a history asks for. *)
Definition asked (h : list event) : Z := zlen (filter (fun e => match e with Temp => true | _ => false end) h).

Lemma history_ok : short_name -> forall h names w, 0 <= tempfile_id w -> tempfile_id w + asked h <= 32767 ->
  exists names' w', ofold (step exec_name pid) h (names, w) = Ok (names', w') /\
    tempfile_id w' = tempfile_id w + asked h /\
    names' = names ++ map temp_name (zrange (tempfile_id w + 1) (Z.to_nat (asked h))).
Proof.
  intros S. unfold asked. induction h as [|e h IH]; intros names w Hw Ha.
  - exists names, w. cbn [ofold filter]. change (zlen (@nil event)) with 0. split; [reflexivity|]. split; [lia|]. cbn. now rewrite app_nil_r.
  - cbn [ofold]. destruct e as [|name|name]; cbn [filter] in *.
    + rewrite zlen_cons in *. pose proof (zlen_nonneg (filter (fun e => match e with Temp => true | _ => false end) h)).
      cbn [step]. unfold tempfilename. rewrite wrap16_id by lia. rewrite create_ok by (try assumption; lia). cbn [obind].
      destruct (IH (names ++ [temp_name (tempfile_id w + 1)]) (mkworld (tempfile_id w + 1) (unlink (existing w) (temp_name (tempfile_id w + 1)))))
        as (names' & w' & E & T & N); cbn [tempfile_id]; [lia|lia|].
      exists names', w'. split; [exact E|]. cbn [tempfile_id] in *. split; [lia|].
      rewrite N, <- app_assoc. f_equal.
      set (z := zlen _) in *. replace (Z.to_nat (z + 1)) with (Datatypes.S (Z.to_nat z)) by lia. reflexivity.
    + cbn [step obind]. destruct (IH names (mkworld (tempfile_id w) (fun n => if streq n name then true else existing w n))) as (names' & w' & E & T & N);
        [exact Hw|exact Ha|]. exists names', w'. auto.
    + cbn [step obind]. destruct (IH names (mkworld (tempfile_id w) (unlink (existing w) name))) as (names' & w' & E & T & N);
        [exact Hw|exact Ha|]. exists names', w'. auto.
Qed.
End Names.

(** C58: whatever a program does with files, the names it gets are all different. *)
Theorem C58_unique : forall exec_name pid fs h,
  zlen exec_name + zlen (dec pid) <= 87 -> asked h <= 32767 ->
  exists names w, ofold (step exec_name pid) h (start fs) = Ok (names, w) /\ zlen names = asked h /\ NoDup names.
Proof.
  intros exec_name pid fs h S H.
  destruct (history_ok exec_name pid S h [] (mkworld 0 fs)) as (names & w & E & T & N); cbn [tempfile_id]; [lia|lia|].
  exists names, w. split; [exact E|]. cbn [tempfile_id app] in N. rewrite N. split.
  - unfold zlen. rewrite map_length. rewrite <- (Z2Nat.id (asked h)) at 2 by apply zlen_nonneg. f_equal. apply zrange_length.
  - assert (forall n lo, 0 <= lo -> NoDup (map (temp_name exec_name pid) (zrange lo n))) as D.
    { induction n as [|n IH]; intros lo Hlo; cbn [zrange map]; constructor.
      - intros I. apply in_map_iff in I as (x & Ex & Hx). apply In_zrange in Hx. apply temp_name_inj in Ex; lia.
      - apply IH. lia. }
    apply D. lia.
Qed.
Print Assumptions C58_unique.

(** C58: each name is, when it is returned, not the name of a file. *)
Theorem C58_fresh : forall exec_name pid w name w',
  tempfilename exec_name pid w = Ok (name, w') -> existing w' name = false.
Proof.
  intros exec_name pid w name w' H. unfold tempfilename in H.
  destruct (create_tempfilename exec_name pid (wrap16 (tempfile_id w + 1))) as [n| | |]; cbn [obind] in H; try discriminate H.
  injection H as -> <-. cbn [existing]. unfold unlink. assert (streq name name = true) as -> by (now apply streq_spec). reflexivity.
Qed.
Print Assumptions C58_fresh.

(** What is left of the files of a program when it has gone: none of the names it got, and
    otherwise what there was. *)
Definition cleaned (names : list (list Z)) (before after : list Z -> bool) : Prop :=
  forall f, after f = true <-> before f = true /\ ~ In f names.

(** C58: after at most 32766 calls, leaving the program (by terminate, by an error, or by a
    signal between two calls) removes the files of all names it got and no others; so does a
    signal that comes while the files are being removed; a signal that comes within
    tempfilename may also remove the file of the name about to be returned.
    Missing: more calls, of which it is false (see below). *)
Theorem C58_removed_partial : forall exec_name pid fs h names w fuel,
  zlen exec_name + zlen (dec pid) <= 87 -> asked h <= 32766 -> asked h < Z.of_nat fuel ->
  ofold (step exec_name pid) h (start fs) = Ok (names, w) ->
  (exists fs', quit exec_name pid fuel w = Ok fs' /\ cleaned names (existing w) fs') /\
  (forall n, exists fs', interrupt_in_quit exec_name pid n fuel w = Ok fs' /\ cleaned names (existing w) fs') /\
  (asked h < 32766 -> asked h + 1 < Z.of_nat fuel -> exists fs' name,
     interrupt_in_tempfilename exec_name pid fuel w = Ok fs' /\ cleaned (names ++ [name]) (existing w) fs' /\
     forall w' n, tempfilename exec_name pid w = Ok (n, w') -> n = name).
Proof.
  intros exec_name pid fs h names w fuel S H Hf Hh.
  destruct (history_ok exec_name pid S h [] (mkworld 0 fs)) as (names' & w' & E & T & N); cbn [tempfile_id]; [lia|lia|].
  unfold start in Hh. rewrite Hh in E. injection E as <- <-. cbn [tempfile_id app] in T, N. change (0 + 1) with 1 in N. rewrite Z.add_0_l in T.
  pose proof (zlen_nonneg (filter (fun e => match e with Temp => true | _ => false end) h)) as Pa. fold (asked h) in Pa.
  assert (I : forall f, In f names <-> exists k, 1 <= k <= tempfile_id w /\ f = temp_name exec_name pid k).
  { intros f. rewrite N, in_map_iff. split.
    - intros (k & <- & Hk). apply In_zrange in Hk. exists k. split; [lia|reflexivity].
    - intros (k & Hk & ->). exists k. split; [reflexivity|]. apply In_zrange. lia. }
  split; [|split].
  - destruct (quit_ok exec_name pid S w fuel ltac:(lia) ltac:(lia)) as (fs' & Q & F).
    exists fs'. split; [exact Q|]. intros f. now rewrite F, I.
  - intros n. destruct (delete_some_ok exec_name pid S n 1 w ltac:(lia) ltac:(lia)) as (w2 & E2 & T2 & F2).
    destruct (quit_ok exec_name pid S w2 fuel ltac:(lia) ltac:(lia)) as (fs' & Q & F).
    exists fs'. unfold interrupt_in_quit. rewrite E2. cbn [obind]. split; [exact Q|].
    intros f. rewrite F, F2, T2, I. split; [tauto|]. intros [A B]. split; [split; [exact A|]|exact B].
    intros (k & Hk & Hl & X). apply B. exists k. split; [lia|exact X].
  - intros H1 H2. unfold interrupt_in_tempfilename. rewrite wrap16_id by lia.
    destruct (quit_ok exec_name pid S (mkworld (tempfile_id w + 1) (existing w)) fuel) as (fs' & Q & F); cbn [tempfile_id existing] in *; [lia|lia|].
    exists fs', (temp_name exec_name pid (tempfile_id w + 1)). split; [exact Q|]. split.
    + intros f. rewrite F, in_app_iff, I. cbn [In]. split; intros [A B]; (split; [exact A|]); intros C; apply B.
      * destruct C as [(k & Hk & X)|[<-|[]]]; [exists k; split; [lia|exact X]|]. exists (tempfile_id w + 1). split; [lia|reflexivity].
      * destruct C as (k & Hk & X). destruct (Z.eq_dec k (tempfile_id w + 1)) as [->|]; [right; left; congruence|].
        left. exists k. split; [lia|exact X].
    + intros w2 n. unfold tempfilename. rewrite wrap16_id by lia. rewrite create_ok by (try assumption; lia). cbn [obind]. congruence.
Qed.
Print Assumptions C58_removed_partial.

(** C58 refuted after 32767 calls: the program never ends (the loop variable is a short, which
    is never above 32767). *)
Theorem C58_many_refuted : forall exec_name pid w fuel, tempfile_id w = 32767 ->
  forall fs, quit exec_name pid fuel w <> Ok fs.
Proof.
  intros exec_name pid w fuel H fs. unfold quit, delete_tempfiles.
  assert (forall i w, tempfile_id w = 32767 -> -32768 <= i <= 32767 -> forall w', delete_loop exec_name pid fuel i w <> Ok w') as X.
  { clear. induction fuel as [|fuel IH]; intros i w H Hi w'; cbn [delete_loop]; [discriminate|].
    replace (i <=? tempfile_id w) with true by lia. destruct (create_tempfilename exec_name pid i); cbn [obind]; try discriminate.
    apply IH; [exact H|]. unfold wrap16. pose proof (Z.mod_pos_bound (i + 1 + 32768) 65536). lia. }
  specialize (X 1 w H ltac:(lia)). destruct (delete_loop exec_name pid fuel 1 w) as [w'| | |]; cbn [obind]; try discriminate.
  exfalso. now apply (X w').
Qed.
Print Assumptions C58_many_refuted.

(** and after 32768 calls nothing is removed. *)
Theorem C58_more_refuted : forall exec_name pid w fuel, tempfile_id w < 0 ->
  quit exec_name pid (S fuel) w = Ok (existing w).
Proof.
  intros exec_name pid w fuel H. unfold quit, delete_tempfiles. cbn [delete_loop].
  replace (1 <=? tempfile_id w) with false by lia. reflexivity.
Qed.
Print Assumptions C58_more_refuted.

(** C58 refuted for long program names: the buffer of the name is overrun. *)
Theorem C58_long_name_refuted : forall exec_name pid id, 92 < zlen exec_name ->
  create_tempfilename exec_name pid id = UB "name[100]".
Proof.
  intros exec_name pid id H. unfold create_tempfilename. cbv zeta. rewrite !zlen_app.
  change (zlen (bytes "/tmp/.")) with 6. change (zlen (bytes "-")) with 1.
  pose proof (zlen_nonneg (dec pid)). pose proof (zlen_nonneg (dec id)).
  replace (_ <=? 100) with false by lia. reflexivity.
Qed.
Print Assumptions C58_long_name_refuted.

Example C58_ex :
  ofold (step (bytes "vote") 77) [Temp; Create (bytes "/tmp/.vote77-1"); Temp; Create (bytes "x")] (start (fun _ => false)) =
    Ok ([bytes "/tmp/.vote77-1"; bytes "/tmp/.vote77-2"],
        snd match ofold (step (bytes "vote") 77) [Temp; Create (bytes "/tmp/.vote77-1"); Temp; Create (bytes "x")] (start (fun _ => false)) with
            | Ok st => st | _ => start (fun _ => false) end).
Proof. vm_compute. reflexivity. Qed.
