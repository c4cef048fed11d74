(** C72: the numbers of errors are distances. *)
From Coq Require Import String Permutation.
From Verif Require Import Base CLib CLibProof Utf8Model TextModel TextSpec TextIO TextProps ReadProof SyncModel SyncSpec EditProof FastukkSync FastukkProps
  CompareModel AccModel AccSpec AccProof AccProps ReportSpec AccrptModel AccrptSpec AccrptTop AccrptProps LcsSpec LcsTop WacModel WacSpec WacProps
  UtilModel ArgsProps MainModel MainSpec MainProof MainProps MetricSpec MetricProof.
Local Open Scope Z_scope.
Local Open Scope list_scope.

Lemma between_lev uc t0 t1 e : inputs_ok uc t0 t1 -> no_reject t0 -> errors_between uc t0 t1 e -> e = lev (map value t0) (map value t1).
Proof.
  intros I N (d & E & <-). destruct (C25_figures uc t0 t1 I) as (d' & E' & _ & _ & D). rewrite E in E'. injection E' as <-.
  now apply (D _ (lev_distance _ _)).
Qed.

(** C72: the figure exists. *)
Theorem C72_defined : forall uc t0 t1, inputs_ok uc t0 t1 -> exists e, errors_between uc t0 t1 e.
Proof. intros uc t0 t1 I. destruct (C25_figures uc t0 t1 I) as (d & E & _). exists (errors d), d. auto. Qed.
Print Assumptions C72_defined.

(** C72: no errors iff the texts are the same. *)
Theorem C72_zero : forall uc t0 t1 e, inputs_ok uc t0 t1 -> no_reject t0 -> errors_between uc t0 t1 e ->
  0 <= e /\ (e = 0 <-> map value t0 = map value t1).
Proof.
  intros uc t0 t1 e I N E. rewrite (between_lev uc t0 t1 e I N E). split; [apply lev_nonneg|]. split; [apply lev_zero|].
  intros <-. apply Z.le_antisymm; [now apply lev_same|apply lev_nonneg].
Qed.
Print Assumptions C72_zero.

(** C72: the two texts can be exchanged. *)
Theorem C72_symmetric : forall uc t0 t1 e e', inputs_ok uc t0 t1 -> inputs_ok uc t1 t0 -> no_reject t0 -> no_reject t1 ->
  errors_between uc t0 t1 e -> errors_between uc t1 t0 e' -> e = e'.
Proof.
  intros uc t0 t1 e e' I I' N N' E E'. rewrite (between_lev uc t0 t1 e I N E), (between_lev uc t1 t0 e' I' N' E'). apply lev_sym.
Qed.
Print Assumptions C72_symmetric.

(** C72: through a third text. *)
Theorem C72_triangle : forall uc t0 t1 t2 e01 e12 e02, inputs_ok uc t0 t1 -> inputs_ok uc t1 t2 -> no_reject t0 -> no_reject t1 ->
  errors_between uc t0 t1 e01 -> errors_between uc t1 t2 e12 -> errors_between uc t0 t2 e02 -> e02 <= e01 + e12.
Proof.
  intros uc t0 t1 t2 e01 e12 e02 I I' N N' E E' E''.
  assert (I2 : inputs_ok uc t0 t2) by (destruct I as (? & ? & ? & ? & ?), I' as (? & ? & ? & ? & ?); repeat split; assumption).
  rewrite (between_lev uc t0 t1 _ I N E), (between_lev uc t1 t2 _ I' N' E'), (between_lev uc t0 t2 _ I2 N E''). apply lev_triangle.
Qed.
Print Assumptions C72_triangle.

(** C72: at least the difference of the lengths, at most the larger length. *)
Theorem C72_bounds : forall uc t0 t1 e, inputs_ok uc t0 t1 -> no_reject t0 -> errors_between uc t0 t1 e ->
  Z.abs (zlen t0 - zlen t1) <= e <= Z.max (zlen t0) (zlen t1).
Proof.
  intros uc t0 t1 e I N E. rewrite (between_lev uc t0 t1 e I N E).
  pose proof (lev_lower (map value t0) (map value t1)). pose proof (lev_upper (map value t0) (map value t1)).
  unfold zlen in *. rewrite !map_length in *. lia.
Qed.
Print Assumptions C72_bounds.

(** C72: one character of the generated text more, less or different: one error more or less at most. *)
Theorem C72_one_edit : forall uc t0 t1 t1' e e', inputs_ok uc t0 t1 -> inputs_ok uc t0 t1' -> no_reject t0 -> one_edit t1 t1' ->
  errors_between uc t0 t1 e -> errors_between uc t0 t1' e' -> Z.abs (e - e') <= 1.
Proof.
  intros uc t0 t1 t1' e e' I I' N O E E'. rewrite (between_lev uc t0 t1 e I N E), (between_lev uc t0 t1' e' I' N E').
  pose proof (lev_one_edit (map value t0) _ _ (one_edit_map value _ _ O)).
  pose proof (lev_one_edit (map value t0) _ _ (one_edit_sym _ _ (one_edit_map value _ _ O))). lia.
Qed.
Print Assumptions C72_one_edit.

(** C72: two texts in parts.  The errors of the whole are at most the sum of the errors of the parts. *)
Theorem C72_parts : forall uc t0 t1 u0 u1 e e' f, inputs_ok uc (t0 ++ u0) (t1 ++ u1) -> no_reject (t0 ++ u0) ->
  errors_between uc t0 t1 e -> errors_between uc u0 u1 e' -> errors_between uc (t0 ++ u0) (t1 ++ u1) f -> f <= e + e'.
Proof.
  intros uc t0 t1 u0 u1 e e' f I N E E' F. rewrite (between_lev uc _ _ f I N F). rewrite !map_app.
  destruct I as (Nu & T0 & T1 & Tb & L). unfold text_ok, tabulable in *. rewrite Forall_app in T0, T1, Tb. rewrite zlen_app in L.
  pose proof (zlen_nonneg t0). pose proof (zlen_nonneg u0). unfold no_reject in N. rewrite map_app, in_app_iff in N.
  rewrite (between_lev uc t0 t1 e), (between_lev uc u0 u1 e'); try assumption; try (unfold no_reject; tauto).
  - apply lev_app.
  - repeat split; try tauto; lia.
  - repeat split; try tauto; lia.
Qed.
Print Assumptions C72_parts.

(** C72: what the texts have in common at the beginning and at the end does not matter. *)
Theorem C72_common : forall uc p s t0 t1 e f, inputs_ok uc (p ++ t0 ++ s) (p ++ t1 ++ s) -> no_reject (p ++ t0 ++ s) ->
  errors_between uc t0 t1 e -> errors_between uc (p ++ t0 ++ s) (p ++ t1 ++ s) f -> f = e.
Proof.
  intros uc p s t0 t1 e f I N E F. rewrite (between_lev uc _ _ f I N F). rewrite !map_app.
  destruct I as (Nu & T0 & T1 & Tb & L). unfold text_ok, tabulable in *. rewrite !Forall_app in T0, T1, Tb. rewrite !zlen_app in L.
  pose proof (zlen_nonneg p). pose proof (zlen_nonneg t0). pose proof (zlen_nonneg s). unfold no_reject in N. rewrite !map_app, !in_app_iff in N.
  rewrite lev_prefix, lev_suffix by tauto. symmetry. apply (between_lev uc); [|unfold no_reject; tauto|exact E].
  repeat split; try tauto; lia.
Qed.
Print Assumptions C72_common.

(** C72: the program on files.  Errors is 0 iff the texts are the same, the same when the files are
    exchanged, and at most the sum of the errors through a third file. *)
Theorem C72_program : forall sys uc line buf order fmt n0 n1 n2 f0 f1 f2 t0 t1 t2,
  nul_hidden uc -> marks_wide uc -> pct_ok fmt -> permutes order -> junk_ok line buf -> can_deliver sys None ->
  (forall n f t, In (n, f, t) [(n0, f0, t0); (n1, f1, t1); (n2, f2, t2)] ->
     has_file sys n f /\ Forall is_byte f /\ file_text uc false f false t /\
     ~ In 1114111 (map value t) /\ no_reject t /\ zlen t <= MAX_F /\ zlen t < 50000000) ->
  exists e01 e10 e12 e02,
    accuracy_prints sys uc line buf order fmt n0 n1 e01 /\ accuracy_prints sys uc line buf order fmt n1 n0 e10 /\
    accuracy_prints sys uc line buf order fmt n1 n2 e12 /\ accuracy_prints sys uc line buf order fmt n0 n2 e02 /\
    (e01 = 0 <-> map value t0 = map value t1) /\ e01 = e10 /\ e02 <= e01 + e12.
Proof.
  intros sys uc line buf order fmt n0 n1 n2 f0 f1 f2 t0 t1 t2 N W P O J D H.
  assert (R : forall n f t n' f' t', In (n, f, t) [(n0, f0, t0); (n1, f1, t1); (n2, f2, t2)] -> In (n', f', t') [(n0, f0, t0); (n1, f1, t1); (n2, f2, t2)] ->
    accuracy_prints sys uc line buf order fmt n n' (lev (map value t) (map value t'))).
  { intros n f t n' f' t' I I' items argv CL PA. apply H in I as (Hf & Hb & Ht & Tb & Nr & L & L'). apply H in I' as (Hf' & Hb' & Ht' & _ & _ & _ & L'').
    destruct (C62_accuracy sys uc line buf order fmt items argv n n' None f f' t t' false N W P O J CL PA Hf Hf' Hb Hb' Ht Ht' Tb L ltac:(lia) D)
      as (r & report & d & E & Dl & _ & _ & _ & e & Sh & De).
    exists r, report. split; [exact E|]. split; [exact Dl|]. destruct (De _ (lev_distance _ _)) as [_ X]. rewrite <- X by exact Nr. exact Sh. }
  exists (lev (map value t0) (map value t1)), (lev (map value t1) (map value t0)), (lev (map value t1) (map value t2)), (lev (map value t0) (map value t2)).
  split; [eapply R; [left; reflexivity|right; left; reflexivity]|].
  split; [eapply R; [right; left; reflexivity|left; reflexivity]|].
  split; [eapply R; [right; left; reflexivity|right; right; left; reflexivity]|].
  split; [eapply R; [left; reflexivity|right; right; left; reflexivity]|].
  split; [|split; [apply lev_sym|apply lev_triangle]]. split; [apply lev_zero|]. intros <-.
  apply Z.le_antisymm; [|apply lev_nonneg]. apply lev_same. apply (H n0 f0 t0). now left.
Qed.
Print Assumptions C72_program.

(** ** Words *)

Definition words_ok (w0 w1 : list (list Z)) : Prop :=
  zlen (shared w0 w1) <= 65535 /\ forall w, In w w0 -> 1 <= zlen w <= 50.

Lemma misses_lcs stop order w0 w1 e : (forall l, Permutation (order l) l) -> words_ok w0 w1 -> misses_between stop order w0 w1 e ->
  exists c, subseq c w0 /\ subseq c w1 /\ e = zlen w0 - zlen c /\ forall c', subseq c' w0 -> subseq c' w1 -> zlen c' <= zlen c.
Proof.
  intros Ord [Sh H] (d & E & <-). destruct (C38_figures stop order w0 w1 Ord Sh H) as (marks & d' & (L & S & M) & E' & F).
  rewrite E in E'. injection E' as <-. exists (select marks w0). split; [apply subseq_select|]. split; [exact S|]. split; [apply F|exact M].
Qed.

(** C72: misrecognized words.  There are none iff the correct words are in the generated text in
    this order; as many words are recognized when the texts are exchanged; through a third text; and
    one word of the generated text more, less or different makes a difference of one at most. *)
Theorem C72_words : forall stop order w0 w1 w2 e01 e10 e12 e02, (forall l, Permutation (order l) l) ->
  words_ok w0 w1 -> words_ok w1 w0 -> words_ok w1 w2 -> words_ok w0 w2 ->
  misses_between stop order w0 w1 e01 -> misses_between stop order w1 w0 e10 ->
  misses_between stop order w1 w2 e12 -> misses_between stop order w0 w2 e02 ->
  0 <= e01 <= zlen w0 /\ (e01 = 0 <-> subseq w0 w1) /\ zlen w0 - e01 = zlen w1 - e10 /\ e02 <= e01 + e12 /\
  (one_edit w1 w2 -> Z.abs (e01 - e02) <= 1).
Proof.
  intros stop order w0 w1 w2 e01 e10 e12 e02 Ord O01 O10 O12 O02 M01 M10 M12 M02.
  destruct (misses_lcs _ _ _ _ _ Ord O01 M01) as (c & C0 & C1 & -> & Mc).
  destruct (misses_lcs _ _ _ _ _ Ord O10 M10) as (c' & C0' & C1' & -> & Mc').
  destruct (misses_lcs _ _ _ _ _ Ord O12 M12) as (d & D1 & D2 & -> & Md).
  destruct (misses_lcs _ _ _ _ _ Ord O02 M02) as (g & G0 & G2 & -> & Mg).
  pose proof (subseq_zlen _ _ C0). pose proof (zlen_nonneg c).
  split; [lia|]. split; [|split; [|split]].
  - split; [intros E; now rewrite <- (subseq_all _ _ C0) by lia|]. intros S. pose proof (Mc w0 (subseq_refl w0) S). lia.
  - pose proof (Mc _ C1' C0'). pose proof (Mc' _ C1 C0). lia.
  - destruct (subseq_common w1 c d C1 D1) as (e & E1 & E2 & L).
    pose proof (Mg e (subseq_trans _ _ _ E1 C0) (subseq_trans _ _ _ E2 D2)). lia.
  - intros O. destruct (subseq_one_edit _ _ O) as (k & K1 & K2 & L).
    destruct (subseq_one_edit _ _ (one_edit_sym _ _ O)) as (k' & K2' & K1' & L').
    destruct (subseq_common w1 c k C1 K1) as (e & E1 & E2 & Le).
    destruct (subseq_common w2 g k' G2 K2') as (e' & E1' & E2' & Le').
    pose proof (Mg e (subseq_trans _ _ _ E1 C0) (subseq_trans _ _ _ E2 K2)).
    pose proof (Mc e' (subseq_trans _ _ _ E1' G0) (subseq_trans _ _ _ E2' K1')). lia.
Qed.
Print Assumptions C72_words.

(** C72: both texts read backwards. *)
Theorem C72_reversed : forall uc t0 t1 e e', inputs_ok uc t0 t1 -> no_reject t0 ->
  errors_between uc t0 t1 e -> errors_between uc (rev t0) (rev t1) e' -> e = e'.
Proof.
  intros uc t0 t1 e e' I N E E'.
  assert (I' : inputs_ok uc (rev t0) (rev t1)).
  { destruct I as (Nu & T0 & T1 & Tb & L). unfold text_ok, tabulable in *. split; [exact Nu|]. split; [now apply Forall_rev|]. split; [now apply Forall_rev|].
    split; [now apply Forall_rev|]. unfold zlen in *. now rewrite rev_length. }
  assert (N' : no_reject (rev t0)) by (unfold no_reject in *; now rewrite map_rev, <- in_rev).
  rewrite (between_lev uc t0 t1 e I N E), (between_lev uc _ _ e' I' N' E'), !map_rev, lev_rev. reflexivity.
Qed.
Print Assumptions C72_reversed.

Lemma subseq_app_r {A} (c l : list A) x : subseq c l -> subseq (c ++ [x]) (l ++ [x]) /\ subseq c (l ++ [x]).
Proof.
  induction 1 as [|y c l H [IH IH']|y c l H [IH IH']]; cbn [app].
  - split; constructor; constructor.
  - split; now constructor.
  - split; now constructor.
Qed.
Lemma subseq_rev {A} (c l : list A) : subseq c l -> subseq (rev c) (rev l).
Proof. induction 1 as [|y c l H IH|y c l H IH]; cbn [rev]; [exact (subseq_nil)|exact (proj1 (subseq_app_r _ _ y IH))|exact (proj2 (subseq_app_r _ _ y IH))]. Qed.

(** C72: the words of both texts in reverse order. *)
Theorem C72_words_reversed : forall stop order w0 w1 e e', (forall l, Permutation (order l) l) ->
  words_ok w0 w1 -> words_ok (rev w0) (rev w1) ->
  misses_between stop order w0 w1 e -> misses_between stop order (rev w0) (rev w1) e' -> e = e'.
Proof.
  intros stop order w0 w1 e e' Ord O O' M M'.
  destruct (misses_lcs _ _ _ _ _ Ord O M) as (c & C0 & C1 & -> & Mc). destruct (misses_lcs _ _ _ _ _ Ord O' M') as (c' & C0' & C1' & -> & Mc').
  pose proof (Mc' _ (subseq_rev _ _ C0) (subseq_rev _ _ C1)) as L. apply subseq_rev in C0', C1'. rewrite rev_involutive in C0', C1'.
  pose proof (Mc _ C0' C1') as L'. unfold zlen in *. rewrite rev_length in *. lia.
Qed.
Print Assumptions C72_words_reversed.

(** A case: three texts and three lists of words. *)
Definition ex_words (l : list string) : list (list Z) := map bytes l.
Example C72_ex :
  let a := sample_text "a cat" in let b := sample_text "a c~ts" in let c := sample_text "the at" in
  inputs_ok sample_uc a b /\ inputs_ok sample_uc b c /\ inputs_ok sample_uc c a /\ no_reject a /\ no_reject c /\
  errors_between sample_uc a b 2 /\ errors_between sample_uc a c 4 /\ errors_between sample_uc c a 4 /\
  let v := ex_words ["the"; "cat"; "sat"]%string in let w := ex_words ["the"; "bat"; "sat"; "up"]%string in let x := ex_words ["the"; "sat"; "up"]%string in
  words_ok v w /\ words_ok w v /\ words_ok w x /\ words_ok v x /\ one_edit w x /\
  misses_between (fun _ => false) (fun l => l) v w 1 /\ misses_between (fun _ => false) (fun l => l) w v 2.
Proof.
  cbv zeta.
  assert (I : forall s s', forallb (fun c => (0 <=? value c) && (value c <? 128)) (sample_text s ++ sample_text s') = true -> zlen (sample_text s) <=? MAX_F = true ->
    inputs_ok sample_uc (sample_text s) (sample_text s')).
  { intros s s' H L. rewrite forallb_app in H. apply andb_prop in H as [H H']. rewrite forallb_forall in H, H'.
    unfold inputs_ok, text_ok, tabulable, scalar. rewrite !Forall_forall. repeat split; try (intros c Hc; try apply H in Hc; try apply H' in Hc; lia); lia. }
  assert (B : forall s s' e, inputs_ok sample_uc (sample_text s) (sample_text s') -> no_reject (sample_text s) -> lev (map value (sample_text s)) (map value (sample_text s')) = e ->
    errors_between sample_uc (sample_text s) (sample_text s') e).
  { intros s s' e Hi Hn <-. destruct (C72_defined _ _ _ Hi) as [e E]. now rewrite <- (between_lev _ _ _ _ Hi Hn E). }
  assert (N : forall s, forallb (fun v => negb (v =? 126)) (map value (sample_text s)) = true -> no_reject (sample_text s)).
  { intros s H Hi. rewrite forallb_forall in H. specialize (H _ Hi). discriminate H. }
  assert (K : forall v w : list (list Z), zlen (shared v w) <=? 65535 = true -> forallb (fun x => (1 <=? zlen x) && (zlen x <=? 50)) v = true -> words_ok v w).
  { intros v w H H'. rewrite forallb_forall in H'. split; [lia|]. intros x Hx. specialize (H' x Hx). lia. }
  split; [now apply I|]. split; [now apply I|]. split; [now apply I|]. split; [now apply N|]. split; [now apply N|].
  split; [apply B; [now apply I|now apply N|vm_compute; reflexivity]|].
  split; [apply B; [now apply I|now apply N|vm_compute; reflexivity]|].
  split; [apply B; [now apply I|now apply N|vm_compute; reflexivity]|].
  split; [now apply K|]. split; [now apply K|]. split; [now apply K|]. split; [now apply K|].
  split; [apply (one_delete [bytes "the"] (bytes "bat") [bytes "sat"; bytes "up"])|].
  split; eexists; (split; [vm_compute; reflexivity|vm_compute; reflexivity]).
Qed.
