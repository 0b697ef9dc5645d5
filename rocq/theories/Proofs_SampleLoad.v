(** * Proofs about samples of the load *)

From Coq Require Import ZArith QArith Qabs Lqa Lia Bool String List.
From Verif Require Import Num Py NonModular Sampling Spec_Sampling Spec_Module Proofs_SampleGrid.
Import ListNotations.
Local Open Scope string_scope.
Local Open Scope list_scope.
Local Open Scope Q_scope.

(** ** Rows that are alike *)

Lemma filter_combine (f : nat -> bool) (l : list Q) : forall a,
  map snd (filter (fun e => f (fst e)) (combine (seq a (length l)) l)) = map (fun j => nth (j - a) l 0) (filter f (seq a (length l))).
Proof.
  induction l as [|x l IH]; intro a; [reflexivity|]. cbn [length seq combine filter fst].
  assert (E : map (fun j => nth (j - a) (x :: l) 0) (filter f (seq (S a) (length l))) = map (fun j => nth (j - S a) l 0) (filter f (seq (S a) (length l)))).
  { apply map_ext_in. intros j I. apply filter_In in I. destruct I as [I _]. apply in_seq in I.
    replace (j - a)%nat with (S (j - S a)) by lia. reflexivity. }
  destruct (f a).
  - cbn [map snd]. rewrite IH, E. replace (a - a)%nat with 0%nat by lia. reflexivity.
  - rewrite IH, E. reflexivity.
Qed.
Lemma group_alike (l : list Q) i : group l (weekday_of i) (hour_of i) = alike l i.
Proof.
  unfold group, alike.
  pose proof (filter_combine (fun j => Nat.eqb (hour_of j) (hour_of i) && Nat.eqb (weekday_of j) (weekday_of i)) l 0) as E.
  cbn beta in E. rewrite E.
  assert (F : forall j, (Nat.eqb (hour_of j) (hour_of i) && Nat.eqb (weekday_of j) (weekday_of i)) = same_timeb i j).
  { intro j. unfold same_timeb, hour_of, weekday_of, day_of. rewrite (Nat.eqb_sym (i mod 24)), (Nat.eqb_sym ((i / 24) mod 7)). reflexivity. }
  rewrite (filter_ext _ _ F). apply map_ext. intro j. now rewrite Nat.sub_0_r.
Qed.
Lemma same_timeb_iff i j : same_timeb i j = true <-> same_time i j.
Proof. unfold same_timeb, same_time. rewrite andb_true_iff, !Nat.eqb_eq. reflexivity. Qed.
Lemma alike_In l i x : In x (alike l i) <-> exists j, (j < length l)%nat /\ same_time i j /\ x = nth j l 0.
Proof.
  unfold alike. rewrite in_map_iff. split.
  - intros [j [<- I]]. apply filter_In in I. destruct I as [I J]. apply in_seq in I. apply same_timeb_iff in J. exists j. repeat split; try apply J. lia.
  - intros [j [L [J ->]]]. exists j. split; [reflexivity|]. apply filter_In. split; [apply in_seq; lia|now apply same_timeb_iff].
Qed.
Lemma alike_self l i : (i < length l)%nat -> In (nth i l 0) (alike l i).
Proof. intro H. apply alike_In. exists i. repeat split; auto. Qed.
Lemma alike_nonempty l i j : (j < length l)%nat -> same_time i j -> alike l i <> [].
Proof. intros H J E. assert (I : In (nth j l 0) (alike l i)) by (apply alike_In; eauto). rewrite E in I. contradiction. Qed.

(** ** Averages *)

Lemma count_number (l : list Q) : count_of l = number (length l).
Proof. reflexivity. Qed.
Lemma mean_average l : l <> [] -> average l (mean l).
Proof.
  intro NE. unfold average, mean. rewrite count_number. cbn. rewrite nsum_right.
  assert (P : 0 < number (length l)). { apply number_pos. destruct l; [congruence|cbn; lia]. } field. lra.
Qed.
Lemma average_unique l m m' : l <> [] -> average l m -> average l m' -> m == m'.
Proof.
  intros NE A B. unfold average in *. assert (P : 0 < number (length l)). { apply number_pos. destruct l; [congruence|cbn; lia]. }
  rewrite <- A in B. apply Qmult_inj_r in B; lra.
Qed.
Lemma number_minus n : (1 <= n)%nat -> number (n - 1) == number n - 1.
Proof. intro H. destruct n; [lia|]. replace (S n - 1)%nat with n by lia. rewrite number_S. lra. Qed.
Lemma deviation_spread root l : spread root l (deviation root l).
Proof.
  destruct l as [|x [|y l]]; [reflexivity..|]. unfold spread. set (k := x :: y :: l).
  assert (NE : k <> []) by discriminate.
  exists (mean k). eexists. split; [now apply mean_average|]. split; [|reflexivity].
  rewrite number_minus by (cbn; lia). change (@nsub Q Q_ops) with Qminus. change (@nmul Q Q_ops) with Qmult. change (@ndiv Q Q_ops) with Qdiv.
  rewrite nsum_right, count_number. change (@n1 Q Q_ops) with 1.
  assert (P : number (length k) == 2 + number (length l)). { unfold k. cbn [length]. rewrite !number_S. lra. }
  pose proof (number_nonneg (length l)). field. lra.
Qed.
Lemma sum_const (l : list Q) (c : Q) : (forall x, In x l -> x == c) -> fold_right Qplus 0 l == c * number (length l).
Proof.
  induction l as [|x l IH]; intro H; [cbn; rewrite number_0; lra|]. cbn [fold_right length]. rewrite IH by (intros y I; apply H; right; exact I).
  rewrite number_S, (H x) by (left; reflexivity). lra.
Qed.
Lemma mean_const l c : l <> [] -> (forall x, In x l -> x == c) -> mean l == c.
Proof. intros NE H. apply (average_unique l); [exact NE|now apply mean_average|]. unfold average. symmetry. now apply sum_const. Qed.
Lemma deviation_const root l c : takes_roots root -> (forall x, In x l -> x == c) -> deviation root l == 0.
Proof.
  intros [RE [R0 RP]] H. destruct l as [|x [|y l]]; [reflexivity..|]. cbn [deviation]. set (k := x :: y :: l) in *.
  transitivity (root 0); [apply RE|exact R0].
  change (@nsub Q Q_ops) with Qminus. change (@nmul Q Q_ops) with Qmult. change (@ndiv Q Q_ops) with Qdiv. unfold Qdiv. rewrite nsum_right.
  assert (M : mean k == c) by (apply mean_const; [discriminate|exact H]).
  assert (Z : fold_right Qplus 0 (map (fun z => (z - mean k) * (z - mean k)) k) == 0 * number (length (map (fun z => (z - mean k) * (z - mean k)) k))).
  { apply sum_const. intros z I. apply in_map_iff in I. destruct I as [t [<- I]]. rewrite M, (H t I). lra. }
  rewrite Z. lra.
Qed.
Lemma deviation_nonneg root l : takes_roots root -> 0 <= deviation root l.
Proof. intros [_ [_ R]]. destruct l as [|x [|y l]]; try apply Qle_refl. apply R. Qed.

(** ** Minima *)

Lemma fold_nmin (l : list Q) : forall a, (fold_left nmin l a = a \/ In (fold_left nmin l a) l) /\ fold_left nmin l a <= a /\ forall x, In x l -> fold_left nmin l a <= x.
Proof.
  induction l as [|x l IH]; intro a; cbn [fold_left].
  - split; [now left|]. split; [lra|contradiction].
  - destruct (IH (nmin a x)) as [I1 [I2 I3]].
    assert (M : (nmin a x = a \/ nmin a x = x) /\ nmin a x <= a /\ nmin a x <= x).
    { unfold nmin. cbn. unfold Qltb. destruct (Qle_bool a x) eqn:E; cbn.
      - apply Qle_bool_iff in E. split; [now left|]. split; lra.
      - assert (L : x < a) by (apply Qnot_le_lt; intro H; apply Qle_bool_iff in H; congruence). split; [now right|]. split; lra. }
    destruct M as [M1 [M2 M3]]. split; [|split].
    + destruct I1 as [I1|I1]; [rewrite I1|right; right; exact I1]. destruct M1 as [M1|M1]; [left; exact M1|right; left; congruence].
    + lra.
    + intros y [->|J]; [lra|now apply I3].
Qed.
Lemma least_smallest (l : list Q) : l <> [] -> smallest l (least_of l).
Proof.
  destruct l as [|x l]; intro NE; [congruence|]. cbn. destruct (fold_nmin l x) as [A [B C]]. split.
  - destruct A as [A|A]; [left; congruence|right; exact A].
  - intros y [->|J]; [exact B|now apply C].
Qed.

(** ** What is drawn *)

Definition drawn_at (root : Q -> Q) (l : list Q) (scale : Q) (z : nat -> Q) (i : nat) : Q :=
  mean (alike l i) + scale * deviation root (alike l i) * z i.
Lemma drawn_all root rows (l : list Q) scale z : (forall i, In i (table_cells rows) -> alike l i <> []) ->
  drawn_loads root (mkNoisyLoad rows l) scale z = map (drawn_at root l scale z) (table_cells rows).
Proof.
  intro H. unfold drawn_loads. cbn [nl_rows nl_data]. induction (table_cells rows) as [|i c IH]; [reflexivity|].
  cbn [flat_map map]. rewrite IH by (intros j J; apply H; right; exact J). rewrite group_alike.
  assert (NE : alike l i <> []) by (apply H; left; reflexivity). unfold drawn_at. destruct (alike l i); [congruence|reflexivity].
Qed.
Lemma ceil_day D r : (r < 24)%nat -> ((24 * D + r + 23) / 24 = if Nat.eqb r 0 then D else S D)%nat.
Proof.
  intro H. destruct (Nat.eqb r 0) eqn:E.
  - apply Nat.eqb_eq in E. subst. symmetry. apply (Nat.div_unique _ 24 D 23); lia.
  - apply Nat.eqb_neq in E. symmetry. apply (Nat.div_unique _ 24 (S D) (r - 1)); lia.
Qed.
Lemma filter_all {A} (f : A -> bool) l : (forall x, In x l -> f x = true) -> filter f l = l.
Proof. induction l as [|x l IH]; intro H; [reflexivity|]. cbn. rewrite (H x) by (left; reflexivity). f_equal. apply IH. intros y J. apply H. right; exact J. Qed.
Lemma filter_none {A} (f : A -> bool) l : (forall x, In x l -> f x = false) -> filter f l = [].
Proof. induction l as [|x l IH]; intro H; [reflexivity|]. cbn. rewrite (H x) by (left; reflexivity). apply IH. intros y J. apply H. right; exact J. Qed.
Lemma table_full rows : (24 <= rows)%nat -> table_cells rows = seq 0 (24 * ((rows + 23) / 24)).
Proof. intro H. apply filter_all. intros i _. apply Nat.ltb_lt. unfold hour_of. pose proof (Nat.mod_upper_bound i 24 ltac:(lia)). lia. Qed.
Lemma table_short rows : (0 < rows < 24)%nat -> table_cells rows = seq 0 rows.
Proof.
  intro H. unfold table_cells. assert (E : ((rows + 23) / 24 = 1)%nat).
  { symmetry. apply (Nat.div_unique _ 24 1 (rows - 1)); lia. }
  rewrite E. replace (24 * 1)%nat with (rows + (24 - rows))%nat by lia. rewrite seq_app, filter_app, filter_all.
  - assert (F : filter (fun i => Nat.ltb (hour_of i) rows) (seq (0 + rows) (24 - rows)) = []).
    { apply filter_none. intros i I. apply in_seq in I. apply Nat.ltb_ge. unfold hour_of. rewrite Nat.mod_small; lia. }
    rewrite F. apply app_nil_r.
  - intros i I. apply in_seq in I. apply Nat.ltb_lt. unfold hour_of. rewrite Nat.mod_small; lia.
Qed.

(** ** Samples *)

Definition at_least (value x : Q) : Q := if Qltb x 0 then value else x.
Lemma check_ok (value : Q) l s : check_sample value l = Ok s
  <-> length l <> 1%nat /\ s = map (at_least value) l /\ forall x, In x s -> 0 <= x.
Proof.
  unfold check_sample. destruct (Nat.eqb (length l) 1) eqn:E.
  - apply Nat.eqb_eq in E. split; [discriminate|intros [H _]; contradiction].
  - apply Nat.eqb_neq in E. change (fun x => if nltb x n0 then value else x) with (at_least value).
    destruct (forallb (fun x => nleb n0 x) (map (at_least value) l)) eqn:F.
    + split.
      * intro H. injection H as <-. split; [exact E|]. split; [reflexivity|]. intros x I. rewrite forallb_forall in F. specialize (F x I). now apply Qle_bool_iff.
      * intros [_ [-> _]]. reflexivity.
    + split; [discriminate|]. intros [_ [-> H]]. exfalso. rewrite <- not_true_iff_false in F. apply F. apply forallb_forall. intros x I. cbn. apply Qle_bool_iff. now apply H.
Qed.
Lemma check_raises (value : Q) l : length l <> 1%nat -> (exists x, In x l /\ x < 0) -> value < 0 -> raises AssertionError (check_sample value l).
Proof.
  intros E [x [I H]] V. unfold check_sample. apply Nat.eqb_neq in E. rewrite E.
  change (fun x => if nltb x n0 then value else x) with (at_least value).
  destruct (forallb (fun x => nleb n0 x) (map (at_least value) l)) eqn:F; [|now eexists].
  exfalso. rewrite forallb_forall in F. specialize (F (at_least value x) (in_map _ _ _ I)). cbn in F. apply Qle_bool_iff in F.
  unfold at_least, Qltb in F. destruct (Qle_bool 0 x) eqn:G; cbn in F; [apply Qle_bool_iff in G|]; lra.
Qed.
Lemma at_least_spec value x : (x < 0 /\ at_least value x = value) \/ (0 <= x /\ at_least value x = x).
Proof.
  unfold at_least, Qltb. destruct (Qle_bool 0 x) eqn:E; cbn; [right; apply Qle_bool_iff in E; auto|].
  left. split; [apply Qnot_le_lt; intro H; apply Qle_bool_iff in H; congruence|reflexivity].
Qed.

(** Data that cover the table: whole days, or more than a week *)
Definition covering (c : list Q) : Prop := (24 <= length c)%nat /\ ((length c mod 24 = 0)%nat \/ (168 < length c)%nat).
Definition full_rows (c : list Q) : nat := (24 * ((length c + 23) / 24))%nat.
Lemma full_rows_bounds c : (length c <= full_rows c < length c + 24)%nat.
Proof.
  unfold full_rows. pose proof (Nat.div_mod (length c + 23) 24 ltac:(lia)) as E. pose proof (Nat.mod_upper_bound (length c + 23) 24 ltac:(lia)). lia.
Qed.
Lemma full_rows_whole c : (length c mod 24 = 0)%nat -> full_rows c = length c.
Proof.
  intro H. pose proof (Nat.div_mod (length c) 24 ltac:(lia)) as E. rewrite H in E. unfold full_rows.
  pose proof (ceil_day (length c / 24) 0 ltac:(lia)) as F. cbn [Nat.eqb] in F.
  replace (24 * (length c / 24) + 0 + 23)%nat with (length c + 23)%nat in F by lia. rewrite F. lia.
Qed.
Lemma week_before i : (168 <= i)%nat -> same_time i (i - 168).
Proof.
  intro H. assert (E : i = (i - 168 + 7 * 24)%nat) by lia. set (j := (i - 168)%nat) in *. unfold same_time. rewrite E.
  rewrite Nat.mod_add by lia. rewrite Nat.div_add by lia. split; [reflexivity|].
  replace (j / 24 + 7)%nat with (j / 24 + 1 * 7)%nat by lia. now rewrite Nat.mod_add by lia.
Qed.
Lemma covered_cells c i : covering c -> (i < full_rows c)%nat -> alike c i <> [].
Proof.
  intros [L C] H. destruct (Nat.lt_ge_cases i (length c)) as [I|I].
  - apply (alike_nonempty _ _ i); [exact I|split; reflexivity].
  - destruct C as [C|C]; [rewrite (full_rows_whole c C) in H; lia|].
    pose proof (full_rows_bounds c). apply (alike_nonempty _ _ (i - 168)); [lia|apply week_before; lia].
Qed.
Lemma covered_draws root c scale z : covering c ->
  drawn_loads root (mkNoisyLoad (length c) c) scale z = map (drawn_at root c scale z) (seq 0 (full_rows c)).
Proof.
  intro C. rewrite drawn_all; rewrite table_full by apply C; [reflexivity|]. intros i I. apply in_seq in I. apply covered_cells; [exact C|fold (full_rows c) in I; lia].
Qed.
Lemma sample_covered root c scale z s : covering c ->
  sample_load root (mkNoisyLoad (length c) c) "gaussian" scale z = Ok s
  <-> 0 <= scale /\ s = map (fun i => at_least (least_of c) (drawn_at root c scale z i)) (seq 0 (full_rows c)) /\ forall x, In x s -> 0 <= x.
Proof.
  intro C. unfold sample_load. change (negb (String.eqb "gaussian" "gaussian")) with false. cbn iota. cbn [nl_data].
  change (nltb scale n0) with (Qltb scale 0). unfold Qltb. destruct (Qle_bool 0 scale) eqn:E; cbn [negb].
  - apply Qle_bool_iff in E. rewrite check_ok, (covered_draws root c scale z C), map_map, map_length, seq_length.
    pose proof (full_rows_bounds c). destruct C as [C _]. split; [intros [_ [A B]]; auto|intros [_ [A B]]; split; [lia|auto]].
  - split; [discriminate|]. intros [H _]. apply Qle_bool_iff in H. congruence.
Qed.
Lemma sample_negative_scale root nl dist scale z : scale < 0 -> raises ValueError (sample_load root nl dist scale z).
Proof.
  intro H. unfold sample_load. destruct (String.eqb dist "gaussian"); cbn [negb]; [|now eexists].
  change (nltb scale n0) with (Qltb scale 0). unfold Qltb. destruct (Qle_bool 0 scale) eqn:E; [apply Qle_bool_iff in E; lra|now eexists].
Qed.
Lemma sample_other root nl dist scale z : dist <> "gaussian" -> raises ValueError (sample_load (T := Q) root nl dist scale z).
Proof. intro H. unfold sample_load. apply String.eqb_neq in H. rewrite H. now eexists. Qed.

Lemma new_cut (l : list Q) rows : (length (firstn year l) = Nat.min rows year) ->
  new_noisy_load rows l = mkNoisyLoad (length (firstn year l)) (firstn year l).
Proof. intro H. unfold new_noisy_load. now rewrite H. Qed.
Lemma year_days : year = (24 * 365)%nat.
Proof. vm_compute. reflexivity. Qed.
Lemma cut_whole (l : list Q) D : whole_days l D -> (0 < D)%nat -> covering (firstn year l) /\ full_rows (firstn year l) = length (firstn year l)
  /\ length (firstn year l) = Nat.min (length l) year.
Proof.
  intros W P. unfold whole_days in W.
  assert (E : length (firstn year l) = (24 * Nat.min D 365)%nat). { rewrite firstn_length, W, year_days. lia. }
  assert (M : (length (firstn year l) mod 24 = 0)%nat). { rewrite E, Nat.mul_comm. apply Nat.mod_mul. lia. }
  split; [split; [rewrite E; lia|now left]|]. split; [now apply full_rows_whole|]. rewrite firstn_length. lia.
Qed.

Lemma nth_error_Some_lt {A} (l : list A) i x : nth_error l i = Some x -> (i < length l)%nat.
Proof. intro H. apply nth_error_Some. congruence. Qed.

Section Sample.
  Variable root : Q -> Q.
  Hypothesis R : takes_roots root.

  Lemma load_sample (l : list Q) scale z s : covering (firstn year l) ->
    sample_load root (new_noisy_load (length l) l) "gaussian" scale z = Ok s ->
    let c := firstn year l in
    0 <= scale /\ length s = full_rows c
    /\ forall i x, nth_error s i = Some x -> 0 <= x /\ exists m d least,
         average (alike c i) m /\ spread root (alike c i) d /\ smallest c least
         /\ (let y := m + scale * d * z i in (y < 0 -> x = least) /\ (0 <= y -> x == y)).
  Proof.
    clear R. intros C H c. rewrite (new_cut l (length l)) in H by (rewrite firstn_length; apply Nat.min_comm). fold c in H, C.
    apply (sample_covered root c scale z s C) in H. destruct H as [SC [E NN]]. split; [exact SC|].
    split; [rewrite E, map_length, seq_length; reflexivity|]. intros i x I.
    assert (L : (i < full_rows c)%nat). { apply nth_error_Some_lt in I. rewrite E, map_length, seq_length in I. exact I. }
    assert (X : x = at_least (least_of c) (drawn_at root c scale z i)).
    { rewrite E in I. rewrite nth_error_map in I. destruct (nth_error (seq 0 (full_rows c)) i) as [j|] eqn:J; [|discriminate].
      injection I as <-. apply nth_error_nth with (d := 0%nat) in J. rewrite seq_nth in J by exact L. cbn in J. now subst j. }
    split; [apply NN; apply nth_error_In in I; exact I|].
    assert (NE : alike c i <> []) by (now apply covered_cells).
    exists (mean (alike c i)), (deviation root (alike c i)), (least_of c).
    split; [now apply mean_average|]. split; [apply deviation_spread|]. split.
    { apply least_smallest. destruct C as [C _]. intro Z. rewrite Z in C. cbn in C. lia. }
    fold (drawn_at root c scale z i). cbv zeta. destruct (at_least_spec (least_of c) (drawn_at root c scale z i)) as [[A B]|[A B]]; rewrite X, B; split; intro; try reflexivity; lra.
  Qed.
  Lemma load_succeeds (l : list Q) scale z : covering (firstn year l) -> 0 <= scale -> (forall x, In x (firstn year l) -> 0 <= x) ->
    exists s, sample_load root (new_noisy_load (length l) l) "gaussian" scale z = Ok s.
  Proof.
    clear R. intros C SC NN. rewrite (new_cut l (length l)) by (rewrite firstn_length; apply Nat.min_comm).
    eexists. apply (sample_covered root _ scale z _ C). split; [exact SC|]. split; [reflexivity|]. intros x I. apply in_map_iff in I. destruct I as [i [<- _]].
    destruct (at_least_spec (least_of (firstn year l)) (drawn_at root (firstn year l) scale z i)) as [[A B]|[A B]]; rewrite B; [|exact A].
    apply NN. apply least_smallest. destruct C as [C _]. intro Z. rewrite Z in C. cbn in C. lia.
  Qed.
  Lemma load_negative (l : list Q) scale z i : covering (firstn year l) -> 0 <= scale -> (i < full_rows (firstn year l))%nat ->
    (exists x, In x (firstn year l) /\ x < 0) -> drawn_at root (firstn year l) scale z i < 0 ->
    raises AssertionError (sample_load root (new_noisy_load (length l) l) "gaussian" scale z).
  Proof.
    clear R. intros C SC L [x [I X]] D. rewrite (new_cut l (length l)) by (rewrite firstn_length; apply Nat.min_comm).
    unfold sample_load. change (negb (String.eqb "gaussian" "gaussian")) with false. cbn iota. cbn [nl_data].
    change (nltb scale n0) with (Qltb scale 0). unfold Qltb. apply Qle_bool_iff in SC. rewrite SC. cbn [negb].
    pose proof (full_rows_bounds (firstn year l)). rewrite (covered_draws root _ scale z C). apply check_raises.
    - rewrite map_length, seq_length. destruct C as [C _]. lia.
    - exists (drawn_at root (firstn year l) scale z i). split; [|exact D]. apply in_map. apply in_seq. lia.
    - assert (NE : firstn year l <> []) by (intro Z; rewrite Z in I; contradiction).
      destruct (least_smallest _ NE) as [_ M]. specialize (M x I). lra.
  Qed.
  (** Data that repeat every week *)
  Lemma load_certain (l : list Q) scale z s : covering (firstn year l) ->
    (forall i j x y, same_time i j -> nth_error (firstn year l) i = Some x -> nth_error (firstn year l) j = Some y -> x == y) ->
    sample_load root (new_noisy_load (length l) l) "gaussian" scale z = Ok s ->
    forall i x y, nth_error (firstn year l) i = Some x -> nth_error s i = Some y -> y == if Qltb x 0 then least_of (firstn year l) else x.
  Proof.
    intros C P H i x y Ix Iy. rewrite (new_cut l (length l)) in H by (rewrite firstn_length; apply Nat.min_comm). set (c := firstn year l) in *.
    apply (sample_covered root c scale z s C) in H. destruct H as [SC [E NN]].
    assert (Lc : (i < length c)%nat) by (now apply nth_error_Some_lt in Ix).
    pose proof (full_rows_bounds c).
    assert (Y : y = at_least (least_of c) (drawn_at root c scale z i)).
    { rewrite E in Iy. rewrite nth_error_map in Iy. destruct (nth_error (seq 0 (full_rows c)) i) as [j|] eqn:J; [|discriminate].
      injection Iy as <-. apply nth_error_nth with (d := 0%nat) in J. rewrite seq_nth in J by lia. cbn in J. now subst j. }
    assert (A : forall v, In v (alike c i) -> v == x).
    { intros v Iv. apply alike_In in Iv. destruct Iv as [j [Lj [S1 ->]]]. symmetry. apply (P i j); [exact S1|exact Ix|]. now apply nth_error_nth'. }
    assert (NE : alike c i <> []) by (apply (alike_nonempty _ _ i); [exact Lc|split; reflexivity]).
    assert (D : drawn_at root c scale z i == x).
    { unfold drawn_at. rewrite (mean_const _ x NE A), (deviation_const root _ x R A). lra. }
    rewrite Y. unfold Qltb. destruct (at_least_spec (least_of c) (drawn_at root c scale z i)) as [[A1 B]|[A1 B]]; rewrite B; destruct (Qle_bool 0 x) eqn:G; cbn [negb].
    - apply Qle_bool_iff in G. lra.
    - reflexivity.
    - exact D.
    - exfalso. assert (G' : ~ 0 <= x) by (intro Q1; apply Qle_bool_iff in Q1; congruence). lra.
  Qed.
End Sample.

Lemma load_one_row root (x : Q) dist scale z : raises ValueError (sample_load root (new_noisy_load 1 [x]) dist scale z).
Proof.
  unfold sample_load. destruct (String.eqb dist "gaussian"); cbn [negb]; [|now eexists].
  destruct (nltb scale n0); [now eexists|].
  assert (E : new_noisy_load 1 [x] = mkNoisyLoad 1 [x]).
  { unfold new_noisy_load. rewrite year_days. reflexivity. }
  rewrite E. now eexists.
Qed.
