(** * Random forecasts and samples *)

From Coq Require Import ZArith QArith Qround Qabs Qminmax Bool String List Lia Lqa.
From Verif Require Import Num Py Spec_Module Proofs_Num NonModular Spec_NonModular Proofs_NmReads Properties_NonModular NmRbc Spec_NmRbcRun MPC NmMpc Spec_MPC Spec_NmMpc Properties_NmMpc Saa Spec_Saa Properties_Saa
  Sampling Spec_Sampling Proofs_SampleGrid Proofs_SampleLoad Proofs_SamplePv Proofs_SamplePv2 Proofs_SampleGen.
Import ListNotations.
Local Open Scope string_scope.
Local Open Scope list_scope.
Local Open Scope Q_scope.

(** ** C79: the grid *)

(** Only data of zeros and ones are accepted, and two types of distributions. *)
Theorem C79_new (data : list Q) dist :
  (forall g, new_noisy_grid data dist = Ok g <-> Forall binary data /\ (dist = "naive" \/ dist = "markov") /\ g = mkNoisyGrid dist data)
  /\ (~ Forall binary data -> raises ValueError (new_noisy_grid data dist))
  /\ (Forall binary data -> dist <> "naive" -> dist <> "markov" -> raises TypeError (new_noisy_grid data dist)).
Proof.
  split; [intro g; apply new_grid_iff|]. split; [apply new_grid_refused|]. intros B N1 N2. unfold new_noisy_grid.
  assert (E : forallb (fun x : Q => neqb x n1 || neqb x n0) data = true).
  { apply forallb_forall. intros x I. rewrite Forall_forall in B. cbn. apply orb_true_iff. destruct (B x I) as [H|H]; [right|left]; now apply Qeq_bool_iff. }
  rewrite E. cbn [negb]. apply String.eqb_neq in N1, N2. rewrite N1, N2. eexists. split; reflexivity.
Qed.
Print Assumptions C79_new.

(** The chances that are learned are the shares in the data. *)
Theorem C79_markov (data : list Q) : Forall binary data ->
  exists from_zero from_one occ, learn_distribution (mkNoisyGrid "markov" data) = Ok (Markov from_zero from_one occ)
    /\ learned_from data 0 from_zero /\ learned_from data 1 from_one
    /\ fst occ == number (times data 0) /\ snd occ == number (times data 1).
Proof. exact (learn_markov data). Qed.
Print Assumptions C79_markov.
Theorem C79_naive (data : list Q) : Forall binary data -> data <> [] ->
  exists p, learn_distribution (mkNoisyGrid "naive" data) = Ok (Naive p) /\ 0 <= fst p /\ 0 <= snd p /\ fst p + snd p == 1
    /\ snd p * number (length data) == number (length (filter (fun x => Qeq_bool x 1) data)).
Proof. exact (learn_naive data). Qed.
Print Assumptions C79_naive.

(** A sample is as long as the data, and has only transitions that the data have. *)
Theorem C79_sample (data : list Q) u : Forall binary data -> (2 <= length data)%nat -> uniform u ->
  exists s, sample_grid (mkNoisyGrid "markov" data) u = Ok s /\ possible data s.
Proof. exact (sample_markov data u). Qed.
Print Assumptions C79_sample.
(** Each of those series can be drawn. *)
Theorem C79_reach (data s : list Q) : Forall binary data -> (2 <= length data)%nat -> possible data s ->
  exists u s', uniform u /\ sample_grid (mkNoisyGrid "markov" data) u = Ok s' /\ Forall2 Qeq s' s.
Proof. exact (sample_markov_reach data s). Qed.
Print Assumptions C79_reach.
Theorem C79_sample_naive (data : list Q) u : Forall binary data -> data <> [] -> uniform u ->
  exists s, sample_grid (mkNoisyGrid "naive" data) u = Ok s /\ length s = length data /\ Forall binary s
    /\ forall x, In x s -> exists y, In y data /\ y == x.
Proof. exact (sample_naive data u). Qed.
Print Assumptions C79_sample_naive.
(** A grid that never fails, or always, is sampled as it is. *)
Theorem C79_constant (data : list Q) v u : (2 <= length data)%nat -> binary v -> (forall x, In x data -> x == v) -> uniform u ->
  exists s, sample_grid (mkNoisyGrid "markov" data) u = Ok s /\ Forall2 Qeq s data.
Proof.
  intros L B C U. assert (BD : Forall binary data). { apply Forall_forall. intros x I. destruct B as [B|B]; [left|right]; rewrite (C x I); exact B. }
  destruct (sample_markov data u BD L U) as [s [S1 P]]. exists s. split; [exact S1|]. destruct P as [LS [BS [P0 PN]]].
  assert (TM : forall x, (0 < times data x)%nat -> x == v).
  { intros x T. unfold times in T. destruct (filter _ _) as [|i l] eqn:F; [cbn in T; lia|]. assert (I : In i (i :: l)) by (left; reflexivity). rewrite <- F in I. apply filter_In in I.
    destruct I as [_ I]. unfold value_is in I. destruct (nth_error data i) as [y|] eqn:Y; [|discriminate]. apply Qeq_bool_iff in I. rewrite <- I. apply C. now apply nth_error_In in Y. }
  assert (MV : forall x y, (0 < moves data x y)%nat -> y == v).
  { intros x y T. unfold moves in T. destruct (filter _ _) as [|i l] eqn:F; [cbn in T; lia|]. assert (I : In i (i :: l)) by (left; reflexivity). rewrite <- F in I. apply filter_In in I.
    destruct I as [_ I]. apply andb_true_iff in I. destruct I as [_ I]. unfold value_is in I. destruct (nth_error data (S i)) as [w|] eqn:Y; [|discriminate]. apply Qeq_bool_iff in I. rewrite <- I. apply C. now apply nth_error_In in Y. }
  assert (G : forall i x, nth_error s i = Some x -> x == v).
  { induction i as [|i IH]; intros x X; [apply TM, P0, X|]. destruct (nth_error s i) as [w|] eqn:W; [|apply nth_error_None in W; apply nth_error_Some_lt in X; lia].
    specialize (PN i w x W X). destruct (Nat.eqb (times data w) 0); [rewrite PN; now apply IH|exact (MV _ _ PN)]. }
  clear - LS G C. revert data LS C. induction s as [|x s IH]; intros [|y data] LS C; try discriminate; constructor.
  - rewrite (G 0%nat x eq_refl). symmetry. apply C. left. reflexivity.
  - apply IH; [intros i; exact (G (S i))|now injection LS|intros; apply C; right; assumption].
Qed.
Print Assumptions C79_constant.
(** A single row is accepted but cannot be sampled. *)
Theorem C79_one_row_refuted : ~ (forall (data : list Q) g u, new_noisy_grid data "markov" = Ok g -> uniform u -> data <> [] -> exists s, sample_grid g u = Ok s).
Proof.
  intro H. destruct (H [1] (mkNoisyGrid "markov" [1]) (fun _ => 0) eq_refl ltac:(intro j; lra) ltac:(discriminate)) as [s E]. vm_compute in E. discriminate E.
Qed.
Print Assumptions C79_one_row_refuted.
Theorem C79_short (data : list Q) u : Forall binary data -> (length data < 2)%nat -> raises ValueError (sample_grid (mkNoisyGrid "markov" data) u).
Proof. exact (sample_markov_short data u). Qed.
Print Assumptions C79_short.
(** Power cuts of two rows: a series with an earlier and shorter cut is possible, one that starts
    during a cut too; after the last value of the data nothing is special. *)
Definition cuts : list Q := [1; 1; 0; 0; 1].
Example C79_example : Forall binary cuts /\ possible cuts [0; 1; 0; 0; 0] /\ ~ possible [1; 1; 1; 1; 0] [0; 1; 1; 1; 1]
  /\ sample_grid (mkNoisyGrid "markov" cuts) (fun j => nth j [3 # 4; 1 # 4; 3 # 4; 3 # 4; 0] 0) = Ok [1; 0; 1; 1; 0].
Proof.
  assert (B : forall l : list Q, forallb (fun x => Qeq_bool x 0 || Qeq_bool x 1) l = true -> Forall binary l).
  { intros l H. apply Forall_forall. intros x I. rewrite forallb_forall in H. specialize (H x I). apply orb_true_iff in H. destruct H as [H|H]; apply Qeq_bool_iff in H; [left|right]; exact H. }
  split; [apply B; reflexivity|]. split; [|split].
  - split; [reflexivity|]. split; [apply B; reflexivity|]. split; [intros x X; injection X as <-; vm_compute; lia|].
    intros [|[|[|[|[|i]]]]] x y X Y; cbn in X, Y; try discriminate; try injection X as <-; try injection Y as <-; try (vm_compute; lia).
  - intros [_ [_ [H _]]]. specialize (H 0 eq_refl). vm_compute in H. lia.
  - vm_compute. reflexivity.
Qed.

(** ** C80: the load *)

Section C80.
  Variable root : Q -> Q.
  Let sampled (l : list Q) (dist : string) (scale : Q) (z : nat -> Q) : res (list Q) := sample_load root (new_noisy_load (length l) l) dist scale z.

  Lemma enough_covering l : enough_loads l -> covering l.
  Proof.
    intros [L [[days W]|W]]; (split; [exact L|]); [left; rewrite W, Nat.mul_comm; apply Nat.mod_mul; lia|right; lia].
  Qed.
  (** Row [i] of a sample is the average of the data at the same hour of the same day of the week,
      plus their deviation times a normal number.  Negative values become the smallest one. *)
  Theorem C80_sample (l : list Q) scale z s : enough_loads (first_year l) -> sampled l "gaussian" scale z = Ok s ->
    0 <= scale
    /\ (exists days, length s = (24 * days)%nat /\ (length (first_year l) <= length s < length (first_year l) + 24)%nat)
    /\ forall i x, nth_error s i = Some x -> 0 <= x /\ exists m d least,
         average (alike (first_year l) i) m /\ spread root (alike (first_year l) i) d /\ smallest (first_year l) least
         /\ (let y := m + scale * d * z i in (y < 0 -> x = least) /\ (0 <= y -> x == y)).
  Proof.
    intros E H. rewrite first_year_ in *. apply enough_covering in E. destruct (load_sample root l scale z s E H) as [SC [L R]]. split; [exact SC|]. split; [|exact R].
    eexists. split; [exact L|]. rewrite L. apply full_rows_bounds.
  Qed.
  (** Whole days are sampled with as many rows as the data have, at most a year. *)
  Theorem C80_whole (l : list Q) scale z days : (0 < days)%nat -> whole_days l days -> 0 <= scale -> (forall x, In x l -> 0 <= x) ->
    exists s, sampled l "gaussian" scale z = Ok s /\ load_drawn root scale z (first_year l) s /\ length s = rows_of days.
  Proof. intros D W SC NN. exact (load_whole root l days scale z D W SC NN). Qed.
  Theorem C80_succeeds (l : list Q) scale z : enough_loads (first_year l) -> 0 <= scale -> (forall x, In x l -> 0 <= x) ->
    exists s, sampled l "gaussian" scale z = Ok s.
  Proof.
    intros E SC NN. rewrite first_year_ in E. apply enough_covering in E. apply (load_succeeds root l scale z E SC). intros x I. apply NN. exact (In_firstn _ _ _ I).
  Qed.
  (** Data that repeat every week, and are not negative, are sampled as they are. *)
  Theorem C80_certain (l : list Q) scale z s : takes_roots root -> enough_loads (first_year l) -> (forall x, In x l -> 0 <= x) ->
    (forall i j x y, same_time i j -> nth_error (first_year l) i = Some x -> nth_error (first_year l) j = Some y -> x == y) ->
    sampled l "gaussian" scale z = Ok s -> forall i x y, nth_error (first_year l) i = Some x -> nth_error s i = Some y -> y == x.
  Proof.
    intros R E NN P H i x y X Y. rewrite first_year_ in *. apply enough_covering in E. rewrite (load_certain root R l scale z s E P H i x y X Y).
    assert (N : 0 <= x) by (apply NN, (In_firstn year), (nth_error_In _ _ X)). unfold Qltb. apply Qle_bool_iff in N. rewrite N. reflexivity.
  Qed.
  (** With negative data, a sample is refused if a negative value is drawn. *)
  Theorem C80_negative (l : list Q) scale z i m d : takes_roots root -> enough_loads (first_year l) -> 0 <= scale -> (i < length (first_year l))%nat ->
    (exists x, In x (first_year l) /\ x < 0) -> average (alike (first_year l) i) m -> spread root (alike (first_year l) i) d -> m + scale * d * z i < 0 ->
    raises AssertionError (sampled l "gaussian" scale z).
  Proof.
    intros R E SC L X A S1 N. rewrite first_year_ in *. apply enough_covering in E. set (c := firstn year l) in *.
    apply (load_negative root l scale z i E SC); fold c; [pose proof (full_rows_bounds c); lia|exact X|].
    assert (NE : alike c i <> []) by (apply (alike_nonempty _ _ i); [exact L|split; reflexivity]).
    unfold drawn_at. pose proof (average_unique _ _ _ NE (mean_average _ NE) A) as M.
    assert (D : deviation root (alike c i) == d).
    { pose proof (deviation_spread root (alike c i)) as DS. destruct (alike c i) as [|u [|v k]]; [cbn in S1 |- *; now symmetry|cbn in S1 |- *; now symmetry|].
      destruct S1 as [m1 [v1 [A1 [V1 ->]]]], DS as [m2 [v2 [A2 [V2 ->]]]]. apply R. pose proof (average_unique _ _ _ NE A1 A2) as MM.
      assert (EQ : fold_right Qplus 0 (map (fun x => (x - m1) * (x - m1)) (u :: v :: k)) == fold_right Qplus 0 (map (fun x => (x - m2) * (x - m2)) (u :: v :: k))).
      { clear - MM. induction (u :: v :: k) as [|w ws IH]; [reflexivity|]. cbn [map fold_right]. rewrite IH, MM. reflexivity. }
      assert (P : 0 < number (length (u :: v :: k) - 1)) by (apply (number_lt 0); cbn; lia).
      assert (V : (v2 - v1) * number (length (u :: v :: k) - 1) == 0) by (setoid_replace ((v2 - v1) * number (length (u :: v :: k) - 1)) with (v2 * number (length (u :: v :: k) - 1) - v1 * number (length (u :: v :: k) - 1)) by ring; rewrite V1, V2, EQ; ring).
      apply Qmult_integral in V. destruct V as [V|V]; lra. }
    cbn [nadd nmul Q_ops]. rewrite M, D. exact N.
  Qed.
  Theorem C80_refused (l : list Q) dist scale z : dist <> "gaussian" \/ scale < 0 \/ length l = 1%nat -> raises ValueError (sampled l dist scale z).
  Proof.
    intros [H|[H|H]]; [now apply sample_other|now apply sample_negative_scale|]. destruct l as [|x [|]]; try discriminate. apply load_one_row.
  Qed.
End C80.
Print Assumptions C80_sample.
Print Assumptions C80_whole.
Print Assumptions C80_succeeds.
Print Assumptions C80_certain.
Print Assumptions C80_negative.
Print Assumptions C80_refused.
(** With days that are not whole, a sample has more rows than the data. *)
Theorem C80_rows_refuted : ~ (forall root (l : list Q) scale z s, sample_load root (new_noisy_load (length l) l) "gaussian" scale z = Ok s -> (length l <= 24 * 365)%nat -> length s = length l).
Proof.
  intro H. set (l := repeat (1 : Q) 169).
  assert (E : enough_loads (first_year l)). { unfold first_year. rewrite firstn_all2 by (unfold l; rewrite repeat_length; lia). split; [unfold l; rewrite repeat_length; lia|]. right. unfold l. rewrite repeat_length. lia. }
  assert (NN : forall x, In x l -> 0 <= x). { intros x I. apply repeat_spec in I. subst x. lra. }
  destruct (C80_succeeds (fun _ => 0) l 1 (fun _ => 0) E ltac:(lra) NN) as [s S1].
  destruct (C80_sample (fun _ => 0) l 1 (fun _ => 0) s E S1) as [_ [[days [D _]] _]]. specialize (H (fun _ => 0) l 1 (fun _ => 0) s S1).
  unfold l in H at 1 2. rewrite !repeat_length in H. specialize (H ltac:(lia)). lia.
Qed.
Print Assumptions C80_rows_refuted.
(** Two weeks: the first hour of the first day is 2 and 6, the rest is 1.  With the normal number 1 it
    is 4 plus the deviation, and with -2 the value would be negative. *)
Definition two_weeks : list Q := 2 :: repeat 1 167 ++ 6 :: repeat 1 167.
Example C80_example : enough_loads (first_year two_weeks) /\ (forall x, In x two_weeks -> 0 <= x)
  /\ match sample_load (fun v => if Qeq_bool v 8 then 28 # 10 else 0) (new_noisy_load 336 two_weeks) "gaussian" 1 (fun i => if Nat.eqb i 0 then 1 else -(2)) with
     | Ok s => length s = 336%nat /\ nth 0 s 0 == 68 # 10 /\ nth 1 s 0 == 1 /\ nth 168 s 0 == 1
     | Err _ => False
     end.
Proof.
  split; [|split].
  - split; [vm_compute; lia|]. left. exists 14%nat. vm_compute. reflexivity.
  - intros x I. assert (B : forallb (fun x => Qle_bool 0 x) two_weeks = true) by (vm_compute; reflexivity). rewrite forallb_forall in B. apply Qle_bool_iff. now apply B.
  - vm_compute. repeat split; reflexivity.
Qed.
