(** * Lemmas on the continuous and discrete actions of the environments of non-modular microgrids *)

From Coq Require Import ZArith QArith Qabs Qminmax Bool String List Lia Lqa.
From Verif Require Import Num Py NonModular OldEnv Spec_Module Spec_NonModular Spec_OldEnv Proofs_Num Proofs_NonModular Proofs_NmRun
  Proofs_OldEnv.
Import ListNotations.
Local Open Scope string_scope.
Local Open Scope list_scope.
Local Open Scope Q_scope.

Lemma at_index_ok (a : list Q) i x : at_index a i = Ok x <-> nth_error a i = Some x.
Proof. unfold at_index. destruct (nth_error a i); split; intros H; try congruence; discriminate. Qed.
Lemma fractions_at a i x : fractions a -> nth_error a i = Some x -> 0 <= x <= 1.
Proof. intros F H. apply nth_error_In in H. unfold fractions in F. rewrite Forall_forall in F. auto. Qed.

Lemma part_of x y z : 0 <= x <= 1 -> y <= z -> 0 <= z -> 0 <= nmax 0 (x * y) <= z.
Proof.
  intros X Y Z. destruct (nmax_case 0 (x * y)) as [(L & ->)|(L & ->)]; [|lra]. split; [exact L|]. 
  destruct (Qlt_le_dec y 0); nra.
Qed.

Lemma continuous_ok (g : nonmod Q) a c : action_continuous g a = Ok c -> fractions a -> powers_ok g ->
  (exists x, can_charge g x /\ asks_within c "battery_charge" x)
  /\ (exists y, can_discharge g y /\ asks_within c "battery_discharge" y)
  /\ (has_grid (nm_arch g) = true ->
      (now_status (nm_now g) == 1 -> exists mi me, parameter g "grid_power_import" mi /\ asks_within c "grid_import" mi
         /\ parameter g "grid_power_export" me /\ asks_within c "grid_export" me)
      /\ (~ now_status (nm_now g) == 1 -> dget "grid_import" c = Some 0 /\ dget "grid_export" c = Some 0))
  /\ (has_genset (nm_arch g) = true -> exists rated, parameter g "genset_rated_power" rated /\ asks_within c "genset" rated).
Proof.
  unfold action_continuous. intros H FR OK.
  apply rbind_ok in H. destruct H as ((((cc & pc) & cd) & pd) & HB & H). apply rooms_ok in HB. destruct HB as (HB & C1 & C2 & C3 & C4).
  apply rbind_ok in H. destruct H as (x & X & H). apply at_index_ok in X. apply (fractions_at _ _ _ FR) in X.
  apply rbind_ok in H. destruct H as (y & Y & H). apply at_index_ok in Y. apply (fractions_at _ _ _ FR) in Y.
  apply rbind_ok in H. destruct H as (cap & CP & H).
  apply rbind_ok in H. destruct H as (gr & GR & H). apply rbind_ok in H. destruct H as (ge & GE & H). injection H as <-.
  split; [|split; [|split]].
  - exists (Qmax 0 (Qmin cc pc)). split; [exists cc, pc; repeat split; auto; reflexivity|].
    eexists. split; [reflexivity|]. unum. apply part_of; [exact X| |apply Q.le_max_l]. unum. mm; lra.
  - exists (Qmax 0 (Qmin cd pd)). split; [exists cd, pd; repeat split; auto; reflexivity|].
    eexists. split; [reflexivity|]. unum. apply part_of; [lra| |apply Q.le_max_l]. unum. mm; lra.
  - intros HG. rewrite HG in GR. change (@neqb Q Q_ops) with Qeq_bool in GR. change (@n1 Q Q_ops) with 1 in GR.
    destruct (Qeq_bool (now_status (nm_now g)) 1) eqn:ST; qprop.
    + apply rbind_ok in GR. destruct GR as (u & U & GR). apply at_index_ok in U. apply (fractions_at _ _ _ FR) in U.
      apply rbind_ok in GR. destruct GR as (w & W & GR). apply at_index_ok in W. apply (fractions_at _ _ _ FR) in W.
      apply rbind_ok in GR. destruct GR as (mi & MI & GR). apply dfind_par in MI.
      apply rbind_ok in GR. destruct GR as (me & MX & GR). apply dfind_par in MX. injection GR as <-.
      assert (0 <= mi) by (apply (OK "grid_power_import"); [simpl; tauto|exact MI]).
      assert (0 <= me) by (apply (OK "grid_power_export"); [simpl; tauto|exact MX]).
      split; [intros _|intros N; contradiction]. exists mi, me. split; [exact MI|]. split; [|split; [exact MX|]].
      * eexists. split; [reflexivity|]. unum. apply part_of; [exact U| |assumption]. mm; lra.
      * eexists. split; [reflexivity|]. unum. apply part_of; [lra| |assumption]. mm; lra.
    + injection GR as <-. split; [intros N; contradiction|]. intros _. split; reflexivity.
  - intros HG. rewrite HG in GE.
    apply rbind_ok in GE. destruct GE as (u & U & GE). apply at_index_ok in U. apply (fractions_at _ _ _ FR) in U.
    apply rbind_ok in GE. destruct GE as (w & W & GE). apply at_index_ok in W. apply (fractions_at _ _ _ FR) in W.
    apply rbind_ok in GE. destruct GE as (ra & RA & GE). apply dfind_par in RA. injection GE as <-.
    assert (0 <= ra) by (apply (OK "genset_rated_power"); [simpl; tauto|exact RA]).
    exists ra. split; [exact RA|].
    assert (GN : forall k : string, In k ["genset"] -> dget k gr = None).
    { intros k [<-|[]]. destruct (has_grid (nm_arch g)); [|injection GR as <-; reflexivity].
      destruct (neqb (now_status (nm_now g)) n1); [|injection GR as <-; reflexivity].
      repeat (apply rbind_ok in GR; destruct GR as (? & _ & GR)). injection GR as <-. reflexivity. }
    unfold asks_within. cbn [app dget]. change (String.eqb "genset" "battery_charge") with false. change (String.eqb "genset" "battery_discharge") with false.
    cbv iota. assert (DA : forall d, dget "genset" (gr ++ d) = dget "genset" d).
    { intros d. specialize (GN "genset" ltac:(simpl; auto)). clear - GN. induction gr as [|[k z] gr IH]; [reflexivity|]. cbn [dget app] in *.
      destruct (String.eqb "genset" k); [discriminate GN|auto]. }
    rewrite DA. eexists. split; [reflexivity|]. unum. apply part_of; [exact U| |assumption]. mm; lra.
Qed.

(** What the continuous actions ask of the battery and the grid is what a run does. *)
Lemma continuous_followed g a c o : action_continuous g a = Ok c -> fractions a -> powers_ok g -> shows_room g ->
  follows g c o ->
  (exists x y, dget "battery_charge" c = Some x /\ dget "battery_discharge" c = Some y /\ oc_charge o == x /\ oc_discharge o == y)
  /\ (has_grid (nm_arch g) = true ->
      exists x y, dget "grid_import" c = Some x /\ dget "grid_export" c = Some y /\ oc_import o == x /\ oc_export o == y).
Proof.
  intros AC FR OK (soc & r & room & r' & room' & LS & B1 & R1 & S1 & B2 & R2 & S2) (F1 & F2 & _).
  assert (HB : has_battery (nm_arch g) = true).
  { unfold action_continuous in AC. apply rbind_ok in AC. destruct AC as ((((? & ?) & ?) & ?) & E & _). apply rooms_ok in E. apply E. }
  destruct (continuous_ok g a c AC FR OK) as ((x & CX & (x' & X1 & X2)) & (y & CY & (y' & Y1 & Y2)) & G & _). split.
  - rewrite HB in F1. destruct F1 as (u & w & soc1 & cc & cd & U & W & LS1 & CC & CD & O1 & O2).
    rewrite (latest_num _ _ _ _ LS LS1) in *. rewrite X1 in U. injection U as <-. rewrite Y1 in W. injection W as <-.
    exists x', y'. split; [exact X1|]. split; [exact Y1|]. rewrite O1, O2.
    split; [eapply unclipped_charge|eapply unclipped_discharge]; eauto.
  - intros HG. rewrite HG in F2. destruct F2 as (u & w & mi & me & U & W & MI & MX & O1 & O2).
    destruct (G HG) as (G1 & G2). exists u, w. split; [exact U|]. split; [exact W|]. rewrite O1, O2.
    assert (0 <= mi) by (apply (OK "grid_power_import"); [simpl; tauto|exact MI]).
    assert (0 <= me) by (apply (OK "grid_power_export"); [simpl; tauto|exact MX]).
    destruct (Qeq_dec (now_status (nm_now g)) 1) as [ST|ST].
    + destruct (G1 ST) as (z & z' & Z1 & (q & Q1 & Q2) & Z2 & (q' & Q1' & Q2')).
      rewrite (parameter_unique _ _ _ _ Z1 MI) in Q2. rewrite U in Q1. injection Q1 as <-.
      rewrite (parameter_unique _ _ _ _ Z2 MX) in Q2'. rewrite W in Q1'. injection Q1' as <-.
      unfold limited. split; mm; lra.
    + destruct (G2 ST) as (Q1 & Q2). rewrite U in Q1. injection Q1 as ->. rewrite W in Q2. injection Q2 as ->.
      unfold limited. split; mm; lra.
Qed.

(** Discrete actions *)
Lemma discrete_ok (g : nonmod Q) a c : action_discrete g a = Ok c ->
  (has_battery (nm_arch g) = true -> exists x y s, nth_error a 1 = Some x /\ nth_error a 2 = Some y /\ nth_error a 3 = Some s
     /\ switched c "battery_charge" "battery_discharge" x y s)
  /\ (has_genset (nm_arch g) = true -> exists x, nth_error a 4 = Some x /\ dget "genset" c = Some x)
  /\ (has_grid (nm_arch g) = true -> exists x y s,
        let i := if has_genset (nm_arch g) then 5%nat else 4%nat in
        nth_error a i = Some x /\ nth_error a (i + 1) = Some y /\ nth_error a (i + 2) = Some s
        /\ switched c "grid_import" "grid_export" x y s).
Proof.
  unfold action_discrete. intros H.
  destruct (has_battery (nm_arch g)), (has_genset (nm_arch g)), (has_grid (nm_arch g)); minv;
    repeat match goal with
    | H : at_index _ _ = Ok _ |- _ => apply at_index_ok in H
    | H : Ok _ = Ok _ |- _ => injection H as <-
    end;
    (split; [|split]); intros K; try discriminate K.
  all: first [ do 3 eexists; cbv zeta; repeat (split; [eassumption|]); do 2 eexists; repeat (split; [reflexivity|]);
               unum; split; intros SW; rewrite SW; lra
             | eexists; split; [eassumption|reflexivity] ].
Qed.

Lemma share_of x z : 0 <= x -> nmax 0 (x * z) == x * Qmax 0 z.
Proof.
  intros X. destruct (nmax_case 0 (x * z)) as [(L & ->)|(L & ->)]; destruct (Qlt_le_dec z 0) as [Z|Z].
  - rewrite Q.max_l by lra. nra.
  - rewrite Q.max_r by lra. reflexivity.
  - rewrite Q.max_l by lra. ring.
  - rewrite Q.max_r by lra. nra.
Qed.
Lemma continuous_shares (g : nonmod Q) a c cap : action_continuous g a = Ok c -> fractions a -> powers_ok g ->
  parameter g "battery_capacity" cap -> 0 <= cap ->
  (exists x y cc cd, nth_error a 0 = Some x /\ nth_error a 1 = Some y /\ can_charge g cc /\ can_discharge g cd
     /\ asks_for c "battery_charge" (x * Qmin (y * cap) cc) /\ asks_for c "battery_discharge" ((1 - x) * Qmin (y * cap) cd))
  /\ (has_grid (nm_arch g) = true -> now_status (nm_now g) == 1 -> exists x y mi me, nth_error a 2 = Some x /\ nth_error a 3 = Some y
     /\ parameter g "grid_power_import" mi /\ parameter g "grid_power_export" me
     /\ asks_for c "grid_import" (x * y * mi) /\ asks_for c "grid_export" ((1 - x) * y * me))
  /\ (has_genset (nm_arch g) = true -> exists x y rated, nth_error a 4 = Some x /\ nth_error a 5 = Some y
     /\ parameter g "genset_rated_power" rated /\ asks_for c "genset" (x * y * rated)).
Proof.
  unfold action_continuous. intros H FR OK CAP CAP0.
  apply rbind_ok in H. destruct H as ((((cc & pc) & cd) & pd) & HB & H). apply rooms_ok in HB. destruct HB as (HB & C1 & C2 & C3 & C4).
  apply rbind_ok in H. destruct H as (x & X0 & H). apply at_index_ok in X0. pose proof (fractions_at _ _ _ FR X0) as X.
  apply rbind_ok in H. destruct H as (y & Y0 & H). apply at_index_ok in Y0. pose proof (fractions_at _ _ _ FR Y0) as Y.
  apply rbind_ok in H. destruct H as (cap' & CP & H). apply dfind_par in CP. unfold parameter in CP, CAP. rewrite CAP in CP. injection CP as <-.
  apply rbind_ok in H. destruct H as (gr & GR & H). apply rbind_ok in H. destruct H as (ge & GE & H). injection H as <-.
  assert (YC : 0 <= y * cap) by (apply Qmult_le_0_compat; lra).
  split; [|split].
  - exists x, y, (Qmax 0 (Qmin cc pc)), (Qmax 0 (Qmin cd pd)). split; [exact X0|]. split; [exact Y0|].
    split; [exists cc, pc; repeat split; auto; reflexivity|]. split; [exists cd, pd; repeat split; auto; reflexivity|].
    split; (eexists; split; [reflexivity|]); unum; (rewrite share_of by lra); apply Qmult_comp; try reflexivity; unum; set (z := y * cap) in *; clearbody z; mm; lra.
  - intros HG ST. rewrite HG in GR. change (@neqb Q Q_ops) with Qeq_bool in GR. change (@n1 Q Q_ops) with 1 in GR.
    apply Qeq_bool_iff in ST. rewrite ST in GR.
    apply rbind_ok in GR. destruct GR as (u & U0 & GR). apply at_index_ok in U0. pose proof (fractions_at _ _ _ FR U0) as U.
    apply rbind_ok in GR. destruct GR as (w & W0 & GR). apply at_index_ok in W0. pose proof (fractions_at _ _ _ FR W0) as W.
    apply rbind_ok in GR. destruct GR as (mi & MI & GR). apply dfind_par in MI.
    apply rbind_ok in GR. destruct GR as (me & MX & GR). apply dfind_par in MX. injection GR as <-.
    assert (0 <= mi) by (apply (OK "grid_power_import"); [simpl; tauto|exact MI]).
    assert (0 <= me) by (apply (OK "grid_power_export"); [simpl; tauto|exact MX]).
    assert (0 <= w * mi <= mi) by nra. assert (0 <= w * me <= me) by nra.
    exists u, w, mi, me. split; [exact U0|]. split; [exact W0|]. split; [exact MI|]. split; [exact MX|].
    split; (eexists; split; [reflexivity|]); unum; (rewrite share_of by lra); rewrite <- Qmult_assoc; apply Qmult_comp; try reflexivity; mm; lra.
  - intros HG. rewrite HG in GE.
    apply rbind_ok in GE. destruct GE as (u & U0 & GE). apply at_index_ok in U0. pose proof (fractions_at _ _ _ FR U0) as U.
    apply rbind_ok in GE. destruct GE as (w & W0 & GE). apply at_index_ok in W0. pose proof (fractions_at _ _ _ FR W0) as W.
    apply rbind_ok in GE. destruct GE as (ra & RA & GE). apply dfind_par in RA. injection GE as <-.
    assert (0 <= ra) by (apply (OK "genset_rated_power"); [simpl; tauto|exact RA]).
    assert (0 <= w * ra <= ra) by nra.
    exists u, w, ra. split; [exact U0|]. split; [exact W0|]. split; [exact RA|].
    assert (GN : dget "genset" gr = None).
    { destruct (has_grid (nm_arch g)); [|injection GR as <-; reflexivity].
      destruct (neqb (now_status (nm_now g)) n1); [|injection GR as <-; reflexivity].
      repeat (apply rbind_ok in GR; destruct GR as (? & _ & GR)). injection GR as <-. reflexivity. }
    unfold asks_for. cbn [app dget]. change (String.eqb "genset" "battery_charge") with false. change (String.eqb "genset" "battery_discharge") with false.
    cbv iota. assert (DA : forall d, dget "genset" (gr ++ d) = dget "genset" d).
    { intros d. clear - GN. induction gr as [|[k z] gr IH]; [reflexivity|]. cbn [dget app] in *.
      destruct (String.eqb "genset" k); [discriminate GN|auto]. }
    rewrite DA. eexists. split; [reflexivity|]. unum. rewrite share_of by lra. rewrite <- Qmult_assoc. apply Qmult_comp; [reflexivity|]. mm; lra.
Qed.
