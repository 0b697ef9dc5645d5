(** * Further properties of the environments with continuous actions

    C90: what is made and what a reset returns.
    C91: the means and deviations that are computed, and the bounds without standardization.
    C92: the values after a reset. *)

From Coq Require Import ZArith QArith Qminmax Bool String List Lia Lqa.
From Verif Require Import Num Py NonModular NmMpc OldEnv GymEnv Spec_Module Spec_NonModular Spec_GymEnv Proofs_Num Proofs_NonModular
  Proofs_NmRun Proofs_NmEpisode Proofs_NmTotal Proofs_NmReads Proofs_OldEnv4 Proofs_Balance Proofs_GymEnv Proofs_GymEnv2 Proofs_GymEnv3 Proofs_GymEnv4 Properties_NonModular Properties_GymEnv.
Import ListNotations.
Local Open Scope string_scope.
Local Open Scope list_scope.
Local Open Scope Q_scope.

(** ** C90 *)

(** The limit on the episode and the trajectory are those asked for, also after the run that
    precedes a standardization. *)
Lemma new_gym_horizon trajectory episode start (g : nonmod Q) e : new_gym trajectory episode start g = Ok e ->
  nm_horizon (gy_grid e) = match episode with None => 0%Z | Some m => (8760 - m)%Z end /\ gy_trajectory e = trajectory.
Proof.
  intros H. destruct (Z.eq_dec (nm_len g) 8760) as [L|L].
  - pose proof (new_gym_ok trajectory episode start g L) as K. cbv zeta in K. destruct trajectory as [n|].
    + destruct K as (K1 & K2). destruct (Z_lt_le_dec (match episode with None => 0 | Some m => 8760 - m end + n) 8760) as [A|A].
      * destruct (K1 A) as (e1 & E & T & G). rewrite E in H. injection H as <-. rewrite G. split; [reflexivity|exact T].
      * destruct (K2 A) as (x & E & _). rewrite E in H. discriminate H.
    + destruct K as (e1 & E & G & T). rewrite E in H. injection H as <-. rewrite G. split; [reflexivity|exact T].
  - destruct (new_gym_wrong trajectory episode start g L) as (x & E & _). rewrite E in H. discriminate H.
Qed.
Theorem C90_made standardization trajectory episode start run deviation (g : nonmod Q) e :
  new_continuous standardization trajectory episode start run deviation g = Ok e ->
  nm_horizon (gy_grid e) = match episode with None => 0%Z | Some m => (8760 - m)%Z end /\ gy_trajectory e = trajectory
  /\ (gy_stds e = None <-> standardization = false).
Proof.
  destruct standardization; intros H.
  - apply new_continuous_std in H. destruct H as (e1 & g' & tables & high & low & s & E & _ & _ & G & T & _ & ST & _).
    apply new_gym_horizon in E. destruct E as (E & _). rewrite G, ST. split; [exact E|]. split; [exact T|]. split; discriminate.
  - apply new_continuous_plain in H. destruct H as (e1 & E & G & T & ST & _). apply new_gym_horizon in E. destruct E as (E & _).
    rewrite G, ST. split; [exact E|]. split; [exact T|]. split; reflexivity.
Qed.
Print Assumptions C90_made.
Example C90_made_example : gy_stds (standard plain_arch None) <> None
  /\ match new_continuous true None (Some 3%Z) 100 (std_run plain_arch) some_deviation (year_grid plain_arch) with
     | Ok e => (nm_horizon (gy_grid e) =? 8757)%Z | Err _ => false end = true.
Proof. split; [vm_compute; discriminate|vm_compute; reflexivity]. Qed.

(** A reset returns the state that the microgrid shows then, moved by the standardization. *)
Theorem C90_reset start (e e1 : gym Q) o : gym_reset start e = (e1, Ok o) ->
  exists v, get_updated_values (gy_grid e1) = Ok v /\ means_values e v o /\ nm_done (gy_grid e1) = false.
Proof.
  intros H. apply gym_reset_ok in H. destruct H as (g1 & v & R & V & MV & T & _). apply reset_clock in R.
  exists v. split; [|split; [exact MV|]]; destruct (gy_trajectory e) as [n|]; try (destruct T as (_ & ->)); try rewrite T.
  - exact V.
  - exact V.
  - exact (rs_done _ _ R).
  - exact (rs_done _ _ R).
Qed.
Print Assumptions C90_reset.
Example C90_reset_example : exists o, snd (gym_reset 100 (standard plain_arch None)) = Ok o /\ length o = 10%nat.
Proof. eexists. split; [vm_compute; reflexivity|reflexivity]. Qed.

(** The rewards of any number of steps are, one by one, minus the costs they add to the record;
    their sum is minus the sum of these costs. *)
Lemma sum_opp {A} (f : A -> Q) os : forall costs, Forall2 (fun o c => f o == - c) os costs ->
  fold_right Qplus 0 (map f os) == - fold_right Qplus 0 costs.
Proof. induction os as [|o os IH]; intros costs H; inversion H; subst; cbn; [lra|]. rewrite (IH _ H4), H2. lra. Qed.
Theorem C90_return (e e' : gym Q) l os : equipped (gy_grid e) -> gym_plays e l os e' -> l <> [] ->
  exists before costs, dget "total_cost" (nm_cost (gy_grid e)) = Some before
    /\ dget "total_cost" (nm_cost (gy_grid e')) = Some (before ++ map CNum costs)
    /\ Forall2 (fun o c => snd (fst o) == - c) os costs
    /\ fold_right Qplus 0 (map (fun o => snd (fst o)) os) == - fold_right Qplus 0 costs.
Proof.
  intros EQ P NE.
  assert (K : forall before, dget "total_cost" (nm_cost (gy_grid e)) = Some before -> exists costs,
    dget "total_cost" (nm_cost (gy_grid e')) = Some (before ++ map CNum costs) /\ Forall2 (fun o c => snd (fst o) == - c) os costs).
  { clear NE. revert EQ. induction P as [e|e a e1 o l os e2 S P IH]; intros EQ before B.
    - exists []. rewrite app_nil_r. split; [exact B|constructor].
    - destruct o as ((ob & r) & d). destruct (gym_step_spec _ _ _ _ _ _ EQ S) as (b & c & v & cost & _ & _ & R & _ & (l0 & G1 & G2) & RC & _).
      rewrite B in G1. injection G1 as <-. destruct (IH (equipped_run _ _ _ _ EQ R) _ G2) as (costs & C1 & C2).
      exists (cost :: costs). rewrite <- app_assoc in C1. split; [exact C1|]. constructor; [exact RC|exact C2]. }
  destruct P as [e|e a e1 o l os e2 S P]; [congruence|].
  destruct o as ((ob & r) & d). destruct (gym_step_spec _ _ _ _ _ _ EQ S) as (b & c & v & cost & _ & _ & R & _ & (l0 & G1 & G2) & RC & _).
  destruct (K _ G1) as (costs & C1 & C2). exists l0, costs. split; [exact G1|]. split; [exact C1|]. split; [exact C2|].
  apply sum_opp. exact C2.
Qed.
Print Assumptions C90_return.
Lemma year_wired : wired (year_spec plain_arch).
Proof.
  destruct (example_wired plain_arch [] [] eq_refl). constructor; try assumption.
  intros k K. destruct (wi_par k K) as (x & X). exists x. cbn [sp_parameters year_spec].
  destruct (String.eqb_spec k "PV_rated_power") as [->|N]; [exfalso; clear - K; vm_compute in K; intuition discriminate|].
  cbn [dget]. apply String.eqb_neq in N. rewrite N. exact X.
Qed.
Lemma year_made : new_nonmodular (year_spec plain_arch) 0 = Ok (year_grid plain_arch).
Proof. vm_compute. reflexivity. Qed.
Example C90_return_example : equipped (year_grid plain_arch)
  /\ exists os e', gym_plays (ready (plain plain_arch None)) [charging; charging_less] os e'.
Proof.
  split; [exact (equipped_new _ _ _ year_wired year_made)|].
  destruct (gym_step_of charging (ready (plain plain_arch None))) as (o1 & r1 & S1); [vm_compute; reflexivity|].
  destruct (gym_step_of charging_less (fst (gym_step charging (ready (plain plain_arch None))))) as (o2 & r2 & S2); [vm_compute; reflexivity|].
  do 2 eexists. econstructor; [exact S1|]. econstructor; [exact S2|]. constructor.
Qed.

(** ** C91 *)

Lemma num_all (l : list (cell Q)) : forall xs, rmapM num l = Ok xs -> l = map CNum xs.
Proof.
  induction l as [|c l IH]; intros xs H; cbn in H; [injection H as <-; reflexivity|].
  apply rbind_ok in H. destruct H as (x & X & H). apply rbind_ok in H. destruct H as (ys & Y & H). injection H as <-.
  destruct c; try discriminate X. injection X as <-. cbn. rewrite (IH _ Y). reflexivity.
Qed.
(** The mean of a column, and its deviation if that is at least one, else one *)
Definition stats_of (deviation : list Q -> Q) (xs : list Q) (m s : Q) : Prop :=
  m == fold_right Qplus 0 xs / inject_Z (Z.of_nat (length xs)) /\ s == Qmax 1 (deviation xs).
Lemma at_least_max (x : Q) : at_least_one x == Qmax 1 x.
Proof.
  unfold at_least_one. destruct (nltb x n1) eqn:E; unum; qprop; symmetry; [apply Q.max_l|apply Q.max_r]; lra.
Qed.
Lemma column_stats_ok deviation (r : record Q) keys a : column_stats deviation r keys = Ok a ->
  length a = length keys
  /\ forall i k, nth_error keys i = Some k -> exists xs m d, dget k r = Some (map CNum xs) /\ nth_error a i = Some (m, d)
       /\ m == fold_right Qplus 0 xs / inject_Z (Z.of_nat (length xs)) /\ d = deviation xs.
Proof.
  unfold column_stats. intros H. apply rmapM_nth in H. destruct H as (L & H). split; [exact L|]. intros i k K.
  destruct (H _ _ K) as (y & F & Y). apply rbind_ok in F. destruct F as (l & D & F). apply rbind_ok in F. destruct F as (xs & X & F).
  injection F as <-. apply num_all in X. subst l. exists xs, (mean_of xs), (deviation xs).
  split; [unfold dfind in D; destruct (dget k r); [injection D as <-; reflexivity|discriminate D]|].
  split; [exact Y|]. split; [|reflexivity]. unfold mean_of. rewrite <- nsum_fold. unum. reflexivity.
Qed.
Theorem C91_means deviation (g : nonmod Q) tables s : standardizations deviation g tables = Ok s ->
  has_genset (nm_arch g) = false ->
  length (st_mean s) = 5%nat
  /\ (forall i k, nth_error (entries (nm_arch g)) i = Some k -> exists xs m d, dget k (fst tables) = Some (map CNum xs)
        /\ nth_error (st_mean s) i = Some m /\ nth_error (st_std s) i = Some d /\ stats_of deviation xs m d)
  /\ length (st_obs_mean s) = length (nm_state g)
  /\ (forall i k, nth_error (map fst (nm_state g)) i = Some k -> exists xs m d, dget k (snd tables) = Some (map CNum xs)
        /\ nth_error (st_obs_mean s) i = Some m /\ nth_error (st_obs_std s) i = Some d /\ stats_of deviation xs m d).
Proof.
  unfold standardizations, entries. intros H HG. rewrite HG in *. apply rbind_ok in H. destruct H as (a & A & H).
  apply rbind_ok in H. destruct H as (o & O & H). apply column_stats_ok in A, O. destruct A as (LA & A). destruct O as (LO & O).
  cbn [action_keys length] in LA. rewrite LA in H. cbn [Nat.sub repeat] in H. rewrite !app_nil_r in H. injection H as <-.
  cbn [st_mean st_std st_obs_mean st_obs_std]. rewrite !map_length. rewrite map_length in LO.
  split; [exact LA|]. split.
  - intros i k K. destruct (A i k K) as (xs & m & d & D & N & M & ->). exists xs, m, (at_least_one (deviation xs)).
    split; [exact D|]. split; [rewrite (map_nth_error fst _ _ N); reflexivity|].
    split; [rewrite (map_nth_error at_least_one _ _ (map_nth_error snd _ _ N)); reflexivity|].
    split; [exact M|apply at_least_max].
  - split; [exact LO|]. intros i k K. destruct (O i k K) as (xs & m & d & D & N & M & ->). exists xs, m, (at_least_one (deviation xs)).
    split; [exact D|]. split; [rewrite (map_nth_error fst _ _ N); reflexivity|].
    split; [rewrite (map_nth_error (fun x => at_least_one (snd x)) _ _ N); reflexivity|].
    split; [exact M|apply at_least_max].
Qed.
Print Assumptions C91_means.
Example C91_means_example : has_genset (nm_arch (year_grid plain_arch)) = false
  /\ exists s, standardizations some_deviation (year_grid plain_arch) (some_tables plain_arch) = Ok s
       /\ Forall2 Qeq (st_mean s) [2; 2; 2; 2; 2] /\ Forall2 Qeq (st_std s) [2; 2; 2; 2; 2].
Proof.
  split; [vm_compute; reflexivity|]. eexists. split; [vm_compute; reflexivity|].
  split; repeat (constructor; [vm_compute; reflexivity|]); constructor.
Qed.

(** Without standardization the bounds are the limits of the microgrid. *)
Theorem C91_plain_bounds trajectory episode start run deviation (g : nonmod Q) e :
  new_continuous false trajectory episode start run deviation g = Ok e ->
  exists mi me pc pd pv, parameter g "grid_power_import" mi /\ parameter g "grid_power_export" me
    /\ parameter g "battery_power_charge" pc /\ parameter g "battery_power_discharge" pd /\ parameter g "PV_rated_power" pv
    /\ if has_genset (nm_arch g) then
         exists rated pmin pmax, parameter g "genset_rated_power" rated /\ parameter g "genset_pmin" pmin
           /\ parameter g "genset_pmax" pmax
           /\ gy_high e = [rated * pmax; mi; me; pc; pd; pv] /\ gy_low e = [rated * pmin; 0; 0; 0; 0; 0]
       else gy_high e = [mi; me; pc; pd; pv] /\ gy_low e = [0; 0; 0; 0; 0].
Proof.
  intros H. apply new_continuous_plain in H. destruct H as (e1 & E & G & _ & _ & B). apply new_grid in E. destruct E as (NP & NA).
  apply bounds_ok in B. unfold parameter in *. rewrite G, NP, NA in B. exact B.
Qed.
Print Assumptions C91_plain_bounds.
Example C91_plain_bounds_example : match new_continuous false None None 100 no_run (fun _ => 1) (year_grid full_arch) with
  | Ok e => length (gy_high e) | Err _ => 0%nat end = 6%nat.
Proof. vm_compute. reflexivity. Qed.

(** ** C92 *)

(** After a reset the values of the last action are still shown. *)
Theorem C92_reset_values_refuted : ~ (forall start (e e1 : gym Q) o k x, gym_reset start e = (e1, Ok o) ->
  In k (entries (nm_arch (gy_grid e1))) -> shows_value e1 k x -> x == 0).
Proof.
  intros H. pose (e := stepped [charging] (ready (plain plain_arch None))). pose (e1 := fst (gym_reset 100 e)).
  destruct (gym_reset_of 100 e) as (o & R); [vm_compute; reflexivity|]. fold e1 in R.
  assert (I : In "battery_charge" (entries (nm_arch (gy_grid e1)))) by (vm_compute; tauto).
  assert (A : gy_action e1 = Some charging) by (vm_compute; reflexivity).
  assert (V : snd (get_values ["battery_charge"] e1) = Ok [CNum 25]) by (vm_compute; reflexivity).
  clearbody e1. clearbody e.
  destruct (get_values ["battery_charge"] e1) as [e2 w] eqn:G. cbn [snd] in V. subst w.
  apply (get_values_one e1 _ _ _ _ A) in G. destruct G as (-> & ao & K & F). inversion F as [|? ? ? ? F1 G1]; subst.
  pose proof (H _ _ _ _ _ _ R I (one_shows _ _ _ _ _ A K F1)) as X. lra.
Qed.
Print Assumptions C92_reset_values_refuted.

(** Before the first step the values of the actions are zero, and the others those of the observation. *)
Theorem C92_before (e e' : gym Q) names l o : gy_action e = None -> gy_obs e = Some o -> get_values names e = (e', Ok l) ->
  length l = length names
  /\ (forall i k, nth_error names i = Some k -> In k (entries (nm_arch (gy_grid e))) -> nth_error l i = Some (CNum 0))
  /\ (forall i j k c, nth_error names i = Some k -> nth_error (shown_columns (nm_arch (gy_grid e))) j = Some k ->
        nth_error o j = Some c -> nth_error l i = Some c)
  /\ gy_grid e' = gy_grid e.
Proof.
  intros A O H. unfold get_values in H. apply mbind_ok in H. destruct H as (e1 & x & E & H). unfold mget in E. injection E as <- <-.
  rewrite A in H. apply mbind_ok in H. destruct H as (e1 & [] & E & H). unfold mmodify in E. injection E as <-.
  unfold mlift in H. injection H as <- H. unfold current_obs in H. rewrite O in H. cbn [rbind fst snd] in H.
  pose (z := repeat (0 : Q) (length (action_names (has_genset (nm_arch (gy_grid e)))))).
  apply rmapM_nth in H. destruct H as (L & H). split; [exact L|]. split; [|split; [|reflexivity]].
  - intros i k K I. destruct (H i k K) as (y & F & Y). apply In_nth_error in I. destruct I as (j & J).
    assert (Z' : nth_error z j = Some 0).
    { subst z. change (action_names (has_genset (nm_arch (gy_grid e)))) with (entries (nm_arch (gy_grid e))).
      apply nth_error_repeat. apply nth_error_Some. rewrite J. discriminate. }
    pose proof (known_action e (z, o) j k 0 J Z') as W. assert (F' : one_value e (z, o) k = Ok y) by exact F. rewrite F' in W. injection W as ->. exact Y.
  - intros i j k c K J C. destruct (H i k K) as (y & F & Y).
    pose proof (known_shown e (z, o) j k c J C) as W. assert (F' : one_value e (z, o) k = Ok y) by exact F. rewrite F' in W. injection W as ->. exact Y.
Qed.
Print Assumptions C92_before.
Example C92_before_example : gy_action (ready (plain plain_arch None)) = None
  /\ snd (get_values ["load"; "grid_import"] (ready (plain plain_arch None))) = Ok [CNum 10; CNum 0].
Proof. split; vm_compute; reflexivity. Qed.
