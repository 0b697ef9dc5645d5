(** * Properties of the environments with continuous actions around non-modular microgrids

    C90: actions, steps and the lengths of episodes and trajectories.
    C91: standardization and bounds.
    C92: values, constraints and samples. *)

From Coq Require Import ZArith QArith Qminmax Bool String List Lia Lqa.
From Verif Require Import Num Py NonModular NmMpc OldEnv GymEnv Spec_Module Spec_NonModular Spec_GymEnv Proofs_Num Proofs_NonModular
  Proofs_NmRun Proofs_NmEpisode Proofs_GymEnv Proofs_GymEnv2 Proofs_GymEnv3 Proofs_GymEnv4 Properties_NonModular.
Import ListNotations.
Local Open Scope string_scope.
Local Open Scope list_scope.
Local Open Scope Q_scope.

(** ** A microgrid with a year of data *)

Definition hours : nat := Z.to_nat 8760.
(** The load is 10 and then, from the second hour on, 20. *)
Definition year_series (first rest : Q) : list Q := first :: repeat rest (hours - 1).
Definition year_spec (ar : arch) : nm_spec Q :=
  mkSpec (("PV_rated_power", 50) :: nm_parameters) ar (Some (year_series 10 20)) (Some (year_series 5 0))
    (Some (year_series 1 1)) (Some (year_series (3 # 10) (2 # 10))) (Some (year_series (1 # 10) (1 # 10)))
    (Some (year_series (1 # 2) (1 # 2)))
    (empties ["load"; "pv_consummed"; "pv_curtailed"; "pv"; "battery_charge"; "battery_discharge"; "grid_import";
              "grid_export"; "genset"])
    (nm_status0 ar) (empties (production_columns ar)) (empties (cost_columns ar)) (empties ["co2"]).
Definition plain_arch : arch := mkArch true true false true.
Definition year_grid (ar : arch) : nonmod Q := nm_get (new_nonmodular (year_spec ar) 0).
Definition no_run : M (nonmod Q) (record Q * record Q) := mraise ValueError "not used".
Definition no_gym : gym Q := mkGym (year_grid plain_arch) None None [] [] None None.
Definition gym_get (r : res (gym Q)) : gym Q := match r with Ok e => e | Err _ => no_gym end.
Definition plain (ar : arch) (trajectory : option Z) : gym Q :=
  gym_get (new_continuous false trajectory None 100 no_run (fun _ => 1) (year_grid ar)).
Definition gym_ok {A} (r : gym Q * res A) : bool := match snd r with Ok _ => true | Err _ => false end.
(** After a reset, and after steps that ask for these actions *)
Definition ready (e : gym Q) : gym Q := fst (gym_reset 100 e).
Fixpoint stepped (l : list (list Q)) (e : gym Q) : gym Q :=
  match l with [] => e | a :: l => stepped l (fst (gym_step a e)) end.
(** Import 20, export, charge 25, discharge, PV *)
Definition charging : list Q := [45; 0; 25; 0; 0].
Definition charging_less : list Q := [40; 0; 20; 0; 0].
Lemma plain_new : new_continuous false None None 100 no_run (fun _ => 1) (year_grid plain_arch) = Ok (plain plain_arch None).
Proof. vm_compute. reflexivity. Qed.

(** ** C90 Steps and episodes *)

Theorem C90_new_length trajectory episode start (g : nonmod Q) : nm_len g <> 8760%Z ->
  raises AssertionError (new_gym trajectory episode start g).
Proof. exact (new_gym_wrong trajectory episode start g). Qed.
Print Assumptions C90_new_length.
Example C90_new_length_example : nm_len full_grid = 5%Z.
Proof. vm_compute. reflexivity. Qed.

Theorem C90_new trajectory episode start (g : nonmod Q) : nm_len g = 8760%Z ->
  let h := match episode with None => 0%Z | Some m => (8760 - m)%Z end in
  match trajectory with
  | None => exists e, new_gym trajectory episode start g = Ok e /\ gy_grid e = set_horizon h g /\ gy_trajectory e = None
  | Some n =>
      ((h + n < 8760)%Z -> exists e, new_gym trajectory episode start g = Ok e /\ gy_trajectory e = Some n
          /\ gy_grid e = set_clock start (start + n + h) (nm_done g) (set_horizon h g))
      /\ ((8760 <= h + n)%Z -> raises ValueError (new_gym trajectory episode start g))
  end.
Proof. exact (new_gym_ok trajectory episode start g). Qed.
Print Assumptions C90_new.
Example C90_new_example : nm_len (year_grid plain_arch) = 8760%Z /\ nm_len (year_grid full_arch) = 8760%Z.
Proof. vm_compute. auto. Qed.

(** What a step does and returns *)
Theorem C90_step (a : list Q) e e' o r d : equipped (gy_grid e) -> gym_step a e = (e', Ok (o, r, d)) ->
  exists b c v cost, means_action e a b /\ stands_for (nm_arch (gy_grid e)) b c
    /\ nm_run c (gy_grid e) = (gy_grid e', Ok v) /\ means_values e v o
    /\ gained (nm_cost (gy_grid e)) (nm_cost (gy_grid e')) "total_cost" (CNum cost)
    /\ r == - cost /\ d = nm_done (gy_grid e').
Proof. exact (gym_step_spec a e e' o r d). Qed.
Print Assumptions C90_step.
Example C90_step_example : exists o r, snd (gym_step charging (ready (plain plain_arch None))) = Ok (o, r, false) /\ r == - (105 # 4).
Proof. eexists. eexists. split; [vm_compute; reflexivity|vm_compute; reflexivity]. Qed.

(** How long episodes are *)
Theorem C90_lasts start (e e' : gym Q) o : gym_reset start e = (e', Ok o) -> year (gy_grid e) ->
  (0 <= nm_horizon (gy_grid e) < 8760)%Z -> (forall n, gy_trajectory e = Some n -> (1 <= n)%Z) ->
  lasts e' (steps_of (gy_trajectory e) (nm_horizon (gy_grid e))).
Proof. exact (gym_reset_lasts start e e' o). Qed.
Print Assumptions C90_lasts.
Example C90_lasts_example : gym_ok (gym_reset 100 (plain plain_arch (Some 3%Z))) = true
  /\ data_length (nm_default (gy_grid (plain plain_arch (Some 3%Z)))) (gy_grid (plain plain_arch (Some 3%Z))) = 8760%Z
  /\ steps_of (gy_trajectory (plain plain_arch (Some 3%Z))) (nm_horizon (gy_grid (plain plain_arch (Some 3%Z)))) = 3%Z
  /\ map (fun n => nm_done (gy_grid (stepped (repeat charging n) (ready (plain plain_arch (Some 3%Z)))))) [0%nat; 1%nat; 2%nat; 3%nat]
     = [false; false; false; true].
Proof. vm_compute. auto. Qed.

(** Calls that return *)
Lemma gym_step_of a (e : gym Q) : gym_ok (gym_step a e) = true ->
  exists o r, gym_step a e = (fst (gym_step a e), Ok (o, r, nm_done (gy_grid (fst (gym_step a e))))).
Proof.
  destruct (gym_step a e) as [e' [((o & r) & d)|x]] eqn:E; [|discriminate]. intros _. exists o, r. cbn [fst].
  apply gym_step_ok in E. destruct E as (b & c & v & cost & _ & _ & _ & _ & _ & _ & -> & _). reflexivity.
Qed.
Lemma gym_reset_of start (e : gym Q) : gym_ok (gym_reset start e) = true ->
  exists o, gym_reset start e = (fst (gym_reset start e), Ok o).
Proof. destruct (gym_reset start e) as [e' [o|x]]; [|discriminate]. eauto. Qed.

(** An episode of [m] steps has [m + 1]. *)
Theorem C90_episode_refuted : ~ (forall m start g e e1 o, (1 <= m < 8760)%Z -> new_gym None (Some m) start g = Ok e ->
  gym_reset start e = (e1, Ok o) -> lasts e1 m).
Proof.
  intros H. pose (e := gym_get (new_gym None (Some 2%Z) 0 (year_grid plain_arch))).
  assert (N : new_gym None (Some 2%Z) 0 (year_grid plain_arch) = Ok e) by (vm_compute; reflexivity).
  destruct (gym_reset_of 0 e) as (o & R); [vm_compute; reflexivity|]. pose (e1 := fst (gym_reset 0 e)). fold e1 in R.
  specialize (H 2%Z 0%Z _ e e1 o ltac:(lia) N R).
  destruct (gym_step_of charging e1) as (o2 & r2 & S2); [vm_compute; reflexivity|]. pose (e2 := fst (gym_step charging e1)). fold e2 in S2.
  destruct (gym_step_of charging e2) as (o3 & r3 & S3); [vm_compute; reflexivity|]. pose (e3 := fst (gym_step charging e2)). fold e3 in S3.
  assert (D2 : nm_done (gy_grid e2) = false) by (vm_compute; reflexivity).
  assert (D3 : nm_done (gy_grid e3) = false) by (vm_compute; reflexivity).
  rewrite D2 in S2. rewrite D3 in S3. clearbody e3. clear D2 D3.
  destruct (H [charging; charging] [(o2, r2, false); (o3, r3, false)] e3) as (_ & K).
  - apply GPcons with e2; [exact S2|]. apply GPcons with e3; [exact S3|constructor].
  - constructor; [reflexivity|constructor].
  - cbn in K. destruct K as (_ & K). specialize (K eq_refl). discriminate K.
Qed.
Print Assumptions C90_episode_refuted.

(** The first row that is played, whatever the start *)
Theorem C90_first_row start (e e1 : gym Q) o : gym_reset start e = (e1, Ok o) ->
  nth_error (in_use (gy_grid e1) (nm_load_ts (gy_grid e))) 0 = Some (now_load (nm_now (gy_grid e1)))
  /\ nth_error (in_use (gy_grid e1) (nm_pv_ts (gy_grid e))) 0 = Some (now_pv (nm_now (gy_grid e1)))
  /\ match gy_trajectory e with None => nm_t (gy_grid e1) = 0%Z | Some _ => nm_t (gy_grid e1) = start end.
Proof. exact (first_row start e e1 o). Qed.
Print Assumptions C90_first_row.
Theorem C90_start_refuted : ~ (forall start (e e1 : gym Q) o, gym_reset start e = (e1, Ok o) -> (0 <= start)%Z ->
  nth_error (nm_load_ts (gy_grid e)) (Z.to_nat (nm_t (gy_grid e1))) = Some (now_load (nm_now (gy_grid e1)))).
Proof.
  intros H. destruct (gym_reset 100 (plain plain_arch (Some 3%Z))) as [e1 [o|x]] eqn:R;
    [|apply (f_equal gym_ok) in R; vm_compute in R; discriminate R].
  specialize (H 100%Z _ _ _ R ltac:(lia)).
  assert (E1 : e1 = fst (gym_reset 100 (plain plain_arch (Some 3%Z)))) by (rewrite R; reflexivity). rewrite E1 in H.
  vm_compute in H. discriminate H.
Qed.
Print Assumptions C90_start_refuted.

(** After its end an episode goes on being billed, and stays over. *)
Theorem C90_stays_done (a : list Q) e e' o r d : gym_step a e = (e', Ok (o, r, d)) -> nm_done (gy_grid e) = true -> d = true.
Proof.
  intros H D. apply gym_step_ok in H. destruct H as (b & c & v & cost & _ & _ & R & _ & _ & _ & ED & _).
  apply run_clock in R. destruct R as (_ & _ & _ & RE). destruct (ended (gy_grid e)); destruct RE; congruence.
Qed.
Print Assumptions C90_stays_done.
Theorem C90_over_refuted : ~ (forall (a : list Q) e e' o r d, gym_step a e = (e', Ok (o, r, d)) -> nm_done (gy_grid e) = true ->
  nm_cost (gy_grid e') = nm_cost (gy_grid e)).
Proof.
  intros H. pose (e := stepped (repeat charging 3) (ready (plain plain_arch (Some 3%Z)))).
  destruct (gym_step charging e) as [e' [((o & r) & d)|x]] eqn:S'; [|apply (f_equal gym_ok) in S'; vm_compute in S'; discriminate S'].
  assert (D : nm_done (gy_grid e) = true) by (vm_compute; reflexivity).
  specialize (H _ _ _ _ _ _ S' D).
  assert (E' : e' = fst (gym_step charging e)) by (rewrite S'; reflexivity). rewrite E' in H.
  apply (f_equal (fun r => option_map (@length _) (dget "total_cost" r))) in H. vm_compute in H. discriminate H.
Qed.
Print Assumptions C90_over_refuted.

(** ** C91 Standardization and bounds *)

Theorem C91_stds deviation (g : nonmod Q) tables s : standardizations deviation g tables = Ok s -> stds_ok s.
Proof. exact (standardizations_ok deviation g tables s). Qed.
Print Assumptions C91_stds.
Definition some_tables (ar : arch) : record Q * record Q :=
  (map (fun k => (k, [CNum 0; CNum 4])) ["grid_import"; "grid_export"; "battery_charge"; "battery_discharge"; "pv_consummed"; "genset"],
   map (fun k => (k, [CNum 1; CNum 3])) (shown_columns ar)).
Definition some_deviation (l : list Q) : Q := match l with x :: y :: _ => (y - x) / 2 | _ => 0 end.
Definition std_run (ar : arch) : M (nonmod Q) (record Q * record Q) := mret (some_tables ar).
Definition standard (ar : arch) (trajectory : option Z) : gym Q :=
  gym_get (new_continuous true trajectory None 100 (std_run ar) some_deviation (year_grid ar)).
Example C91_stds_example : exists s, standardizations some_deviation (year_grid plain_arch) (some_tables plain_arch) = Ok s
  /\ Forall2 Qeq (st_std s) [2; 2; 2; 2; 2] /\ Forall2 Qeq (st_mean s) [2; 2; 2; 2; 2].
Proof. eexists. split; [vm_compute; reflexivity|]. split; repeat (constructor; [vm_compute; reflexivity|]); constructor. Qed.

Theorem C91_round_trip (s : list Q) mean (x y z : list Q) : Forall (fun s => 1 <= s) s ->
  forward (map CNum x) mean s = Ok y -> backward (map CNum y) mean s = Ok z -> Forall2 Qeq x z.
Proof.
  intros F A B. apply forward_ok in A. apply backward_ok in B. destruct (moved_round mean s x y z F A B) as (L & H).
  clear - L H. revert z L H. induction x as [|v x IH]; intros [|w z] L H; try discriminate; constructor.
  - symmetry. apply (H 0%nat); reflexivity.
  - apply IH; [cbn in L; lia|]. intros i a b A B. apply (H (S i)); assumption.
Qed.
Print Assumptions C91_round_trip.
Example C91_round_trip_example : exists y z, forward (map CNum [3; 5]) [1; 2] [2; 4] = Ok y /\ backward (map CNum y) [1; 2] [2; 4] = Ok z
  /\ Forall2 Qeq y [1; 3 # 4].
Proof. eexists. eexists. split; [vm_compute; reflexivity|]. split; [vm_compute; reflexivity|]. repeat (constructor; [vm_compute; reflexivity|]); constructor. Qed.

(** With a genset, standardization is not possible. *)
Theorem C91_genset_never trajectory episode start run deviation (g : nonmod Q) e :
  (forall x g' t, run x = (g', Ok t) -> nm_arch g' = nm_arch x /\ dget five_in_one (fst t) = None) ->
  has_genset (nm_arch g) = true ->
  new_continuous true trajectory episode start run deviation g <> Ok e.
Proof. intros RUN HG H. exact (genset_never trajectory episode start run deviation g e RUN HG H). Qed.
Print Assumptions C91_genset_never.
Example C91_genset_never_example : (forall x g' t, std_run full_arch x = (g', Ok t) -> nm_arch g' = nm_arch x /\ dget five_in_one (fst t) = None)
  /\ has_genset (nm_arch (year_grid full_arch)) = true.
Proof. split; [|vm_compute; reflexivity]. intros x g' t H. unfold std_run, mret in H. injection H as <- <-. split; reflexivity. Qed.

(** Without the parameters of a grid there is no environment. *)
Theorem C91_island_never standardization trajectory episode start run deviation (g : nonmod Q) e :
  dget "grid_power_import" (nm_par g) = None ->
  new_continuous standardization trajectory episode start run deviation g <> Ok e.
Proof. intros P H. exact (island_never standardization trajectory episode start run deviation g e P H). Qed.
Print Assumptions C91_island_never.

(** A standardized environment: its bounds are the moved ones, but for the export. *)
Theorem C91_new_bounds trajectory episode start run deviation (g : nonmod Q) e :
  new_continuous true trajectory episode start run deviation g = Ok e ->
  exists s high low up, gy_stds e = Some s /\ stds_ok s /\ nm_len g = 8760%Z
    /\ moved (st_mean s) (st_std s) (map CNum low) (gy_low e) /\ moved (st_mean s) (st_std s) (map CNum high) up
    /\ length (gy_high e) = length up
    /\ (forall i, i <> 1%nat -> nth_error (gy_high e) i = nth_error up i)
    /\ (forall x, nth_error (gy_high e) 1 = Some x -> x == 1 # 10)
    /\ (exists mi me pc pd pv, parameter g "grid_power_import" mi /\ parameter g "grid_power_export" me
          /\ parameter g "battery_power_charge" pc /\ parameter g "battery_power_discharge" pd /\ parameter g "PV_rated_power" pv
          /\ (has_genset (nm_arch g) = false -> high = [mi; me; pc; pd; pv] /\ low = [0; 0; 0; 0; 0])).
Proof.
  intros H. apply new_continuous_std in H.
  destruct H as (e1 & g' & tables & high & low & s & E & B & _ & _ & _ & S' & ST & LO & up & HI & EH).
  exists s, high, low, up. split; [exact ST|]. split; [eapply standardizations_ok; exact S'|].
  split; [destruct (Z.eq_dec (nm_len g) 8760) as [L|L]; [exact L|destruct (new_gym_wrong trajectory episode start g L) as (x & X & _); rewrite E in X; discriminate X]|].
  split; [exact LO|]. split; [exact HI|].
  rewrite EH. split; [destruct up as [|a [|b up]]; reflexivity|].
  split; [intros [|[|i]] K; [destruct up as [|a [|b up]]; reflexivity|congruence|destruct up as [|a [|b up]]; reflexivity]|].
  split; [intros x K; destruct up as [|a [|b up]]; try discriminate K; cbn in K; injection K as <-; reflexivity|].
  pose proof (new_grid _ _ _ _ _ E) as (NP & NA).
  apply bounds_ok in B. destruct B as (mi & me & pc & pd & pv & P1 & P2 & P3 & P4 & P5 & B).
  exists mi, me, pc, pd, pv. unfold parameter in *. rewrite NP in *. repeat (split; [assumption|]).
  intros HG. rewrite NA, HG in B. exact B.
Qed.
Print Assumptions C91_new_bounds.
Example C91_new_bounds_example : gy_stds (standard plain_arch None) <> None
  /\ Forall2 Qeq (gy_high (standard plain_arch None)) [29; 1 # 10; 23 # 2; 23 # 2; 24] /\ Forall2 Qeq (gy_low (standard plain_arch None)) [-1; -1; -1; -1; -1].
Proof. split; [vm_compute; discriminate|]. split; repeat (constructor; [vm_compute; reflexivity|]); constructor. Qed.

(** The bound on exports is not that of the microgrid. *)
Theorem C91_export_refuted : ~ (forall trajectory episode start run deviation (g : nonmod Q) e s me x,
  new_continuous true trajectory episode start run deviation g = Ok e -> gy_stds e = Some s ->
  parameter g "grid_power_export" me -> nth_error (gy_high e) 1 = Some x ->
  exists m d, nth_error (st_mean s) 1 = Some m /\ nth_error (st_std s) 1 = Some d /\ x * d + m == me).
Proof.
  intros H.
  assert (N : new_continuous true None None 100 (std_run plain_arch) some_deviation (year_grid plain_arch) = Ok (standard plain_arch None))
    by (vm_compute; reflexivity).
  destruct (gy_stds (standard plain_arch None)) as [s|] eqn:ST; [|vm_compute in ST; discriminate ST].
  destruct (nth_error (gy_high (standard plain_arch None)) 1) as [x|] eqn:X; [|vm_compute in X; discriminate X].
  destruct (H _ _ _ _ _ _ _ s 60 x N ST ltac:(vm_compute; reflexivity) X) as (m & d & M & D & E).
  vm_compute in ST. injection ST as <-. vm_compute in X. injection X as <-. vm_compute in M. injection M as <-. vm_compute in D. injection D as <-.
  vm_compute in E. discriminate E.
Qed.
Print Assumptions C91_export_refuted.

(** Without standardization, actions within the bounds are followed by the grid and the genset. *)
Theorem C91_followed trajectory episode start run deviation (g : nonmod Q) e0 e a e' o r d :
  new_continuous false trajectory episode start run deviation g = Ok e0 -> gym_reached e0 e ->
  gym_step a e = (e', Ok (o, r, d)) -> within_space e a ->
  (forall rated pmin, parameter g "genset_rated_power" rated -> parameter g "genset_pmin" pmin -> 0 <= rated * pmin) ->
  exists c oc, stands_for (nm_arch g) a c /\ produced (gy_grid e) (gy_grid e') oc
    /\ (has_grid (nm_arch g) = true -> exists x y, dget "grid_import" c = Some x /\ dget "grid_export" c = Some y
          /\ oc_import oc == x /\ oc_export oc == y)
    /\ (has_genset (nm_arch g) = true -> exists x, dget "genset" c = Some x /\ oc_genset oc == x).
Proof. exact (plain_followed trajectory episode start run deviation g e0 e a e' o r d). Qed.
Print Assumptions C91_followed.
Example C91_followed_example : gym_ok (gym_step charging (ready (plain plain_arch None))) = true
  /\ gy_high (plain plain_arch None) = [60; 60; 25; 25; 50] /\ gy_low (plain plain_arch None) = [0; 0; 0; 0; 0].
Proof. vm_compute. auto. Qed.

(** Standardized episodes never end: their last step has no next values to show and raises. *)
Theorem C91_never_done start (e e1 : gym Q) o l os e2 : gym_reset start e = (e1, Ok o) -> gym_plays e1 l os e2 ->
  equipped (gy_grid e) -> gy_stds e <> None -> year (gy_grid e) -> nm_default (gy_grid e) = All -> nm_horizon (gy_grid e) = 0%Z ->
  (forall n, gy_trajectory e = Some n -> (2 <= n)%Z) ->
  Forall (fun o => snd o = false) os.
Proof. exact (standardized_never start e e1 o l os e2). Qed.
Print Assumptions C91_never_done.
Theorem C91_short start (e e1 : gym Q) o l os e2 : gym_reset start e = (e1, Ok o) -> gym_plays e1 l os e2 ->
  equipped (gy_grid e) -> gy_stds e <> None -> year (gy_grid e) -> nm_default (gy_grid e) = All -> nm_horizon (gy_grid e) = 0%Z ->
  (forall n, gy_trajectory e = Some n -> (2 <= n)%Z) ->
  (Z.of_nat (length l) < steps_of (gy_trajectory e) 0)%Z.
Proof.
  intros R P EQ ST Y DF HZ TJ. pose proof (standardized_never start e e1 o l os e2 R P EQ ST Y DF HZ TJ) as F.
  assert (L : lasts e1 (steps_of (gy_trajectory e) (nm_horizon (gy_grid e)))).
  { apply (gym_reset_lasts start e e1 o R Y); [lia|]. intros n N. specialize (TJ n N). lia. }
  rewrite HZ in L. destruct (L l os e2 P) as (L1 & L2).
  { unfold until_done. clear - F. induction os as [|a os IH]; [constructor|]. inversion F; subst. destruct os; [constructor|].
    cbn [removelast]. constructor; [assumption|]. apply IH. assumption. }
  assert (X : existsb (fun o => snd o) os = false).
  { clear - F. induction F as [|a os A F IH]; [reflexivity|]. cbn. rewrite A, IH. reflexivity. }
  destruct (Z.eq_dec (Z.of_nat (length l)) (steps_of (gy_trajectory e) 0)) as [E|E]; [|lia].
  apply L2 in E. congruence.
Qed.
Print Assumptions C91_short.
Example C91_never_done_example : gym_ok (gym_reset 100 (standard plain_arch (Some 3%Z))) = true
  /\ gy_stds (standard plain_arch (Some 3%Z)) <> None /\ nm_default (gy_grid (standard plain_arch (Some 3%Z))) = All
  /\ map (fun n => gym_ok (gym_step [0; 0; 0; 0; 0] (stepped (repeat [0; 0; 0; 0; 0] n) (ready (standard plain_arch (Some 3%Z))))))
       [0%nat; 1%nat; 2%nat] = [true; true; false].
Proof. split; [vm_compute; reflexivity|]. split; [vm_compute; discriminate|]. split; vm_compute; reflexivity. Qed.

(** ** C92 Values and constraints *)

(** After a step the values are those of the control and of the microgrid, standardized or not. *)
Theorem C92_values (a : list Q) e e' o r d : gym_step a e = (e', Ok (o, r, d)) ->
  map fst (nm_state (gy_grid e)) = shown_columns (nm_arch (gy_grid e)) ->
  match gy_stds e with Some s => stds_ok s | None => True end ->
  exists b c v, means_action e a b /\ stands_for (nm_arch (gy_grid e)) b c /\ nm_run c (gy_grid e) = (gy_grid e', Ok v)
    /\ (forall k x, dget k c = Some x -> exists y, shows_value e' k y /\ y == x)
    /\ (forall k x, dget k v = Some x -> exists y, get_values [k] e' = (e', Ok [y]) /\ same_cell x y).
Proof. exact (values_after a e e' o r d). Qed.
Print Assumptions C92_values.
Example C92_values_example : gym_ok (gym_step [0; 0; 0; 0; 0] (ready (standard plain_arch None))) = true
  /\ map fst (nm_state (gy_grid (ready (standard plain_arch None)))) = shown_columns plain_arch
  /\ (exists x, snd (get_values ["grid_import"] (stepped [[0; 0; 0; 0; 0]] (ready (standard plain_arch None)))) = Ok [CNum x] /\ x == 2)
  /\ (exists x, snd (get_values ["load"] (stepped [[0; 0; 0; 0; 0]] (ready (standard plain_arch None)))) = Ok [CNum x] /\ x == 20).
Proof. split; [vm_compute; reflexivity|]. split; [vm_compute; reflexivity|]. split; eexists; (split; [vm_compute; reflexivity|vm_compute; reflexivity]). Qed.

(** Before the first step, a standardized environment gives standardized observations. *)
Theorem C92_early_values_refuted : ~ (forall start (e e1 e2 : gym Q) o x c, gym_reset start e = (e1, Ok o) ->
  get_values ["load"] e1 = (e2, Ok [CNum x]) -> latest (nm_state (gy_grid e1)) "load" (CNum c) -> x == c).
Proof.
  intros H. destruct (gym_reset 100 (standard plain_arch None)) as [e1 [o|w]] eqn:R;
    [|apply (f_equal gym_ok) in R; vm_compute in R; discriminate R].
  assert (E1 : e1 = ready (standard plain_arch None)) by (unfold ready; rewrite R; reflexivity).
  destruct (get_values ["load"] e1) as [e2 [l|w]] eqn:G; [|rewrite E1 in G; apply (f_equal gym_ok) in G; vm_compute in G; discriminate G].
  assert (L : Ok l = snd (get_values ["load"] (ready (standard plain_arch None)))) by (rewrite <- E1, G; reflexivity).
  vm_compute in L. injection L as ->.
  specialize (H _ _ _ e2 o _ 10 R G).
  assert (X : latest (nm_state (gy_grid e1)) "load" (CNum 10)).
  { exists []. rewrite E1. vm_compute. reflexivity. }
  specialize (H X). vm_compute in H. discriminate H.
Qed.
Print Assumptions C92_early_values_refuted.

(** The number of constraints *)
Theorem C92_count only scale tolerance (e : gym Q) a e' l : gy_action e = Some a ->
  constraint_values only scale tolerance e = (e', Ok l) ->
  e' = e /\ length l = num_constraints (has_genset (nm_arch (gy_grid e))) only.
Proof.
  intros A H. apply (constraint_values_ok _ _ _ _ _ _ _ A) in H. destruct H as (-> & m & b & I & _ & ->). split; [reflexivity|].
  apply (inequality_count _ _ _ _ _ _ A) in I. unfold num_constraints.
  destruct only; [|rewrite app_length]; rewrite I; destruct (has_genset (nm_arch (gy_grid e))); reflexivity.
Qed.
Print Assumptions C92_count.

(** What the signs of the constraints mean, scaled or not *)
Theorem C92_constraints scale tolerance (e : gym Q) a e' l : gy_action e = Some a ->
  constraint_values true scale tolerance e = (e', Ok l) -> (scale = true -> scales_ok (gy_grid e)) ->
  (Forall (fun x => x <= 0) l <-> satisfied e tolerance).
Proof.
  intros A H SC. apply (constraint_values_ok _ _ _ _ _ _ _ A) in H. destruct H as (-> & m & b & I & _ & ->).
  exact (inequality_meaning scale tolerance e a e m A I SC).
Qed.
Print Assumptions C92_constraints.

(** The last value is the imbalance of the action. *)
Theorem C92_balance scale tolerance (e : gym Q) a e' l : gy_action e = Some a ->
  constraint_values false scale tolerance e = (e', Ok l) -> (scale = true -> scales_ok (gy_grid e)) ->
  exists m b x, l = m ++ [b] /\ constraint_values true scale tolerance e = (e, Ok m) /\ imbalance e x
    /\ (scale = false -> b == x) /\ (b == 0 <-> x == 0).
Proof.
  intros A H SC. apply (constraint_values_ok _ _ _ _ _ _ _ A) in H. destruct H as (-> & m & b & I & B & ->).
  pose proof (energy_balance_ok _ _ _ _ _ A B) as (_ & x & IM & X). exists m, b, x. split; [reflexivity|].
  split; [unfold constraint_values, mbind; rewrite I, B; reflexivity|]. split; [exact IM|].
  destruct scale; [|split; [auto|rewrite X; reflexivity]]. split; [discriminate|].
  destruct X as (cap & C & X). assert (0 < cap) by (apply (SC eq_refl "battery_capacity"); [simpl; tauto|exact C]).
  rewrite X. split; intros Y.
  - assert (Z : x == x / cap * cap) by (field; lra). rewrite Z, Y. ring.
  - rewrite Y. field. lra.
Qed.
Print Assumptions C92_balance.
Example C92_constraints_example : let e := stepped [charging_less] (ready (plain plain_arch None)) in
  gy_action e = Some charging_less /\ scales_ok (gy_grid e)
  /\ (exists l, snd (constraint_values false true 0 e) = Ok l /\ length l = 7%nat /\ Forall (fun x => x <= 0) l /\ last l 1 == 0)
  /\ (exists l, snd (constraint_values true true 0 (stepped [charging] (ready (plain plain_arch None)))) = Ok l /\ length l = 6%nat
       /\ ~ Forall (fun x => x <= 0) l)
  /\ (exists l, snd (constraint_values false false 0 (stepped [12 :: charging_less] (ready (plain full_arch None)))) = Ok l /\ length l = 9%nat).
Proof.
  cbv zeta. split; [vm_compute; reflexivity|]. split.
  - intros k x I P. simpl in I. destruct I as [<-|[<-|[<-|[<-|[<-|[<-|[<-|[<-|[]]]]]]]]]; vm_compute in P; injection P as <-; reflexivity.
  - split; [|split].
    + eexists. split; [vm_compute; reflexivity|]. split; [reflexivity|]. split; [|vm_compute; reflexivity].
      repeat (constructor; [vm_compute; discriminate|]). constructor.
    + eexists. split; [vm_compute; reflexivity|]. split; [reflexivity|]. intros F. inversion F as [|x l X Y]. vm_compute in X. apply X. reflexivity.
    + eexists. split; [vm_compute; reflexivity|reflexivity].
Qed.

(** The constraints are about the battery after the action, so that an action that is carried
    out in full may violate them. *)
Theorem C92_late_refuted : ~ (forall g e0 (a : list Q) e e' o r d c oc,
  new_continuous false None None 100 no_run (fun _ => 1) g = Ok e0 -> gym_reached e0 e ->
  gym_step a e = (e', Ok (o, r, d)) -> stands_for (nm_arch (gy_grid e)) a c -> produced (gy_grid e) (gy_grid e') oc ->
  (exists x, dget "battery_charge" c = Some x /\ oc_charge oc == x) ->
  exists x y, shows_value e' "battery_charge" x /\ shows_value e' "capa_to_charge" y /\ x <= y).
Proof.
  intros H. pose (e1 := fst (gym_reset 100 (plain plain_arch None))). pose (e := fst (gym_step charging e1)).
  pose (e' := fst (gym_step charging_less e)).
  destruct (gym_reset_of 100 (plain plain_arch None)) as (o1 & R1); [vm_compute; reflexivity|]. fold e1 in R1.
  destruct (gym_step_of charging e1) as (o2 & r2 & S2); [vm_compute; reflexivity|]. fold e in S2.
  destruct (gym_step_of charging_less e) as (o & r & S3); [vm_compute; reflexivity|]. fold e' in S3.
  assert (ST : gy_stds e = None) by (vm_compute; reflexivity).
  assert (AR : nm_arch (gy_grid e) = plain_arch) by (vm_compute; reflexivity).
  assert (LP : exists l x, dget "battery_charge" (nm_production (gy_grid e')) = Some (l ++ [CNum x]) /\ x == 20).
  { exists [CNum 25]. eexists. split; [vm_compute; reflexivity|vm_compute; reflexivity]. }
  assert (V1 : exists x, snd (get_values ["battery_charge"] e') = Ok [CNum x] /\ x == 20)
    by (eexists; split; [vm_compute; reflexivity|vm_compute; reflexivity]).
  assert (V2 : exists x, snd (get_values ["capa_to_charge"] e') = Ok [CNum x] /\ x < 20)
    by (eexists; split; [vm_compute; reflexivity|vm_compute; reflexivity]).
  clearbody e'. clearbody e. clearbody e1.
  pose proof S3 as K. apply gym_step_ok in K. destruct K as (b & c & v & cost & MA & CO & R & _).
  unfold means_action in MA. rewrite ST in MA. subst b. pose proof (gym_control_ok _ _ _ CO) as SF.
  destruct (run_follows _ _ _ _ R) as (oc & PR & _).
  destruct (H _ _ charging_less e e' o r (nm_done (gy_grid e')) c oc plain_new) as (x & y & X & Y & L); [| |exact SF|exact PR| |].
  - apply GRstep with e1 charging (o2, r2, nm_done (gy_grid e)); [|exact S2]. apply GRreset with (plain plain_arch None) 100%Z o1; [constructor|exact R1].
  - exact S3.
  - exists 20. split.
    + rewrite AR in SF. destruct SF as (SF & _). destruct (SF 2%nat _ eq_refl) as (x & X & D). injection X as <-. exact D.
    + destruct PR as (PR & _). rewrite AR in PR. destruct PR as ((l & _ & PR) & _).
      destruct LP as (l' & x & LP & X). rewrite LP in PR. injection PR as PR. apply app_inj_tail in PR. destruct PR as (_ & PR).
      injection PR as <-. exact X.
  - destruct V1 as (x' & V1 & X'). destruct V2 as (y' & V2 & Y'). unfold shows_value in X, Y. rewrite X in V1. rewrite Y in V2.
    cbn [snd] in V1, V2. injection V1 as <-. injection V2 as <-. lra.
Qed.
Print Assumptions C92_late_refuted.

(** The imbalance is that of the action with the load of the next row. *)
Definition balanced_action : list Q := [30; 0; 25; 0; 5].
Theorem C92_next_load_refuted : ~ (forall g e0 (a : list Q) e e' o r d c x imp exp ch dis pv,
  new_continuous false None None 100 no_run (fun _ => 1) g = Ok e0 -> gym_reached e0 e -> has_genset (nm_arch g) = false ->
  gym_step a e = (e', Ok (o, r, d)) -> stands_for (nm_arch (gy_grid e)) a c ->
  dget "grid_import" c = Some imp -> dget "grid_export" c = Some exp -> dget "battery_charge" c = Some ch ->
  dget "battery_discharge" c = Some dis -> dget "pv_consummed" c = Some pv ->
  imp + dis + pv == now_load (nm_now (gy_grid e)) + exp + ch -> imbalance e' x -> x == 0).
Proof.
  intros H. pose (e := fst (gym_reset 100 (plain plain_arch None))). pose (e' := fst (gym_step balanced_action e)).
  destruct (gym_reset_of 100 (plain plain_arch None)) as (o1 & R1); [vm_compute; reflexivity|]. fold e in R1.
  destruct (gym_step_of balanced_action e) as (o & r & S3); [vm_compute; reflexivity|]. fold e' in S3.
  assert (AR : nm_arch (gy_grid e) = plain_arch) by (vm_compute; reflexivity).
  assert (NL : now_load (nm_now (gy_grid e)) == 10) by (vm_compute; reflexivity).
  assert (A : gy_action e' = Some balanced_action) by (vm_compute; reflexivity).
  assert (V : snd (get_values ["grid_import"; "grid_export"; "battery_charge"; "battery_discharge"; "load"; "pv_consummed"] e')
              = Ok [CNum 30; CNum 0; CNum 25; CNum 0; CNum 20; CNum 5]) by (vm_compute; reflexivity).
  assert (NG : has_genset (nm_arch (gy_grid e')) = false) by (vm_compute; reflexivity).
  assert (NG0 : has_genset (nm_arch (year_grid plain_arch)) = false) by (vm_compute; reflexivity).
  clearbody e'. clearbody e.
  destruct (get_values ["grid_import"; "grid_export"; "battery_charge"; "battery_discharge"; "load"; "pv_consummed"] e') as [e2 w] eqn:G.
  cbn [snd] in V. subst w. apply (get_values_one e' _ _ _ _ A) in G. destruct G as (-> & ao & K & F).
  inversion F as [|? ? ? ? F1 G1]; subst. inversion G1 as [|? ? ? ? F2 G2]; subst. inversion G2 as [|? ? ? ? F3 G3]; subst.
  inversion G3 as [|? ? ? ? F4 G4]; subst. inversion G4 as [|? ? ? ? F5 G5]; subst. inversion G5 as [|? ? ? ? F6 G6]; subst.
  pose (c := [("battery_charge", 25); ("battery_discharge", 0); ("grid_import", 30); ("grid_export", 0); ("pv_consummed", 5)] : dict Q).
  assert (SF : stands_for (nm_arch (gy_grid e)) balanced_action c) by (rewrite AR; apply gym_control_ok; reflexivity).
  assert (IM : imbalance e' (-10)).
  { exists 30, 0, 25, 0, 0, 20, 5. rewrite NG.
    split; [exact (one_shows _ _ _ _ _ A K F1)|]. split; [exact (one_shows _ _ _ _ _ A K F2)|].
    split; [exact (one_shows _ _ _ _ _ A K F3)|]. split; [exact (one_shows _ _ _ _ _ A K F4)|]. split; [reflexivity|].
    split; [exact (one_shows _ _ _ _ _ A K F5)|]. split; [exact (one_shows _ _ _ _ _ A K F6)|]. reflexivity. }
  assert (X : (-10) == 0).
  { apply (H (year_grid plain_arch) (plain plain_arch None) balanced_action e e' o r (nm_done (gy_grid e')) c (-10) 30 0 25 0 5 plain_new);
      [apply GRreset with (plain plain_arch None) 100%Z o1; [constructor|exact R1]|exact NG0|exact S3|exact SF
      |reflexivity|reflexivity|reflexivity|reflexivity|reflexivity|lra|exact IM]. }
  lra.
Qed.
Print Assumptions C92_next_load_refuted.

(** A reset with a sample *)
Theorem C92_sample s start (e e1 : gym Q) o : sample_reset s start e = (e1, Ok o) -> gy_trajectory e = None ->
  nm_default (gy_grid e) = All ->
  nm_load_ts (gy_grid e1) = sm_load s /\ nm_pv_ts (gy_grid e1) = sm_pv s
  /\ nm_len (gy_grid e1) = Z.min (Z.of_nat (length (sm_load s))) (Z.of_nat (length (sm_pv s)))
  /\ (exists x, nth_error (sm_load s) 0 = Some x /\ now_load (nm_now (gy_grid e1)) = x
        /\ dget "load" (nm_state (gy_grid e1)) = Some [CNum x])
  /\ (exists x, nth_error (sm_pv s) 0 = Some x /\ now_pv (nm_now (gy_grid e1)) = x
        /\ dget "pv" (nm_state (gy_grid e1)) = Some [CNum x])
  /\ (has_grid (nm_arch (gy_grid e)) = true ->
        exists x, nth_error (sm_grid s) 0 = Some x /\ dget "grid_status" (nm_state (gy_grid e1)) = Some [CNum x]).
Proof. exact (sampled_reset s start e e1 o). Qed.
Print Assumptions C92_sample.
Example C92_sample_example :
  gym_ok (sample_reset (mkSample [7; 8; 9] [1; 2; 3] [0; 1; 1]) 0 (plain plain_arch None)) = true
  /\ gy_trajectory (plain plain_arch None) = None /\ nm_default (gy_grid (plain plain_arch None)) = All.
Proof. vm_compute. auto. Qed.
