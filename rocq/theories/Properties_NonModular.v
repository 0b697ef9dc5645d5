(** * Properties C56-C61: the non-modular microgrid

    [nm_run control g]: [run] with that control dictionary; [nm_reset], [train_test_split],
    [set_horizon], [set_cost_co2] likewise.  [new_nonmodular sp h]: the constructor.
    [wired sp]: [sp] has the parameters and columns that the generator and the converter
    give.  [nm_after cs g]: the state after the calls [cs], failed ones included.
    [produced g g' o]: the run added [o] to the production record (Spec_NonModular).
    Exact rationals. *)

From Coq Require Import ZArith QArith Qabs Bool String List Permutation Lia Lqa.
From Verif Require Import Num Py NonModular Spec_Module Spec_NonModular Proofs_NonModular Proofs_NmRun Proofs_NmHistory
  Proofs_NmBattery Proofs_NmCost Proofs_NmClock Proofs_NmProgress Proofs_NmEpisode Proofs_NmTotal Proofs_NmReads Proofs_NmRecord.
Import ListNotations.
Local Open Scope string_scope.
Local Open Scope list_scope.
Local Open Scope Q_scope.

(** ** A microgrid with everything, and one without a grid *)

Definition empties (l : list string) : record Q := map (fun k => (k, [])) l.
Definition nm_parameters : dict Q :=
  [("cost_loss_load", 10); ("cost_overgeneration", 1); ("cost_co2", 1 # 10);
   ("battery_soc_0", 1 # 2); ("battery_power_charge", 25); ("battery_power_discharge", 25); ("battery_capacity", 100);
   ("battery_efficiency", 9 # 10); ("battery_soc_min", 1 # 5); ("battery_soc_max", 1); ("battery_cost_cycle", 1 # 50);
   ("grid_power_import", 60); ("grid_power_export", 60);
   ("genset_rated_power", 40); ("genset_pmin", 1 # 20); ("genset_pmax", 9 # 10); ("fuel_cost", 2 # 5); ("genset_co2", 2)].
Definition nm_status0 (ar : arch) : record Q :=
  [("load", [CNum 10]); ("hour", [CNum 0]); ("pv", [CNum 5])]
  ++ [("battery_soc", [CNum (1 # 2)]); ("capa_to_charge", [CNum (111 # 2)]); ("capa_to_discharge", [CNum 27])]
  ++ (if has_grid ar then [("grid_status", [CNum 1]); ("grid_co2", [CNum (1 # 2)]);
        ("grid_price_import", [CNum (3 # 10)]); ("grid_price_export", [CNum (1 # 10)])] else []).
Definition nm_example (ar : arch) (load pv : list Q) : nm_spec Q :=
  mkSpec nm_parameters ar (Some load) (Some pv)
    (Some [1; 1; 0; 1; 1]) (Some [3 # 10; 2 # 10; 3 # 10; 5 # 10; 3 # 10]) (Some [1 # 10; 1 # 10; 2 # 10; 1 # 10; 1 # 10])
    (Some [1 # 2; 1 # 2; 1 # 4; 1 # 2; 1 # 2])
    (empties ["load"; "pv_consummed"; "pv_curtailed"; "pv"; "battery_charge"; "battery_discharge"; "grid_import";
              "grid_export"; "genset"])
    (nm_status0 ar) (empties (production_columns ar)) (empties (cost_columns ar)) (empties ["co2"]).
Definition full_arch : arch := mkArch true true true true.
Definition island_arch : arch := mkArch true true true false.
Definition nm_load : list Q := [10; 20; 30; 40; 50].
Definition nm_pv : list Q := [5; 50; 0; 10; 20].

Lemma wired_parameters ar : has_battery ar = true ->
  forall k, In k (parameter_names ar) -> exists x, dget k nm_parameters = Some x.
Proof.
  intros HB k I. unfold parameter_names in I. rewrite HB in I.
  destruct (has_grid ar), (has_genset ar); simpl in I; intuition (subst; eexists; reflexivity).
Qed.
Lemma example_wired ar load pv : has_battery ar = true -> wired (nm_example ar load pv).
Proof.
  intros HB. constructor; cbn [nm_example sp_parameters sp_arch sp_generation sp_cost sp_df_co2 sp_status sp_actions].
  - apply wired_parameters. exact HB.
  - unfold columns, empties. rewrite map_map. simpl. rewrite map_id. apply Permutation_refl.
  - unfold columns, empties. rewrite map_map. simpl. rewrite map_id. apply Permutation_refl.
  - apply Permutation_refl.
  - unfold columns, nm_status0, status_columns. rewrite HB. destruct (has_grid ar); apply Permutation_refl.
  - unfold nm_status0. destruct (has_grid ar); repeat (constructor; [eexists; reflexivity|]); constructor.
  - unfold empties. apply Forall_forall. intros kl I. apply in_map_iff in I. destruct I as (k & <- & _). reflexivity.
  - unfold empties. apply Forall_forall. intros kl I. apply in_map_iff in I. destruct I as (k & <- & _). reflexivity.
  - unfold empties. apply Forall_forall. intros kl I. apply in_map_iff in I. destruct I as (k & <- & _). reflexivity.
  - unfold empties. apply Forall_forall. intros kl I. apply in_map_iff in I. destruct I as (k & <- & _). reflexivity.
  - intros _. exists (1 # 2). reflexivity.
Qed.

Definition nm_get (r : res (nonmod Q)) : nonmod Q :=
  match r with
  | Ok g => g
  | Err _ => mkNonmod [] full_arch [] [] [] [] [] [] (mkNow 0 0 0 0 0 0) (mkNext CNone CNone CNone CNone CNone CNone)
               (mkBview CNone CNone CNone) [] [] [] [] [] [] 0 0 0 false 0 0 false All All
  end.
Definition full_grid : nonmod Q := nm_get (new_nonmodular (nm_example full_arch nm_load nm_pv) 2).
Definition island : nonmod Q := nm_get (new_nonmodular (nm_example island_arch nm_load nm_pv) 2).
Lemma full_new : new_nonmodular (nm_example full_arch nm_load nm_pv) 2 = Ok full_grid.
Proof. vm_compute. reflexivity. Qed.
Lemma island_new : new_nonmodular (nm_example island_arch nm_load nm_pv) 2 = Ok island.
Proof. vm_compute. reflexivity. Qed.

Definition some_control : dict Q :=
  [("battery_charge", 0); ("battery_discharge", 4); ("grid_import", 0); ("grid_export", 0); ("genset", 0); ("pv_consummed", 5)].
Definition returns {A} (r : nonmod Q * res A) : bool := match snd r with Ok _ => true | Err _ => false end.
(** Values of a column *)
Definition column (r : record Q) (k : string) : list (cell Q) := match dget k r with Some l => l | None => [] end.

Lemma returns_ok {A} (m : M (nonmod Q) A) g : returns (m g) = true -> exists g' v, m g = (g', Ok v).
Proof. unfold returns. destruct (m g) as [g' [v|e]]; simpl; [eauto|discriminate]. Qed.

(** ** C56: the energy balance *)

Theorem C56_balance control (g : nonmod Q) g' v : nm_run control g = (g', Ok v) ->
  exists o, produced g g' o
    /\ (supply o == demand (now_load (nm_now g)) o
        \/ (Qabs (supply o - demand (now_load (nm_now g)) o) < 1 # 1000
            /\ oc_pv o == now_pv (nm_now g) /\ oc_loss o == 0 /\ oc_over o == 0))
    /\ 0 <= oc_loss o /\ 0 <= oc_over o
    /\ (oc_loss o == 0 \/ oc_over o == 0 /\ oc_pv o == now_pv (nm_now g))
    /\ (0 <= now_pv (nm_now g) ->
        oc_pv o + oc_curtailed o == now_pv (nm_now g) /\ 0 <= oc_pv o /\ 0 <= oc_curtailed o
        /\ (oc_over o == 0 \/ oc_pv o == 0)).
Proof. exact (run_balance control g g' v). Qed.
Print Assumptions C56_balance.
Example C56_example : exists g' v, nm_run some_control full_grid = (g', Ok v)
  /\ column (nm_production g') "pv_consummed" = [CNum 5] /\ column (nm_production g') "loss_load" = [CNum 1].
Proof.
  destruct (nm_run some_control full_grid) as [g' [v|e]] eqn:E; [|vm_compute in E; discriminate E].
  exists g', v. split; [reflexivity|].
  assert (X : g' = fst (nm_run some_control full_grid)) by (rewrite E; reflexivity). rewrite X.
  split; vm_compute; reflexivity.
Qed.

(** The balance is not always exact: a gap below 1/1000 is not recorded as lost load. *)
Theorem C56_exact_refuted : ~ (forall control (g : nonmod Q) g' v o, nm_run control g = (g', Ok v) -> produced g g' o ->
  supply o == demand (now_load (nm_now g)) o).
Proof.
  intros H.
  pose (c := dset "battery_discharge" (4 + (1999 # 2000)) some_control).
  destruct (nm_run c full_grid) as [g' [v|e]] eqn:E; [|vm_compute in E; discriminate E].
  destruct (C56_balance c full_grid g' v E) as (o & P & _). specialize (H c full_grid g' v o E P).
  assert (X : g' = fst (nm_run c full_grid)) by (rewrite E; reflexivity). clear E. subst g'.
  destruct o as [a b c1 d e f h i j]. unfold produced in P. cbn [oc_charge oc_discharge oc_import oc_export oc_genset oc_pv oc_loss oc_curtailed oc_over] in P.
  destruct P as ((P1 & P2) & (P3 & P4) & P5 & P6 & P7 & P8 & P9).
  unfold gained in *.
  destruct P1 as (l1 & A1 & B1), P2 as (l2 & A2 & B2), P3 as (l3 & A3 & B3), P4 as (l4 & A4 & B4),
    P5 as (l5 & A5 & B5), P6 as (l6 & A6 & B6), P7 as (l7 & A7 & B7), P8 as (l8 & A8 & B8), P9 as (l9 & A9 & B9).
  vm_compute in A1, A2, A3, A4, A5, A6, A7, A8, A9.
  injection A1 as <-; injection A2 as <-; injection A3 as <-; injection A4 as <-; injection A5 as <-; injection A6 as <-;
  injection A7 as <-; injection A8 as <-; injection A9 as <-.
  vm_compute in B1, B2, B3, B4, B5, B6, B7, B8, B9.
  injection B1 as B1; injection B2 as B2; injection B3 as B3; injection B4 as B4; injection B5 as B5; injection B6 as B6;
  injection B7 as B7; injection B8 as B8; injection B9 as B9.
  subst. vm_compute in H. discriminate H.
Qed.
Print Assumptions C56_exact_refuted.

(** ** C57: limits *)

Theorem C57_limits control (g : nonmod Q) g' v : nm_run control g = (g', Ok v) ->
  exists o, produced g g' o /\ follows g control o.
Proof. exact (run_follows control g g' v). Qed.
Print Assumptions C57_limits.
(** Asked for too much of everything *)
Example C57_example : exists g' v,
  nm_run [("battery_charge", 200); ("battery_discharge", -(3)); ("grid_import", 100); ("grid_export", 0); ("genset", 50)] full_grid = (g', Ok v)
  /\ column (nm_production g') "battery_charge" = [CNum 25] /\ column (nm_production g') "battery_discharge" = [CNum 0]
  /\ column (nm_production g') "grid_import" = [CNum 60] /\ column (nm_production g') "genset" = [CNum (40 * (9 # 10))].
Proof.
  set (c := [("battery_charge", 200); ("battery_discharge", -(3)); ("grid_import", 100); ("grid_export", 0); ("genset", 50)]).
  destruct (nm_run c full_grid) as [g' [v|e]] eqn:E; [|vm_compute in E; discriminate E].
  exists g', v. split; [reflexivity|].
  assert (X : g' = fst (nm_run c full_grid)) by (rewrite E; reflexivity). rewrite X.
  repeat apply conj; vm_compute; reflexivity.
Qed.
(** A grid that is down is used all the same. *)
Theorem C57_outage_refuted : ~ (forall control (g : nonmod Q) g' v o, nm_run control g = (g', Ok v) -> produced g g' o ->
  has_grid (nm_arch g) = true -> now_status (nm_now g) == 0 -> oc_import o == 0).
Proof.
  intros H. pose (g0 := nm_after [HRun some_control; HRun some_control] full_grid).
  pose (c := dset "grid_import" 7 some_control).
  destruct (nm_run c g0) as [g' [v|e]] eqn:E; [|vm_compute in E; discriminate E].
  destruct (run_follows c g0 g' v E) as (o & P & F).
  assert (Z : oc_import o == 0).
  { apply (H c g0 g' v o E P); vm_compute; reflexivity. }
  destruct F as (_ & F & _). change (has_grid (nm_arch g0)) with true in F. cbv beta iota in F.
  destruct F as (x & y & mi & me & X & Y & M & _ & I & _). vm_compute in X. injection X as <-. vm_compute in M. injection M as <-.
  rewrite I in Z. vm_compute in Z. discriminate Z.
Qed.
Print Assumptions C57_outage_refuted.

(** ** C58: the battery *)

(** The new state of charge: from what was produced with a grid, from what was asked
    without one. *)
Theorem C58_charge_update control (g : nonmod Q) g' v : nm_run control g = (g', Ok v) -> has_battery (nm_arch g) = true ->
  exists o soc c d soc', produced g g' o /\ latest (nm_state g) "battery_soc" (CNum soc)
    /\ (if has_grid (nm_arch g) then c = oc_charge o /\ d = oc_discharge o
        else dget "battery_charge" control = Some c /\ dget "battery_discharge" control = Some d)
    /\ (exists eff cap, parameter g "battery_efficiency" eff /\ parameter g "battery_capacity" cap
        /\ soc' = soc + (c * eff - d / eff) / cap)
    /\ gained (nm_state g) (nm_state g') "battery_soc" (CNum soc').
Proof. exact (run_soc control g g' v). Qed.
Print Assumptions C58_charge_update.

Theorem C58_charge_within cs (g0 : nonmod Q) smin smax cap eff pc pd :
  parameter g0 "battery_soc_min" smin -> parameter g0 "battery_soc_max" smax ->
  parameter g0 "battery_capacity" cap -> parameter g0 "battery_efficiency" eff ->
  parameter g0 "battery_power_charge" pc -> parameter g0 "battery_power_discharge" pd ->
  0 < eff <= 1 -> 0 < cap -> 0 <= pc -> 0 <= pd ->
  has_battery (nm_arch g0) = true -> has_grid (nm_arch g0) = true ->
  (forall l, dget "battery_soc" (nm_state g0) = Some l -> Forall (fun c => exists s, c = CNum s /\ smin <= s /\ s <= smax) l) ->
  forall l, dget "battery_soc" (nm_state (nm_after cs g0)) = Some l ->
    Forall (fun c => exists s, c = CNum s /\ smin <= s /\ s <= smax) l.
Proof. exact (soc_within_after cs g0 smin smax cap eff pc pd). Qed.
Print Assumptions C58_charge_within.
Example C58_example : exists l, dget "battery_soc" (nm_state full_grid) = Some l
  /\ Forall (fun c => exists s, c = CNum s /\ 1 # 5 <= s /\ s <= 1) l /\ parameter full_grid "battery_capacity" 100
  /\ length (column (nm_state (nm_after [HRun some_control; HReset false; HRun some_control; HRun some_control] full_grid)) "battery_soc") = 3%nat.
Proof.
  eexists. split; [vm_compute; reflexivity|]. split.
  - repeat constructor. exists (1 # 2). split; [reflexivity|]. split; vm_compute; discriminate.
  - split; vm_compute; reflexivity.
Qed.

(** What the battery can take and give is recorded for the new state of charge. *)
Theorem C58_room control (g : nonmod Q) g' v l m : nm_run control g = (g', Ok v) -> has_battery (nm_arch g) = true ->
  dget "capa_to_charge" (nm_state g) = Some l -> dget "capa_to_discharge" (nm_state g) = Some m ->
  exists soc' r r', gained (nm_state g) (nm_state g') "battery_soc" (CNum soc')
    /\ gained (nm_state g) (nm_state g') "capa_to_charge" (CNum r) /\ charge_room g soc' r
    /\ gained (nm_state g) (nm_state g') "capa_to_discharge" (CNum r') /\ discharge_room g soc' r'.
Proof. exact (run_room control g g' v l m). Qed.
Print Assumptions C58_room.
Example C58_room_example : returns (nm_run some_control full_grid) = true
  /\ has_battery (nm_arch full_grid) = true
  /\ length (column (nm_state full_grid) "capa_to_charge") = 1%nat
  /\ (exists r, nth_error (column (nm_state (nm_after [HRun some_control] full_grid)) "capa_to_charge") 1 = Some (CNum r) /\ r == 49)
  /\ (exists r, nth_error (column (nm_state (nm_after [HRun some_control] full_grid)) "capa_to_discharge") 1 = Some (CNum r) /\ r == 23).
Proof. repeat split; try (vm_compute; reflexivity); eexists; (split; [vm_compute; reflexivity|vm_compute; reflexivity]). Qed.

(** Without a grid the charge leaves its limits. *)
Theorem C58_island_refuted : ~ (forall cs (g0 : nonmod Q), has_battery (nm_arch g0) = true ->
  parameter g0 "battery_soc_max" 1 -> parameter g0 "battery_efficiency" (9 # 10) -> parameter g0 "battery_capacity" 100 ->
  (forall l, dget "battery_soc" (nm_state g0) = Some l -> Forall (fun c => exists s, c = CNum s /\ s <= 1) l) ->
  forall l, dget "battery_soc" (nm_state (nm_after cs g0)) = Some l -> Forall (fun c => exists s, c = CNum s /\ s <= 1) l).
Proof.
  intros H. pose (c := dset "battery_charge" 200 some_control).
  assert (Y : exists s, dget "battery_soc" (nm_state (nm_after [HRun c] island)) = Some [CNum (1 # 2); CNum s] /\ 1 < s).
  { eexists. split; [vm_compute; reflexivity|]. vm_compute. reflexivity. }
  destruct Y as (s & Y & L).
  assert (Z := H [HRun c] island ltac:(reflexivity) ltac:(reflexivity) ltac:(reflexivity) ltac:(reflexivity)).
  assert (Z' : Forall (fun c => exists s : Q, c = CNum s /\ s <= 1) [CNum (1 # 2); CNum s]).
  { apply Z; [|exact Y]. intros l E. vm_compute in E. injection E as <-. repeat constructor. exists (1 # 2). split; [reflexivity|]. vm_compute. discriminate. }
  inversion Z' as [|? ? _ Z2]; subst. inversion Z2 as [|? ? (s' & E & L') _]; subst. injection E as <-. lra.
Qed.
Print Assumptions C58_island_refuted.

(** ** C59: costs and emissions *)

Theorem C59_bill sp h g0 cs control g' v : wired sp -> new_nonmodular sp h = Ok g0 ->
  nm_run control (nm_after cs g0) = (g', Ok v) ->
  let g := nm_after cs g0 in
  exists o emitted total, produced g g' o /\ gained (nm_co2 g) (nm_co2 g') "co2" (CNum emitted)
    /\ gained (nm_cost g) (nm_cost g') "total_cost" (CNum total) /\ bill g o emitted total.
Proof.
  intros W N. exact (run_bill control _ g' v (eq_cost _ (equipped_after cs _ (equipped_new _ _ _ W N)))).
Qed.
Print Assumptions C59_bill.
Example C59_example : wired (nm_example full_arch nm_load nm_pv)
  /\ let g' := nm_after [HRun some_control; HRun (dset "genset" 12 (dset "grid_import" 30 some_control))] full_grid in
     exists t u, column (nm_cost g') "total_cost" = [CNum t; CNum u] /\ t == 10 + (4 # 50)
       /\ u == (12 * (2 # 5)) + 30 * (2 # 10) + (4 # 50) + 26 + (1 # 10) * (24 + 15).
Proof.
  split; [apply example_wired; reflexivity|]. eexists. eexists. split; [vm_compute; reflexivity|].
  split; vm_compute; reflexivity.
Qed.

(** ** C60: time *)

(** Each run moves one row on, until the last. *)
Theorem C60_run_advances sp h g0 cs control g' v : wired sp -> new_nonmodular sp h = Ok g0 ->
  Forall (proper (all_rows g0)) cs -> nm_run control (nm_after cs g0) = (g', Ok v) ->
  let g := nm_after cs g0 in
  (last_step g -> nm_t g' = nm_t g /\ nm_done g' = true /\ nm_now g' = nm_now g /\ nm_next g' = nm_next g)
  /\ (~ last_step g -> nm_t g' = (nm_t g + 1)%Z /\ nm_done g' = nm_done g
        /\ reads_now g' /\ reads_next g' /\ reads_next_grid g').
Proof.
  intros W N P H. pose proof (new_rows _ _ _ N) as R.
  destruct (run_advances control (nm_after cs g0) g' v
    (clock_after _ _ (equipped_new _ _ _ W N) ltac:(lia) (clock_new _ _ _ N ltac:(lia)) P) H) as (A & B & _).
  split; assumption.
Qed.
Print Assumptions C60_run_advances.

(** The variables are those of the current and the next row. *)
Theorem C60_variables sp h g0 cs g : wired sp -> new_nonmodular sp h = Ok g0 -> nm_quiet g0 cs g ->
  Forall (proper (all_rows g0)) cs ->
  reads_now g /\ reads_next g /\ (Exists rewinds cs \/ (0 < nm_t g)%Z -> reads_next_grid g).
Proof. exact (reads_quiet sp h g0 cs g). Qed.
Print Assumptions C60_variables.

(** Before the first run the next grid values are those of the current row. *)
Theorem C60_first_prices_refuted : ~ (forall sp h (g0 : nonmod Q), wired sp -> new_nonmodular sp h = Ok g0 -> reads_next_grid g0).
Proof.
  intros H. destruct (H _ _ _ (example_wired full_arch nm_load nm_pv eq_refl) full_new eq_refl) as (_ & I & _).
  destruct I as [(x & X & _ & N)|(X & _)]; [|vm_compute in X; discriminate X].
  vm_compute in N. injection N as <-. vm_compute in X. discriminate X.
Qed.
Print Assumptions C60_first_prices_refuted.

(** What a run returns: the next row, but the hour of the current one. *)
Theorem C60_returned sp h g0 cs control g' v : wired sp -> new_nonmodular sp h = Ok g0 ->
  nm_run control (nm_after cs g0) = (g', Ok v) ->
  let g := nm_after cs g0 in
  dget "load" v = Some (nx_load (nm_next g)) /\ dget "pv" v = Some (nx_pv (nm_next g))
  /\ dget "hour" v = Some (CNum (inject_Z (nm_t g mod 24)))
  /\ (has_grid (nm_arch g) = true ->
      dget "grid_status" v = Some (nx_status (nm_next g)) /\ dget "grid_price_import" v = Some (nx_import (nm_next g))
      /\ dget "grid_price_export" v = Some (nx_export (nm_next g)) /\ dget "grid_co2" v = Some (nx_co2 (nm_next g))).
Proof.
  intros W N H g.
  destruct (run_status control g g' v (eq_state _ (equipped_after cs _ (equipped_new _ _ _ W N))) H) as (A & B & C & D & E).
  split; [apply E; exact A|]. split; [apply E; exact B|]. split; [apply E; exact C|].
  intros G. destruct (D G) as (D1 & D2 & D3 & D4). auto 10.
Qed.
Print Assumptions C60_returned.

(** Episodes end after a fixed number of runs. *)
Theorem C60_episode sp h g0 cs testing g1 controls g : wired sp -> new_nonmodular sp h = Ok g0 ->
  Forall (proper (all_rows g0)) cs -> nm_reset testing (nm_after cs g0) = (g1, Ok tt) ->
  nm_quiet g1 (map HRun controls) g ->
  nm_t g1 = 0%Z /\ nm_done g1 = false
  /\ nm_t g = Z.min (Z.of_nat (length controls)) (episode_end g1)
  /\ (nm_done g = true <-> (episode_end g1 < Z.of_nat (length controls))%Z).
Proof.
  intros W N P H Q. pose proof (new_rows _ _ _ N) as R. pose proof (equipped_new _ _ _ W N) as E0.
  pose proof (clock_after cs _ E0 ltac:(lia) (clock_new _ _ _ N ltac:(lia)) P) as C.
  assert (AR : all_rows (nm_after cs g0) = all_rows g0).
  { pose proof (descends_after cs g0) as D. apply all_rows_eq; [apply (ds_load _ _ D)|apply (ds_pv _ _ D)]. }
  destruct (reset_reads testing _ g1 (equipped_after cs _ E0) ) as (C1 & T & D & _).
  - split; [rewrite AR; lia|]. split; [|apply (ck_split _ C)].
    pose proof (ck_default _ C) as X. destruct (nm_default (nm_after cs g0)); [exact I|apply X|exact X].
  - exact H.
  - destruct (episode_steps controls g1 g C1 T D Q) as (A & B & _). auto.
Qed.
Print Assumptions C60_episode.
(** The example in an episode of five rows and horizon 2: done with the fourth run, training on four rows included *)
Example C60_example : Forall (proper (all_rows full_grid)) [HSplit 4 false]
  /\ exists g1, train_test_split 4 false full_grid = (g1, Ok tt) /\ episode_end g1 = 2%Z
  /\ map (fun n => nm_done (nm_after (repeat (HRun some_control) n) g1)) [2; 3; 4]%nat = [false; true; true].
Proof.
  split; [repeat constructor; vm_compute; repeat constructor|].
  destruct (train_test_split 4 false full_grid) as [g1 [[]|e]] eqn:E; [|vm_compute in E; discriminate E].
  exists g1. split; [reflexivity|].
  assert (X : g1 = fst (train_test_split 4 false full_grid)) by (rewrite E; reflexivity). rewrite X.
  split; vm_compute; reflexivity.
Qed.

(** A reset forgets everything but the settings, the epochs and their costs: later
    runs give the same results. *)
Theorem C60_reset_forgets sp h g0 cs cs' testing g g' : wired sp -> new_nonmodular sp h = Ok g0 ->
  same_settings (nm_after cs g0) (nm_after cs' g0) ->
  nm_reset testing (nm_after cs g0) = (g, Ok tt) -> nm_reset testing (nm_after cs' g0) = (g', Ok tt) ->
  same_but_epochs g g'
  /\ forall controls control,
       let x := nm_after (map HRun controls) g in
       let x' := nm_after (map HRun controls) g' in
       same_but_epochs x x' /\ snd (nm_run control x) = snd (nm_run control x').
Proof.
  intros W N S H H'. pose proof (reset_forgets g0 cs cs' testing g g' (equipped_new _ _ _ W N) S H H') as E.
  split; [exact E|]. intros controls control x x'. pose proof (runs_same controls g g' E) as R. split; [exact R|].
  exact (proj1 (comm_same _ _ _ (run_comm control) R)).
Qed.
Print Assumptions C60_reset_forgets.
Example C60_reset_example : same_settings (nm_after [HRun some_control; HRun some_control] full_grid) (nm_after [] full_grid)
  /\ returns (nm_reset false (nm_after [HRun some_control; HRun some_control] full_grid)) = true
  /\ returns (nm_reset false full_grid) = true.
Proof. repeat apply conj; vm_compute; reflexivity. Qed.

(** Every run adds one entry to each column of the record of actions. *)
Theorem C60_actions control (g : nonmod Q) g' v k l : nm_run control g = (g', Ok v) -> dget k (nm_actions g) = Some l ->
  gained (nm_actions g) (nm_actions g') k (asked g control k).
Proof. exact (run_actions control g g' v k l). Qed.
Print Assumptions C60_actions.
Example C60_actions_example : returns (nm_run some_control full_grid) = true
  /\ column (nm_actions (nm_after [HRun some_control; HRun some_control] full_grid)) "battery_discharge" = [CNum 4; CNum 4]
  /\ column (nm_actions (nm_after [HRun some_control; HRun some_control] full_grid)) "load" = [CNum 10; CNum 20].
Proof. vm_compute. repeat split. Qed.

(** ** C61: when calls raise *)

Theorem C61_run sp h g0 cs control : wired sp -> new_nonmodular sp h = Ok g0 -> aligned g0 ->
  Forall (proper (all_rows g0)) cs ->
  let g := nm_after cs g0 in
  (forall k, In k (control_names (nm_arch g)) -> exists x, dget k control = Some x) ->
  (exactly_balanced g control -> raises AssertionError (snd (nm_run control g)))
  /\ (~ exactly_balanced g control ->
      (last_step g \/ nm_use g = All \/ (nm_t g + 2 < nm_len g)%Z -> exists v, snd (nm_run control g) = Ok v)
      /\ (~ last_step g -> nm_use g <> All -> (nm_t g + 2 = nm_len g)%Z -> raises IndexError (snd (nm_run control g)))).
Proof.
  intros W N A P g PC. pose proof (new_rows _ _ _ N) as R.
  exact (run_verdict g control (equipped_after cs _ (equipped_new _ _ _ W N)) (aligned_after cs _ A)
    (clock_after _ _ (equipped_new _ _ _ W N) ltac:(lia) (clock_new _ _ _ N ltac:(lia)) P) PC).
Qed.
Print Assumptions C61_run.
Example C61_example : aligned full_grid /\ (forall k, In k (control_names (nm_arch full_grid)) -> exists x, dget k some_control = Some x).
Proof.
  split.
  - split; [vm_compute; repeat constructor|]. intros _. repeat constructor; vm_compute; repeat constructor.
  - intros k I. vm_compute in I. intuition (subst; eexists; reflexivity).
Qed.
(** A control that balances the load exactly raises. *)
Example C61_balanced_example : exactly_balanced full_grid (dset "grid_import" 6 some_control)
  /\ raises AssertionError (snd (nm_run (dset "grid_import" 6 some_control) full_grid)).
Proof.
  split.
  - exists (mkOutcome 0 4 6 0 0 0 0 0 0). split; [|split; vm_compute; [reflexivity|discriminate]].
    unfold follows. cbn [has_battery has_grid has_genset nm_arch full_grid].
    change (has_battery (nm_arch full_grid)) with true. change (has_grid (nm_arch full_grid)) with true. change (has_genset (nm_arch full_grid)) with true.
    cbv beta iota. split; [|split].
    + exists 0, 4, (1 # 2), 25, 25. split; [reflexivity|]. split; [reflexivity|]. split; [exists []; vm_compute; reflexivity|].
      split; [exists 1, 100, (9 # 10), 25; repeat apply conj; vm_compute; reflexivity|].
      split; [exists (1 # 5), 100, (9 # 10), 25; repeat apply conj; vm_compute; reflexivity|].
      split; vm_compute; reflexivity.
    + exists 6, 0, 60, 60. repeat apply conj; vm_compute; reflexivity.
    + exists 0, 40, (1 # 20), (9 # 10). split; [reflexivity|]. split; [reflexivity|]. split; [reflexivity|]. split; [reflexivity|].
      split; intros L; vm_compute in L; [vm_compute; reflexivity|discriminate L].
  - eexists. split; vm_compute; reflexivity.
Qed.

(** A reset returns unless one row is left to train or to test on. *)
Theorem C61_reset sp h g0 cs testing : wired sp -> new_nonmodular sp h = Ok g0 -> aligned g0 ->
  Forall (proper (all_rows g0)) cs ->
  let g := nm_after cs g0 in
  (nm_default g = All \/ (1 < nm_limit g)%nat /\ (nm_limit g + 1 < all_rows g0)%nat) ->
  exists g', nm_reset testing g = (g', Ok tt).
Proof.
  intros W N A P g L. pose proof (new_rows _ _ _ N) as R. pose proof (equipped_new _ _ _ W N) as E0.
  pose proof (clock_after cs _ E0 ltac:(lia) (clock_new _ _ _ N ltac:(lia)) P) as C. fold g in C.
  assert (AR : all_rows g = all_rows g0).
  { pose proof (descends_after cs g0) as D. apply all_rows_eq; [apply (ds_load _ _ D)|apply (ds_pv _ _ D)]. }
  apply reset_total; [apply equipped_after; exact E0|apply aligned_after; exact A| |].
  - split; [rewrite AR; lia|]. split; [|apply (ck_split _ C)].
    pose proof (ck_default _ C) as X. destruct (nm_default g); [exact I|apply X|exact X].
  - unfold use_after. destruct L as [->|L]; [left; destruct testing; reflexivity|].
    pose proof (ck_default _ C) as X. destruct (nm_default g) eqn:DF; [left; destruct testing; reflexivity| |contradiction X].
    right. destruct testing; rewrite ?data_length_testing, ?data_length_training, AR; lia.
Qed.
Print Assumptions C61_reset.

(** Training runs raise on the way to the last row if the horizon is 1. *)
Theorem C61_training_refuted : ~ (forall sp h (g0 : nonmod Q) cs control, wired sp -> new_nonmodular sp h = Ok g0 -> aligned g0 ->
  Forall (proper (all_rows g0)) cs ->
  let g := nm_after cs g0 in
  (forall k, In k (control_names (nm_arch g)) -> exists x, dget k control = Some x) -> ~ exactly_balanced g control ->
  exists v, snd (nm_run control g) = Ok v).
Proof.
  intros H.
  assert (N : new_nonmodular (nm_example full_arch nm_load nm_pv) 1 = Ok (set_horizon 1 full_grid)) by (vm_compute; reflexivity).
  pose (cs := [HSplit 3 false; HRun some_control]).
  pose (g := nm_after cs (set_horizon 1 full_grid)).
  assert (F : exists e, snd (nm_run some_control g) = Err e /\ ex_class e = IndexError) by (eexists; split; vm_compute; reflexivity).
  destruct (H _ _ _ cs some_control (example_wired full_arch nm_load nm_pv eq_refl) N) as (v & V).
  - split; [vm_compute; repeat constructor|]. intros _. repeat constructor; vm_compute; repeat constructor.
  - repeat constructor; vm_compute; repeat constructor.
  - intros k I. vm_compute in I. intuition (subst; eexists; reflexivity).
  - intros B. fold g in B.
    destruct (C61_run _ _ _ cs some_control (example_wired full_arch nm_load nm_pv eq_refl) N) as (X & _).
    + split; [vm_compute; repeat constructor|]. intros _. repeat constructor; vm_compute; repeat constructor.
    + repeat constructor; vm_compute; repeat constructor.
    + intros k I. vm_compute in I. intuition (subst; eexists; reflexivity).
    + destruct (X B) as (e & E & K). fold g in E. destruct F as (e' & E' & K'). congruence.
  - fold g in V. destruct F as (e' & E' & K'). congruence.
Qed.
Print Assumptions C61_training_refuted.

(** [penalty] never returns. *)
Theorem C61_penalty_never sp h g0 cs coef : wired sp -> new_nonmodular sp h = Ok g0 ->
  In "load" (map fst (sp_actions sp)) -> exists e, nm_penalty coef (nm_after cs g0) = Err e.
Proof.
  intros W N I. pose proof (descends_after cs g0) as D. pose proof (equipped_after cs _ (equipped_new _ _ _ W N)) as E.
  apply penalty_never.
  - rewrite (ds_actions _ _ D). apply new_nonmodular_ok in N. destruct N as (_ & _ & _ & _ & _ & _ & -> & _). exact I.
  - apply Proofs_Num.dget_None. intros X. pose proof (Permutation_in _ (eq_production _ E) X) as Y.
    unfold production_columns in Y. destruct (has_battery _), (has_grid _), (has_genset _); simpl in Y; intuition discriminate.
Qed.
Print Assumptions C61_penalty_never.
