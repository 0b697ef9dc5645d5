(** * Vocabulary for the properties of the non-modular microgrid *)

From Coq Require Import ZArith QArith Qminmax Bool String List Permutation.
From Verif Require Import Num Py NonModular.
Import ListNotations.
Local Open Scope string_scope.
Local Open Scope list_scope.
Local Open Scope Q_scope.

(** ** Histories *)

(** What a user can call; [HSplit n c] is [train_test_split] with the split at row
    [n] and [cancel = c]. *)
Inductive nm_call :=
| HRun (control : dict Q) | HReset (testing : bool) | HSplit (limit : nat) (cancel : bool)
| HHorizon (h : Z) | HCostCo2 (x : Q).

(** The state after a call, whether it returned or raised. *)
Definition nm_do (c : nm_call) (g : nonmod Q) : nonmod Q :=
  match c with
  | HRun control => fst (nm_run control g)
  | HReset testing => fst (nm_reset testing g)
  | HSplit limit cancel => fst (train_test_split limit cancel g)
  | HHorizon h => set_horizon h g
  | HCostCo2 x => set_cost_co2 x g
  end.
Definition nm_after (cs : list nm_call) (g : nonmod Q) : nonmod Q := fold_left (fun g c => nm_do c g) cs g.

(** ** Records and parameters *)

Definition parameter (g : nonmod Q) (key : string) (x : Q) : Prop := dget key (nm_par g) = Some x.
(** [column key] of a record gained exactly [x]. *)
Definition gained (r r' : record Q) (key : string) (x : cell Q) : Prop :=
  exists l, dget key r = Some l /\ dget key r' = Some (l ++ [x]).
(** The latest value of a column *)
Definition latest (r : record Q) (key : string) (x : cell Q) : Prop :=
  exists l, dget key r = Some (l ++ [x]).

(** The production recorded by one run. *)
Record outcome := mkOutcome {
  oc_charge : Q; oc_discharge : Q; oc_import : Q; oc_export : Q; oc_genset : Q;
  oc_pv : Q; oc_loss : Q; oc_curtailed : Q; oc_over : Q
}.
Definition produced (g g' : nonmod Q) (o : outcome) : Prop :=
  let p := nm_production g in
  let p' := nm_production g' in
  (if has_battery (nm_arch g)
   then gained p p' "battery_charge" (CNum (oc_charge o))
        /\ gained p p' "battery_discharge" (CNum (oc_discharge o))
   else oc_charge o = 0 /\ oc_discharge o = 0)
  /\ (if has_grid (nm_arch g)
      then gained p p' "grid_import" (CNum (oc_import o)) /\ gained p p' "grid_export" (CNum (oc_export o))
      else oc_import o = 0 /\ oc_export o = 0)
  /\ (if has_genset (nm_arch g) then gained p p' "genset" (CNum (oc_genset o)) else oc_genset o = 0)
  /\ gained p p' "pv_consummed" (CNum (oc_pv o)) /\ gained p p' "loss_load" (CNum (oc_loss o))
  /\ gained p p' "pv_curtailed" (CNum (oc_curtailed o)) /\ gained p p' "overgeneration" (CNum (oc_over o)).

(** ** Limits *)

(** What the battery can take and give, at the microgrid's side, with the state of
    charge [soc]. *)
Definition charge_limit (g : nonmod Q) (soc x : Q) : Prop :=
  exists smax cap eff power,
    parameter g "battery_soc_max" smax /\ parameter g "battery_capacity" cap
    /\ parameter g "battery_efficiency" eff /\ parameter g "battery_power_charge" power
    /\ x == Qmin (Qmax 0 ((smax - soc) * cap * eff)) power.
Definition discharge_limit (g : nonmod Q) (soc x : Q) : Prop :=
  exists smin cap eff power,
    parameter g "battery_soc_min" smin /\ parameter g "battery_capacity" cap
    /\ parameter g "battery_efficiency" eff /\ parameter g "battery_power_discharge" power
    /\ x == Qmin (Qmax 0 ((soc - smin) * cap * eff)) power.
(** The same without the limits on power: what the state of charge leaves. *)
Definition charge_room (g : nonmod Q) (soc x : Q) : Prop :=
  exists smax cap eff,
    parameter g "battery_soc_max" smax /\ parameter g "battery_capacity" cap
    /\ parameter g "battery_efficiency" eff /\ x == Qmax 0 ((smax - soc) * cap * eff).
Definition discharge_room (g : nonmod Q) (soc x : Q) : Prop :=
  exists smin cap eff,
    parameter g "battery_soc_min" smin /\ parameter g "battery_capacity" cap
    /\ parameter g "battery_efficiency" eff /\ x == Qmax 0 ((soc - smin) * cap * eff).
(** What the record of actions shows under [k] for a run with [control]: the load and PV of
    the step, the entries of the control, and a mark where the control has none. *)
Definition asked (g : nonmod Q) (control : dict Q) (k : string) : cell Q :=
  if String.eqb k "pv" then CNum (now_pv (nm_now g))
  else if String.eqb k "load" then CNum (now_load (nm_now g))
  else match dget k control with Some x => CNum x | None => CMissing k end.
(** As much of [x] as is not negative and not above [limit] *)
Definition limited (x limit : Q) : Q := Qmin (Qmax 0 x) limit.

(** The production follows the control within the limits. *)
Definition follows (g : nonmod Q) (control : dict Q) (o : outcome) : Prop :=
  (if has_battery (nm_arch g) then
     exists x y soc cc cd,
       dget "battery_charge" control = Some x /\ dget "battery_discharge" control = Some y
       /\ latest (nm_state g) "battery_soc" (CNum soc) /\ charge_limit g soc cc /\ discharge_limit g soc cd
       /\ oc_charge o == limited x cc /\ oc_discharge o == limited y cd
   else oc_charge o = 0 /\ oc_discharge o = 0)
  /\ (if has_grid (nm_arch g) then
        exists x y mi me,
          dget "grid_import" control = Some x /\ dget "grid_export" control = Some y
          /\ parameter g "grid_power_import" mi /\ parameter g "grid_power_export" me
          /\ oc_import o == limited x mi /\ oc_export o == limited y me
      else oc_import o = 0 /\ oc_export o = 0)
  /\ (if has_genset (nm_arch g) then
        exists x rated pmin pmax,
          dget "genset" control = Some x /\ parameter g "genset_rated_power" rated
          /\ parameter g "genset_pmin" pmin /\ parameter g "genset_pmax" pmax
          /\ (x <= 1 -> oc_genset o == limited x (rated * pmax))
          /\ (1 < x -> oc_genset o == Qmin (Qmax x (rated * pmin)) (rated * pmax))
      else oc_genset o = 0).

(** Supply and demand *)
Definition supply (o : outcome) : Q := oc_discharge o + oc_import o + oc_genset o + oc_pv o + oc_loss o.
Definition demand (load : Q) (o : outcome) : Q := load + oc_charge o + oc_export o + oc_over o.

(** Without PV the sources equal the sinks, though there is PV. *)
Definition exactly_balanced (g : nonmod Q) (control : dict Q) : Prop :=
  exists o, follows g control o
    /\ now_load (nm_now g) + oc_charge o + oc_export o == oc_discharge o + oc_import o + oc_genset o
    /\ 1 # 1000 <= now_pv (nm_now g).

(** ** Costs *)

(** What one step emits and costs. *)
Definition bill (g : nonmod Q) (o : outcome) (emitted total : Q) : Prop :=
  exists loss over co2 fuel dirt cycle,
    parameter g "cost_loss_load" loss /\ parameter g "cost_overgeneration" over
    /\ parameter g "cost_co2" co2
    /\ (if has_genset (nm_arch g) then parameter g "fuel_cost" fuel /\ parameter g "genset_co2" dirt
        else fuel = 0 /\ dirt = 0)
    /\ (if has_battery (nm_arch g) then parameter g "battery_cost_cycle" cycle else cycle = 0)
    /\ emitted == dirt * oc_genset o + now_co2 (nm_now g) * oc_import o
    /\ total == loss * oc_loss o + over * oc_over o + fuel * oc_genset o
                + now_import (nm_now g) * oc_import o - now_export (nm_now g) * oc_export o
                + cycle * (oc_charge o + oc_discharge o) + co2 * emitted.

(** ** Well-formed data *)

(** The columns that the generator and the converter provide. *)
Definition production_columns (ar : arch) : list string :=
  ["loss_load"; "overgeneration"; "pv_consummed"; "pv_curtailed"]
  ++ (if has_battery ar then ["battery_charge"; "battery_discharge"] else [])
  ++ (if has_grid ar then ["grid_import"; "grid_export"] else [])
  ++ (if has_genset ar then ["genset"] else []).
Definition cost_columns (ar : arch) : list string :=
  ["loss_load"; "overgeneration"; "co2"; "total_cost"]
  ++ (if has_battery ar then ["battery"] else [])
  ++ (if has_grid ar then ["grid_import"; "grid_export"] else [])
  ++ (if has_genset ar then ["genset"] else []).
Definition status_columns (ar : arch) : list string :=
  ["load"; "hour"; "pv"]
  ++ (if has_battery ar then ["battery_soc"; "capa_to_charge"; "capa_to_discharge"] else [])
  ++ (if has_grid ar then ["grid_status"; "grid_co2"; "grid_price_import"; "grid_price_export"] else []).
Definition parameter_names (ar : arch) : list string :=
  ["cost_loss_load"; "cost_overgeneration"; "cost_co2"]
  ++ (if has_battery ar
      then ["battery_soc_0"; "battery_power_charge"; "battery_power_discharge"; "battery_capacity";
            "battery_efficiency"; "battery_soc_min"; "battery_soc_max"; "battery_cost_cycle"] else [])
  ++ (if has_grid ar then ["grid_power_import"; "grid_power_export"] else [])
  ++ (if has_genset ar
      then ["genset_rated_power"; "genset_pmin"; "genset_pmax"; "fuel_cost"; "genset_co2"] else []).
(** What a control has to name *)
Definition control_names (ar : arch) : list string :=
  (if has_battery ar then ["battery_charge"; "battery_discharge"] else [])
  ++ (if has_grid ar then ["grid_import"; "grid_export"] else [])
  ++ (if has_genset ar then ["genset"] else []).

Definition columns (r : record Q) (keys : list string) : Prop := Permutation (map fst r) keys.

Record wired (sp : nm_spec Q) : Prop := mkWired {
  wi_par : forall k, In k (parameter_names (sp_arch sp)) -> exists x, dget k (sp_parameters sp) = Some x;
  wi_gen : columns (sp_generation sp) (production_columns (sp_arch sp));
  wi_cost : columns (sp_cost sp) (cost_columns (sp_arch sp));
  wi_co2 : columns (sp_df_co2 sp) ["co2"];
  wi_status : columns (sp_status sp) (status_columns (sp_arch sp));
  wi_first : Forall (fun kl => exists x : cell Q, snd kl = [x]) (sp_status sp);
  wi_gen0 : Forall (fun kl => snd kl = []) (sp_generation sp);
  wi_cost0 : Forall (fun kl => snd kl = []) (sp_cost sp);
  wi_co20 : Forall (fun kl => snd kl = []) (sp_df_co2 sp);
  wi_act0 : Forall (fun kl => snd kl = []) (sp_actions sp);
  wi_soc : has_battery (sp_arch sp) = true -> exists x, dget "battery_soc" (sp_status sp) = Some [CNum x]
}.

(** ** Time *)

(** The number of rows of all data, and the grid data reaching as far *)
Definition all_rows (g : nonmod Q) : nat := Nat.min (length (nm_load_ts g)) (length (nm_pv_ts g)).
Definition aligned (g : nonmod Q) : Prop :=
  (0 < all_rows g)%nat
  /\ (has_grid (nm_arch g) = true ->
      Forall (fun l => (all_rows g <= length l)%nat) [nm_status_ts g; nm_import_ts g; nm_export_ts g; nm_co2_ts g]).
(** A split leaves rows on both sides. *)
Definition proper (n : nat) (c : nm_call) : Prop :=
  match c with HSplit limit _ => (0 < limit < n)%nat | _ => True end.

(** The part of a series in use *)
Definition data (g : nonmod Q) (l : list Q) : list Q :=
  match nm_use g with All => l | Training => firstn (nm_limit g) l | Testing => skipn (nm_limit g) l end.
(** Its value at the current step, [k] steps later *)
Definition at_step (g : nonmod Q) (k : Z) (l : list Q) (x : Q) : Prop :=
  (0 <= nm_t g + k)%Z /\ nth_error (data g l) (Z.to_nat (nm_t g + k)) = Some x.
(** What is shown for the next step: a value, or nothing after the end *)
Definition upcoming (g : nonmod Q) (l : list Q) (c : cell Q) : Prop :=
  (exists x, c = CNum x /\ at_step g 1 l x) \/ c = CNone /\ nm_use g = All /\ (nm_t g = nm_len g - 1)%Z.
Definition reads_now (g : nonmod Q) : Prop :=
  at_step g 0 (nm_load_ts g) (now_load (nm_now g)) /\ at_step g 0 (nm_pv_ts g) (now_pv (nm_now g))
  /\ (has_grid (nm_arch g) = true ->
      at_step g 0 (nm_status_ts g) (now_status (nm_now g)) /\ at_step g 0 (nm_import_ts g) (now_import (nm_now g))
      /\ at_step g 0 (nm_export_ts g) (now_export (nm_now g)) /\ at_step g 0 (nm_co2_ts g) (now_co2 (nm_now g))).
Definition reads_next (g : nonmod Q) : Prop :=
  upcoming g (nm_load_ts g) (nx_load (nm_next g)) /\ upcoming g (nm_pv_ts g) (nx_pv (nm_next g)).
Definition reads_next_grid (g : nonmod Q) : Prop :=
  has_grid (nm_arch g) = true ->
  upcoming g (nm_status_ts g) (nx_status (nm_next g)) /\ upcoming g (nm_import_ts g) (nx_import (nm_next g))
  /\ upcoming g (nm_export_ts g) (nx_export (nm_next g)) /\ upcoming g (nm_co2_ts g) (nx_co2 (nm_next g)).

(** The last step of an episode *)
Definition last_step (g : nonmod Q) : Prop := nm_t g = (nm_len g - nm_horizon g)%Z \/ nm_t g = (nm_len g - 1)%Z.

(** Histories in which no call raised *)
Definition nm_fine (c : nm_call) (g g' : nonmod Q) : Prop :=
  match c with
  | HRun control => exists v, nm_run control g = (g', Ok v)
  | HReset testing => nm_reset testing g = (g', Ok tt)
  | HSplit limit cancel => train_test_split limit cancel g = (g', Ok tt)
  | HHorizon h => g' = set_horizon h g
  | HCostCo2 x => g' = set_cost_co2 x g
  end.
Inductive nm_quiet (g0 : nonmod Q) : list nm_call -> nonmod Q -> Prop :=
| NQ0 : nm_quiet g0 [] g0
| NQS cs g c g' : nm_quiet g0 cs g -> nm_fine c g g' -> nm_quiet g0 (cs ++ [c]) g'.

(** Calls that start again *)
Definition rewinds (c : nm_call) : Prop := match c with HReset _ | HSplit _ _ => True | _ => False end.

(** The step at which an episode ends *)
Definition episode_end (g : nonmod Q) : Z :=
  if ((1 <=? nm_horizon g) && (nm_horizon g <=? nm_len g))%Z then (nm_len g - nm_horizon g)%Z else (nm_len g - 1)%Z.

(** Everything that a user can still have changed after a reset *)
Definition same_settings (g g' : nonmod Q) : Prop :=
  nm_par g = nm_par g' /\ nm_horizon g = nm_horizon g' /\ nm_limit g = nm_limit g' /\ nm_split g = nm_split g'
  /\ nm_default g = nm_default g'.
(** Equal but for the count of epochs and their costs *)
Definition same_but_epochs (g g' : nonmod Q) : Prop := set_epochs [] 0 g = set_epochs [] 0 g'.
