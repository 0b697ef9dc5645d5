(** * What the predictive control of non-modular microgrids is expected to do

    Plans ([planned], [good_plan], [cheapest]) are those of Spec_MPC.v, records and
    decisions that are carried out ([carried]) those of Spec_NmRbcRun.v. *)

From Coq Require Import ZArith QArith Qabs Qminmax Bool String List.
From Verif Require Import Num Py NonModular Spec_NonModular NmRbc Spec_NmRbcRun MPC NmMpc Spec_MPC.
Import ListNotations.
Local Open Scope string_scope.
Local Open Scope list_scope.
Local Open Scope Q_scope.

(** A controller made for the microgrid, perhaps in another state, with the same
    parameters and the same horizon *)
Definition made_for (c : mpc Q) (g : nonmod Q) : Prop :=
  exists g', nm_new_mpc g' = Ok c /\ nm_par g' = nm_par g /\ nm_arch g' = nm_arch g /\ nm_horizon g' = nm_horizon g.

(** The equipment is that of the parameters, and what is expected are the data of the rows
    [i], [i + 1], ... *)
Record posed_at (g : nonmod Q) (i : nat) (e : equipment) (xs : list expected) : Prop := mkPosedAt {
  pa_battery : parameter g "battery_efficiency" (eq_eta e) /\ parameter g "battery_capacity" (eq_capacity e)
    /\ parameter g "battery_soc_min" (eq_soc_min e) /\ parameter g "battery_soc_max" (eq_soc_max e)
    /\ parameter g "battery_power_charge" (eq_charge e) /\ parameter g "battery_power_discharge" (eq_discharge e)
    /\ parameter g "battery_cost_cycle" (eq_cycle_cost e);
  pa_loss_cost : parameter g "cost_loss_load" (eq_loss_cost e);
  pa_genset : eq_gen e = has_genset (nm_arch g) /\ (has_genset (nm_arch g) = true ->
    exists rated pmin pmax fuel dirt co2, parameter g "genset_rated_power" rated /\ parameter g "genset_pmin" pmin
      /\ parameter g "genset_pmax" pmax /\ parameter g "fuel_cost" fuel /\ parameter g "genset_co2" dirt /\ parameter g "cost_co2" co2
      /\ eq_gen_min e == pmin * rated /\ eq_gen_max e == pmax * rated /\ eq_gen_cost e == fuel + co2 * dirt);
  pa_grid : if has_grid (nm_arch g)
    then parameter g "grid_power_import" (eq_import e) /\ parameter g "grid_power_export" (eq_export e)
    else eq_import e = 0 /\ eq_export e = 0;
  pa_steps : Z.of_nat (length xs) = nm_horizon g;
  pa_rows : forall k x, nth_error xs k = Some x ->
    nth_error (nm_load_ts g) (i + k) = Some (ex_load x) /\ nth_error (nm_pv_ts g) (i + k) = Some (ex_pv x)
    /\ if has_grid (nm_arch g)
       then nth_error (nm_status_ts g) (i + k) = Some (ex_grid x) /\ nth_error (nm_export_ts g) (i + k) = Some (ex_export x)
         /\ exists im dirt co2, nth_error (nm_import_ts g) (i + k) = Some im /\ nth_error (nm_co2_ts g) (i + k) = Some dirt
            /\ parameter g "cost_co2" co2 /\ ex_import x == im + dirt * co2
       else ex_grid x = 0 /\ ex_import x == 0 /\ ex_export x = 0
}.

(** The solutions of a program are the plans, and it minimizes their cost. *)
Definition program_of (pr : problem Q) (e : equipment) (soc : Q) (xs : list expected) : Prop :=
  (forall p u, satisfies pr p u = true <-> exists plan, is_plan (eq_gen e) p u plan /\ good_plan e soc xs plan)
  /\ forall p u plan, is_plan (eq_gen e) p u plan -> good_plan e soc xs plan -> objective pr p == plan_cost e xs plan.

(** What is decided in a step, according to a plan: the first step of the plan *)
Definition decided_by (gen : bool) (n : now Q) (s : planned) : dict Q :=
  [("battery_charge", pl_charge s); ("battery_discharge", pl_discharge s)]
  ++ (if gen then [("genset", pl_genset s)] else [])
  ++ [("grid_import", pl_import s); ("grid_export", pl_export s); ("loss_load", pl_loss s);
      ("pv_consummed", now_pv n - pl_curtail s); ("pv_curtailed", pl_curtail s); ("load", now_load n); ("pv", now_pv n)].

(** The solver gives every variable a value. *)
Definition assigns_all (solve : solver Q) : Prop :=
  forall k pr p u, solve k pr = Ok (Some (p, u)) -> length p = length (pr_costs pr).

(** A step of the run: at row [k], with the last recorded state of charge, a program is
    posed, the solver's answer is cut into steps, and the first of them is decided. *)
Definition decides (solve : solver Q) (g : nonmod Q) (k : nat) (r : copies Q)
    (e : equipment) (xs : list expected) (soc : Q) (pr : problem Q) (u : list Q) (s : planned) (rest : list planned) : Prop :=
  posed_at g k e xs /\ latest (cp_state r) "battery_soc" (CNum soc) /\ program_of pr e soc xs
  /\ solve k pr = Ok (Some (concat (map (variables (eq_gen e)) (s :: rest)), u)).

(** The number of steps of a run: those asked for, or all rows less the horizon *)
Definition mpc_count (g : nonmod Q) (steps : option Z) : nat :=
  Z.to_nat (match steps with Some n => n | None => nm_len g - nm_horizon g end).

(** The battery is not charged and discharged in the same step. *)
Definition one_way (s : planned) : Prop := pl_charge s == 0 \/ pl_discharge s == 0.
(** What the battery is charged with, of what is planned *)
Definition charged (e : equipment) (soc : Q) (s : planned) : Q :=
  Qmin (pl_charge s) ((eq_soc_max e - soc) * eq_capacity e * eq_eta e).
(** There is room for all of it. *)
Definition charge_fits (e : equipment) (soc : Q) (s : planned) : Prop :=
  pl_charge s <= (eq_soc_max e - soc) * eq_capacity e * eq_eta e.

(** The outcome [o] of a step of which [s] was planned: only the charge can be less. *)
Record kept_to (e : equipment) (soc : Q) (s : planned) (o : outcome) : Prop := mkKeptTo {
  kt_charge : oc_charge o == charged e soc s;
  kt_discharge : oc_discharge o == pl_discharge s;
  kt_import : oc_import o == pl_import s;
  kt_export : oc_export o == pl_export s;
  kt_genset : oc_genset o == pl_genset s
}.
(** Loss that the plan has beside curtailed energy is made up for with that energy; a
    difference below 0.001 is dropped. *)
Definition evened_out (s : planned) (o : outcome) : Prop :=
  oc_loss o == Qmax 0 (pl_loss s - pl_curtail s) /\ oc_curtailed o == Qmax 0 (pl_curtail s - pl_loss s)
  \/ oc_loss o == 0 /\ oc_curtailed o == 0 /\ Qabs (pl_loss s - pl_curtail s) < 1 # 1000.
(** What the outcome costs; exported energy is an income, unlike in the program. *)
Definition outcome_cost (e : equipment) (over_cost : Q) (x : expected) (o : outcome) : Q :=
  eq_gen_cost e * oc_genset o + ex_import x * oc_import o - ex_export x * oc_export o
  + eq_cycle_cost e * (oc_charge o + oc_discharge o) + eq_loss_cost e * oc_loss o + over_cost * oc_over o.

(** Parameters and data that make sense to the controller *)
Record sensible_for_mpc (g : nonmod Q) : Prop := mkSensibleForMpc {
  sm_battery : exists smin smax cap eff pc pd, parameter g "battery_soc_min" smin /\ parameter g "battery_soc_max" smax
    /\ parameter g "battery_capacity" cap /\ parameter g "battery_efficiency" eff
    /\ parameter g "battery_power_charge" pc /\ parameter g "battery_power_discharge" pd
    /\ 0 <= smin /\ 0 < cap /\ 0 < eff <= 1 /\ 0 <= pc /\ 0 <= pd
    /\ exists s rest, dget "battery_soc" (nm_state g) = Some (CNum s :: rest) /\ smin <= s <= smax;
  sm_gen : has_genset (nm_arch g) = true -> exists rated pmin pmax, parameter g "genset_rated_power" rated
    /\ parameter g "genset_pmin" pmin /\ parameter g "genset_pmax" pmax /\ 0 <= rated * pmax /\ 0 <= rated * pmin;
  sm_grid_power : has_grid (nm_arch g) = true -> exists x y, parameter g "grid_power_import" x /\ parameter g "grid_power_export" y
    /\ 0 <= x /\ 0 <= y;
  sm_rows : Forall (Qle 0) (nm_load_ts g) /\ Forall (Qle 0) (nm_pv_ts g)
    /\ (has_grid (nm_arch g) = true -> Forall (fun x => 0 <= x <= 1) (nm_status_ts g))
}.

(** The programs of the first [m] steps of a run are solved, as far as it gets. *)
Definition solves_run (c : mpc Q) (solve : solver Q) (g g1 : nonmod Q) (m : nat) : Prop :=
  forall k r e xs soc pr, (k < m)%nat -> nm_mpc_run c solve (Some (Z.of_nat k)) g = (g1, Ok r) ->
    posed_at g1 k e xs -> latest (cp_state r) "battery_soc" (CNum soc) -> program_of pr e soc xs ->
    exists p u, solve k pr = Ok (Some (p, u)) /\ satisfies pr p u = true.
(** The plan found in the [k]-th step balances the load without the PV, though there is some. *)
Definition balanced_without_pv (c : mpc Q) (solve : solver Q) (g g1 : nonmod Q) (k : nat) : Prop :=
  exists r n x e xs soc pr u s rest,
    nm_mpc_run c solve (Some (Z.of_nat k)) g = (g1, Ok r) /\ rows g1 k n x /\ decides solve g1 k r e xs soc pr u s rest
    /\ good_plan e soc xs (s :: rest) /\ exactly_balanced (at_row g1 r n x) (decided_by (eq_gen e) n s).
