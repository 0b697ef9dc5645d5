(** * Vocabulary for the properties of conversions *)

From Coq Require Import ZArith QArith Qabs Qminmax Bool String List.
From Verif Require Import Num Py Space Logger Forecast Module Container Microgrid NonModular
  Spec_Module Spec_Reach Spec_Microgrid Spec_Shaping Spec_NonModular.
Import ListNotations.
Local Open Scope string_scope.
Local Open Scope list_scope.
Local Open Scope Q_scope.

(** ** What a modular copy has to look like *)

(** A new module: at step 0, with an empty log. *)
Definition brand_new (re : bool) (m : module Q) : Prop :=
  m_cur m = 0%Z /\ m_init m = 0%Z /\ m_log m = logger_empty /\ m_raise m = re.
(** A time series that is forecast perfectly [h] steps ahead, until its end. *)
Definition foresees (h : nat) (m : module Q) : Prop :=
  horizon m = h /\ final_step m = Some (Z.of_nat (length (series m)))
  /\ exists t, kind_ts (m_kind m) = Some t /\ fc_kind (ts_fc t) = FcOracle.

(** Loads are stored as negative numbers, renewable energy as positive ones. *)
Definition load_of (re : bool) (g : nonmod Q) (m : module Q) : Prop :=
  brand_new re m /\ (exists t, m_kind m = KLoad t)
  /\ series m = map (fun x => [- Qabs x]) (nm_load_ts g)
  /\ foresees (Z.to_nat (nm_horizon g - 1)) m.
Definition pv_of (re : bool) (g : nonmod Q) (m : module Q) : Prop :=
  brand_new re m /\ (exists t, m_kind m = KRenewable t) /\ m_prov m = Some "renewable_used"
  /\ series m = map (fun x => [Qabs x]) (nm_pv_ts g)
  /\ foresees (Z.to_nat (nm_horizon g - 1)) m.
Definition battery_of (re : bool) (g : nonmod Q) (m : module Q) : Prop :=
  brand_new re m /\ exists b cap smin soc,
    m_kind m = KBattery b /\ b_model b = None
    /\ parameter g "battery_capacity" cap /\ parameter g "battery_soc_min" smin
    /\ bv_soc (nm_battery g) = CNum soc
    /\ b_max_capacity b = cap /\ b_min_capacity b = cap * smin
    /\ b_charge b = soc * cap /\ b_soc b = soc
    /\ parameter g "battery_power_charge" (b_max_charge b)
    /\ parameter g "battery_power_discharge" (b_max_discharge b)
    /\ parameter g "battery_efficiency" (b_efficiency b)
    /\ parameter g "battery_cost_cycle" (b_cost_cycle b).
(** A genset that starts and stops at once and is running at first. *)
Definition genset_of (re : bool) (g : nonmod Q) (m : module Q) : Prop :=
  brand_new re m /\ m_prov m = Some "genset_production"
  /\ exists s rated pmin pmax fuel,
    m_kind m = KGenset s
    /\ parameter g "genset_rated_power" rated /\ parameter g "genset_pmin" pmin
    /\ parameter g "genset_pmax" pmax /\ parameter g "fuel_cost" fuel
    /\ g_min_prod s = pmin * rated /\ g_max_prod s = pmax * rated /\ g_cost s = FuelLin fuel
    /\ parameter g "genset_co2" (g_co2_per_unit s) /\ parameter g "cost_co2" (g_cost_co2 s)
    /\ g_start_up s = 0%Z /\ g_wind_down s = 0%Z /\ g_status s = true /\ g_goal s = true.
Definition grid_of (re : bool) (g : nonmod Q) (m : module Q) : Prop :=
  brand_new re m /\ (exists gr t, m_kind m = KGrid gr t /\ gr_type gr = Controllable
    /\ parameter g "grid_power_import" (gr_max_import gr) /\ parameter g "grid_power_export" (gr_max_export gr)
    /\ parameter g "cost_co2" (gr_cost_co2 gr))
  /\ length (series m) = length (nm_import_ts g)
  /\ (forall k i e c s, nth_error (series m) k = Some [i; e; c; s] <->
        nth_error (nm_import_ts g) k = Some i /\ nth_error (nm_export_ts g) k = Some e
        /\ nth_error (nm_co2_ts g) k = Some c /\ nth_error (nm_status_ts g) k = Some s)
  /\ foresees (Z.to_nat (nm_horizon g - 1)) m.
Definition unbalanced_of (re : bool) (g : nonmod Q) (m : module Q) : Prop :=
  brand_new re m /\ exists u, m_kind m = KUnbalanced u
    /\ parameter g "cost_loss_load" (u_loss_load_cost u)
    /\ parameter g "cost_overgeneration" (u_overgeneration_cost u).

(** Exactly one module with this name, and it is as described; or none. *)
Definition the_module (nm : string) (mg : mgrid Q) (P : module Q -> Prop) : Prop :=
  exists m, named nm mg = [m] /\ P m.
Definition if_any (b : bool) (nm : string) (mg : mgrid Q) (P : module Q -> Prop) : Prop :=
  if b then the_module nm mg P else named nm mg = [].
Record modular_copy (re : bool) (g : nonmod Q) (mg : mgrid Q) : Prop := mkCopy {
  mc_load : the_module "load" mg (load_of re g);
  mc_unbalanced : the_module "unbalanced_energy" mg (unbalanced_of re g);
  mc_pv : if_any (has_pv (nm_arch g)) "PV" mg (pv_of re g);
  mc_battery : if_any (has_battery (nm_arch g)) "battery" mg (battery_of re g);
  mc_genset : if_any (has_genset (nm_arch g)) "genset" mg (genset_of re g);
  mc_grid : if_any (has_grid (nm_arch g)) "grid" mg (grid_of re g);
  mc_only : forall nm, ~ In nm ["load"; "unbalanced_energy"; "PV"; "battery"; "genset"; "grid"] -> named nm mg = []
}.

(** ** Sensible data *)

Record plausible (g : nonmod Q) : Prop := mkPlausible {
  pl_rows : (0 < length (nm_load_ts g))%nat;
  pl_load : Forall (Qle 0) (nm_load_ts g);
  pl_pv : has_pv (nm_arch g) = true ->
    length (nm_pv_ts g) = length (nm_load_ts g) /\ Forall (Qle 0) (nm_pv_ts g);
  pl_costs : exists l o, parameter g "cost_loss_load" l /\ parameter g "cost_overgeneration" o
    /\ 0 <= l /\ 0 <= o;
  pl_battery : has_battery (nm_arch g) = true ->
    exists cap smin pc pd eff cost soc,
      parameter g "battery_capacity" cap /\ parameter g "battery_soc_min" smin
      /\ parameter g "battery_power_charge" pc /\ parameter g "battery_power_discharge" pd
      /\ parameter g "battery_efficiency" eff /\ parameter g "battery_cost_cycle" cost
      /\ bv_soc (nm_battery g) = CNum soc
      /\ 0 < cap /\ 0 < eff /\ eff <= 1 /\ 0 <= pc /\ 0 <= pd /\ smin <= soc /\ soc <= 1;
  pl_genset : has_genset (nm_arch g) = true ->
    exists rated pmin pmax fuel co2 cost,
      parameter g "genset_rated_power" rated /\ parameter g "genset_pmin" pmin
      /\ parameter g "genset_pmax" pmax /\ parameter g "fuel_cost" fuel
      /\ parameter g "genset_co2" co2 /\ parameter g "cost_co2" cost
      /\ 0 <= rated /\ 0 <= pmin /\ pmin <= pmax;
  pl_grid : has_grid (nm_arch g) = true ->
    exists mi me cost,
      parameter g "grid_power_import" mi /\ parameter g "grid_power_export" me
      /\ parameter g "cost_co2" cost /\ 0 <= mi /\ 0 <= me
      /\ Forall (fun l => length l = length (nm_load_ts g) /\ Forall (Qle 0) l)
                [nm_import_ts g; nm_export_ts g; nm_co2_ts g; nm_status_ts g]
      /\ Forall (fun s => s == 0 \/ s == 1) (nm_status_ts g)
}.

(** ** The same control for both *)

Definition asked (control : dict Q) (key : string) : Q :=
  match dget key control with Some x => x | None => 0 end.
(** One signed number for the battery and the grid; the genset is on if it is to
    produce anything. *)
Definition modular_control (g : nonmod Q) (control : dict Q) : Microgrid.control Q :=
  (if has_battery (nm_arch g)
   then [("battery", CList [VS (asked control "battery_discharge" - asked control "battery_charge")])] else [])
  ++ (if has_genset (nm_arch g)
      then [("genset", CList [VA [if Qle_bool (asked control "genset") 0 then 0 else 1; asked control "genset"]])]
      else [])
  ++ (if has_grid (nm_arch g)
      then [("grid", CList [VS (asked control "grid_import" - asked control "grid_export")])] else []).

(** A control that both can follow exactly: nothing negative or above a limit of
    either, the battery not charged and discharged at once, nothing bought and sold
    at once or during an outage, the genset at least at its minimum when on. *)
Definition agreeable (g : nonmod Q) (control : dict Q) : Prop :=
  (has_battery (nm_arch g) = true ->
     exists c d soc cap smin smax eff pc pd,
       dget "battery_charge" control = Some c /\ dget "battery_discharge" control = Some d
       /\ latest (nm_state g) "battery_soc" (CNum soc)
       /\ parameter g "battery_capacity" cap /\ parameter g "battery_soc_min" smin
       /\ parameter g "battery_soc_max" smax /\ parameter g "battery_efficiency" eff
       /\ parameter g "battery_power_charge" pc /\ parameter g "battery_power_discharge" pd
       /\ 0 <= c /\ c <= pc /\ c <= (smax - soc) * cap * eff /\ smax <= 1
       /\ 0 <= d /\ d <= pd * eff /\ d <= (soc - smin) * cap * eff
       /\ (c == 0 \/ d == 0))
  /\ (has_grid (nm_arch g) = true ->
     exists i e mi me,
       dget "grid_import" control = Some i /\ dget "grid_export" control = Some e
       /\ parameter g "grid_power_import" mi /\ parameter g "grid_power_export" me
       /\ 0 <= i /\ i <= mi /\ 0 <= e /\ e <= me /\ (i == 0 \/ e == 0)
       /\ (now_status (nm_now g) == 1 \/ i == 0 /\ e == 0))
  /\ (has_genset (nm_arch g) = true ->
     exists p rated pmin pmax,
       dget "genset" control = Some p
       /\ parameter g "genset_rated_power" rated /\ parameter g "genset_pmin" pmin
       /\ parameter g "genset_pmax" pmax
       /\ (p == 0 \/ pmin * rated <= p /\ p <= pmax * rated)).

(** ** The same dispatch *)

(** What the modules of a name gave and took in one run. *)
Definition given (nm : string) (es : list event) : Q := sum_named ev_provided nm es.
Definition taken (nm : string) (es : list event) : Q := sum_named ev_absorbed nm es.
Definition curtailed (es : list event) : Q := sum_named (ev_entry "curtailment") "PV" es.

(** The controllable energies agree exactly. *)
Definition same_dispatch (g : nonmod Q) (o : outcome) (es : list event) : Prop :=
  taken "load" es == now_load (nm_now g)
  /\ taken "battery" es == oc_charge o /\ given "battery" es == oc_discharge o
  /\ given "grid" es == oc_import o /\ taken "grid" es == oc_export o
  /\ given "genset" es == oc_genset o.
(** The use of the PV energy and what is lost agree up to [tol]. *)
Definition same_rest (tol : Q) (o : outcome) (es : list event) : Prop :=
  Qabs (given "PV" es - oc_pv o) <= tol
  /\ Qabs (curtailed es - oc_curtailed o) <= tol
  /\ Qabs (given "unbalanced_energy" es - oc_loss o) <= tol
  /\ Qabs (taken "unbalanced_energy" es - oc_over o) <= tol.
(** What is required of the PV. *)
Definition pv_required (g : nonmod Q) (o : outcome) : Q :=
  now_load (nm_now g) + oc_charge o + oc_export o - (oc_discharge o + oc_import o + oc_genset o).

(** ** Side by side *)

(** [g0] was just constructed, from complete data, and its battery view shows the
    state of charge that it has recorded. *)
Definition starting (g0 : nonmod Q) : Prop :=
  (exists sp h, wired sp /\ new_nonmodular sp h = Ok g0)
  /\ (has_battery (nm_arch g0) = true -> latest (nm_state g0) "battery_soc" (bv_soc (nm_battery g0))).

(** Both were given the same controls, one after the other, before the last step. *)
Inductive side_by_side (g0 : nonmod Q) (mg0 : mgrid Q) : nonmod Q -> mgrid Q -> Prop :=
| sb_start : side_by_side g0 mg0 g0 mg0
| sb_run g mg control g' v mg' out :
    side_by_side g0 mg0 g mg -> agreeable g control -> ~ last_step g ->
    nm_run control g = (g', Ok v) -> run (modular_control g control) false mg = (mg', Ok out) ->
    side_by_side g0 mg0 g' mg'.

(** ** From modular to non-modular *)

Definition same_class (m m' : module Q) : Prop :=
  match m_kind m, m_kind m' with
  | KLoad _, KLoad _ | KRenewable _, KRenewable _ | KBattery _, KBattery _ | KGrid _ _, KGrid _ _
  | KGenset _, KGenset _ | KUnbalanced _, KUnbalanced _ => True
  | _, _ => False
  end.
Definition any_module (mg : mgrid Q) (P : module Q -> Prop) : Prop := exists i m, at_index mg i m /\ P m.
Definition is_load (m : module Q) : Prop := exists t, m_kind m = KLoad t.
Definition is_renewable (m : module Q) : Prop := exists t, m_kind m = KRenewable t.
Definition is_battery (m : module Q) : Prop := exists b, m_kind m = KBattery b.
Definition is_grid (m : module Q) : Prop := exists gr t, m_kind m = KGrid gr t.
Definition is_a_genset (m : module Q) : Prop := exists s, m_kind m = KGenset s.

(** A microgrid made from [D] can be converted: names are not shared, there is at
    most one module of each class and there is a load. *)
Definition convertible (D : list (mdef Q)) (mg : mgrid Q) : Prop :=
  NoDup (map mdef_name D)
  /\ (forall i j m m', at_index mg i m -> at_index mg j m' -> same_class m m' -> i = j)
  /\ any_module mg is_load.
(** It has what the non-modular microgrid needs: renewable energy, at least two rows
    of data, data at the current step (a Python index), a genset that can produce (at a linear cost) and
    one forecast horizon. *)
Record sufficient (mg : mgrid Q) : Prop := mkSufficient {
  su_renewable : any_module mg is_renewable;
  su_rows : forall i m, at_index mg i m -> is_load m \/ is_renewable m ->
    (2 <= length (series m))%nat /\ (- Z.of_nat (length (series m)) <= m_cur m < Z.of_nat (length (series m)))%Z;
  su_grid : forall i m, at_index mg i m -> is_grid m -> series m <> [];
  su_genset : forall i m s, at_index mg i m -> m_kind m = KGenset s ->
    ~ g_max_prod s == 0 /\ exists c, g_cost s = FuelLin c;
  su_horizon : forall i j m m', at_index mg i m -> at_index mg j m' -> is_ts m -> is_ts m' -> horizon m = horizon m'
}.

(** What the copy contains *)
Record nonmodular_copy (mg : mgrid Q) (g : nonmod Q) : Prop := mkNmCopy {
  nc_load : forall i m, at_index mg i m -> is_load m -> series m = map (fun x => [x]) (nm_load_ts g);
  nc_pv : has_pv (nm_arch g) = true /\
    forall i m, at_index mg i m -> is_renewable m -> series m = map (fun x => [x]) (nm_pv_ts g);
  nc_battery : (has_battery (nm_arch g) = true <-> any_module mg is_battery) /\
    forall i m b, at_index mg i m -> m_kind m = KBattery b ->
      parameter g "battery_soc_0" (b_soc b) /\ bv_soc (nm_battery g) = CNum (b_soc b)
      /\ latest (nm_state g) "battery_soc" (CNum (b_soc b))
      /\ parameter g "battery_capacity" (b_max_capacity b)
      /\ parameter g "battery_soc_min" (b_min_soc b) /\ parameter g "battery_soc_max" 1
      /\ parameter g "battery_power_charge" (b_max_charge b)
      /\ parameter g "battery_power_discharge" (b_max_discharge b)
      /\ parameter g "battery_efficiency" (b_efficiency b) /\ parameter g "battery_cost_cycle" (b_cost_cycle b);
  nc_genset : (has_genset (nm_arch g) = true <-> any_module mg is_a_genset) /\
    forall i m s, at_index mg i m -> m_kind m = KGenset s ->
      exists rated pmin pmax fuel,
        parameter g "genset_rated_power" rated /\ parameter g "genset_pmin" pmin
        /\ parameter g "genset_pmax" pmax /\ parameter g "fuel_cost" fuel
        /\ rated * pmin == g_min_prod s /\ rated * pmax == g_max_prod s /\ g_cost s = FuelLin fuel
        /\ parameter g "genset_co2" (g_co2_per_unit s);
  nc_grid : (has_grid (nm_arch g) = true <-> any_module mg is_grid) /\
    forall i m gr t, at_index mg i m -> m_kind m = KGrid gr t ->
      parameter g "grid_power_import" (gr_max_import gr) /\ parameter g "grid_power_export" (gr_max_export gr)
      /\ Forall (fun l => length l = length (series m)) [nm_import_ts g; nm_export_ts g; nm_co2_ts g; nm_status_ts g]
      /\ (forall k p e c s, nth_error (series m) k = Some [p; e; c; s] ->
            nth_error (nm_import_ts g) k = Some p /\ nth_error (nm_export_ts g) k = Some e
            /\ nth_error (nm_co2_ts g) k = Some c /\ nth_error (nm_status_ts g) k = Some s);
  nc_unbalanced : forall i m u, at_index mg i m -> m_kind m = KUnbalanced u ->
    parameter g "cost_loss_load" (u_loss_load_cost u) /\ parameter g "cost_overgeneration" (u_overgeneration_cost u);
  nc_cost_co2 :
    (forall i m gr t, at_index mg i m -> m_kind m = KGrid gr t -> ~ any_module mg is_a_genset ->
       parameter g "cost_co2" (gr_cost_co2 gr))
    /\ (forall i m s, at_index mg i m -> m_kind m = KGenset s -> ~ any_module mg is_grid ->
       parameter g "cost_co2" (g_cost_co2 s))
    /\ (forall i m gr t j m' s, at_index mg i m -> m_kind m = KGrid gr t -> at_index mg j m' -> m_kind m' = KGenset s ->
       exists x, parameter g "cost_co2" x /\ x == (gr_cost_co2 gr + g_cost_co2 s) / 2)
    /\ (~ any_module mg is_a_genset -> ~ any_module mg is_grid -> forall x, ~ parameter g "cost_co2" x);
  nc_horizon : forall i m, at_index mg i m -> is_ts m -> nm_horizon g = (Z.of_nat (horizon m) + 1)%Z;
  nc_start : nm_t g = 0%Z /\ nm_use g = All /\ nm_done g = false
    /\ Forall (fun kl => snd kl = []) (nm_production g) /\ Forall (fun kl => snd kl = []) (nm_cost g)
    /\ Forall (fun kl => snd kl = []) (nm_co2 g)
}.

(** ** There and back *)

(** [g2] has the same value of a parameter as [g]. *)
Definition kept (g g2 : nonmod Q) (k : string) : Prop :=
  forall x, parameter g k x -> exists y, parameter g2 k y /\ y == x.
Record round_trip (g g2 : nonmod Q) : Prop := mkRound {
  rt_arch : nm_arch g2 = nm_arch g;
  rt_load : nm_load_ts g2 = map (fun x => - Qabs x) (nm_load_ts g);
  rt_pv : nm_pv_ts g2 = map Qabs (nm_pv_ts g);
  rt_costs : kept g g2 "cost_loss_load" /\ kept g g2 "cost_overgeneration"
    /\ (has_grid (nm_arch g) = true \/ has_genset (nm_arch g) = true -> kept g g2 "cost_co2");
  rt_battery : has_battery (nm_arch g) = true ->
    Forall (kept g g2) ["battery_capacity"; "battery_soc_min"; "battery_power_charge"; "battery_power_discharge";
                        "battery_efficiency"; "battery_cost_cycle"]
    /\ bv_soc (nm_battery g2) = bv_soc (nm_battery g) /\ parameter g2 "battery_soc_max" 1;
  rt_genset : has_genset (nm_arch g) = true ->
    kept g g2 "fuel_cost" /\ kept g g2 "genset_co2" /\
    (forall rated pmin pmax, parameter g "genset_rated_power" rated -> parameter g "genset_pmin" pmin ->
       parameter g "genset_pmax" pmax -> exists rated' pmin' pmax',
         parameter g2 "genset_rated_power" rated' /\ parameter g2 "genset_pmin" pmin' /\ parameter g2 "genset_pmax" pmax'
         /\ rated' * pmin' == rated * pmin /\ rated' * pmax' == rated * pmax);
  rt_grid : has_grid (nm_arch g) = true ->
    kept g g2 "grid_power_import" /\ kept g g2 "grid_power_export"
    /\ nm_import_ts g2 = nm_import_ts g /\ nm_export_ts g2 = nm_export_ts g
    /\ nm_co2_ts g2 = nm_co2_ts g /\ nm_status_ts g2 = nm_status_ts g;
  rt_horizon : nm_horizon g2 = Z.max 1 (nm_horizon g);
  rt_start : nm_t g2 = 0%Z /\ nm_done g2 = false
}.
