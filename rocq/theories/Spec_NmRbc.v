(** * What the rule-based control of non-modular microgrids is expected to do

    Written without the definitions of NmRbc.v. *)

From Coq Require Import ZArith QArith Qminmax Bool String List.
From Verif Require Import Num Py NonModular Spec_NonModular.
Import ListNotations.
Local Open Scope string_scope.
Local Open Scope Q_scope.

(** [int(x)] of an integer is that integer; nothing is said about other numbers. *)
Definition converts (to_int : Q -> Z) : Prop := forall z x, x == inject_Z z -> to_int x = z.

(** What a decision has under a name *)
Definition entry (c : dict Q) (k : string) : Q := match dget k c with Some x => x | None => 0 end.

(** A step [i] of a microgrid with PV and a battery: [load] and [pv] of that row, the state
    of charge [soc] last recorded in [st], [room] what the battery can give, [on] whether
    there is a grid that works. *)
Record situation (g : nonmod Q) (i : nat) (st : record Q) (load pv soc room : Q) (on : bool) : Prop := mkSituation {
  su_pv : has_pv (nm_arch g) = true;
  su_battery : has_battery (nm_arch g) = true;
  su_load_row : nth_error (nm_load_ts g) i = Some load;
  su_pv_row : nth_error (nm_pv_ts g) i = Some pv;
  su_load0 : 0 <= load;
  su_pv0 : 0 <= pv;
  su_soc : latest st "battery_soc" (CNum soc);
  su_room : discharge_limit g soc room;
  su_power : exists pd, parameter g "battery_power_discharge" pd /\ 0 <= pd;
  su_grid : has_grid (nm_arch g) = true ->
    exists s im ex, nth_error (nm_status_ts g) i = Some s /\ nth_error (nm_import_ts g) i = Some im
      /\ nth_error (nm_export_ts g) i = Some ex /\ (s == 0 \/ s == 1);
  su_on : on = true <-> has_grid (nm_arch g) = true /\ exists s, nth_error (nm_status_ts g) i = Some s /\ s == 1
}.
(** The parameters that are read *)
Record furnished (g : nonmod Q) : Prop := mkFurnished {
  fu_soc_max : exists x, parameter g "battery_soc_max" x;
  fu_charge : exists x, parameter g "battery_power_charge" x;
  fu_genset : has_genset (nm_arch g) = true ->
    exists rated pmin, parameter g "genset_rated_power" rated /\ parameter g "genset_pmin" pmin
}.
(** What the battery takes in one step, according to the rules *)
Definition takes (g : nonmod Q) (soc x : Q) : Prop :=
  exists smax cap eff pc, parameter g "battery_soc_max" smax /\ parameter g "battery_capacity" cap
    /\ parameter g "battery_efficiency" eff /\ parameter g "battery_power_charge" pc
    /\ x == Qmax 0 (Qmin (Qmax 0 ((smax - soc) * cap / eff)) pc).

(** Whether the battery comes before the grid: storing costs less than selling and buying back. *)
Definition battery_first (g : nonmod Q) (i : nat) (first : bool) : Prop :=
  forall eff im ex, parameter g "battery_efficiency" eff -> nth_error (nm_import_ts g) i = Some im ->
    nth_error (nm_export_ts g) i = Some ex -> (first = true <-> ex / (eff * eff) < im).

(** The smallest power of the genset *)
Definition least_power (g : nonmod Q) (x : Q) : Prop :=
  exists rated pmin, parameter g "genset_rated_power" rated /\ parameter g "genset_pmin" pmin /\ x == rated * pmin.

(** Only the genset can meet the load. *)
Definition genset_needed (g : nonmod Q) (load pv room : Q) (on : bool) : Prop :=
  has_genset (nm_arch g) = true /\ on = false /\ pv + room < load.

(** What is supplied and used according to a decision *)
Definition supplied (c : dict Q) : Q :=
  entry c "pv_consummed" + entry c "battery_discharge" + entry c "grid_import" + entry c "genset".
Definition used (load : Q) (c : dict Q) : Q := load + entry c "battery_charge" + entry c "grid_export".
