(** * What a whole run of the rule-based control is expected to do *)

From Coq Require Import ZArith QArith Qabs Qminmax Bool String List.
From Verif Require Import Num Py NonModular Spec_NonModular NmRbc Spec_NmRbc.
Import ListNotations.
Local Open Scope string_scope.
Local Open Scope list_scope.
Local Open Scope Q_scope.

(** The values [n] of row [i] of the data, and those of the row after it *)
Record rows (g : nonmod Q) (i : nat) (n : now Q) (x : next Q) : Prop := mkRows {
  ro_load : nth_error (nm_load_ts g) i = Some (now_load n);
  ro_pv : nth_error (nm_pv_ts g) i = Some (now_pv n);
  ro_next_load : exists y, nth_error (nm_load_ts g) (S i) = Some y /\ nx_load x = CNum y;
  ro_next_pv : exists y, nth_error (nm_pv_ts g) (S i) = Some y /\ nx_pv x = CNum y;
  ro_grid : if has_grid (nm_arch g) then
      nth_error (nm_status_ts g) i = Some (now_status n) /\ nth_error (nm_import_ts g) i = Some (now_import n)
      /\ nth_error (nm_export_ts g) i = Some (now_export n) /\ nth_error (nm_co2_ts g) i = Some (now_co2 n)
      /\ (exists y, nth_error (nm_status_ts g) (S i) = Some y /\ nx_status x = CNum y)
      /\ (exists y, nth_error (nm_import_ts g) (S i) = Some y /\ nx_import x = CNum y)
      /\ (exists y, nth_error (nm_export_ts g) (S i) = Some y /\ nx_export x = CNum y)
      /\ (exists y, nth_error (nm_co2_ts g) (S i) = Some y /\ nx_co2 x = CNum y)
    else now_status n = 0 /\ now_import n = 0 /\ now_export n = 0 /\ now_co2 n = 0
      /\ nx_status x = CNum 0 /\ nx_import x = CNum 0 /\ nx_export x = CNum 0 /\ nx_co2 x = CNum 0
}.
(** The microgrid with the records [r] and the values of a row *)
Definition at_row (g : nonmod Q) (r : copies Q) (n : now Q) (x : next Q) : nonmod Q :=
  set_records (cp_actions r) (cp_state r) (cp_production r) (cp_cost r) (cp_co2 r) (set_next x (set_now n g)).

(** The decision [c] was carried out in a row: the records [r] became [r']. *)
Record carried (g : nonmod Q) (c : dict Q) (n : now Q) (x : next Q) (r r' : copies Q) (o : outcome) : Prop := mkCarried {
  ca_produced : produced (at_row g r n x) (at_row g r' n x) o;
  ca_follows : follows (at_row g r n x) c o;
  ca_balance : supply o == demand (now_load n) o
    \/ Qabs (supply o - demand (now_load n) o) < 1 # 1000 /\ oc_pv o == now_pv n /\ oc_loss o == 0 /\ oc_over o == 0;
  ca_loss : 0 <= oc_loss o /\ 0 <= oc_over o /\ (oc_loss o == 0 \/ oc_over o == 0 /\ oc_pv o == now_pv n);
  ca_pv : 0 <= now_pv n -> oc_pv o + oc_curtailed o == now_pv n /\ 0 <= oc_pv o /\ 0 <= oc_curtailed o
    /\ (oc_over o == 0 \/ oc_pv o == 0);
  ca_bill : exists emitted total, gained (cp_co2 r) (cp_co2 r') "co2" (CNum emitted)
    /\ gained (cp_cost r) (cp_cost r') "total_cost" (CNum total) /\ bill (at_row g r n x) o emitted total;
  ca_soc : has_battery (nm_arch g) = true -> exists soc soc' eff cap, latest (cp_state r) "battery_soc" (CNum soc)
    /\ gained (cp_state r) (cp_state r') "battery_soc" (CNum soc')
    /\ parameter g "battery_efficiency" eff /\ parameter g "battery_capacity" cap
    /\ soc' == soc + (oc_charge o * eff - oc_discharge o / eff) / cap;
  ca_status : gained (cp_state r) (cp_state r') "load" (nx_load x) /\ gained (cp_state r) (cp_state r') "pv" (nx_pv x)
    /\ gained (cp_state r) (cp_state r') "hour" (CNum (inject_Z (nm_t g mod 24)))
    /\ (has_grid (nm_arch g) = true ->
        gained (cp_state r) (cp_state r') "grid_status" (nx_status x)
        /\ gained (cp_state r) (cp_state r') "grid_price_import" (nx_import x)
        /\ gained (cp_state r) (cp_state r') "grid_price_export" (nx_export x)
        /\ gained (cp_state r) (cp_state r') "grid_co2" (nx_co2 x));
  ca_actions : forall k l, dget k (cp_actions r) = Some l -> gained (cp_actions r) (cp_actions r') k (asked (at_row g r n x) c k)
}.

(** [r] has exactly [m] rows more than [r0] in every column. *)
Definition longer (m : nat) (r0 r : record Q) : Prop :=
  map fst r = map fst r0 /\ forall k l, dget k r0 = Some l -> exists l', dget k r = Some (l ++ l') /\ length l' = m.
Definition all_longer (m : nat) (r0 r : copies Q) : Prop :=
  longer m (cp_actions r0) (cp_actions r) /\ longer m (cp_state r0) (cp_state r)
  /\ longer m (cp_production r0) (cp_production r) /\ longer m (cp_cost r0) (cp_cost r) /\ longer m (cp_co2 r0) (cp_co2 r).

(** The number of steps: [length] or all rows but the last, less the horizon *)
Definition rb_count (g : nonmod Q) (length : option Z) : nat :=
  Z.to_nat (match length with Some l => Z.min l (nm_len g - 1) | None => nm_len g - 1 end - nm_horizon g).

(** Data of the first [m] rows on which the rules can decide *)
Definition sensible_rows (g : nonmod Q) (m : nat) : Prop :=
  forall i, (i < m)%nat ->
    (forall l, nth_error (nm_load_ts g) i = Some l -> 0 < l) /\ (forall p, nth_error (nm_pv_ts g) i = Some p -> 0 <= p)
    /\ (has_grid (nm_arch g) = true -> forall s, nth_error (nm_status_ts g) i = Some s -> s == 0 \/ s == 1).
(** Sensible parameters *)
Record sensible_parameters (g : nonmod Q) : Prop := mkSensibleParameters {
  sp_charge : exists x, parameter g "battery_power_charge" x /\ 0 <= x;
  sp_discharge : exists x, parameter g "battery_power_discharge" x /\ 0 <= x;
  sp_grid : has_grid (nm_arch g) = true -> exists x y, parameter g "grid_power_import" x /\ parameter g "grid_power_export" y
    /\ 0 <= x /\ 0 <= y;
  sp_genset : has_genset (nm_arch g) = true -> exists rated pmin pmax, parameter g "genset_rated_power" rated
    /\ parameter g "genset_pmin" pmin /\ parameter g "genset_pmax" pmax /\ 0 < rated /\ 0 <= pmin <= pmax
}.

(** The same columns with the same rows, except for one column *)
Definition same_but (key : string) (r r' : record Q) : Prop :=
  Forall2 (fun a b => fst a = fst b /\ (fst a <> key -> snd a = snd b)) r r'.
