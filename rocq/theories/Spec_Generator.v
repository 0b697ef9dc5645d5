(** * What generated microgrids are expected to be

    Written without the definitions of Generator.v except its inputs. *)

From Coq Require Import ZArith QArith Qminmax Bool String List.
From Verif Require Import Num Py NonModular Generator Spec_NonModular.
Import ListNotations.
Local Open Scope string_scope.
Local Open Scope Q_scope.

(** ** The inputs *)

(** [int(np.ceil(x))] is the next integer; [int(x)] cuts the fraction off. *)
Definition ceils (ceil : Q -> Z) : Prop := forall x, x <= inject_Z (ceil x) /\ inject_Z (ceil x) < x + 1.
Definition truncates (trunc : Q -> Z) : Prop := forall x, 0 <= x -> inject_Z (trunc x) <= x /\ x < inject_Z (trunc x) + 1.

(** The draws that numpy can make *)
Record drawn (fs : folders Q) (d : draws Q) : Prop := mkDrawn {
  wn_arch : 0 <= dr_arch d /\ dr_arch d < 1;
  wn_load : (100 <= dr_load d <= 100000)%Z;
  wn_load_file : (dr_load_file d < length (fo_load fs))%nat;
  wn_pv : (30 <= dr_pv d <= 150)%Z;
  wn_hours : (3 <= dr_hours d <= 5)%Z;
  wn_pv_file : (dr_pv_file d < length (fo_pv fs))%nat;
  wn_weak : dr_weak d = 0%Z \/ dr_weak d = 1%Z;
  wn_tariff : dr_tariff d = 1%Z \/ dr_tariff d = 2%Z;
  wn_duration : (1 <= dr_duration d <= 7)%Z;
  wn_uniform : length (dr_uniform d) = S (24 * 365) /\ Forall (fun u => 0 <= u /\ u < 1) (dr_uniform d);
  wn_co2_file : (dr_co2_file d < length (fo_co2 fs))%nat
}.

(** [m] is the largest value of [l]. *)
Definition peak (l : list Q) (m : Q) : Prop := (exists x, In x l /\ x == m) /\ Forall (fun x => x <= m) l.
(** A file of a load or of PV: up to a year, nothing negative, and not only zeros *)
Definition a_series (l : list Q) : Prop :=
  (2 <= length l <= 24 * 365)%nat /\ Forall (Qle 0) l /\ exists x, In x l /\ 0 < x.
(** The emissions reach as far as the prices: a year. *)
Definition usable (fs : folders Q) : Prop :=
  Forall a_series (fo_load fs) /\ Forall a_series (fo_pv fs)
  /\ Forall (fun l => (24 * 365 <= length l)%nat /\ Forall (Qle 0) l) (fo_co2 fs).
(** Everything lasts a year, as do the files of pymgrid. *)
Definition yearly (fs : folders Q) : Prop :=
  usable fs /\ Forall (fun l => length l = (24 * 365)%nat) (fo_load fs ++ fo_pv fs ++ fo_co2 fs).

(** ** The microgrid *)

(** The series [l] has the shape of the file [f]. *)
Definition shaped (f l : list Q) : Prop := exists ratio, 0 < ratio /\ Forall2 (fun x y => y == ratio * x) f l.
(** The mean of a series *)
Definition sum_of (l : list Q) : Q := fold_right Qplus 0 l.
Definition average (l : list Q) (m : Q) : Prop := m * inject_Z (Z.of_nat (length l)) == sum_of l.

(** What is generated: a genset, a grid or both, the weak grid always with a genset *)
Definition wanted (d : draws Q) (genset grid : bool) : Prop :=
  (dr_arch d < 33 # 100 -> genset = true /\ grid = false)
  /\ (33 # 100 <= dr_arch d -> dr_arch d < 66 # 100 -> grid = true /\ (genset = true <-> dr_weak d = 1%Z))
  /\ (66 # 100 <= dr_arch d -> genset = true /\ grid = true).

(** The sizes of everything follow from the peak and the mean of the load. *)
Record sized (fs : folders Q) (d : draws Q) (g : nonmod Q) : Prop := mkSized {
  zd_arch : has_pv (nm_arch g) = true /\ has_battery (nm_arch g) = true
    /\ wanted d (has_genset (nm_arch g)) (has_grid (nm_arch g));
  zd_load : exists f, nth_error (fo_load fs) (dr_load_file d) = Some f /\ shaped f (nm_load_ts g)
    /\ peak (nm_load_ts g) (inject_Z (dr_load d));
  zd_pv : exists f, nth_error (fo_pv fs) (dr_pv_file d) = Some f /\ shaped f (nm_pv_ts g)
    /\ peak (nm_pv_ts g) (inject_Z (dr_load d) * inject_Z (dr_pv d) / 100);
  (* the smallest whole number that is not below the given hours of mean load *)
  zd_battery : exists cap mean, parameter g "battery_capacity" (inject_Z cap) /\ average (nm_load_ts g) mean
    /\ inject_Z (dr_hours d) * mean <= inject_Z cap /\ inject_Z cap < inject_Z (dr_hours d) * mean + 1
    /\ exists power, parameter g "battery_power_charge" (inject_Z power) /\ parameter g "battery_power_discharge" (inject_Z power)
       /\ inject_Z cap <= 4 * inject_Z power /\ 4 * inject_Z power < inject_Z cap + 4;
  zd_soc : exists soc smin smax eff cost, parameter g "battery_soc_0" soc /\ parameter g "battery_soc_min" smin
    /\ parameter g "battery_soc_max" smax /\ parameter g "battery_efficiency" eff /\ parameter g "battery_cost_cycle" cost
    /\ latest (nm_state g) "battery_soc" (CNum soc) /\ bv_soc (nm_battery g) = CNum soc
    /\ smin == 1 # 5 /\ smax == 1 /\ eff == 9 # 10 /\ cost == 1 # 50 /\ smin <= soc /\ soc <= smax
    /\ (smin <= dr_soc d -> dr_soc d <= smax -> soc == dr_soc d)
    /\ (dr_soc d <= smin -> soc == smin) /\ (smax <= dr_soc d -> soc == smax);
  (* the genset can give the peak, and one smaller by one could not *)
  zd_genset : has_genset (nm_arch g) = true -> exists rated pmin pmax fuel co2,
    parameter g "genset_rated_power" (inject_Z rated) /\ parameter g "genset_pmin" pmin /\ parameter g "genset_pmax" pmax
    /\ parameter g "fuel_cost" fuel /\ parameter g "genset_co2" co2
    /\ pmin == 1 # 20 /\ pmax == 9 # 10 /\ fuel == 2 # 5 /\ co2 == 2
    /\ inject_Z (dr_load d) <= inject_Z rated * pmax /\ inject_Z (rated - 1) * pmax < inject_Z (dr_load d);
  (* the grid can give and take twice the peak *)
  zd_grid : has_grid (nm_arch g) = true ->
    parameter g "grid_power_import" (inject_Z (2 * dr_load d)) /\ parameter g "grid_power_export" (inject_Z (2 * dr_load d))
    /\ parameter g "grid_weak" (inject_Z (dr_weak d));
  zd_costs : exists l o c, parameter g "cost_loss_load" l /\ parameter g "cost_overgeneration" o /\ parameter g "cost_co2" c
    /\ l == 10 /\ o == 1 /\ c == 1 # 10;
  zd_horizon : nm_horizon g = 24%Z
}.

(** The table of states starts with what the series show in their first hour: load, PV and
    what the battery can take and give, rounded to a decimal, and the grid. *)
Definition starts (around : Z -> Q -> Q) (g : nonmod Q) : Prop :=
  (exists l p, nth_error (nm_load_ts g) 0 = Some l /\ nth_error (nm_pv_ts g) 0 = Some p
     /\ dget "load" (nm_state g) = Some [CNum (around 1%Z l)] /\ dget "pv" (nm_state g) = Some [CNum (around 1%Z p)]
     /\ dget "hour" (nm_state g) = Some [CNum 0])
  /\ (exists cap soc smin smax eff to_charge to_discharge, parameter g "battery_capacity" cap /\ parameter g "battery_soc_0" soc
     /\ parameter g "battery_soc_min" smin /\ parameter g "battery_soc_max" smax /\ parameter g "battery_efficiency" eff
     /\ to_charge == Qmax ((smax - soc) * cap / eff) 0 /\ to_discharge == Qmax ((soc - smin) * cap * eff) 0
     /\ dget "capa_to_charge" (nm_state g) = Some [CNum (around 1%Z to_charge)]
     /\ dget "capa_to_discharge" (nm_state g) = Some [CNum (around 1%Z to_discharge)]
     /\ nm_battery g = mkBview (CNum soc) (CNum (around 1%Z to_charge)) (CNum (around 1%Z to_discharge)))
  /\ (has_grid (nm_arch g) = true -> exists s i e c, nth_error (nm_status_ts g) 0 = Some s /\ nth_error (nm_import_ts g) 0 = Some i
     /\ nth_error (nm_export_ts g) 0 = Some e /\ nth_error (nm_co2_ts g) 0 = Some c
     /\ dget "grid_status" (nm_state g) = Some [CNum s] /\ dget "grid_price_import" (nm_state g) = Some [CNum i]
     /\ dget "grid_price_export" (nm_state g) = Some [CNum e] /\ dget "grid_co2" (nm_state g) = Some [CNum c]).

(** ** The grid *)

(** Hour [i] starts an outage: as many as [rate] a day on average *)
Definition struck (rate : Q) (uniform : list Q) (i : nat) : Prop :=
  exists u, nth_error uniform i = Some u /\ u < rate / 24.
(** The hours without a grid: those struck, and, except for the first of the year, the
    [duration] - 1 hours before them *)
Definition outage (d : draws Q) (i : nat) : Prop :=
  let rate := dr_outage d * (3 # 4) + (1 # 4) in
  dr_weak d = 1%Z /\ (struck rate (dr_uniform d) i
    \/ (0 < i)%nat /\ exists j, (1 <= Z.of_nat j < dr_duration d)%Z /\ struck rate (dr_uniform d) (i + j)).

(** The price of import in an hour of the day *)
Definition tariff (scenario : Z) (hour : nat) (p : Q) : Prop :=
  (scenario = 1%Z -> p == (if existsb (Nat.eqb hour) [12; 13; 14; 15; 16; 17]%nat then 59 # 100
                          else if existsb (Nat.eqb hour) [8; 9; 10; 11; 18; 19; 20]%nat then 29 # 100 else 22 # 100))
  /\ (scenario = 2%Z -> p == (if existsb (Nat.eqb hour) [0; 1; 2; 3; 4; 14; 15; 16]%nat then 8 # 100 else 11 # 100)).

Record connected (fs : folders Q) (d : draws Q) (g : nonmod Q) : Prop := mkConnected {
  co_rows : Forall (fun l => length l = (24 * 365)%nat) [nm_status_ts g; nm_import_ts g; nm_export_ts g];
  co_status : forall i s, nth_error (nm_status_ts g) i = Some s -> (s = 0 \/ s = 1) /\ (s = 0 <-> outage d i);
  co_import : forall i p, nth_error (nm_import_ts g) i = Some p -> tariff (dr_tariff d) (Nat.modulo i 24) p;
  co_export : Forall (fun p => p == 0) (nm_export_ts g);
  co_co2 : nth_error (fo_co2 fs) (dr_co2_file d) = Some (nm_co2_ts g)
}.
