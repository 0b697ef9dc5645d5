(** * Vocabulary for the properties of the environments with continuous actions *)

From Coq Require Import ZArith QArith Bool String List.
From Verif Require Import Num Py NonModular NmMpc OldEnv GymEnv Spec_NonModular.
Import ListNotations.
Local Open Scope string_scope.
Local Open Scope list_scope.
Local Open Scope Q_scope.

(** ** Actions and steps *)

(** The entries of an action, in order *)
Definition entries (ar : arch) : list string :=
  (if has_genset ar then ["genset"] else [])
  ++ ["grid_import"; "grid_export"; "battery_charge"; "battery_discharge"; "pv_consummed"].
(** The columns of an observation, in order *)
Definition shown_columns (ar : arch) : list string :=
  ["load"; "hour"; "pv"; "battery_soc"; "capa_to_charge"; "capa_to_discharge"]
  ++ (if has_grid ar then ["grid_status"; "grid_co2"; "grid_price_import"; "grid_price_export"] else []).
(** The control that an action stands for *)
Definition stands_for (ar : arch) (a : list Q) (c : dict Q) : Prop :=
  (forall i k, nth_error (entries ar) i = Some k -> exists x, nth_error a i = Some x /\ dget k c = Some x)
  /\ (forall k x, dget k c = Some x -> In k (entries ar)).

(** [y] is [x] moved by [mean] and shrunk by [std]. *)
Definition moved (mean std : list Q) (x : list (cell Q)) (y : list Q) : Prop :=
  length x = length mean /\ length mean = length std /\ length y = length x
  /\ forall i m s c, nth_error mean i = Some m -> nth_error std i = Some s -> nth_error x i = Some c ->
       exists v w, c = CNum v /\ nth_error y i = Some w /\ w == (v - m) / s.
(** [y] is [x] stretched by [std] and moved back by [mean]. *)
Definition moved_back (mean std : list Q) (x y : list Q) : Prop :=
  length x = length mean /\ length mean = length std /\ length y = length x
  /\ forall i m s v, nth_error mean i = Some m -> nth_error std i = Some s -> nth_error x i = Some v ->
       exists w, nth_error y i = Some w /\ w == v * s + m.
(** What the user's action is to the microgrid, and what the microgrid's values are to the user *)
Definition means_action (e : gym Q) (a b : list Q) : Prop :=
  match gy_stds e with Some s => moved_back (st_mean s) (st_std s) a b | None => b = a end.
Definition means_values (e : gym Q) (v : dict (cell Q)) (o : list (cell Q)) : Prop :=
  match gy_stds e with
  | Some s => exists y, moved (st_obs_mean s) (st_obs_std s) (map snd v) y /\ o = map CNum y
  | None => o = map snd v
  end.
(** Standard deviations are at least one. *)
Definition stds_ok (s : stds Q) : Prop :=
  Forall (fun x => 1 <= x) (st_std s) /\ Forall (fun x => 1 <= x) (st_obs_std s)
  /\ length (st_mean s) = length (st_std s) /\ length (st_obs_mean s) = length (st_obs_std s).

(** ** Episodes *)

(** Steps that return, one after the other, and what they return *)
Inductive gym_plays : gym Q -> list (list Q) -> list (list (cell Q) * Q * bool) -> gym Q -> Prop :=
| GPnil e : gym_plays e [] [] e
| GPcons e a e1 o l os e2 : gym_step a e = (e1, Ok o) -> gym_plays e1 l os e2 -> gym_plays e (a :: l) (o :: os) e2.
(** Steps were made only until the episode was over. *)
Definition until_done (os : list (list (cell Q) * Q * bool)) : Prop := Forall (fun o => snd o = false) (removelast os).
(** The episode from here is over after exactly [k] steps. *)
Definition lasts (e : gym Q) (k : Z) : Prop :=
  forall l os e', gym_plays e l os e' -> until_done os ->
    (Z.of_nat (length l) <= k)%Z
    /\ (existsb (fun o => snd o) os = true <-> Z.of_nat (length l) = k).
(** The rows that a reset returns to *)
Definition year (g : nonmod Q) : Prop := data_length (nm_default g) g = 8760%Z.
(** The length of the episodes *)
Definition steps_of (trajectory : option Z) (horizon : Z) : Z :=
  match trajectory with
  | None => if (horizon =? 0)%Z then 8760%Z else (8760 - horizon + 1)%Z
  | Some n => if (horizon =? 0)%Z then n else (n + 1)%Z
  end.

(** ** Constraints *)

(** The environment gives this value under this name. *)
Definition shows_value (e : gym Q) (k : string) (x : Q) : Prop := get_values [k] e = (e, Ok [CNum x]).
(** What the constraints are about: the latest action and the latest observation *)
Definition satisfied (e : gym Q) (tolerance : Q) : Prop :=
  let g := gy_grid e in
  exists charge discharge room room' import export status soc mi me smin smax,
    shows_value e "battery_charge" charge /\ shows_value e "battery_discharge" discharge
    /\ shows_value e "capa_to_charge" room /\ shows_value e "capa_to_discharge" room'
    /\ shows_value e "grid_import" import /\ shows_value e "grid_export" export /\ shows_value e "grid_status" status
    /\ shows_value e "battery_soc" soc
    /\ parameter g "grid_power_import" mi /\ parameter g "grid_power_export" me
    /\ parameter g "battery_soc_min" smin /\ parameter g "battery_soc_max" smax
    /\ charge <= room /\ discharge <= room' /\ import <= mi * status /\ export <= me * status /\ smin <= soc <= smax
    /\ (has_genset (nm_arch g) = true ->
        exists p rated pmin pmax, shows_value e "genset" p /\ parameter g "genset_rated_power" rated
          /\ parameter g "genset_pmin" pmin /\ parameter g "genset_pmax" pmax
          /\ ((p < 1 /\ - p <= tolerance) \/ (1 <= p /\ rated * pmin <= p <= rated * pmax))).
(** The supply of the latest action less the demand *)
Definition imbalance (e : gym Q) (x : Q) : Prop :=
  exists import export charge discharge gen load pv,
    shows_value e "grid_import" import /\ shows_value e "grid_export" export
    /\ shows_value e "battery_charge" charge /\ shows_value e "battery_discharge" discharge
    /\ (if has_genset (nm_arch (gy_grid e)) then shows_value e "genset" gen else gen = 0)
    /\ shows_value e "load" load /\ shows_value e "pv_consummed" pv
    /\ x == (import + discharge + gen + pv) - (load + export + charge).
(** The scales are positive. *)
Definition scales_ok (g : nonmod Q) : Prop :=
  forall k x, In k ["battery_capacity"; "grid_power_import"; "grid_power_export"; "battery_soc_min"; "battery_soc_max";
                    "genset_rated_power"; "genset_pmin"; "genset_pmax"] -> parameter g k x -> 0 < x.

(** Within the bounds of the action space *)
Definition within_space (e : gym Q) (a : list Q) : Prop :=
  length a = length (gy_low e) /\ length a = length (gy_high e)
  /\ forall i x l h, nth_error a i = Some x -> nth_error (gy_low e) i = Some l -> nth_error (gy_high e) i = Some h -> l <= x <= h.
(** Cells with equal numbers *)
Definition same_cell (c d : cell Q) : Prop :=
  match c, d with CNum x, CNum y => x == y | _, _ => c = d end.

(** Reached by steps and resets that return *)
Inductive gym_reached (e0 : gym Q) : gym Q -> Prop :=
| GRnew : gym_reached e0 e0
| GRstep e a e' o : gym_reached e0 e -> gym_step a e = (e', Ok o) -> gym_reached e0 e'
| GRreset e start e' o : gym_reached e0 e -> gym_reset start e = (e', Ok o) -> gym_reached e0 e'.
(** The name of five actions in one string *)
Definition five_in_one : string := "grid_import, grid_export, battery_charge, battery_discharge, pv_consummed".
