(** * Vocabulary for the properties of the environments of non-modular microgrids *)

From Coq Require Import ZArith QArith Qminmax Bool String List.
From Verif Require Import Num Py NonModular OldEnv Spec_NonModular.
Import ListNotations.
Local Open Scope string_scope.
Local Open Scope list_scope.
Local Open Scope Q_scope.

(** ** What the numbers of the priority list mean *)

Inductive intent :=
| ChargePv           (* the battery takes the PV that the load leaves, the rest is exported *)
| Discharge          (* the battery gives what the PV leaves of the load, the rest is imported *)
| Import | Export    (* what is missing is imported, what is left is exported *)
| Generate           (* the genset gives what is missing *)
| ChargeGrid         (* the battery takes all it can, what is missing is imported *)
| DischargeGenerate. (* the battery gives what is missing, the genset the rest *)

(** Index in a list *)
Definition nth_intent (l : list intent) (k : Z) : option intent := if (k <? 0)%Z then None else nth_error l (Z.to_nat k).
Definition meaning (ar : arch) (k : Z) : option intent :=
  nth_intent
    (if has_genset ar then
       if has_grid ar then [ChargePv; Discharge; Import; Export; Generate; ChargeGrid; DischargeGenerate]
       else [ChargePv; DischargeGenerate; Generate]
     else [ChargePv; Discharge; Import; Export; ChargeGrid]) k.

(** What the microgrid shows as possible for the battery *)
Definition can_charge (g : nonmod Q) (x : Q) : Prop :=
  exists room power, bv_charge (nm_battery g) = CNum room /\ parameter g "battery_power_charge" power
    /\ x == Qmax 0 (Qmin room power).
Definition can_discharge (g : nonmod Q) (x : Q) : Prop :=
  exists room power, bv_discharge (nm_battery g) = CNum room /\ parameter g "battery_power_discharge" power
    /\ x == Qmax 0 (Qmin room power).

(** The amounts of a control *)
Record amounts := mkAmounts { am_charge : Q; am_discharge : Q; am_import : Q; am_export : Q; am_genset : Q }.
Definition controls (c : dict Q) (a : amounts) : Prop :=
  dget "battery_charge" c = Some (am_charge a) /\ dget "battery_discharge" c = Some (am_discharge a)
  /\ dget "grid_import" c = Some (am_import a) /\ dget "grid_export" c = Some (am_export a)
  /\ dget "genset" c = Some (am_genset a).

(** What is missing and what is left, of the load and the PV *)
Definition missing (g : nonmod Q) : Q := Qmax 0 (now_load (nm_now g) - now_pv (nm_now g)).
Definition left_over (g : nonmod Q) : Q := Qmax 0 (now_pv (nm_now g) - now_load (nm_now g)).
(** Only with a genset do the choices know whether the grid is there. *)
Definition line (g : nonmod Q) : Q := if has_genset (nm_arch g) then now_status (nm_now g) else 1.

(** The amounts that a choice stands for: [c], [d] what the battery can take and give.  With
    [ChargeGrid] the PV left over is exported only as far as it exceeds the charge twice. *)
Definition asks (g : nonmod Q) (i : intent) (c d : Q) (a : amounts) : Prop :=
  let m := missing g in
  let l := left_over g in
  let s := if has_grid (nm_arch g) || negb (has_genset (nm_arch g)) then line g else 0 in
  let net := now_load (nm_now g) - now_pv (nm_now g) in
  match i with
  | ChargePv => am_charge a == Qmin c l /\ am_discharge a == 0 /\ am_import a == 0
                /\ am_export a == (l - am_charge a) * s /\ am_genset a == 0
  | Discharge => am_charge a == 0 /\ am_discharge a == Qmin d m /\ am_import a == (m - am_discharge a) * s
                 /\ am_export a == 0 /\ am_genset a == 0
  | Import => am_charge a == 0 /\ am_discharge a == 0 /\ am_import a == m * s /\ am_export a == 0 /\ am_genset a == 0
  | Export => am_charge a == 0 /\ am_discharge a == 0 /\ am_import a == 0 /\ am_export a == l * s /\ am_genset a == 0
  | Generate => am_charge a == 0 /\ am_discharge a == 0 /\ am_import a == 0 /\ am_export a == 0 /\ am_genset a == m
  | ChargeGrid => am_charge a == c /\ am_discharge a == 0 /\ am_import a == Qmax 0 (net + c) * s
                  /\ am_export a == Qmax 0 (- net - 2 * c) * s /\ am_genset a == 0
  | DischargeGenerate => am_charge a == 0 /\ am_discharge a == Qmin d m /\ am_import a == 0 /\ am_export a == 0
                         /\ am_genset a == m - am_discharge a
  end.

(** The battery shows no more than its latest state of charge leaves. *)
Definition shows_room (g : nonmod Q) : Prop :=
  exists soc r room r' room', latest (nm_state g) "battery_soc" (CNum soc)
    /\ bv_charge (nm_battery g) = CNum r /\ charge_room g soc room /\ r <= room
    /\ bv_discharge (nm_battery g) = CNum r' /\ discharge_room g soc room' /\ r' <= room'.

(** No limit on power is negative. *)
Definition powers_ok (g : nonmod Q) : Prop :=
  forall k x, In k ["battery_power_charge"; "battery_power_discharge"; "grid_power_import"; "grid_power_export";
                    "genset_rated_power"; "genset_pmin"; "genset_pmax"] -> parameter g k x -> 0 <= x.

(** The grid or the genset can give what a choice asks of it. *)
Definition enough (g : nonmod Q) (i : intent) (a : amounts) : Prop :=
  match i with
  | Discharge | Import | ChargeGrid =>
      has_grid (nm_arch g) = true /\ line g == 1 /\ exists mi, parameter g "grid_power_import" mi /\ am_import a <= mi
  | Generate | DischargeGenerate =>
      exists rated pmax, parameter g "genset_rated_power" rated /\ parameter g "genset_pmax" pmax
        /\ am_genset a <= rated * pmax
  | ChargePv | Export => False
  end.
(** The grid can take what a choice gives it. *)
Definition taken (g : nonmod Q) (a : amounts) : Prop :=
  has_grid (nm_arch g) = true /\ line g == 1 /\ exists me, parameter g "grid_power_export" me /\ am_export a <= me.
(** The choices that use the genset *)
Definition generates (i : intent) : bool := match i with Generate | DischargeGenerate => true | _ => false end.

(** ** Episodes of an environment *)

Section Episodes.
Context {A : Type}.
Variables (turn_sin turn_cos root : Q -> Q).
Variable control_of : nonmod Q -> A -> res (dict Q).

(** Steps that return, one after the other, and what they return *)
Inductive env_plays : old_env Q -> list A -> list (list Q * reward Q * bool) -> old_env Q -> Prop :=
| EPnil e : env_plays e [] [] e
| EPcons e a e1 o l os e2 :
    env_step turn_sin turn_cos root control_of a e = (e1, Ok o) -> env_plays e1 l os e2 ->
    env_plays e (a :: l) (o :: os) e2.

(** Any calls, returned or not: the environment they leave *)
Inductive env_call := EStep (a : A) | EReset (testing : bool).
Definition env_do (c : env_call) (e : old_env Q) : old_env Q :=
  match c with
  | EStep a => fst (env_step turn_sin turn_cos root control_of a e)
  | EReset testing => fst (env_reset turn_sin turn_cos testing e)
  end.
Definition env_after (cs : list env_call) (e : old_env Q) : old_env Q := fold_left (fun e c => env_do c e) cs e.

(** Reached by calls from a new environment, around a microgrid reached by calls from a new one *)
Definition env_reached (sp : nm_spec Q) (g0 : nonmod Q) (e : old_env Q) : Prop :=
  exists h cs limit smoothing resample sampler testing g1 e0 ecs,
    new_nonmodular sp h = Ok g0 /\ Forall (proper (all_rows g0)) cs /\ (0 < limit < all_rows g0)%nat
    /\ new_old_env turn_sin turn_cos limit smoothing resample sampler testing (nm_after cs g0) = (g1, Ok e0)
    /\ e = env_after ecs e0.

End Episodes.
Arguments env_call A : clear implicits.

(** The reward for a step that cost [cost] *)
Definition rewards (root : Q -> Q) (train : bool) (smoothing : string) (g : nonmod Q) (cost : Q) (r : reward Q) : Prop :=
  (train = true -> smoothing = "sqrt" -> (0 <= cost -> r = Reward (- root cost)) /\ (cost < 0 -> r = NoReal))
  /\ (train = true -> smoothing = "peak_load" -> exists peak, parameter g "load" peak /\ r = Reward (- cost / peak))
  /\ (train = false \/ smoothing <> "sqrt" /\ smoothing <> "peak_load" -> r = Reward (- cost)).

(** Only the last of these results says that the episode is over, if any does. *)
Definition live (os : list (list Q * reward Q * bool)) : Prop := Forall (fun o => snd o = false) (removelast os).

(** What a column of the record of states is divided by *)
Definition scale (g : nonmod Q) (k : string) (x : Q) : Prop :=
  (k = "hour" -> x = 24)
  /\ (In k ["capa_to_charge"; "capa_to_discharge"] -> parameter g "battery_capacity" x)
  /\ (In k ["grid_status"; "battery_soc"] -> x = 1)
  /\ (k = "grid_co2" -> nth_error (nm_co2_ts g) 0 = Some x)
  /\ (In k ["grid_price_import"; "grid_price_export"] -> nth_error (nm_import_ts g) 0 = Some x)
  /\ (k = "load" -> parameter g "load" x)
  /\ (k = "pv" -> parameter g "PV_rated_power" x).

(** What an observation shows of the values [v] of the columns of the record of states, in
    their order: each divided by its scale; the hour at the end, as a point on a circle *)
Definition displays (turn_sin turn_cos : Q -> Q) (norm : dict Q) (v : dict (cell Q)) (obs : list Q) : Prop :=
  exists xs x s, obs = xs ++ [turn_sin (x / s); turn_cos (x / s)]
    /\ dget "hour" v = Some (CNum x) /\ dget "hour" norm = Some s
    /\ Forall2 (fun kn y => exists z, dget (fst kn) v = Some (CNum z) /\ y = z / snd kn)
         (dremove "hour" norm) xs.

(** ** Actions in fractions and in amounts *)

Definition fractions (l : list Q) : Prop := Forall (fun x => 0 <= x <= 1) l.
(** The control asks for an amount from 0 to [limit] under [k]. *)
Definition asks_within (control : dict Q) (k : string) (limit : Q) : Prop :=
  exists x, dget k control = Some x /\ 0 <= x <= limit.
(** The control asks for [y] under [k]. *)
Definition asks_for (control : dict Q) (k : string) (y : Q) : Prop := exists x, dget k control = Some x /\ x == y.
(** The control follows a switch: all of [x] under [k] if it is on, all of [y] under [k'] if it is off. *)
Definition switched (control : dict Q) (k k' : string) (x y switch : Q) : Prop :=
  exists u w, dget k control = Some u /\ dget k' control = Some w
    /\ (switch == 1 -> u == x /\ w == 0) /\ (switch == 0 -> u == 0 /\ w == y).
