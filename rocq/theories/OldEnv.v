(** * Model of _deprecated/Environments/Environment.py and Preprocessing.py

    Environments around non-modular microgrids.  What a subclass gives ([action_space],
    [get_action]) is a parameter: the microgrid and an action determine the control.  The
    three functions of the class that subclasses use are modelled as such.  (The subclasses in
    pymgrid_csda.py, pymgrid_cspla.py and pymgrid_csca_old.py import [pymgrid.Environments],
    which does not exist.)  Printed output, seeds and the checks of spaces, which only print, are
    not modelled; numpy is one that has [np.float] (before 1.24). *)

From Coq Require Import ZArith Bool String List.
From Verif Require Import Num Py NonModular.
Import ListNotations.
Local Open Scope string_scope.
Local Open Scope list_scope.
Local Open Scope py_scope.

Section OldEnv.
Context {T : Type} {N : NumOps T}.

(** ** Observations and rewards *)

(** [np.sin(2*np.pi*x)], [np.cos(2*np.pi*x)] and [x**0.5] *)
Variables turn_sin turn_cos root : T -> T.

(** [self.parameters.name] of a name that is no column *)
Definition par_attr (g : nonmod T) (key : string) : res T :=
  match dget key (nm_par g) with Some x => Ok x | None => raise AttributeError key end.
(** Preprocessing.py:3-25 [normalize_environment_states], for one column.  [values[0]] is the
    first row, so that the maximum is that of one value. *)
Definition scale_of (g : nonmod T) (key : string) : res T :=
  if String.eqb key "hour" then Ok (nofZ 24)
  else if String.eqb key "capa_to_charge" || String.eqb key "capa_to_discharge" then par_attr g "battery_capacity"
  else if String.eqb key "grid_status" || String.eqb key "battery_soc" then Ok n1
  else if String.eqb key "grid_co2" then iloc (nm_co2_ts g) 0
  else if String.eqb key "grid_price_import" then iloc (nm_import_ts g) 0
  else if String.eqb key "grid_price_export" then iloc (nm_import_ts g) 0
  else if String.eqb key "load" then par_attr g "load"
  else if String.eqb key "pv" then par_attr g "PV_rated_power"
  else dfind (nm_par g) key.
Definition normalization (g : nonmod T) : res (dict T) :=
  rmapM (fun kl => let? x := scale_of g (fst kl) in Ok (fst kl, x)) (nm_state g).

(** 200-213 [transition].  A division by zero, which gives infinity or NaN, is not modelled. *)
Definition transition (norm : dict T) (g : nonmod T) : res (list T) :=
  let? v := get_updated_values g in
  let? scaled := rmapM (fun kn => let? x := find_num v (fst kn) in Ok (fst kn, ndiv x (snd kn))) norm in
  let? h := dfind scaled "hour" in
  Ok (map snd (dremove "hour" scaled) ++ [turn_sin h; turn_cos h]).

(** The root of a negative number is complex or NaN. *)
Inductive reward := Reward (x : T) | NoReal.
(** 108-114 [get_reward].  A division by a load of zero is not modelled. *)
Definition get_reward (train : bool) (smoothing : string) (g : nonmod T) : res reward :=
  let? c := (let? c := get_cost g in num c) in
  if train && String.eqb smoothing "sqrt" then Ok (if nltb c n0 then NoReal else Reward (nopp (root c)))
  else if train && String.eqb smoothing "peak_load" then
    let? l := dfind (nm_par g) "load" in Ok (Reward (ndiv (nopp c) l))
  else Ok (Reward (nopp c)).
(** 116-117 [get_cost] of the environment: the sum of a column *)
Definition env_get_cost (g : nonmod T) : res T :=
  let? l := dfind (nm_cost g) "cost" in
  let? xs := rmapM num l in Ok (nsum xs).

(** ** The environment *)

Record old_env := mkOldEnv {
  oe_grid : nonmod T;
  oe_norm : dict T;               (* states_normalization *)
  oe_train : bool;                (* TRAIN *)
  oe_smoothing : string;          (* training_reward_smoothing *)
  oe_resample : bool;             (* resampling_on_reset *)
  oe_testing : option bool;       (* env_config['testing'] *)
  oe_state : list T; oe_reward : reward; oe_done : bool; oe_round : Z
}.
Definition set_grid (g : nonmod T) (e : old_env) : old_env :=
  mkOldEnv g (oe_norm e) (oe_train e) (oe_smoothing e) (oe_resample e) (oe_testing e) (oe_state e) (oe_reward e)
    (oe_done e) (oe_round e).
Definition set_train (b : bool) (e : old_env) : old_env :=
  mkOldEnv (oe_grid e) (oe_norm e) b (oe_smoothing e) (oe_resample e) (oe_testing e) (oe_state e) (oe_reward e)
    (oe_done e) (oe_round e).
Definition set_result (s : list T) (r : reward) (d : bool) (round : Z) (e : old_env) : old_env :=
  mkOldEnv (oe_grid e) (oe_norm e) (oe_train e) (oe_smoothing e) (oe_resample e) (oe_testing e) s r d round.
Definition on_env_grid {A} (f : M (nonmod T) A) : M old_env A :=
  fun e => let '(g, x) := f (oe_grid e) in (set_grid g e, x).

(** 159-174 [reset].  There is no attribute [sampling_args]. *)
Definition env_reset (testing : bool) : M old_env (list T) :=
  e <- mget ;;
  let testing := match oe_testing e with Some b => b | None => testing end in
  mmodify (fun e => set_result (oe_state e) (oe_reward e) (oe_done e) 1 e) ;;
  on_env_grid (nm_reset testing) ;;
  (if testing then mmodify (set_train false)
   else if oe_resample e then mraise AttributeError "'Environment' object has no attribute 'sampling_args'"
   else mret tt) ;;
  e <- mget ;;
  s <- mlift (transition (oe_norm e) (oe_grid e)) ;;
  mmodify (fun e => set_result s (Reward n0) false (oe_round e) e) ;;
  mret s.

(** 57-106 [__init__]: the microgrid that is passed is the one that is used.  [limit] is the
    row at which it is split (train_test_split); [sampler] is the outcome of making the forecasts
    for the resampling. *)
Definition new_old_env (limit : nat) (smoothing : option string) (resample : option bool) (sampler : res unit)
    (testing : option bool) : M (nonmod T) old_env :=
  g <- mget ;;
  norm <- mlift (normalization g) ;;
  train_test_split limit false ;;
  let resample := match resample with Some b => b | None => false end in
  (if resample then mlift sampler else mret tt) ;;
  fun g =>
    let e := mkOldEnv g norm true (match smoothing with Some s => s | None => "sqrt" end) resample testing []
               (Reward n0) false 0 in
    match env_reset false e with
    | (e', Ok _) => (oe_grid e', Ok e')
    | (e', Err x) => (oe_grid e', Err x)
    end.

(** 121-148 [step].  Once the episode is over the last results are returned. *)
Definition env_step {A} (control_of : nonmod T -> A -> res (dict T)) (a : A) : M old_env (list T * reward * bool) :=
  e <- mget ;;
  if oe_done e then mret (oe_state e, oe_reward e, oe_done e)
  else
    c <- mlift (control_of (oe_grid e) a) ;;
    on_env_grid (nm_run c) ;;
    e <- mget ;;
    s <- mlift (transition (oe_norm e) (oe_grid e)) ;;
    mmodify (fun e => set_result s (oe_reward e) (oe_done e) (oe_round e) e) ;;
    r <- mlift (get_reward (oe_train e) (oe_smoothing e) (oe_grid e)) ;;
    let d := nm_done (oe_grid e) in
    mmodify (fun e => set_result s r d (oe_round e + 1) e) ;;
    mret (s, r, d).

(** ** Actions *)

Definition at_index (a : list T) (i : nat) : res T :=
  match nth_error a i with Some x => Ok x | None => raise IndexError "index out of bounds" end.
Definition min3 (a b c : T) : T := nmin (nmin a b) c.

(** [mg.battery.capa_to_charge], [p_charge_max], [capa_to_discharge], [p_discharge_max].  (The
    battery object is made from the parameters.) *)
Definition battery_rooms (g : nonmod T) : res (T * T * T * T) :=
  if has_battery (nm_arch g) then
    let? cc := num (bv_charge (nm_battery g)) in
    let? pc := dfind (nm_par g) "battery_power_charge" in
    let? cd := num (bv_discharge (nm_battery g)) in
    let? pd := dfind (nm_par g) "battery_power_discharge" in
    Ok (cc, pc, cd, pd)
  else raise AttributeError "battery".

(** 224-275 [get_action_continuous] *)
Definition action_continuous (g : nonmod T) (a : list T) : res (dict T) :=
  let par := nm_par g in
  let? b := battery_rooms g in
  let '(cc, pc, cd, pd) := b in
  let? x := at_index a 0 in
  let? y := at_index a 1 in
  let? cap := dfind par "battery_capacity" in
  let bat := [("battery_charge", nmax n0 (nmul x (min3 (nmul y cap) cc pc)));
              ("battery_discharge", nmax n0 (nmul (nsub n1 x) (min3 (nmul y cap) cd pd)))] in
  let? gr := (if has_grid (nm_arch g) then
                if neqb (now_status (nm_now g)) n1 then
                  let? x := at_index a 2 in
                  let? y := at_index a 3 in
                  let? mi := dfind par "grid_power_import" in
                  let? me := dfind par "grid_power_export" in
                  Ok [("grid_import", nmax n0 (nmul x (nmin (nmul y mi) mi)));
                      ("grid_export", nmax n0 (nmul (nsub n1 x) (nmin (nmul y me) me)))]
                else Ok [("grid_import", n0); ("grid_export", n0)]
              else Ok []) in
  let? ge := (if has_genset (nm_arch g) then
                let? x := at_index a 4 in
                let? y := at_index a 5 in
                let? rated := dfind par "genset_rated_power" in
                Ok [("genset", nmax n0 (nmul x (nmin (nmul y rated) rated)))]
              else Ok []) in
  Ok (bat ++ gr ++ ge).

(** 277-312 [get_action_discrete] *)
Definition action_discrete (g : nonmod T) (a : list T) : res (dict T) :=
  let ar := nm_arch g in
  let grid (i : nat) :=
    let? x := at_index a i in
    let? s := at_index a (i + 2) in
    let? y := at_index a (i + 1) in
    Ok [("grid_import", nmul x s); ("grid_export", nmul y (nsub n1 s))] in
  let? p := at_index a 0 in
  let? bat := (if has_battery ar then
                 let? x := at_index a 1 in
                 let? s := at_index a 3 in
                 let? y := at_index a 2 in
                 Ok [("battery_charge", nmul x s); ("battery_discharge", nmul y (nsub n1 s))]
               else Ok []) in
  let? rest := (if has_genset ar then
                  let? x := at_index a 4 in
                  let? gr := (if has_grid ar then grid 5%nat else Ok []) in
                  Ok (("genset", x) :: gr)
                else if has_grid ar then grid 4%nat else Ok []) in
  Ok (("pv_consumed", p) :: bat ++ rest).

Definition control_dict (pv charge discharge import export genset : T) : dict T :=
  [("pv_consummed", pv); ("battery_charge", charge); ("battery_discharge", discharge); ("grid_import", import);
   ("grid_export", export); ("genset", genset)].
(** 315-347: [control_dict] is not bound for other numbers. *)
Definition no_choice : res (dict T) := raise NameError "local variable 'control_dict' referenced before assignment".

(** 361-432 [action_grid] *)
Definition action_grid (g : nonmod T) (k : Z) : res (dict T) :=
  let pv := now_pv (nm_now g) in
  let load := now_load (nm_now g) in
  let net := nsub load pv in
  let? b := battery_rooms g in
  let '(cc, pc, cd, pd) := b in
  let from_pv := nmax n0 (min3 (nopp net) cc pc) in
  let from_grid := nmax n0 (nmin cc pc) in
  let discharge := nmax n0 (min3 net cd pd) in
  if Z.eqb k 0 then Ok (control_dict (nmin pv load) from_pv n0 n0 (nmax n0 (nsub (nsub pv (nmin pv load)) from_pv)) n0)
  else if Z.eqb k 4 then
    let load := nadd load from_grid in
    Ok (control_dict (nmin pv load) from_grid n0 (nmax n0 (nsub load (nmin pv load)))
          (nmax n0 (nsub (nsub pv (nmin pv load)) from_grid)) n0)
  else if Z.eqb k 1 then Ok (control_dict (nmin pv load) n0 discharge (nmax n0 (nsub (nsub load (nmin pv load)) discharge)) n0 n0)
  else if Z.eqb k 2 then Ok (control_dict (nmin pv load) n0 n0 (nmax n0 net) n0 n0)
  else if Z.eqb k 3 then Ok (control_dict (nmin pv load) n0 n0 n0 (nabs (nmin net n0)) n0)
  else no_choice.

(** 434-528 [action_grid_genset].  (What the genset can give is read, but not used.) *)
Definition action_grid_genset (g : nonmod T) (k : Z) : res (dict T) :=
  let pv := now_pv (nm_now g) in
  let load := now_load (nm_now g) in
  let net := nsub load pv in
  let status := now_status (nm_now g) in
  let? b := battery_rooms g in
  let '(cc, pc, cd, pd) := b in
  let from_pv := nmax n0 (min3 (nopp net) cc pc) in
  let from_grid := nmax n0 (nmin cc pc) in
  let discharge := nmax n0 (min3 net cd pd) in
  let? _ := dfind (nm_par g) "genset_rated_power" in
  let? _ := dfind (nm_par g) "genset_pmax" in
  if Z.eqb k 0
  then Ok (control_dict (nmin pv load) from_pv n0 n0 (nmul (nmax n0 (nsub (nsub pv (nmin pv load)) from_pv)) status) n0)
  else if Z.eqb k 5 then
    let load := nadd load from_grid in
    Ok (control_dict (nmin pv load) from_grid n0 (nmul (nmax n0 (nsub load (nmin pv load))) status)
          (nmul (nmax n0 (nsub (nsub pv (nmin pv load)) from_grid)) status) n0)
  else if Z.eqb k 1
  then Ok (control_dict (nmin pv load) n0 discharge (nmul (nmax n0 (nsub (nsub load (nmin pv load)) discharge)) status) n0 n0)
  else if Z.eqb k 2 then Ok (control_dict (nmin pv load) n0 n0 (nmul (nmax n0 net) status) n0 n0)
  else if Z.eqb k 3 then Ok (control_dict (nmin pv load) n0 n0 n0 (nmul (nabs (nmin net n0)) status) n0)
  else if Z.eqb k 4 then Ok (control_dict (nmin pv load) n0 n0 n0 n0 (nmax net n0))
  else if Z.eqb k 6
  then Ok (control_dict (nmin pv load) n0 discharge n0 n0 (nmax n0 (nsub (nsub load (nmin pv load)) discharge)))
  else no_choice.

(** 530-583 [action_genset] *)
Definition action_genset (g : nonmod T) (k : Z) : res (dict T) :=
  let pv := now_pv (nm_now g) in
  let load := now_load (nm_now g) in
  let net := nsub load pv in
  let? b := battery_rooms g in
  let '(cc, pc, cd, pd) := b in
  let charge := nmax n0 (min3 (nopp net) cc pc) in
  let discharge := nmax n0 (min3 net cd pd) in
  let? _ := dfind (nm_par g) "genset_rated_power" in
  let? _ := dfind (nm_par g) "genset_pmax" in
  if Z.eqb k 0 then Ok (control_dict (nmin pv load) charge n0 n0 n0 n0)
  else if Z.eqb k 1
  then Ok (control_dict (nmin pv load) n0 discharge n0 n0 (nmax n0 (nsub (nsub load (nmin pv load)) discharge)))
  else if Z.eqb k 2 then Ok (control_dict (nmin pv load) n0 n0 n0 n0 (nmax n0 (nsub load (nmin pv load))))
  else no_choice.

(** 315-359 [get_action_priority_list], [actions_agent_discret] *)
Definition action_priority (g : nonmod T) (k : Z) : res (dict T) :=
  let? _ := battery_rooms g in
  if has_genset (nm_arch g) && has_grid (nm_arch g) then action_grid_genset g k
  else if has_genset (nm_arch g) then action_genset g k
  else action_grid g k.
(** pymgrid_cspla.py:43-45: the number of choices *)
Definition choices (ar : arch) : Z :=
  2 + (if has_grid ar then 3 else 0) + (if has_genset ar then 1 else 0)
  + (if has_grid ar && has_genset ar then 1 else 0).

End OldEnv.

Arguments reward T : clear implicits.
Arguments old_env T : clear implicits.
