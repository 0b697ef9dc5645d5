(** * src/pymgrid/modules: the six module classes and their base classes *)

From Coq Require Import ZArith Bool String List.
From Verif Require Import Num Py Space Logger Forecast.
Import ListNotations.
Local Open Scope string_scope.
Local Open Scope list_scope.
Local Open Scope py_scope.

Section Module.
Context {T : Type} `{NumOps T}.

(** An energy limit: a number, [np.inf] (unbalanced_energy_module.py:95-101) or
    [NotImplemented] (base_module.py:621-649). *)
Inductive bound := BFin (x : T) | BInf | BNone.

(** [x > bound], [x < bound]; comparing with NotImplemented raises TypeError. *)
Definition gt_bound (x : T) (b : bound) : res bool :=
  match b with
  | BFin y => Ok (nltb y x)
  | BInf => Ok false
  | BNone => raise TypeError "'>' not supported with NotImplementedType"
  end.
Definition lt_bound (x : T) (b : bound) : res bool :=
  match b with
  | BFin y => Ok (nltb x y)
  | BInf => Ok true
  | BNone => raise TypeError "'<' not supported with NotImplementedType"
  end.

(** Third component of [module_type]. *)
Inductive mtype := Fixed | Flex | Controllable.
Definition is_fixed (t : mtype) : bool := match t with Fixed => true | _ => false end.

(** ** battery_module.py *)

(** battery_module.py:191-242 [transition_kwargs] *)
Record trans_args := mkTransArgs {
  ta_min_capacity : T; ta_max_capacity : T;
  ta_max_charge : T; ta_max_discharge : T;
  ta_efficiency : T; ta_cost_cycle : T;
  ta_max_production : T; ta_max_consumption : T;
  ta_soc : T; ta_charge : T
}.

(** battery_module.py:66-94.  A user [battery_transition_model] is an arbitrary
    pure function. *)
Record battery := mkBattery {
  b_min_capacity : T;
  b_max_capacity : T;
  b_max_charge : T;
  b_max_discharge : T;
  b_efficiency : T;
  b_cost_cycle : T;
  b_model : option (trans_args -> T -> T);
  b_min_soc : T;
  b_init_charge : option T;
  b_init_soc : option T;
  b_charge : T;
  b_soc : T
}.

(** battery_module.py:283-291 *)
Definition battery_max_production (b : battery) : T :=
  nmul (nmin (b_max_discharge b) (nsub (b_charge b) (b_min_capacity b))) (b_efficiency b).
Definition battery_max_consumption (b : battery) : T :=
  ndiv (nmin (b_max_charge b) (nsub (b_max_capacity b) (b_charge b))) (b_efficiency b).

(** battery_module.py:233-242 *)
Definition transition_kwargs (b : battery) : trans_args :=
  mkTransArgs (b_min_capacity b) (b_max_capacity b) (b_max_charge b) (b_max_discharge b)
              (b_efficiency b) (b_cost_cycle b)
              (battery_max_production b) (battery_max_consumption b)
              (b_soc b) (b_charge b).

(** battery_module.py:244-278 [default_transition_model] *)
Definition default_transition_model (external efficiency : T) : T :=
  if nltb external n0 then ndiv external efficiency else nmul external efficiency.

(** battery_module.py:187-189 [model_transition] *)
Definition model_transition (b : battery) (energy : T) : T :=
  match b_model b with
  | None => default_transition_model energy (b_efficiency b)
  | Some f => f (transition_kwargs b) energy
  end.

(** battery_module.py:147 [get_cost] *)
Definition battery_cost (b : battery) (energy_change : T) : T :=
  nmul (nabs energy_change) (b_cost_cycle b).

Definition set_charge (b : battery) (c s : T) : battery :=
  mkBattery (b_min_capacity b) (b_max_capacity b) (b_max_charge b) (b_max_discharge b)
            (b_efficiency b) (b_cost_cycle b) (b_model b) (b_min_soc b)
            (b_init_charge b) (b_init_soc b) c s.

(** battery_module.py:96-106 [_init_battery]; Python float division by zero
    raises. *)
Definition init_battery (max_capacity : T) (init_charge init_soc : option T) : res (T * T) :=
  match init_charge, init_soc with
  | Some c, _ => if neqb max_capacity n0 then raise ZeroDivisionError "division by zero"
                 else Ok (c, ndiv c max_capacity)
  | None, Some s => Ok (nmul s max_capacity, s)
  | None, None => raise ValueError "Must set one of init_charge and init_soc."
  end.

(** battery_module.py:125-130 [_update_state] *)
Definition battery_update_state (energy_change : T) : M battery unit :=
  fun b =>
    let c := nadd (b_charge b) energy_change in
    if nltb c (b_min_capacity b) then
      if isclose c (b_min_capacity b)
      then (set_charge b (b_min_capacity b) (ndiv (b_min_capacity b) (b_max_capacity b)), Ok tt)
      else (set_charge b c (b_soc b), raise AssertionError "isclose(charge, min_capacity)")
    else (set_charge b c (ndiv c (b_max_capacity b)), Ok tt).

Definition info := list (string * T).

(** battery_module.py:108-123 [update] *)
Definition battery_update (energy : T) (as_source : bool) : M battery (T * bool * info) :=
  if as_source then
    b <- mget ;;
    let internal := model_transition b (nmul (nopp n1) energy) in
    massert (nleb internal n0) "internal_energy_change <= 0" ;;
    battery_update_state internal ;;
    mret (nmul (nopp n1) (battery_cost b internal), false, [("provided_energy", energy)])
  else
    b <- mget ;;
    let internal := model_transition b energy in
    massert (nleb n0 internal) "internal_energy_change >= 0" ;;
    battery_update_state internal ;;
    mret (nmul (nopp n1) (battery_cost b internal), false, [("absorbed_energy", energy)]).

(** ** genset_module.py *)

(** genset_cost: a number or a callable (genset_module.py:183-186). *)
Inductive fuel_cost := FuelLin (c : T) | FuelFn (f : T -> T).

(** genset_module.py:61-98.  The statuses 0/1 are booleans, the times integers. *)
Record genset := mkGenset {
  g_min_prod : T;
  g_max_prod : T;
  g_cost : fuel_cost;
  g_co2_per_unit : T;
  g_cost_co2 : T;
  g_start_up : Z;
  g_wind_down : Z;
  g_allow_abortion : bool;
  g_init_start_up : bool;
  g_status : bool;
  g_goal : bool;
  g_until_up : Z;
  g_until_down : Z
}.

Definition set_genset (g : genset) (status goal : bool) (up down : Z) : genset :=
  mkGenset (g_min_prod g) (g_max_prod g) (g_cost g) (g_co2_per_unit g) (g_cost_co2 g)
           (g_start_up g) (g_wind_down g) (g_allow_abortion g) (g_init_start_up g)
           status goal up down.

(** genset_module.py:216-227 [_reset_up_down_times] *)
Definition reset_up_down_times : M genset unit :=
  fun g =>
    if negb (Bool.eqb (g_goal g) (g_status g))
    then (g, raise RuntimeError "Attempting to reset up and down times")
    else if g_status g
    then (set_genset g (g_status g) (g_goal g) 0 (g_wind_down g), Ok tt)
    else (set_genset g (g_status g) (g_goal g) (g_start_up g) 0, Ok tt).

(** genset_module.py:229-233 [_update_up_down_times] *)
Definition update_up_down_times : M genset unit :=
  fun g =>
    if negb (g_goal g)
    then (set_genset g (g_status g) (g_goal g) (g_until_up g) (g_until_down g - 1), Ok tt)
    else (set_genset g (g_status g) (g_goal g) (g_until_up g - 1) (g_until_down g), Ok tt).

(** genset_module.py:377-390 [next_status] *)
Definition next_status (g : genset) (goal : bool) : bool :=
  if goal then g_status g || (g_until_up g =? 0)%Z
  else g_status g && negb (g_until_down g =? 0)%Z.

(** genset_module.py:302-311 [_finish_in_progress_change] *)
Definition finish_in_progress_change : M genset bool :=
  fun g =>
    if (g_until_up g =? 0)%Z && g_goal g then
      (mmodify (fun g => set_genset g true (g_goal g) (g_until_up g) (g_until_down g)) ;;
       reset_up_down_times ;; mret true) g
    else if (g_until_down g =? 0)%Z && negb (g_goal g) then
      (mmodify (fun g => set_genset g false (g_goal g) (g_until_up g) (g_until_down g)) ;;
       reset_up_down_times ;; mret true) g
    else (g, Ok false).

Definition set_goal (goal : bool) : M genset unit :=
  mmodify (fun g => set_genset g (g_status g) goal (g_until_up g) (g_until_down g)).

(** genset_module.py:327-346 [_non_instantaneous_update] *)
Definition non_instantaneous_update (goal : bool) : M genset unit :=
  g <- mget ;;
  (if Bool.eqb goal (g_status g) && negb (Bool.eqb (g_status g) (g_goal g)) && g_allow_abortion g
   then set_goal goal ;; reset_up_down_times
   else if Bool.eqb (g_status g) (g_goal g) && negb (Bool.eqb (g_goal g) goal)
   then reset_up_down_times ;; set_goal goal
   else mret tt) ;;
  g <- mget ;;
  if negb (Bool.eqb (g_goal g) (g_status g)) then
    (if g_goal g then massert (0 <? g_until_up g)%Z "steps_until_up > 0"
     else massert (0 <? g_until_down g)%Z "steps_until_down > 0") ;;
    update_up_down_times
  else mret tt.

(** Python's [round] on a number of [0,1]: half rounds to even, i.e. 0.5 to 0. *)
Definition round01 (x : T) : bool := nltb (nfrac 1 2) x.

(** genset_module.py:276-300 [update_status] *)
Definition update_status (goal_value : T) : M genset unit :=
  g <- mget ;;
  massert ((0 <=? g_until_down g)%Z && (0 <=? g_until_up g)%Z) "steps_until >= 0" ;;
  if negb (nleb n0 goal_value && nleb goal_value n1)
  then mraise ValueError "Invalid goal_status value"
  else
    let goal := round01 goal_value in
    let prediction := next_status g goal in
    if Bool.eqb goal (g_status g) && Bool.eqb (g_status g) (g_goal g)
    then massert ((g_until_down g =? 0)%Z || (g_until_up g =? 0)%Z) "equilibrium"
    else
      let instant_up := (g_start_up g =? 0)%Z && goal in
      let instant_down := (g_wind_down g =? 0)%Z && negb goal in
      (if negb (Bool.eqb goal (g_goal g)) && (g_allow_abortion g || instant_up || instant_down)
       then set_goal goal else mret tt) ;;
      finished <- finish_in_progress_change ;;
      (if finished then mret tt else non_instantaneous_update goal) ;;
      g' <- mget ;;
      if Bool.eqb (g_status g') prediction then mret tt
      else mraise ValueError "self.next_status working incorrectly.".

(** [status * x] with an integer status (genset_module.py:407, 424, 482, 501) *)
Definition times_status (s : bool) (x : T) : T := nmul (if s then n1 else n0) x.
Definition genset_max_production (g : genset) : T := times_status (g_status g) (g_max_prod g).
Definition genset_min_production (g : genset) : T := times_status (g_status g) (g_min_prod g).
Definition next_max_production (g : genset) (goal : bool) : T :=
  times_status (next_status g goal) (g_max_prod g).
Definition next_min_production (g : genset) (goal : bool) : T :=
  times_status (next_status g goal) (g_min_prod g).

(** genset_module.py:165, 181, 183-186, 205 *)
Definition genset_co2 (g : genset) (p : T) : T := nmul (g_co2_per_unit g) p.
Definition genset_co2_cost (g : genset) (p : T) : T := nmul (g_cost_co2 g) (genset_co2 g p).
Definition genset_fuel_cost (g : genset) (p : T) : T :=
  match g_cost g with FuelLin c => nmul c p | FuelFn f => f p end.
Definition genset_get_cost (g : genset) (p : T) : T :=
  nadd (genset_fuel_cost g p) (genset_co2_cost g p).

(** genset_module.py:207-214 [update] *)
Definition genset_update (energy : T) (as_source : bool) : M genset (T * bool * info) :=
  massert as_source "This module may only act as a source." ;;
  g <- mget ;;
  mret (nmul (nopp n1) (genset_get_cost g energy), false,
        [("provided_energy", energy); ("co2_production", genset_co2 g energy)]).

(** ** base_timeseries_module.py *)

(** Attributes of BaseTimeSeriesMicrogridModule (22-56).
    [ts_minobs]/[ts_maxobs] are [_min_obs]/[_max_obs] (one entry per column). *)
Record tsdata := mkTs {
  ts_rows : list (list T);
  ts_comps : list string;
  ts_minobs : list T;
  ts_maxobs : list T;
  ts_final : Z;
  ts_fparam : fparam T;
  ts_horizon : nat;
  ts_fc : forecaster T;
  ts_keys_cur : list string;
  ts_keys_fc : list string;
  ts_cur_fc : option (list (list T))
}.

Definition ts_set_rows (t : tsdata) (rows : list (list T)) : tsdata :=
  mkTs rows (ts_comps t) (ts_minobs t) (ts_maxobs t) (ts_final t) (ts_fparam t)
       (ts_horizon t) (ts_fc t) (ts_keys_cur t) (ts_keys_fc t) (ts_cur_fc t).
Definition ts_set_bounds (t : tsdata) (lo hi : list T) : tsdata :=
  mkTs (ts_rows t) (ts_comps t) lo hi (ts_final t) (ts_fparam t)
       (ts_horizon t) (ts_fc t) (ts_keys_cur t) (ts_keys_fc t) (ts_cur_fc t).
Definition ts_set_final (t : tsdata) (f : Z) : tsdata :=
  mkTs (ts_rows t) (ts_comps t) (ts_minobs t) (ts_maxobs t) f (ts_fparam t)
       (ts_horizon t) (ts_fc t) (ts_keys_cur t) (ts_keys_fc t) (ts_cur_fc t).
Definition ts_set_fc (t : tsdata) (fc : forecaster T) : tsdata :=
  mkTs (ts_rows t) (ts_comps t) (ts_minobs t) (ts_maxobs t) (ts_final t) (ts_fparam t)
       (ts_horizon t) fc (ts_keys_cur t) (ts_keys_fc t) (ts_cur_fc t).
Definition ts_set_cur_fc (t : tsdata) (f : option (list (list T))) : tsdata :=
  mkTs (ts_rows t) (ts_comps t) (ts_minobs t) (ts_maxobs t) (ts_final t) (ts_fparam t)
       (ts_horizon t) (ts_fc t) (ts_keys_cur t) (ts_keys_fc t) f.
Definition ts_set_horizon (t : tsdata) (h : nat) (keys : list string) : tsdata :=
  mkTs (ts_rows t) (ts_comps t) (ts_minobs t) (ts_maxobs t) (ts_final t) (ts_fparam t)
       h (ts_fc t) (ts_keys_cur t) keys (ts_cur_fc t).

Definition fc_with_kind (fc : forecaster T) (k : fkind T) : forecaster T :=
  mkForecaster k (fc_obs fc) (fc_rows fc) (fc_cols fc) (fc_low fc) (fc_high fc) (fc_fill fc).

(** base_timeseries_module.py:58-66 [_set_time_series] without the sign check:
    a one-dimensional series is a list of one-entry rows here; numpy refuses
    ragged input.  Not modelled: a load or renewable series with more columns
    than the module has state components (accepted by the code, fails later). *)
Definition rectangular (rows : list (list T)) : bool :=
  match rows with
  | [] => true
  | r :: _ => forallb (fun r' => Nat.eqb (length r') (length r)) rows
  end.

(** base_timeseries_module.py:68-79 [_sign_check] *)
Definition sign_check (is_source is_sink : bool) (rows : list (list T)) : res (list (list T)) :=
  if is_source && is_sink then Ok rows
  else if negb (forallb (forallb (fun x => nleb x n0)) rows
                || forallb (forallb (fun x => nleb n0 x)) rows)
  then raise ValueError "time_series cannot contain both positive and negative values"
  else if is_source then Ok (map (map nabs) rows)
  else Ok (map (map (fun x => nopp (nabs x))) rows).

Definition set_time_series (is_source is_sink : bool) (rows : list (list T))
  : res (list (list T)) :=
  if rectangular rows then sign_check is_source is_sink rows
  else raise ValueError "inhomogeneous shape".

(** [np.min] / [np.max]; numpy raises on an empty array. *)
Definition list_min (l : list T) : res T :=
  match l with
  | [] => raise ValueError "zero-size array to reduction operation"
  | x :: l' => Ok (fold_left nmin l' x)
  end.
Definition list_max (l : list T) : res T :=
  match l with
  | [] => raise ValueError "zero-size array to reduction operation"
  | x :: l' => Ok (fold_left nmax l' x)
  end.

(** base_timeseries_module.py:81-88 [_get_bounds]: (min_obs, max_obs); the
    action bounds are the same pair. *)
Definition get_bounds1 (rows : list (list T)) : res (T * T) :=
  let? lo := list_min (concat rows) in
  let? hi := list_max (concat rows) in
  if nltb n0 lo then Ok (n0, hi)
  else if nltb hi n0 then Ok (lo, n0)
  else Ok (lo, hi).

(** Column-wise minimum / maximum (grid_module.py:126-127). *)
Definition ts_column (j : nat) (rows : list (list T)) : list T :=
  concat (map (fun r => match nth_error r j with Some x => [x] | None => [] end) rows).
Definition grid_bounds (cols : nat) (rows : list (list T)) : res (list T * list T) :=
  let? lo := rmapM (fun j => list_min (ts_column j rows)) (seq 0 cols) in
  let? hi := rmapM (fun j => list_max (ts_column j rows)) (seq 0 cols) in
  Ok (lo, hi).

(** base_timeseries_module.py:90-97 [_set_state_dict_keys] *)
Definition keys_current (comps : list string) : list string :=
  map (fun c => c ++ "_current")%string comps.
Definition keys_forecast (comps : list string) (h : nat) : list string :=
  concat (map (fun j => map (fun c => c ++ "_forecast_" ++ str_of_nat j)%string comps) (seq 0 h)).

(** base_timeseries_module.py:162-170 [min_obs], [max_obs]; base_module.py:59-63 *)
Definition ts_obs_space (t : tsdata) : space T :=
  mkSpace (concat (repeat (ts_minobs t) (S (ts_horizon t))))
          (concat (repeat (ts_maxobs t) (S (ts_horizon t)))).

(** [time_series[current_step, :]] and [time_series[1+c : 1+c+h, :]] (112-114) *)
Definition ts_row (t : tsdata) (cur : Z) : option (list T) := py_nth (ts_rows t) cur.
Definition ts_future (t : tsdata) (cur : Z) : list (list T) :=
  py_slice (ts_rows t) (1 + cur) (1 + cur + Z.of_nat (ts_horizon t)).

(** [rows[a : a+len(new)] = new]: in-place write through a view. *)
Definition write_back (rows : list (list T)) (a : nat) (new : list (list T)) : list (list T) :=
  firstn a rows ++ new ++ skipn (a + length new) rows.

(** base_timeseries_module.py:103-122 [forecast]; the returned module data
    carries the advanced noise stream and, when the forecaster clipped a view
    of the series in place, the overwritten series. *)
Definition ts_forecast (cur : Z) : M tsdata (option (list (list T))) :=
  fun t =>
    match ts_row t cur with
    | None => (t, rmap Some (fc_full_pad (ts_fc t) (length (ts_comps t)) (ts_horizon t)))
    | Some val_c =>
        match fc_call (ts_fc t) val_c (ts_future t cur) (ts_horizon t) with
        | (k, Err e) => (ts_set_fc t (fc_with_kind (ts_fc t) k), Err e)
        | (k, Ok None) => (ts_set_fc t (fc_with_kind (ts_fc t) k), Ok None)
        | (k, Ok (Some (m, view))) =>
            let t' := ts_set_fc t (fc_with_kind (ts_fc t) k) in
            (if view
             then ts_set_rows t' (write_back (ts_rows t')
                    (Z.to_nat (py_clamp (Z.of_nat (length (ts_rows t'))) (1 + cur))) m)
             else t', Ok (Some m))
        end
    end.

(** base_timeseries_module.py:56, 99-101: store the new forecast *)
Definition ts_refresh (cur : Z) : M tsdata unit :=
  f <- ts_forecast cur ;;
  mmodify (fun t => ts_set_cur_fc t f).

(** base_timeseries_module.py:124-125 [_done] *)
Definition ts_done (t : tsdata) (cur : Z) : bool := (ts_final t - 1 <=? cur)%Z.

(** base_timeseries_module.py:127-140 [current_obs] *)
Definition ts_current_obs (t : tsdata) (cur : Z) : res (list T) :=
  match ts_row t cur with
  | Some r => Ok r
  | None => rmap (@concat T) (fc_full_pad (ts_fc t) (length (ts_comps t)) 1)
  end.

(** base_timeseries_module.py:332-338 [_state_dict] *)
Definition ts_state_dict (t : tsdata) (cur : Z) : res (dict T) :=
  let? o := ts_current_obs t cur in
  let d := dict_of (combine (ts_keys_cur t) o) in
  Ok match ts_cur_fc t with
     | None => d
     | Some f => dupdate d (combine (ts_keys_fc t) (concat f))
     end.

(** base_timeseries_module.py:317-330 [final_step] setter; [initial] is None
    while the attribute does not exist yet.  Non-integers are not modelled. *)
Definition set_final_step (t : tsdata) (initial : option Z) (v : Z) : tsdata * res unit :=
  let f := if (v <=? 0)%Z then Z.of_nat (length (ts_rows t)) else v in
  (ts_set_final t f,
   match initial with
   | Some i => if (f <=? i)%Z
               then raise ValueError "final_step value must be greater than initial_step"
               else Ok tt
   | None => Ok tt
   end).

(** ** grid_module.py, unbalanced_energy_module.py *)

(** grid_module.py:73-101.  [module_type] is a class attribute that
    [as_flex]/[as_fixed] (230-246) overwrite for all grids; here it is a field
    of each grid. *)
Record grid := mkGrid {
  gr_max_import : T;
  gr_max_export : T;
  gr_cost_co2 : T;
  gr_type : mtype
}.

(** unbalanced_energy_module.py:13-26 *)
Record unbalanced := mkUnb { u_loss_load_cost : T; u_overgeneration_cost : T }.

Inductive kind :=
| KBattery (b : battery)
| KGenset (g : genset)
| KGrid (g : grid) (t : tsdata)
| KLoad (t : tsdata)
| KRenewable (t : tsdata)
| KUnbalanced (u : unbalanced).

(** ** base_module.py: attributes common to all modules (37-51).
    [m_act]/[m_obs] are [_action_space]/[_observation_space]; the infinite
    action box of the unbalanced module is [None]. *)
Record module := mkModule {
  m_kind : kind;
  m_raise : bool;
  m_init : Z;
  m_cur : Z;
  m_act : option (space T);
  m_obs : space T;
  m_prov : option string;
  m_abs : option string;
  m_log : logger T;
  m_name : option string * option nat
}.

Definition set_kind (m : module) (k : kind) : module :=
  mkModule k (m_raise m) (m_init m) (m_cur m) (m_act m) (m_obs m) (m_prov m) (m_abs m)
           (m_log m) (m_name m).
Definition set_cur (m : module) (c : Z) : module :=
  mkModule (m_kind m) (m_raise m) (m_init m) c (m_act m) (m_obs m) (m_prov m) (m_abs m)
           (m_log m) (m_name m).
Definition set_init (m : module) (i : Z) : module :=
  mkModule (m_kind m) (m_raise m) i (m_cur m) (m_act m) (m_obs m) (m_prov m) (m_abs m)
           (m_log m) (m_name m).
Definition set_log (m : module) (l : logger T) : module :=
  mkModule (m_kind m) (m_raise m) (m_init m) (m_cur m) (m_act m) (m_obs m) (m_prov m) (m_abs m)
           l (m_name m).
Definition set_name (m : module) (n : option string * option nat) : module :=
  mkModule (m_kind m) (m_raise m) (m_init m) (m_cur m) (m_act m) (m_obs m) (m_prov m) (m_abs m)
           (m_log m) n.
Definition set_spaces (m : module) (a : option (space T)) (o : space T) : module :=
  mkModule (m_kind m) (m_raise m) (m_init m) (m_cur m) a o (m_prov m) (m_abs m)
           (m_log m) (m_name m).

(** [is_source], [is_sink], [module_type[-1]] of each class: battery_module.py:61,
    348-354; genset_module.py:54, 523-525; grid_module.py:65, 330-336;
    load_module.py:51, 113-115; renewable_module.py:54, 112-114;
    unbalanced_energy_module.py:8, 103-109; defaults base_module.py:700-722. *)
Definition is_source (k : kind) : bool :=
  match k with KLoad _ => false | _ => true end.
Definition is_sink (k : kind) : bool :=
  match k with KGenset _ | KRenewable _ => false | _ => true end.
Definition module_type (k : kind) : mtype :=
  match k with
  | KBattery _ | KGenset _ => Controllable
  | KGrid g _ => gr_type g
  | KLoad _ => Fixed
  | KRenewable _ | KUnbalanced _ => Flex
  end.
(** First component of [module_type]: the default name. *)
Definition default_name (k : kind) : string :=
  match k with
  | KBattery _ => "battery"
  | KGenset _ => "genset"
  | KGrid _ _ => "grid"
  | KLoad _ => "load"
  | KRenewable _ => "renewable"
  | KUnbalanced _ => "balancing"
  end.
(** base_module.py:35, genset_module.py:59 [_energy_pos] *)
Definition energy_pos (k : kind) : nat := match k with KGenset _ => 1 | _ => 0 end.

Definition kind_ts (k : kind) : option tsdata :=
  match k with
  | KGrid _ t | KLoad t | KRenewable t => Some t
  | _ => None
  end.
Definition kind_set_ts (k : kind) (t : tsdata) : kind :=
  match k with
  | KGrid g _ => KGrid g t
  | KLoad _ => KLoad t
  | KRenewable _ => KRenewable t
  | _ => k
  end.

(** [state_dict()] of each class: battery_module.py:280-281,
    genset_module.py:429-433, base_timeseries_module.py:332-338,
    unbalanced_energy_module.py:72-73. *)
Definition bool_num (b : bool) : T := if b then n1 else n0.
Definition state_dict (m : module) : res (dict T) :=
  match m_kind m with
  | KBattery b => Ok [("soc", b_soc b); ("current_charge", b_charge b)]
  | KGenset g => Ok [("current_status", bool_num (g_status g));
                     ("goal_status", bool_num (g_goal g));
                     ("steps_until_up", nofZ (g_until_up g));
                     ("steps_until_down", nofZ (g_until_down g))]
  | KGrid _ t | KLoad t | KRenewable t => ts_state_dict t (m_cur m)
  | KUnbalanced _ => Ok []
  end.

(** base_module.py:505-517 [state]; unbalanced_energy_module.py:75-77 *)
Definition state (m : module) : res (list T) := rmap dvalues (state_dict m).

(** base_module.py:473-490 [state_dict(normalized=True)]: zipping the keys with
    a scalar (one-entry state) raises TypeError. *)
Definition state_dict_normalized (m : module) : res (dict T) :=
  let? d := state_dict m in
  let? v := normalize (m_obs m) (VA (dvalues d)) in
  match v with
  | VS _ => raise TypeError "'float' object is not iterable"
  | VA xs => Ok (dict_of (combine (dkeys d) xs))
  end.

(** [arr[i].item()] on a one-column series (load_module.py:111,
    renewable_module.py:110) *)
Definition ts_item (t : tsdata) (cur : Z) : res T :=
  match ts_row t cur with
  | None => raise IndexError "time_series"
  | Some [x] => Ok x
  | Some _ => raise ValueError "can only convert an array of size 1 to a Python scalar"
  end.
Definition current_load (t : tsdata) (cur : Z) : res T :=
  rmap (nmul (nopp n1)) (ts_item t cur).
Definition current_renewable (t : tsdata) (cur : Z) : res T := ts_item t cur.

(** grid_module.py:288-312 [current_status]: [state[3::4][0]] *)
Definition grid_current_status (m : module) : res T :=
  let? s := state m in
  match nth_error s 3 with
  | Some x => Ok x
  | None => raise IndexError "grid_status[0]"
  end.

(** [max_production], [min_production], [max_consumption] of each class *)
Definition max_production (m : module) : res bound :=
  match m_kind m with
  | KBattery b => Ok (BFin (battery_max_production b))
  | KGenset g => Ok (BFin (genset_max_production g))
  | KGrid g _ => rmap (fun s => BFin (nmul (gr_max_import g) s)) (grid_current_status m)
  | KLoad _ => Ok BNone
  | KRenewable t => rmap BFin (current_renewable t (m_cur m))
  | KUnbalanced _ => Ok BInf
  end.
Definition min_production (m : module) : T :=
  match m_kind m with
  | KGenset g => genset_min_production g
  | _ => n0
  end.
Definition max_consumption (m : module) : res bound :=
  match m_kind m with
  | KBattery b => Ok (BFin (battery_max_consumption b))
  | KGenset _ => Ok BNone
  | KGrid g _ => rmap (fun s => BFin (nmul (gr_max_export g) s)) (grid_current_status m)
  | KLoad t => rmap BFin (current_load t (m_cur m))
  | KRenewable _ => Ok BNone
  | KUnbalanced _ => Ok BInf
  end.

(** [production_marginal_cost], [absorption_marginal_cost]:
    battery_module.py:340-346, genset_module.py:519-521, grid_module.py:322-328,
    unbalanced_energy_module.py:111-117, base_module.py:664-670. *)
Definition state_nth (m : module) (i : nat) : res T :=
  let? s := state m in
  match nth_error s i with
  | Some x => Ok x
  | None => raise IndexError "state"
  end.
Definition production_marginal_cost (m : module) : res T :=
  match m_kind m with
  | KBattery b => Ok (b_cost_cycle b)
  | KGenset g => Ok (genset_get_cost g n1)
  | KGrid _ _ => state_nth m 0
  | KUnbalanced u => Ok (u_loss_load_cost u)
  | _ => Ok n0
  end.
Definition absorption_marginal_cost (m : module) : res T :=
  match m_kind m with
  | KBattery b => Ok (b_cost_cycle b)
  | KGrid _ _ => state_nth m 1
  | KUnbalanced u => Ok (u_overgeneration_cost u)
  | _ => Ok n0
  end.

(** grid_module.py:134-228 [update], [get_cost], [get_co2_cost],
    [get_co2_production].  [energy = None] models [update(None)] of a grid
    turned into a fixed module. *)
Definition grid_cell (t : tsdata) (cur : Z) (j : nat) : res T :=
  match ts_row t cur with
  | None => raise IndexError "time_series"
  | Some r => match nth_error r j with
              | Some x => Ok x
              | None => raise IndexError "time_series column"
              end
  end.
Definition grid_co2 (t : tsdata) (cur : Z) (e : T) (as_source : bool) : res T :=
  if as_source then rmap (nmul e) (grid_cell t cur 2) else Ok n0.
Definition grid_co2_cost (g : grid) (t : tsdata) (cur : Z) (e : T) (as_source : bool) : res T :=
  rmap (fun c => nmul (nmul (nopp n1) (gr_cost_co2 g)) c) (grid_co2 t cur e as_source).
Definition grid_cost (g : grid) (t : tsdata) (cur : Z) (e : T) (as_source : bool) : res T :=
  let? price := grid_cell t cur (if as_source then 0 else 1) in
  let? co2 := grid_co2_cost g t cur e as_source in
  if as_source then Ok (nadd (nmul (nmul (nopp n1) price) e) co2)
  else Ok (nadd (nmul price e) co2).
Definition grid_update (g : grid) (t : tsdata) (cur : Z) (energy : option T) (as_source : bool)
  : res (T * bool * info) :=
  match energy with
  | None => raise TypeError "unsupported operand type NoneType"
  | Some e =>
      let? reward := grid_cost g t cur e as_source in
      let? co2 := grid_co2 t cur e as_source in
      Ok (reward, ts_done t cur,
          [(if as_source then "provided_energy" else "absorbed_energy", e);
           ("co2_production", co2)])
  end.

(** load_module.py:86-91 [update] *)
Definition load_update (t : tsdata) (cur : Z) (as_source : bool) : res (T * bool * info) :=
  if as_source then raise AssertionError "Class LoadModule is a sink."
  else let? l := current_load t cur in
       Ok (n0, ts_done t cur, [("absorbed_energy", l)]).

(** renewable_module.py:86-93 [update] *)
Definition renewable_update (t : tsdata) (cur : Z) (e : T) (as_source : bool)
  : res (T * bool * info) :=
  if as_source then
    let? r := current_renewable t cur in
    if nleb e r then
      Ok (n0, ts_done t cur, [("provided_energy", e); ("curtailment", nsub r e)])
    else raise AssertionError "Cannot provide more than current_renewable"
  else raise AssertionError "RenewableModule can only be used as a source.".

(** unbalanced_energy_module.py:28-70 [update], [get_cost] *)
Definition unbalanced_update (u : unbalanced) (e : T) (as_source : bool)
  : res (T * bool * info) :=
  let cost := if as_source then nmul (u_loss_load_cost u) e
              else nmul (u_overgeneration_cost u) e in
  let reward := nmul (nopp n1) cost in
  if nleb reward n0 then
    Ok (reward, false, [(if as_source then "provided_energy" else "absorbed_energy", e)])
  else raise AssertionError "reward <= 0".

(** [update] dispatch.  [None] is the energy passed by fixed modules
    (base_module.py:211, 263). *)
Definition lift_kind {S A} (wrap : S -> kind) (s : S) (f : M S A) : M module A :=
  fun m => let '(s', r) := f s in (set_kind m (wrap s'), r).

Definition update (energy : option T) (as_source : bool) : M module (T * bool * info) :=
  fun m =>
    match m_kind m, energy with
    | KBattery b, Some e => lift_kind KBattery b (battery_update e as_source) m
    | KGenset g, Some e => lift_kind KGenset g (genset_update e as_source) m
    | KGrid g t, e => (m, grid_update g t (m_cur m) e as_source)
    | KLoad t, _ => (m, load_update t (m_cur m) as_source)
    | KRenewable t, Some e => (m, renewable_update t (m_cur m) e as_source)
    | KUnbalanced u, Some e => (m, unbalanced_update u e as_source)
    | _, None => (m, raise TypeError "unsupported operand type NoneType")
    end.

(** base_module.py:79-93, genset_module.py:351-358 [_raise_error] *)
Definition raise_error {A} (tag : string) : M module A := mraise ValueError tag.

(** base_module.py:173-226 [as_source] *)
Definition as_source (energy : T) : M module (T * bool * info) :=
  massert (nleb n0 energy) "energy_demand >= 0" ;;
  m <- mget ;;
  massert (is_source (m_kind m)) "module is not a source" ;;
  if is_fixed (module_type (m_kind m)) then update None true
  else
    mx <- mlift (max_production m) ;;
    over <- mlift (gt_bound energy mx) ;;
    if (over : bool) then
      (if m_raise m then raise_error "unable to supply requested value"
       else match mx with
            | BFin x => update (Some x) true
            | _ => mraise TypeError "unreachable"
            end)
    else if nltb energy (min_production m) then
      (if m_raise m then raise_error "Must supply at least"
       else update (Some (min_production m)) true)
    else update (Some energy) true.

(** base_module.py:228-274 [as_sink] *)
Definition as_sink (energy : T) : M module (T * bool * info) :=
  massert (nleb n0 energy) "energy_excess >= 0" ;;
  m <- mget ;;
  if is_fixed (module_type (m_kind m)) then update None false
  else
    mx <- mlift (max_consumption m) ;;
    over <- mlift (gt_bound energy mx) ;;
    if (over : bool) then
      (if m_raise m then raise_error "unable to absorb requested value"
       else match mx with
            | BFin x => massert (nleb n0 x) "absorbed_energy >= 0" ;; update (Some x) false
            | _ => mraise TypeError "unreachable"
            end)
    else update (Some energy) false.

(** base_module.py:161-171 [_unnormalized_step] *)
Definition unnormalized_step (a : T) : M module (T * bool * info) :=
  if nltb n0 a then as_source a
  else if nltb a n0 then as_sink (nmul (nopp n1) a)
  else
    m <- mget ;;
    if is_source (m_kind m) then as_source a
    else massert (is_sink (m_kind m)) "is_sink" ;; as_sink (nmul (nopp n1) a).

(** base_module.py:276-290 [_log] *)
Definition module_log (sd : dict T) (reward : T) (inf : info) : M module unit :=
  m <- mget ;;
  let prov := dget "provided_energy" inf in
  let abs := dget "absorbed_energy" inf in
  let base := dset "reward" reward [] in
  let rest := filter (fun kv => negb (String.eqb (fst kv) "provided_energy")
                                && negb (String.eqb (fst kv) "absorbed_energy")) inf in
  let d0 := dupdate base rest in
  d1 <- (match m_prov m, prov with
         | Some n, Some p => mret (dset n p d0)
         | Some n, None => mret (dset n n0 d0)
         | None, None => mret d0
         | None, Some _ => mraise AssertionError "Cannot log provided_energy"
         end) ;;
  d2 <- (match m_abs m, abs with
         | Some n, Some p => mret (dset n p d1)
         | Some n, None => mret (dset n n0 d1)
         | None, None => mret d1
         | None, Some _ => mraise AssertionError "Cannot log absorbed_energy"
         end) ;;
  let d3 := dupdate d2 sd in
  fun m => let '(lg, r) := logger_log d3 (m_log m) in (set_log m lg, r).

(** base_module.py:292-296, base_timeseries_module.py:99-101 [_update_step] *)
Definition update_step (reset : bool) : M module unit :=
  mmodify (fun m => set_cur m (if reset then m_init m else m_cur m + 1)%Z) ;;
  fun m =>
    match kind_ts (m_kind m) with
    | None => (m, Ok tt)
    | Some t => let '(t', r) := ts_refresh (m_cur m) t in
                (set_kind m (kind_set_ts (m_kind m) t'), r)
    end.

(** [to_normalized(self.state, obs=True)] (base_module.py:157, 77) *)
Definition norm_obs (m : module) : res (pyval T) :=
  let? s := state m in normalize (m_obs m) (VA s).

Definition step_out := (pyval T * T * bool * info)%type.

(** base_module.py:138-150: pick the energy component of the action. *)
Definition pick_energy (pos : nat) (a : pyval T) : res T :=
  match a with
  | VS x => Ok x
  | VA [] => Ok n0
  | VA xs => match nth_error xs pos with
             | Some x => Ok x
             | None => raise ValueError "Bad action"
             end
  end.

(** [_action_space.denormalize].  [None] is the infinite box of the unbalanced
    module: denormalizing gives NaN there, on which [_unnormalized_step] calls
    [as_source], whose assertion [energy_demand >= 0] fails. *)
Definition denorm_action (m : module) (a : pyval T) : res (pyval T) :=
  match m_act m with
  | Some sp => denormalize sp a
  | None =>
      let? _ := shape_check (mkSpace [n0] [n0]) a "denormalize" in
      raise AssertionError "energy_demand >= 0"
  end.

(** base_module.py:95-159 [step] *)
Definition base_step (a : pyval T) (normalized : bool) : M module step_out :=
  m <- mget ;;
  da <- mlift (if normalized then denorm_action m a else Ok a) ;;
  e <- mlift (pick_energy (energy_pos (m_kind m)) da) ;;
  sd <- mlift (state_dict m) ;;
  out <- unnormalized_step e ;;
  let '(reward, done, inf) := out in
  module_log sd reward inf ;;
  update_step false ;;
  m' <- mget ;;
  obs <- mlift (norm_obs m') ;;
  mret (obs, reward, done, inf).

(** genset_module.py:100-149 [GensetModule.step]; [step] of the other classes
    is the base method. *)
Definition step (a : pyval T) (normalized : bool) : M module step_out :=
  m <- mget ;;
  match m_kind m with
  | KGenset g =>
      goal <- (match a with
               | VS _ => mraise TypeError "'float' object is not subscriptable"
               | VA [] => mraise IndexError "index 0 is out of bounds"
               | VA (x :: _) => mret x
               end) ;;
      massert (nleb n0 goal && nleb goal n1) "0 <= goal_status <= 1" ;;
      lift_kind KGenset g (update_status goal) ;;
      base_step a normalized
  | _ => base_step a normalized
  end.

(** base_module.py:65-77 [reset] *)
Definition reset : M module (pyval T) :=
  update_step true ;;
  mmodify (fun m => set_log m (fst (logger_flush (m_log m)))) ;;
  m <- mget ;;
  mlift (norm_obs m).

(** base_module.py:326-356 [sample_action]; genset_module.py:348-349;
    load_module.py:93-94.  [r0], [r1] are the uniform draws in the order the
    code makes them.  (Only the genset uses both.) *)
Definition neg_bound (b : bound) : res T :=
  match b with
  | BFin x => Ok (nmul (nopp n1) x)
  | BInf | BNone => raise TypeError "bad operand type NotImplementedType"
  end.
Definition fin_bound (b : bound) : res T :=
  match b with
  | BFin x => Ok x
  | BInf | BNone => raise TypeError "bad operand type NotImplementedType"
  end.
Definition norm_action_scalar (sp : space T) (x : T) : res T :=
  let? v := normalize sp (VS x) in
  match v with
  | VS y => Ok y
  | VA _ => raise TypeError "array bound"
  end.
(** The infinite box of the unbalanced module gives NaN bounds, which lines
    343-350 replace by 0. *)
Definition base_sample_action (strict : bool) (r : T) (m : module) : res T :=
  let? lo := (if strict && is_sink (m_kind m)
              then match m_act m with
                   | None => Ok n0
                   | Some sp => let? b := max_consumption m in
                                let? x := neg_bound b in norm_action_scalar sp x
                   end
              else Ok n0) in
  let? hi := (if strict && is_source (m_kind m)
              then match m_act m with
                   | None => Ok n0
                   | Some sp => let? b := max_production m in
                                let? x := fin_bound b in norm_action_scalar sp x
                   end
              else Ok n1) in
  Ok (nadd (nmul r (nsub hi lo)) lo).
Definition sample_action (strict : bool) (r0 r1 : T) (m : module) : res (pyval T) :=
  match m_kind m with
  | KGenset _ => rmap (fun e => VA [r0; e]) (base_sample_action strict r1 m)
  | KLoad _ => Ok (VA [])
  | _ => rmap VS (base_sample_action strict r0 m)
  end.

(** ** Constructors *)

(** base_module.py:37-51 *)
Definition base_init (k : kind) (raise_errors : bool) (initial : Z)
    (act : option (space T)) (obs : space T) (prov abs : option string) : module :=
  mkModule k raise_errors initial initial act obs prov abs logger_empty (None, None).

(** battery_module.py:66-94, 323-338 *)
Definition new_battery (min_capacity max_capacity max_charge max_discharge efficiency
    cost_cycle : T) (model : option (trans_args -> T -> T))
    (init_charge init_soc : option T) (initial : Z) (raise_errors : bool) : res module :=
  if negb (nltb n0 efficiency && nleb efficiency n1)
  then raise AssertionError "0 < efficiency <= 1"
  else if neqb max_capacity n0 then raise ZeroDivisionError "division by zero"
  else
    let min_soc := ndiv min_capacity max_capacity in
    let? cs := init_battery max_capacity init_charge init_soc in
    let b := mkBattery min_capacity max_capacity max_charge max_discharge efficiency
               cost_cycle model min_soc init_charge init_soc (fst cs) (snd cs) in
    Ok (base_init (KBattery b) raise_errors initial
          (Some (mkSpace [ndiv (nopp max_discharge) efficiency] [nmul max_charge efficiency]))
          (mkSpace [min_soc; min_capacity] [n1; max_capacity])
          (Some "discharge_amount") (Some "charge_amount")).

(** genset_module.py:61-98, 503-517 *)
Definition new_genset (min_prod max_prod : T) (cost : fuel_cost) (co2 cost_co2 : T)
    (start_up wind_down : Z) (allow_abortion init_up : bool)
    (initial : Z) (raise_errors : bool) (prov : string) : res module :=
  if nltb max_prod min_prod
  then raise ValueError "parameter min_production must not be greater"
  else
    let g := mkGenset min_prod max_prod cost co2 cost_co2 start_up wind_down allow_abortion
               init_up init_up init_up
               (if init_up then 0 else start_up)%Z (if init_up then wind_down else 0)%Z in
    Ok (base_init (KGenset g) raise_errors initial
          (Some (mkSpace [n0; n0] [n1; max_prod]))
          (mkSpace [n0; n0; n0; n0] [n1; n1; nofZ start_up; nofZ wind_down])
          (Some prov) None).

(** base_timeseries_module.py:35-56 [__init__] up to the first forecast.
    [mk_kind] wraps the time-series data, [act] builds the action space. *)
Definition new_ts (mk_kind : tsdata -> kind) (src snk : bool) (comps : list string)
    (bounds : list (list T) -> res (list T * list T))
    (act : list T * list T -> space T)
    (rows : list (list T)) (fp : fparam T) (horizon : nat) (increase : bool)
    (initial final : Z) (raise_errors : bool) (prov abs : option string)
    (rnd : frand T) : res module :=
  let? ts := set_time_series src snk rows in
  let? bds := bounds ts in
  let h := if fparam_given fp then horizon else 0%nat in
  let f := if (final <=? 0)%Z then Z.of_nat (length ts) else final in
  let obs := mkSpace (concat (repeat (fst bds) (S h))) (concat (repeat (snd bds) (S h))) in
  let? fc := get_forecaster fp obs h (length comps) (py_slice ts initial f) increase rnd in
  let t := mkTs ts comps (fst bds) (snd bds) f fp h fc
             (keys_current comps) (keys_forecast comps h) None in
  let m := base_init (mk_kind t) raise_errors initial (Some (act bds)) obs prov abs in
  match ts_refresh initial t with
  | (t', Ok _) => Ok (set_kind m (mk_kind t'))
  | (_, Err e) => Err e
  end.

Definition bounds1 (rows : list (list T)) : res (list T * list T) :=
  rmap (fun p => ([fst p], [snd p])) (get_bounds1 rows).

(** load_module.py:58-84 *)
Definition new_load (rows : list (list T)) (fp : fparam T) (horizon : nat) (increase : bool)
    (initial final : Z) (raise_errors : bool) (rnd : frand T) : res module :=
  new_ts KLoad false true ["load"] bounds1 (fun _ => mkSpace [] [])
    rows fp horizon increase initial final raise_errors None (Some "load_met") rnd.

(** renewable_module.py:61-84 *)
Definition new_renewable (rows : list (list T)) (fp : fparam T) (horizon : nat) (increase : bool)
    (initial final : Z) (raise_errors : bool) (prov : string) (rnd : frand T) : res module :=
  new_ts KRenewable true false ["renewable"] bounds1 (fun b => mkSpace (fst b) (snd b))
    rows fp horizon increase initial final raise_errors (Some prov) None rnd.

(** grid_module.py:103-123 [_check_params] *)
Definition grid_check (max_import max_export : T) (rows : list (list T)) : res (list (list T)) :=
  if nltb max_import n0 then raise ValueError "parameter max_import must be non-negative."
  else if nltb max_export n0 then raise ValueError "parameter max_export must be non-negative."
  else
    let cols := match rows with [] => 4 | r :: _ => length r end in
    if negb (Nat.eqb cols 3 || Nat.eqb cols 4)
    then raise ValueError "Time series must be two dimensional with three or four columns."
    else if negb (rectangular rows) then raise ValueError "inhomogeneous shape"
    else if Nat.eqb cols 4
            && negb (forallb (fun r => match nth_error r 3 with
                                       | Some s => neqb s n0 || neqb s n1
                                       | None => false
                                       end) rows)
    then raise ValueError "Last column (grid status) must contain binary values."
    else
      let rows' := if Nat.eqb cols 4 then rows else map (fun r => r ++ [n1]) rows in
      if existsb (existsb (fun x => nltb x n0)) rows'
      then raise ValueError "Time series must be non-negative."
      else Ok rows'.

(** grid_module.py:73-132 *)
Definition grid_comps : list string := ["import_price"; "export_price"; "co2_per_kwh"; "grid_status"].
Definition new_grid (max_import max_export : T) (rows : list (list T)) (fp : fparam T)
    (horizon : nat) (increase : bool) (initial final : Z) (cost_co2 : T)
    (raise_errors : bool) (gtype : mtype) (rnd : frand T) : res module :=
  let? rows' := grid_check max_import max_export rows in
  new_ts (KGrid (mkGrid max_import max_export cost_co2 gtype)) true true grid_comps
    (grid_bounds 4) (fun _ => mkSpace [nmul (nopp n1) max_export] [max_import])
    rows' fp horizon increase initial final raise_errors
    (Some "grid_import") (Some "grid_export") rnd.

(** unbalanced_energy_module.py:13-26 *)
Definition new_unbalanced (raise_errors : bool) (initial : Z) (loss_load over : T) : module :=
  base_init (KUnbalanced (mkUnb loss_load over)) raise_errors initial None (mkSpace [] [])
    (Some "loss_load") (Some "overgeneration").

(** ** Setters *)

(** battery_module.py:356-362 *)
Definition set_soc (v : T) : M module unit :=
  fun m => match m_kind m with
           | KBattery b => (set_kind m (KBattery (set_charge b (nmul v (b_max_capacity b)) v)), Ok tt)
           | _ => (m, raise AttributeError "soc")
           end.
Definition set_current_charge (v : T) : M module unit :=
  fun m => match m_kind m with
           | KBattery b => (set_kind m (KBattery (set_charge b v (ndiv v (b_max_capacity b)))), Ok tt)
           | _ => (m, raise AttributeError "current_charge")
           end.

(** base_timeseries_module.py:155-160 [time_series] setter (the forecaster is
    not told); grid_module.py:125-132 for the grid's bounds. *)
Definition set_series (rows : list (list T)) : M module unit :=
  fun m =>
    match kind_ts (m_kind m) with
    | None => (m, raise AttributeError "time_series")
    | Some t =>
        match set_time_series (is_source (m_kind m)) (is_sink (m_kind m)) rows with
        | Err e => (m, Err e)
        | Ok ts =>
            let t1 := ts_set_rows t ts in
            let m1 := set_kind m (kind_set_ts (m_kind m) t1) in
            match (match m_kind m with
                   | KGrid _ _ => grid_bounds (match ts with [] => 0 | r :: _ => length r end) ts
                   | _ => bounds1 ts
                   end) with
            | Err e => (m1, Err e)
            | Ok bds =>
                let t2 := ts_set_bounds t1 (fst bds) (snd bds) in
                let act := match m_kind m with
                           | KLoad _ => Some (mkSpace [] [])
                           | KRenewable _ => Some (mkSpace (fst bds) (snd bds))
                           | _ => m_act m
                           end in
                (set_spaces (set_kind m (kind_set_ts (m_kind m) t2)) act (ts_obs_space t2), Ok tt)
            end
        end
    end.

(** base_timeseries_module.py:259-273 [forecast_horizon] setter *)
Definition set_forecast_horizon (h : nat) : M module unit :=
  fun m =>
    match kind_ts (m_kind m) with
    | None => (m, raise AttributeError "forecast_horizon")
    | Some t =>
        let t1 := ts_set_horizon t h (keys_forecast (ts_comps t) h) in
        let obs := ts_obs_space t1 in
        let m1 := set_spaces (set_kind m (kind_set_ts (m_kind m) t1)) (m_act m) obs in
        match (match fc_kind (ts_fc t1) with
               | FcNone => if Nat.ltb 0 h then mk_forecaster FcOracle obs h (length (ts_comps t))
                           else Ok (ts_fc t1)
               | _ => Ok (ts_fc t1)
               end) with
        | Err e => (m1, Err e)
        | Ok fc =>
            match fc_set_obs fc obs with
            | Err e => (set_kind m1 (kind_set_ts (m_kind m) (ts_set_fc t1 fc)), Err e)
            | Ok fc' => (set_kind m1 (kind_set_ts (m_kind m) (ts_set_fc t1 fc')), Ok tt)
            end
        end
    end.

(** base_timeseries_module.py:193-244 [set_forecaster]: neither [_forecast_param]
    nor [_current_forecast] is refreshed. *)
Definition set_forecaster (fp : fparam T) (horizon : nat) (increase : bool) (rnd : frand T)
  : M module unit :=
  m <- mget ;;
  set_forecast_horizon (if fparam_given fp then horizon else 0) ;;
  m <- mget ;;
  match kind_ts (m_kind m) with
  | None => mraise AttributeError "set_forecaster"
  | Some t =>
      match get_forecaster fp (m_obs m) (ts_horizon t) (length (ts_comps t))
              (py_slice (ts_rows t) (m_init m) (ts_final t)) increase rnd with
      | Err e => mlift (Err e)
      | Ok fc => mput (set_kind m (kind_set_ts (m_kind m) (ts_set_fc t fc)))
      end
  end.

(** base_timeseries_module.py:103-122 [forecast] called on the module *)
Definition module_forecast : M module (option (list (list T))) :=
  fun m =>
    match kind_ts (m_kind m) with
    | None => (m, raise AttributeError "forecast")
    | Some t => let '(t', r) := ts_forecast (m_cur m) t in
                (set_kind m (kind_set_ts (m_kind m) t'), r)
    end.

(** grid_module.py:230-246 [as_flex], [as_fixed] (per grid, see [grid]). *)
Definition grid_as (ty : mtype) : M module unit :=
  fun m => match m_kind m with
           | KGrid g t => (set_kind m (KGrid (mkGrid (gr_max_import g) (gr_max_export g)
                                                     (gr_cost_co2 g) ty) t), Ok tt)
           | _ => (m, raise AttributeError "as_flex")
           end.

End Module.

Arguments bound T : clear implicits.
Arguments trans_args T : clear implicits.
Arguments battery T : clear implicits.
Arguments fuel_cost T : clear implicits.
Arguments genset T : clear implicits.
Arguments tsdata T : clear implicits.
Arguments grid T : clear implicits.
Arguments unbalanced T : clear implicits.
Arguments kind T : clear implicits.
Arguments module T : clear implicits.
Arguments info T : clear implicits.
Arguments step_out T : clear implicits.
