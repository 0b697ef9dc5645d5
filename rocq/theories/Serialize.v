(** * Saving and loading: utils/serialize.py and the [dump]/[load] methods *)

From Coq Require Import ZArith Bool String List.
From Verif Require Import Num Py Space Logger Forecast Module Container Microgrid Env.
Import ListNotations.
Local Open Scope string_scope.
Local Open Scope list_scope.
Local Open Scope py_scope.

(** The YAML text (and the CSV text of arrays) is not modelled: a document is the
    tree of values handed to [yaml.safe_dump], and reading a document gives this
    tree back.  Lists and tuples are one thing. *)

Section Serialize.
Context {T : Type} `{NumOps T}.

Definition frame := dict (list (option T)).

(** ** Arrays: inline, or a file next to the document (utils/serialize.py:24-87) *)

Inductive arr (A : Type) := Inline (a : A) | AtPath (path : string).
Arguments Inline {A} a.
Arguments AtPath {A} path.

(** The [.csv.gz] files under the document's directory, by relative path: time
    series and logs. *)
Record store := mkStore { st_series : dict (list (list T)); st_logs : dict frame }.

(** serialize.py:24-42, 71-87: without a named stream arrays stay inline;
    otherwise the array is written to [data/<keys>/<yaml_tag>/<key>.csv.gz],
    whatever is there already. *)
Definition put_series (file : bool) (tag : string) (rows : list (list T))
  : M store (arr (list (list T))) :=
  if file then
    let path := ("data/cls_params/" ++ tag ++ "/time_series.csv.gz")%string in
    mmodify (fun st => mkStore (dset path rows (st_series st)) (st_logs st)) ;;
    mret (AtPath path)
  else mret (Inline rows).
Definition put_log (file : bool) (tag key : string) (df : frame) : M store (arr frame) :=
  if file then
    let path := ("data/" ++ tag ++ "/" ++ key ++ ".csv.gz")%string in
    mmodify (fun st => mkStore (st_series st) (dset path df (st_logs st))) ;;
    mret (AtPath path)
  else mret (Inline df).

(** serialize.py:90-112 *)
Definition get_arr {A} (files : dict A) (a : arr A) : res A :=
  match a with
  | Inline x => Ok x
  | AtPath p => match dget p files with
                | Some x => Ok x
                | None => raise FileNotFoundError p
                end
  end.

(** ** Modules *)

(** The constructor arguments saved for each class ([cls_params],
    base_module.py:870-881), and which class it is.  [module_type] of a grid is a
    class attribute and not saved. *)
Inductive saved_params :=
| SPBattery (min_capacity max_capacity max_charge max_discharge efficiency cost_cycle : T)
            (init_charge init_soc : option T) (initial : Z) (raise_errors : bool)
| SPGenset (min_prod max_prod cost co2 cost_co2 : T) (start_up wind_down : Z)
           (allow_abortion init_up : bool) (initial : Z) (raise_errors : bool) (prov : string)
| SPLoad (rows : arr (list (list T))) (fp : fparam T) (horizon : nat) (increase : bool)
         (initial final : Z) (raise_errors : bool)
| SPRenewable (rows : arr (list (list T))) (fp : fparam T) (horizon : nat) (increase : bool)
              (initial final : Z) (raise_errors : bool) (prov : string)
| SPGrid (max_import max_export : T) (rows : arr (list (list T))) (fp : fparam T) (horizon : nat)
         (increase : bool) (initial final : Z) (cost_co2 : T) (raise_errors : bool)
| SPUnbalanced (raise_errors : bool) (initial : Z) (loss_load over : T).

(** The saved state attributes (base_module.py:852-868; genset_module.py:426-427;
    base_timeseries_module.py:345-346). *)
Inductive saved_state :=
| SSStep (cur : Z)
| SSBattery (cur : Z) (soc charge : T)
| SSGenset (cur : Z) (status goal : bool) (up down : Z).

(** base_module.py:826-850 [serialize] *)
Record saved := mkSaved {
  sv_name : option string * option nat;
  sv_params : saved_params;
  sv_state : saved_state;
  sv_log : option (arr frame)
}.

(** The [yaml_tag]s: battery_module.py:62, genset_module.py:55, grid_module.py:67,
    load_module.py:52, renewable_module.py:55, unbalanced_energy_module.py:9. *)
Definition yaml_tag (k : kind T) : string :=
  match k with
  | KBattery _ => "BatteryModule"
  | KGenset _ => "Genset"
  | KGrid _ _ => "GridModule"
  | KLoad _ => "LoadModule"
  | KRenewable _ => "RenewableModule"
  | KUnbalanced _ => "UnbalancedEnergyModule"
  end.

(** [yaml.safe_dump] of a function raises RepresenterError. *)
Definition dump_fparam (fp : fparam T) : res (fparam T) :=
  match fp with
  | FPUser _ => raise RepresenterError "cannot represent an object"
  | _ => Ok fp
  end.
Definition dump_cost (c : fuel_cost T) : res T :=
  match c with
  | FuelLin x => Ok x
  | FuelFn _ => raise RepresenterError "cannot represent an object"
  end.
Definition dump_model (f : option (trans_args T -> T -> T)) : res unit :=
  match f with
  | None => Ok tt
  | Some _ => raise RepresenterError "cannot represent an object"
  end.

(** base_timeseries_module.py:275-292 [forecaster_increase_uncertainty] *)
Definition increase_view (k : fkind T) : bool :=
  match k with FcGauss (Some _) _ _ => true | _ => false end.

(** base_module.py:870-881 [_serialize_cls_params]: the current attribute values;
    base_timeseries_module.py:340-343: [forecaster] is the argument the module
    was built with.  Attributes that are names ('load_met' and so on) of classes
    that fix them are not saved. *)
Definition dump_params (file : bool) (m : module T) : M store saved_params :=
  match m_kind m with
  | KBattery b =>
      mlift (dump_model (b_model b)) ;;
      mret (SPBattery (b_min_capacity b) (b_max_capacity b) (b_max_charge b) (b_max_discharge b)
                      (b_efficiency b) (b_cost_cycle b) (b_init_charge b) (b_init_soc b)
                      (m_init m) (m_raise m))
  | KGenset g =>
      c <- mlift (dump_cost (g_cost g)) ;;
      mret (SPGenset (g_min_prod g) (g_max_prod g) c (g_co2_per_unit g) (g_cost_co2 g)
                     (g_start_up g) (g_wind_down g) (g_allow_abortion g) (g_init_start_up g)
                     (m_init m) (m_raise m) (match m_prov m with Some p => p | None => "" end))
  | KLoad t =>
      fp <- mlift (dump_fparam (ts_fparam t)) ;;
      rows <- put_series file "LoadModule" (ts_rows t) ;;
      mret (SPLoad rows fp (ts_horizon t) (increase_view (fc_kind (ts_fc t)))
                   (m_init m) (ts_final t) (m_raise m))
  | KRenewable t =>
      fp <- mlift (dump_fparam (ts_fparam t)) ;;
      rows <- put_series file "RenewableModule" (ts_rows t) ;;
      mret (SPRenewable rows fp (ts_horizon t) (increase_view (fc_kind (ts_fc t)))
                        (m_init m) (ts_final t) (m_raise m)
                        (match m_prov m with Some p => p | None => "" end))
  | KGrid g t =>
      fp <- mlift (dump_fparam (ts_fparam t)) ;;
      rows <- put_series file "GridModule" (ts_rows t) ;;
      mret (SPGrid (gr_max_import g) (gr_max_export g) rows fp (ts_horizon t)
                   (increase_view (fc_kind (ts_fc t))) (m_init m) (ts_final t)
                   (gr_cost_co2 g) (m_raise m))
  | KUnbalanced u =>
      mret (SPUnbalanced (m_raise m) (m_init m) (u_loss_load_cost u) (u_overgeneration_cost u))
  end.

(** base_module.py:852-868 *)
Definition dump_state (m : module T) : saved_state :=
  match m_kind m with
  | KBattery b => SSBattery (m_cur m) (b_soc b) (b_charge b)
  | KGenset g => SSGenset (m_cur m) (g_status g) (g_goal g) (g_until_up g) (g_until_down g)
  | _ => SSStep (m_cur m)
  end.

(** The array treatment of an optional frame *)
Definition put_opt_log (file : bool) (tag key : string) (o : option frame) : M store (option (arr frame)) :=
  match o with
  | None => mret None
  | Some df => a <- put_log file tag key df ;; mret (Some a)
  end.

(** base_module.py:724-746, 801-850 [dump] *)
Definition dump_module (file : bool) (m : module T) : M store saved :=
  df <- mlift (logger_serialize (m_log m)) ;;
  ps <- dump_params file m ;;
  lg <- put_opt_log file (yaml_tag (m_kind m)) "log" df ;;
  mret (mkSaved (m_name m) ps (dump_state m) lg).

(** base_module.py:883-925 [deserialize_instance]: call the constructor.
    [gtype] is the grid class's [module_type] when loading. *)
Definition construct (st : store) (gtype : mtype) (rnd : frand T) (p : saved_params)
  : res (module T) :=
  match p with
  | SPBattery mn mx ch dis eff cost ic is init rs =>
      new_battery mn mx ch dis eff cost None ic is init rs
  | SPGenset mn mx c co2 cc su wd ab up init rs prov =>
      new_genset mn mx (FuelLin c) co2 cc su wd ab up init rs prov
  | SPLoad a fp h inc init final rs =>
      let? rows := get_arr (st_series st) a in new_load rows fp h inc init final rs rnd
  | SPRenewable a fp h inc init final rs prov =>
      let? rows := get_arr (st_series st) a in new_renewable rows fp h inc init final rs prov rnd
  | SPGrid mi me a fp h inc init final cc rs =>
      let? rows := get_arr (st_series st) a in new_grid mi me rows fp h inc init final cc rs gtype rnd
  | SPUnbalanced rs init l o => Ok (new_unbalanced rs init l o)
  end.

(** base_module.py:927-957 [deserialize]: [setattr] of the state attributes, in
    their order.  A document whose state belongs to another class is not modelled
    beyond the KeyError. *)
Definition deserialize (s : saved_state) : M (module T) unit :=
  m <- mget ;;
  match m_kind m, s with
  | KBattery _, SSBattery cur soc charge =>
      mmodify (fun m => set_cur m cur) ;; set_soc soc ;; set_current_charge charge
  | KGenset g, SSGenset cur status goal up down =>
      mmodify (fun m => set_kind (set_cur m cur) (KGenset (set_genset g status goal up down)))
  | KBattery _, _ | KGenset _, _ => mraise KeyError "Missing key in deserialized dict."
  | _, SSStep cur | _, SSBattery cur _ _ | _, SSGenset cur _ _ _ _ => mmodify (fun m => set_cur m cur)
  end.

Definition get_log (st : store) (o : option (arr frame)) : res (option frame) :=
  match o with
  | None => Ok None
  | Some a => rmap Some (get_arr (st_logs st) a)
  end.

(** base_module.py:748-799 [load], [from_yaml] *)
Definition load_module (st : store) (gtype : mtype) (rnd : frand T) (s : saved) : res (module T) :=
  let? df := get_log st (sv_log s) in
  let? m := construct st gtype rnd (sv_params s) in
  let m1 := set_name (set_log m (logger_from_raw df)) (sv_name s) in
  match deserialize (sv_state s) m1 with
  | (m2, Ok _) => Ok m2
  | (_, Err e) => Err e
  end.

(** ** Microgrids *)

(** microgrid.py:901-908 [_serialization_data].  A trajectory function is one of
    the library's classes, which are saved with their parameters (any other object
    raises RepresenterError; not modelled).  The reward shaping function and the
    additional log are not saved. *)
Record saved_mg := mkSavedMg {
  sg_modules : list (string * saved);
  sg_traj : option traj_fn;
  sg_initial : Z;
  sg_final : option Z;
  sg_balance : option (arr frame)
}.

Definition dump_modules (file : bool) (ds : list (mdef T)) : M store (list (string * saved)) :=
  mfold (fun acc d => s <- dump_module file (snd d) ;; mret (acc ++ [(mdef_name d, s)])) ds [].

(** microgrid.py:818-842, 868-899 [dump] *)
Definition dump_microgrid (file : bool) (g : mgrid T) : M store saved_mg :=
  df <- mlift (logger_serialize (mg_balance g)) ;;
  b <- put_opt_log file "Microgrid" "balance_log" df ;;
  ms <- dump_modules file (mg_tuples g) ;;
  mret (mkSavedMg ms (mg_traj g) (mg_initial g) (mg_final g) b).

(** microgrid.py:844-892 [load], [from_yaml] without the 'scenario' shortcut.  The
    [n]-th module draws from [rnds n]. *)
Definition load_modules (st : store) (gtype : mtype) (rnds : nat -> frand T)
    (l : list (string * saved)) : res (list (mdef T)) :=
  rmapM (fun ns => let? m := load_module st gtype (rnds (fst ns)) (snd (snd ns)) in
                   Ok (Some (fst (snd ns)), m))
        (combine (seq 0 (length l)) l).

Definition load_microgrid (st : store) (gtype : mtype) (rnds : nat -> frand T) (s : saved_mg)
  : res (mgrid T) :=
  let? df := get_log st (sg_balance s) in
  let? ds := load_modules st gtype rnds (sg_modules s) in
  let? g := new_microgrid ds false (nofZ 10) (nofZ 2) None None in
  Ok (mkMgrid (mg_mods g) (mg_ct g) (sg_initial s) (sg_final s) None (sg_traj s) 0
              (logger_from_raw df) logger_empty).

End Serialize.

Arguments frame T : clear implicits.
Arguments store T : clear implicits.
Arguments saved_params T : clear implicits.
Arguments saved T : clear implicits.
Arguments saved_state T : clear implicits.
Arguments saved_mg T : clear implicits.
Arguments Inline {A} a.
Arguments AtPath {A} path.
