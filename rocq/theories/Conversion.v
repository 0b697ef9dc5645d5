(** * src/pymgrid/convert: modular and non-modular microgrids

    convert.py, get_module.py, to_nonmodular_ops.py.  Warnings are not modelled. *)

From Coq Require Import ZArith Bool String List.
From Verif Require Import Num Py Space Logger Forecast Module Container Microgrid NonModular.
Import ListNotations.
Local Open Scope string_scope.
Local Open Scope list_scope.
Local Open Scope py_scope.

Section Conversion.
Context {T : Type} `{NumOps T}.

(** ** To modular *)

(** A data frame with one column, as an array *)
Definition column_rows (l : list T) : list (list T) := map (fun x => [x]) l.
(** [pd.concat([a, b, c, d], axis=1)].  Columns of different lengths are filled up
    with NaN, which is not modelled. *)
Definition four_columns (a b c d : list T) : res (list (list T)) :=
  if Nat.eqb (length a) (length b) && Nat.eqb (length a) (length c) && Nat.eqb (length a) (length d)
  then Ok (map (fun p => [fst (fst (fst p)); snd (fst (fst p)); snd (fst p); snd p])
               (combine (combine (combine a b) c) d))
  else raise RuntimeError "unmodelled: NaN".
(** [nonmodular.horizon - 1]; a horizon below 1 is not modelled (it is taken as 1). *)
Definition horizon_of (g : nonmod T) : nat := Z.to_nat (nm_horizon g - 1).
(** The oracle forecaster makes no random choices. *)
Definition no_rand : frand T := mkFrand 0 (fun _ _ _ => n0).

(** get_module.py:23-28.  The default arguments are those of load_module.py:58-66. *)
Definition get_load_module (g : nonmod T) (raise_errors : bool) : res (module T) :=
  new_load (column_rows (nm_load_ts g)) FPOracle (horizon_of g) false 0 (-1) raise_errors no_rand.
(** get_module.py:31-37 *)
Definition get_pv_module (g : nonmod T) (raise_errors : bool) : res (module T) :=
  new_renewable (column_rows (nm_pv_ts g)) FPOracle (horizon_of g) false 0 (-1) raise_errors
                "renewable_used" no_rand.
(** get_module.py:40-56 *)
Definition get_battery_module (g : nonmod T) (raise_errors : bool) : res (module T) :=
  let? cap := dfind (nm_par g) "battery_capacity" in
  let? smin := dfind (nm_par g) "battery_soc_min" in
  let? pc := dfind (nm_par g) "battery_power_charge" in
  let? pd := dfind (nm_par g) "battery_power_discharge" in
  let? eff := dfind (nm_par g) "battery_efficiency" in
  let? cost := dfind (nm_par g) "battery_cost_cycle" in
  let? soc := num (bv_soc (nm_battery g)) in
  new_battery (nmul cap smin) cap pc pd eff cost None None (Some soc) 0 raise_errors.
(** get_module.py:59-73 *)
Definition get_genset_module (g : nonmod T) (raise_errors : bool) : res (module T) :=
  let? pmin := dfind (nm_par g) "genset_pmin" in
  let? rated := dfind (nm_par g) "genset_rated_power" in
  let? pmax := dfind (nm_par g) "genset_pmax" in
  let? cost := dfind (nm_par g) "fuel_cost" in
  let? co2 := dfind (nm_par g) "genset_co2" in
  let? cco2 := dfind (nm_par g) "cost_co2" in
  new_genset (nmul pmin rated) (nmul pmax rated) (FuelLin cost) co2 cco2 0 0 true true 0
             raise_errors "genset_production".
(** get_module.py:76-97 *)
Definition get_grid_module (g : nonmod T) (raise_errors : bool) : res (module T) :=
  let? mi := dfind (nm_par g) "grid_power_import" in
  let? me := dfind (nm_par g) "grid_power_export" in
  let? cco2 := dfind (nm_par g) "cost_co2" in
  let? rows := four_columns (nm_import_ts g) (nm_export_ts g) (nm_co2_ts g) (nm_status_ts g) in
  new_grid mi me rows FPOracle (horizon_of g) false 0 (-1) cco2 raise_errors Controllable no_rand.
(** get_module.py:100-104 *)
Definition get_unbalanced_energy_module (g : nonmod T) (raise_errors : bool) : res (module T) :=
  let? loss := dfind (nm_par g) "cost_loss_load" in
  let? over := dfind (nm_par g) "cost_overgeneration" in
  Ok (new_unbalanced raise_errors 0 loss over).

(** convert.py:7-14.  The architecture lists PV, battery, genset and grid in this
    order. *)
Definition modular_list (raise_errors : bool) (g : nonmod T) : res (list (mdef T)) :=
  let? load := get_load_module g raise_errors in
  let? unb := get_unbalanced_energy_module g raise_errors in
  let part (b : bool) (nm : string) (m : res (module T)) : res (list (mdef T)) :=
    if b then rmap (fun m => [(Some nm, m)]) m else Ok [] in
  let? pv := part (has_pv (nm_arch g)) "PV" (get_pv_module g raise_errors) in
  let? bat := part (has_battery (nm_arch g)) "battery" (get_battery_module g raise_errors) in
  let? gen := part (has_genset (nm_arch g)) "genset" (get_genset_module g raise_errors) in
  let? grid := part (has_grid (nm_arch g)) "grid" (get_grid_module g raise_errors) in
  Ok ([(Some "load", load); (Some "unbalanced_energy", unb)] ++ pv ++ bat ++ gen ++ grid).
(** convert.py:7-15 [to_modular].  (The costs of a default unbalanced-energy module
    are not used.) *)
Definition to_modular (raise_errors : bool) (g : nonmod T) : res (mgrid T) :=
  let? ds := modular_list raise_errors g in
  new_microgrid ds false n0 n0 None None.

(** ** To non-modular *)

(** The classes that can be converted, numbered *)
Definition class_of (k : kind T) : nat :=
  match k with
  | KLoad _ => 0 | KRenewable _ => 1 | KBattery _ => 2 | KGrid _ _ => 3 | KGenset _ => 4 | KUnbalanced _ => 5
  end.
Definition class_count (c : nat) (ms : list (module T)) : nat :=
  length (filter (fun m => Nat.eqb (class_of (m_kind m)) c) ms).

(** to_nonmodular_ops.py:30-59 [check_viability].  Result: the one module of each
    name, in the order of [modules.iterdict()].  Every module is of one of the
    classes. *)
Definition check_viability (g : mgrid T) : res (list (module T)) :=
  let? ms := rmapM (fun kl =>
               match snd kl with
               | [i] => match nth_error (mg_mods g) i with
                        | Some m => Ok m
                        | None => raise KeyError "no such module"
                        end
               | [] => raise IndexError "list index out of range"
               | _ => raise ValueError "multiple modules of same type"
               end) (all_dict g) in
  if existsb (fun c => Nat.ltb 1 (class_count c ms)) (seq 0 6)
  then raise ValueError "module types conflict"
  else if negb (Nat.eqb (class_count 0 ms) 1) then raise ValueError "no LoadModule"
  else Ok ms.

(** [round(x, 1)] and the three random coefficients of the genset's polynomial are
    parameters of the conversion. *)
Variables (round1 : T -> T) (poly : nat -> T).

(** to_nonmodular_ops.py:8-26 *)
Definition empty_params : nm_spec T :=
  mkSpec [] (mkArch false false false false) None None None None None None [] [("hour", [CNum n0])]
    [("loss_load", []); ("overgeneration", [])]
    [("loss_load", []); ("overgeneration", []); ("total_cost", [])] [("co2", [])].

(** to_nonmodular_ops.py:198-240: the [_add_...] helpers *)
Definition add_empty (keys : list string) (r : record T) : record T :=
  dupdate r (map (fun k => (k, [])) keys).
Definition add_parameters (kvs : list (string * T)) (sp : nm_spec T) : nm_spec T :=
  mkSpec (dupdate (sp_parameters sp) kvs) (sp_arch sp) (sp_load sp) (sp_pv sp) (sp_grid_ts sp)
    (sp_import sp) (sp_export sp) (sp_co2 sp) (sp_actions sp) (sp_status sp) (sp_generation sp)
    (sp_cost sp) (sp_df_co2 sp).
Definition set_sp_arch (ar : arch) (sp : nm_spec T) : nm_spec T :=
  mkSpec (sp_parameters sp) ar (sp_load sp) (sp_pv sp) (sp_grid_ts sp)
    (sp_import sp) (sp_export sp) (sp_co2 sp) (sp_actions sp) (sp_status sp) (sp_generation sp)
    (sp_cost sp) (sp_df_co2 sp).
Definition add_records (actions : list string) (status : list (string * list (cell T)))
    (generation cost : list string) (sp : nm_spec T) : nm_spec T :=
  mkSpec (sp_parameters sp) (sp_arch sp) (sp_load sp) (sp_pv sp) (sp_grid_ts sp)
    (sp_import sp) (sp_export sp) (sp_co2 sp) (add_empty actions (sp_actions sp))
    (dupdate (sp_status sp) status) (add_empty generation (sp_generation sp))
    (add_empty cost (sp_cost sp)) (sp_df_co2 sp).
Definition set_sp_load (l : list T) (sp : nm_spec T) : nm_spec T :=
  mkSpec (sp_parameters sp) (sp_arch sp) (Some l) (sp_pv sp) (sp_grid_ts sp)
    (sp_import sp) (sp_export sp) (sp_co2 sp) (sp_actions sp) (sp_status sp) (sp_generation sp)
    (sp_cost sp) (sp_df_co2 sp).
Definition set_sp_pv (l : list T) (sp : nm_spec T) : nm_spec T :=
  mkSpec (sp_parameters sp) (sp_arch sp) (sp_load sp) (Some l) (sp_grid_ts sp)
    (sp_import sp) (sp_export sp) (sp_co2 sp) (sp_actions sp) (sp_status sp) (sp_generation sp)
    (sp_cost sp) (sp_df_co2 sp).
Definition set_sp_grid (i e c s : list T) (sp : nm_spec T) : nm_spec T :=
  mkSpec (sp_parameters sp) (sp_arch sp) (sp_load sp) (sp_pv sp) (Some s)
    (Some i) (Some e) (Some c) (sp_actions sp) (sp_status sp) (sp_generation sp)
    (sp_cost sp) (sp_df_co2 sp).
(** to_nonmodular_ops.py:243-253 [_add_cost_co2] *)
Definition add_cost_co2 (x : T) (sp : nm_spec T) : nm_spec T :=
  let x' := match dget "cost_co2" (sp_parameters sp) with
            | Some y => if neqb x y then y else ndiv (nadd x y) (nofZ 2)
            | None => x
            end in
  add_records [] [] [] ["co2"] (add_parameters [("cost_co2", x')] sp).

(** [time_series[:, j]] *)
Definition column_of (j : nat) (rows : list (list T)) : list T := ts_column j rows.

(** to_nonmodular_ops.py:83-90 *)
Definition add_load_params (t : tsdata T) (cur : Z) (sp : nm_spec T) : res (nm_spec T) :=
  let? lo := first_of (ts_minobs t) in
  let? l := current_load t cur in
  Ok (add_records ["load"] [("load", [CNum (round1 l)])] ["loss_load"] []
       (add_parameters [("load", nmul (nopp n1) lo)] (set_sp_load (column_of 0 (ts_rows t)) sp))).
(** 93-100 *)
Definition add_pv_params (t : tsdata T) (cur : Z) (sp : nm_spec T) : res (nm_spec T) :=
  let? hi := first_of (ts_maxobs t) in
  let? x := current_renewable t cur in
  let ar := sp_arch sp in
  Ok (add_records ["pv_consummed"; "pv_curtailed"; "pv"] [("pv", [CNum x])] ["pv_consummed"; "pv_curtailed"] []
       (add_parameters [("PV_rated_power", hi)]
         (set_sp_arch (mkArch true (has_battery ar) (has_genset ar) (has_grid ar))
           (set_sp_pv (column_of 0 (ts_rows t)) sp)))).
(** 103-126.  [max_soc] is 1 (battery_module.py:311-313). *)
Definition add_battery_params (b : battery T) (sp : nm_spec T) : res (nm_spec T) :=
  let ar := sp_arch sp in
  let left x := round1 (ndiv (nmul x (b_max_capacity b)) (b_efficiency b)) in
  Ok (add_records ["battery_charge"; "battery_discharge"]
        [("battery_soc", [CNum (b_soc b)]);
         ("capa_to_charge", [CNum (left (nsub n1 (b_soc b)))]);
         ("capa_to_discharge", [CNum (left (nsub (b_soc b) (b_min_soc b)))])]
        ["battery_charge"; "battery_discharge"] ["battery"]
       (add_parameters [("battery_soc_0", b_soc b); ("battery_power_charge", b_max_charge b);
                        ("battery_power_discharge", b_max_discharge b);
                        ("battery_capacity", b_max_capacity b); ("battery_efficiency", b_efficiency b);
                        ("battery_soc_min", b_min_soc b); ("battery_soc_max", n1);
                        ("battery_cost_cycle", b_cost_cycle b)]
         (set_sp_arch (mkArch (has_pv ar) true (has_genset ar) (has_grid ar)) sp))).
(** 129-155 *)
Definition add_grid_params (gr : grid T) (t : tsdata T) (sp : nm_spec T) : res (nm_spec T) :=
  let ar := sp_arch sp in
  let col j := column_of j (ts_rows t) in
  let? lowest := list_min (col 3) in
  let? s0 := first_of (col 3) in
  let? c0 := first_of (col 2) in
  let? i0 := first_of (col 0) in
  let? e0 := first_of (col 1) in
  Ok (add_cost_co2 (gr_cost_co2 gr)
       (add_records ["grid_import"; "grid_export"]
          [("grid_status", [CNum s0]); ("grid_co2", [CNum c0]); ("grid_price_import", [CNum i0]);
           ("grid_price_export", [CNum e0])]
          ["grid_import"; "grid_export"] ["grid_import"; "grid_export"]
         (add_parameters [("grid_weak", bool_num (nltb lowest n1)); ("grid_power_import", gr_max_import gr);
                          ("grid_power_export", gr_max_export gr)]
           (set_sp_arch (mkArch (has_pv ar) (has_battery ar) (has_genset ar) true)
             (set_sp_grid (col 0) (col 1) (col 2) (col 3) sp))))).
(** 158-183, 256-264.  A callable [genset_cost] would be stored as it is; converting
    it is not modelled.  (A zero rated power raises after the polynomial was added,
    before anything is returned.) *)
Definition add_genset_params (s : genset T) (sp : nm_spec T) : res (nm_spec T) :=
  let ar := sp_arch sp in
  let pmax := nfrac 9 10 in
  let rated := ndiv (g_max_prod s) pmax in
  if neqb rated n0 then raise RuntimeError ""
  else
    match g_cost s with
    | FuelFn _ => raise RuntimeError "unmodelled: callable genset_cost"
    | FuelLin cost =>
        Ok (add_cost_co2 (g_cost_co2 s)
             (add_records ["genset"] [] ["genset"] ["genset"]
               (add_parameters [("genset_polynom_order", nofZ 3); ("genset_polynom_0", poly 0);
                                ("genset_polynom_1", poly 1); ("genset_polynom_2", poly 2);
                                ("genset_rated_power", rated); ("genset_pmin", ndiv (g_min_prod s) rated);
                                ("genset_pmax", pmax); ("fuel_cost", cost); ("genset_co2", g_co2_per_unit s)]
                 (set_sp_arch (mkArch (has_pv ar) (has_battery ar) true (has_grid ar)) sp))))
    end.
(** 186-192 *)
Definition add_unbalanced_energy_params (u : unbalanced T) (sp : nm_spec T) : res (nm_spec T) :=
  Ok (add_records [] [] ["overgeneration"] ["overgeneration"]
       (add_parameters [("cost_overgeneration", u_overgeneration_cost u);
                        ("cost_loss_load", u_loss_load_cost u)] sp)).

(** 66-80 [add_params_from_module] *)
Definition add_params (m : module T) (sp : nm_spec T) : res (nm_spec T) :=
  match m_kind m with
  | KLoad t => add_load_params t (m_cur m) sp
  | KRenewable t => add_pv_params t (m_cur m) sp
  | KBattery b => add_battery_params b sp
  | KGrid gr t => add_grid_params gr t sp
  | KGenset s => add_genset_params s sp
  | KUnbalanced u => add_unbalanced_energy_params u sp
  end.
Fixpoint add_all (ms : list (module T)) (sp : nm_spec T) : res (nm_spec T) :=
  match ms with
  | [] => Ok sp
  | m :: ms' => let? sp' := add_params m sp in add_all ms' sp'
  end.

(** convert.py:18-45 [to_nonmodular] *)
Definition to_nonmodular (g : mgrid T) : res (nonmod T) :=
  let? ms := check_viability g in
  let? sp := add_all ms empty_params in
  let? h := get_forecast_horizon g in
  new_nonmodular sp (Z.of_nat h + 1).

End Conversion.
