(** * Model of _deprecated/Environments/pymgrid_csca.py

    The environments with continuous actions around non-modular microgrids, with the
    standardization of actions and observations and the constraints of the safe environments.
    The microgrid that is passed is copied, so that the constructors are functions.  An integer
    in its place (67-71) is not modelled: the generator then makes modular microgrids.  What is
    drawn ([randint]) is an argument; numpy is one that has [np.float] (before 1.24). *)

From Coq Require Import ZArith Bool String List.
From Verif Require Import Num Py NonModular NmMpc OldEnv.
Import ListNotations.
Local Open Scope string_scope.
Local Open Scope list_scope.
Local Open Scope py_scope.

Section GymEnv.
Context {T : Type} {N : NumOps T}.

(** The means and standard deviations of observations and actions *)
Record stds := mkStds { st_obs_mean : list T; st_obs_std : list T; st_mean : list T; st_std : list T }.
(** The bounds are those of [action_space]. *)
Record gym := mkGym {
  gy_grid : nonmod T;
  gy_trajectory : option Z;            (* trajectory_len *)
  gy_stds : option stds;               (* standardizations, None without standardization *)
  gy_low : list T; gy_high : list T;
  gy_action : option (list T);         (* current_action *)
  gy_obs : option (list (cell T))      (* current_obs *)
}.
Definition set_gym_grid (g : nonmod T) (e : gym) : gym :=
  mkGym g (gy_trajectory e) (gy_stds e) (gy_low e) (gy_high e) (gy_action e) (gy_obs e).
Definition set_current (a : option (list T)) (o : option (list (cell T))) (e : gym) : gym :=
  mkGym (gy_grid e) (gy_trajectory e) (gy_stds e) (gy_low e) (gy_high e) a o.
Definition on_gym {A} (f : M (nonmod T) A) : M gym A :=
  fun e => let '(g, x) := f (gy_grid e) in (set_gym_grid g e, x).

(** ** 56-167 [MicrogridEnv] *)

(** 100-109 [_short_trajectory_set]; [start] is what [randint] draws *)
Definition short_trajectory (trajectory : option Z) (start : Z) : M (nonmod T) unit :=
  match trajectory with
  | None => mret tt
  | Some n =>
      g <- mget ;;
      if (nm_len g - nm_horizon g - n <=? 0)%Z then mraise ValueError "low >= high"
      else mmodify (fun g => set_clock start (start + n + nm_horizon g) (nm_done g) g)
  end.
(** 59-97 [__init__] *)
Definition new_gym (trajectory episode : option Z) (start : Z) (g : nonmod T) : res gym :=
  if negb (nm_len g =? 8760)%Z then raise AssertionError "Microgrid data length should be 8760"
  else
    let g := set_horizon (match episode with None => 0%Z | Some m => (nm_len g - m)%Z end) g in
    match short_trajectory trajectory start g with
    | (g, Ok _) => Ok (mkGym g trajectory None [] [] None None)
    | (_, Err x) => Err x
    end.
(** 111-120 [reset] *)
Definition base_reset (start : Z) : M gym (list (cell T)) :=
  on_gym (nm_reset false) ;;
  e <- mget ;;
  on_gym (short_trajectory (gy_trajectory e) start) ;;
  e <- mget ;;
  v <- mlift (get_updated_values (gy_grid e)) ;;
  mmodify (fun e => set_current (gy_action e) (Some (map snd v)) e) ;;
  mret (map snd v).
(** 459-484 [get_control_dict] *)
Definition gym_control (ar : arch) (a : list T) : res (dict T) :=
  let i := if has_genset ar then 1%nat else 0%nat in
  let? charge := at_index a (i + 2) in
  let? discharge := at_index a (i + 3) in
  let? gen := (if has_genset ar then let? x := at_index a 0 in Ok [("genset", x)] else Ok []) in
  let? import := at_index a i in
  let? export := at_index a (i + 1) in
  let? pv := at_index a (i + 4) in
  Ok ([("battery_charge", charge); ("battery_discharge", discharge)] ++ gen
      ++ [("grid_import", import); ("grid_export", export); ("pv_consummed", pv)]).
(** 122-167 [step], [run_control].  (The number of columns does not change, as is asserted.) *)
Definition base_step (a : list T) : M gym (list (cell T) * T * bool) :=
  e <- mget ;;
  c <- mlift (gym_control (nm_arch (gy_grid e)) a) ;;
  v <- on_gym (nm_run c) ;;
  e <- mget ;;
  cost <- mlift (let? c := get_cost (gy_grid e) in num c) ;;
  mmodify (set_current (Some a) (Some (map snd v))) ;;
  mret (map snd v, nneg cost, nm_done (gy_grid e)).

(** ** 170-484 [ContinuousMicrogridEnv] *)

(** 349-389 [standardize]: shapes, then the formula.  A difference with None is a TypeError. *)
Definition shaped_alike {A B C} (x : list A) (y : list B) (z : list C) : bool :=
  Nat.eqb (length x) (length y) && Nat.eqb (length y) (length z).
Definition forward (x : list (cell T)) (mean std : list T) : res (list T) :=
  if shaped_alike x mean std then
    rmapM (fun p => let? v := num (fst p) in Ok (ndiv (nsub v (fst (snd p))) (snd (snd p)))) (combine x (combine mean std))
  else raise ValueError "Incompatible shapes of data, mean_proxy, std_proxy".
Definition backward (x : list (cell T)) (mean std : list T) : res (list T) :=
  if shaped_alike x mean std then
    rmapM (fun p => let? v := num (fst p) in Ok (nadd (nmul v (snd (snd p))) (fst (snd p)))) (combine x (combine mean std))
  else raise ValueError "Incompatible shapes of data, mean_proxy, std_proxy".

(** 391-457 [pre_compute_standardizations], from the tables of actions and states that the run
    of model predictive control returns; [deviation] is [np.std].  The names of the actions with
    a genset are but two, the second of them a list in one string. *)
Definition mean_of (l : list T) : T := ndiv (nsum l) (nofZ (Z.of_nat (length l))).
Definition action_keys (genset : bool) : list string :=
  if genset then ["genset"; "grid_import, grid_export, battery_charge, battery_discharge, pv_consummed"]
  else ["grid_import"; "grid_export"; "battery_charge"; "battery_discharge"; "pv_consummed"].
Definition column_stats (deviation : list T -> T) (r : record T) (keys : list string) : res (list (T * T)) :=
  rmapM (fun k => let? l := dfind r k in let? xs := rmapM num l in Ok (mean_of xs, deviation xs)) keys.
Definition at_least_one (x : T) : T := if nltb x n1 then n1 else x.
Definition standardizations (deviation : list T -> T) (g : nonmod T) (tables : record T * record T) : res stds :=
  let genset := has_genset (nm_arch g) in
  let? a := column_stats deviation (fst tables) (action_keys genset) in
  let? o := column_stats deviation (snd tables) (map fst (nm_state g)) in
  let rest := repeat n0 ((if genset then 6 else 5) - length a) in
  Ok (mkStds (map fst o) (map (fun x => at_least_one (snd x)) o) (map fst a ++ rest)
             (map at_least_one (map snd a ++ rest))).

(** 205-234 [_get_action_ub_lb]: the upper and the lower bounds *)
Definition action_bounds (g : nonmod T) : res (list T * list T) :=
  let par := nm_par g in
  let? import := dfind par "grid_power_import" in
  let? export := dfind par "grid_power_export" in
  let? charge := dfind par "battery_power_charge" in
  let? discharge := dfind par "battery_power_discharge" in
  let? pv := par_attr g "PV_rated_power" in
  let? gen := (if has_genset (nm_arch g) then
                 let? rated := dfind par "genset_rated_power" in
                 let? pmax := dfind par "genset_pmax" in
                 let? pmin := dfind par "genset_pmin" in
                 Ok [(nmul rated pmax, nmul rated pmin)]
               else Ok []) in
  Ok (map fst gen ++ [import; export; charge; discharge; pv], map snd gen ++ repeat n0 5).
Fixpoint set_at (l : list T) (i : nat) (x : T) : list T :=
  match l, i with
  | [], _ => []
  | _ :: l, O => x :: l
  | y :: l, S i => y :: set_at l i x
  end.
(** 174-203 [__init__]; [run] is the run of model predictive control, with the horizon 24. *)
Definition new_continuous (standardization : bool) (trajectory episode : option Z) (start : Z)
    (run : M (nonmod T) (record T * record T)) (deviation : list T -> T) (g : nonmod T) : res gym :=
  let? e := new_gym trajectory episode start g in
  let g := gy_grid e in
  let? b := action_bounds g in
  let '(high, low) := b in
  if standardization then
    let '(g', r) := run (set_horizon 24 g) in
    let? tables := r in
    let g := set_horizon (nm_horizon g) g' in
    let? s := standardizations deviation g tables in
    let? low := forward (map CNum low) (st_mean s) (st_std s) in
    let? high := forward (map CNum high) (st_mean s) (st_std s) in
    Ok (mkGym g trajectory (Some s) low (set_at high 1 (nfrac 1 10)) None None)
  else Ok (mkGym g trajectory None low high None None).

(** 290-297 [reset] *)
Definition gym_reset (start : Z) : M gym (list (cell T)) :=
  o <- base_reset start ;;
  e <- mget ;;
  match gy_stds e with
  | Some s =>
      x <- mlift (forward o (st_obs_mean s) (st_obs_std s)) ;;
      mmodify (set_current (gy_action e) (Some (map CNum x))) ;;
      mret (map CNum x)
  | None => mret o
  end.
(** 301-347 [step] *)
Definition gym_step (a : list T) : M gym (list (cell T) * T * bool) :=
  e <- mget ;;
  b <- mlift (match gy_stds e with Some s => backward (map CNum a) (st_mean s) (st_std s) | None => Ok a end) ;;
  r <- base_step b ;;
  let '(o, reward, done) := r in
  x <- mlift (match gy_stds e with
              | Some s => rmap (map CNum) (forward o (st_obs_mean s) (st_obs_std s))
              | None => Ok o
              end) ;;
  mmodify (set_current (Some a) (Some x)) ;;
  mret (x, reward, done).

(** 238-288 [get_values] *)
Definition action_names (genset : bool) : list string :=
  (if genset then ["genset"] else []) ++ ["grid_import"; "grid_export"; "battery_charge"; "battery_discharge"; "pv_consummed"].
Definition observation_names (grid : bool) : list string :=
  ["load"; "hour"; "pv"; "battery_soc"; "capa_to_charge"; "capa_to_discharge"]
  ++ (if grid then ["grid_status"; "grid_co2"; "grid_price_import"; "grid_price_export"] else []).
Definition current_obs (e : gym) : res (list (cell T)) :=
  match gy_obs e with Some o => Ok o | None => raise TypeError "'NoneType' object is not iterable" end.
Definition known_values (e : gym) (a : list T) (o : list (cell T)) : dict (cell T) :=
  combine (action_names (has_genset (nm_arch (gy_grid e)))) (map CNum a)
  ++ combine (observation_names (has_grid (nm_arch (gy_grid e)))) o.
Definition get_values (names : list string) : M gym (list (cell T)) :=
  e <- mget ;;
  (match gy_action e with
   | None => mmodify (set_current (Some (repeat n0 (length (action_names (has_genset (nm_arch (gy_grid e))))))) (gy_obs e))
   | Some _ => mret tt
   end) ;;
  mlift (
    let? ao := match gy_action e, gy_stds e with
               | None, _ =>
                   let? o := current_obs e in
                   Ok (repeat n0 (length (action_names (has_genset (nm_arch (gy_grid e))))), o)
               | Some a, Some s =>
                   let? a := backward (map CNum a) (st_mean s) (st_std s) in
                   let? o := current_obs e in
                   let? o := backward o (st_obs_mean s) (st_obs_std s) in
                   Ok (a, map CNum o)
               | Some a, None => let? o := current_obs e in Ok (a, o)
               end in
    rmapM (fun k => match dget k (known_values e (fst ao) (snd ao)) with
                    | Some x => Ok x
                    | None => raise ValueError "Value not recognized with current architecture"
                    end) names).

(** ** 512-640 [SafeExpMicrogridEnv] *)

(** The numbers of [get_values] *)
Definition get_numbers (names : list string) : M gym (list T) := l <- get_values names ;; mlift (rmapM num l).
(** [x / scale] if the constraints are to be scaled.  A scale of zero is not modelled. *)
Definition scaled_by (scale : bool) (x s : T) : T := if scale then ndiv x s else x.
(** 533-535, 539-546 *)
Definition num_constraints (genset only_inequality : bool) : nat :=
  (if genset then 9 else 7) - (if only_inequality then 1 else 0).
(** 562-582 [_get_energy_balance] *)
Definition energy_balance (scale : bool) : M gym T :=
  e <- mget ;;
  let genset := has_genset (nm_arch (gy_grid e)) in
  l <- get_numbers (["grid_import"; "grid_export"; "battery_charge"; "battery_discharge"]
                    ++ (if genset then ["genset"] else []) ++ ["load"; "pv"; "pv_consummed"]) ;;
  let at_ (i : nat) : T := nth i l n0 in
  let j := if genset then 1%nat else 0%nat in
  let gen := if genset then at_ 4 else n0 in
  let load := at_ (4 + j)%nat in
  let pv := at_ (5 + j)%nat in
  let curtailed := nsub pv (at_ (6 + j)%nat) in
  let x := nadd (nsub (nsub (nadd (nadd (nsub (nsub (at_ 0%nat) (at_ 1%nat)) (at_ 2%nat)) (at_ 3%nat)) gen) curtailed) load) pv in
  if scale then
    cap <- mlift (par_attr (gy_grid e) "battery_capacity") ;; mret (ndiv x cap)
  else mret x.
(** 584-640 [_get_inequality_constraints] *)
Definition inequality_constraints (scale : bool) (tolerance : T) : M gym (list T) :=
  e <- mget ;;
  let g := gy_grid e in
  let par := nm_par g in
  l <- get_numbers ["battery_charge"; "battery_discharge"; "capa_to_charge"; "capa_to_discharge"] ;;
  cap <- mlift (if scale then par_attr g "battery_capacity" else Ok n1) ;;
  let battery := [scaled_by scale (nsub (nth 0 l n0) (nth 2 l n0)) cap; scaled_by scale (nsub (nth 1 l n0) (nth 3 l n0)) cap] in
  mi <- mlift (dfind par "grid_power_import") ;;
  me <- mlift (dfind par "grid_power_export") ;;
  l <- get_numbers ["grid_import"; "grid_export"; "grid_status"] ;;
  let grid := [scaled_by scale (nsub (nth 0 l n0) (nmul mi (nth 2 l n0))) mi;
               scaled_by scale (nsub (nth 1 l n0) (nmul me (nth 2 l n0))) me] in
  smax <- mlift (dfind par "battery_soc_max") ;;
  smin <- mlift (dfind par "battery_soc_min") ;;
  l <- get_numbers ["battery_soc"] ;;
  let soc := [scaled_by scale (nsub (nth 0 l n0) smax) smax; scaled_by scale (nsub smin (nth 0 l n0)) smin] in
  genset <- (if has_genset (nm_arch g) then
               rated <- mlift (dfind par "genset_rated_power") ;;
               pmax <- mlift (dfind par "genset_pmax") ;;
               pmin <- mlift (dfind par "genset_pmin") ;;
               l <- get_numbers ["genset"] ;;
               let p := nth 0 l n0 in
               mret (if nltb p n1
                     then [scaled_by scale (nsub p n1) (nmul rated pmax);
                           scaled_by scale (nsub (nopp p) tolerance) (nmul rated pmax)]
                     else [scaled_by scale (nsub p (nmul rated pmax)) (nmul rated pmax);
                           scaled_by scale (nsub (nmul rated pmin) p) (nmul rated pmin)])
             else mret []) ;;
  mret (battery ++ grid ++ soc ++ genset).
(** 548-560 [get_constraint_values] *)
Definition constraint_values (only_inequality scale : bool) (tolerance : T) : M gym (list T) :=
  l <- inequality_constraints scale tolerance ;;
  b <- energy_balance scale ;;
  mret (if only_inequality then l else l ++ [b]).

(** ** 18-39, 487-509, 643-673: environments that sample *)

(** 18-39 [sample_reset] with the sample that was drawn.  (All rows of a sample are used as
    data: [pd.DataFrame] of a frame.) *)
Definition take_sample (s : sample T) (g : nonmod T) : res (nonmod T) :=
  let? load0 := iloc (sm_load s) 0 in
  let? pv0 := iloc (sm_pv s) 0 in
  let st := dset "pv" [CNum pv0] (dset "load" [CNum load0] (nm_state g)) in
  let? r := (if has_grid (nm_arch g) then
               let? s0 := iloc (sm_grid s) 0 in
               Ok (sm_grid s, dset "grid_status" [CNum s0] st)
             else Ok (nm_status_ts g, st)) in
  let '(status, st) := r in
  Ok (mkNonmod (nm_par g) (nm_arch g) (sm_load s) (sm_pv s) status (nm_import_ts g) (nm_export_ts g) (nm_co2_ts g)
        (nm_now g) (nm_next g) (nm_battery g) (nm_actions g) st (nm_production g) (nm_cost g) (nm_co2 g)
        (nm_per_epoch g) (nm_horizon g) (nm_t g) (nm_len g) (nm_done g) (nm_epoch g) (nm_limit g) (nm_split g)
        (nm_default g) (nm_use g)).
(** 500-509, 669-672 [reset].  (If the sample has no rows, some of the series are replaced
    before the IndexError; not modelled.) *)
Definition sample_reset (s : sample T) (start : Z) : M gym (list (cell T)) :=
  e <- mget ;;
  g <- mlift (take_sample s (gy_grid e)) ;;
  mmodify (set_gym_grid g) ;;
  gym_reset start.

End GymEnv.

Arguments stds T : clear implicits.
Arguments gym T : clear implicits.
