(** * Model of algos/mpc/mpc.py on non-modular microgrids

    The solver is a parameter, as in MPC.v.  A sample (a data frame with the columns
    'load', 'pv' and 'grid' and the rows 0, 1, ...) is the list of values of each column.
    Progress output is not modelled. *)

From Coq Require Import ZArith Bool String List.
From Verif Require Import Num Py Space Logger Forecast Module Container Microgrid NonModular Conversion MPC NmRbc.
Import ListNotations.
Local Open Scope string_scope.
Local Open Scope list_scope.
Local Open Scope py_scope.

Section NmMpc.
Context {T : Type} {N : NumOps T}.

(** ** Construction *)

(** mpc.py:172-197 [_parse_nonmodular_microgrid] *)
Definition parse_nonmodular (g : nonmod T) : res (mpc_params T) :=
  let par := nm_par g in
  let gen := has_genset (nm_arch g) in
  let? eta := dfind par "battery_efficiency" in
  let? capacity := dfind par "battery_capacity" in
  let? fuel := (if gen then dfind par "fuel_cost" else Ok n0) in
  let? cycle := dfind par "battery_cost_cycle" in
  let? loss := dfind par "cost_loss_load" in
  let? co2 := dfind par "cost_co2" in
  let? gs := (if gen then
                let? pmin := dfind par "genset_pmin" in
                let? rated := dfind par "genset_rated_power" in
                let? pmax := dfind par "genset_pmax" in
                let? gco2 := dfind par "genset_co2" in
                Ok (nmul pmin rated, nmul pmax rated, gco2)
              else Ok (n0, n0, n0)) in
  let '(gmin, gmax, gco2) := gs in
  Ok (mkParams eta capacity fuel cycle loss gmin gmax co2 gco2).

(** The names of the modules are only used to tell whether there is a genset
    (mpc.py:105-113). *)
Definition gen_names (gen : bool) : dict string := if gen then [("genset", "genset")] else [].

(** mpc.py:81-103, 115-128, 138-145 [__init__] of a non-modular microgrid: it is recognised by its
    conversion to a modular one.  An AttributeError there leads to a conversion to a
    non-modular one, which the microgrid does not have.  Variables without entries are
    refused by the solver's library, as are negative costs without a genset. *)
Definition nm_new_mpc (g : nonmod T) : res (mpc T) :=
  match to_modular false g with
  | Err e => match ex_class e with
             | AttributeError => raise TypeError "Unable to verify microgrid as modular or nonmodular."
             | _ => Err e
             end
  | Ok _ =>
      if (nm_horizon g <=? 0)%Z then raise ValueError "Invalid dimensions"
      else
        let? p := parse_nonmodular g in
        if negb (has_genset (nm_arch g)) && (nltb (pa_cycle p) n0 || nltb (pa_loss p) n0)
        then raise ValueError "Parameter value must be nonnegative."
        else Ok (mkMpc (gen_names (has_genset (nm_arch g))) (Z.to_nat (nm_horizon g)) p)
  end.

(** ** The program of one step *)

Record sample := mkSample { sm_load : list T; sm_pv : list T; sm_grid : list T }.

(** DataGenerator.py:30-59 [return_underlying_data].  Columns of different lengths are
    filled up with NaN in the frame, which is not modelled: the columns end with the
    shortest. *)
Definition underlying_data (g : nonmod T) : sample :=
  let grid := if has_grid (nm_arch g) then nm_status_ts g else zeros (length (nm_load_ts g)) in
  let n := Nat.min (Nat.min (length (nm_load_ts g)) (length (nm_pv_ts g))) (length grid) in
  mkSample (firstn n (nm_load_ts g)) (firstn n (nm_pv_ts g)) (firstn n grid).
(** [sample.iloc[:k]] *)
Definition cut_sample (k : Z) (s : sample) : sample :=
  mkSample (py_slice (sm_load s) 0 k) (py_slice (sm_pv s) 0 k) (py_slice (sm_grid s) 0 k).

(** mpc.py:605-645, 985-1025: what is known at step [i], with the state of charge [soc].
    [sample.loc[i:i + horizon - 1, ...]] includes its last row.  (The check of shapes at
    lines 620 and 1002 never fails.) *)
Definition nm_values (g : nonmod T) (s : sample) (i : Z) (status : record T) : res (mpc_data T) :=
  let par := nm_par g in
  let h := nm_horizon g in
  let upto (l : list T) := py_slice l i (i + h) in
  let? gr := (if has_grid (nm_arch g) then
                let? pi := dfind par "grid_power_import" in
                let? pe := dfind par "grid_power_export" in
                Ok (upto (sm_grid s), upto (nm_import_ts g), upto (nm_export_ts g), upto (nm_co2_ts g), pi, pe)
              else
                let z := zeros (Z.to_nat h) in
                Ok (z, z, z, z, n0, n0)) in
  let '(grid, imp, exp, gco2, pimp, pexp) := gr in
  let? emin := dfind par "battery_soc_min" in
  let? emax := dfind par "battery_soc_max" in
  let? pc := dfind par "battery_power_charge" in
  let? pd := dfind par "battery_power_discharge" in
  let? soc := last_num status "battery_soc" in
  let? co2 := dfind par "cost_co2" in
  let? gmax := (if has_genset (nm_arch g) then
                  let? pmax := dfind par "genset_pmax" in
                  let? rated := dfind par "genset_rated_power" in
                  Ok (nmul pmax rated)
                else Ok n0) in
  Ok (mkData (upto (sm_load s)) (upto (sm_pv s)) grid imp exp emax emin pc pd pimp pexp soc gmax (Some co2) gco2).

(** ** Its solution *)

Definition entry_at {A} (l : list A) (i : nat) : res A :=
  match nth_error l i with Some x => Ok x | None => raise IndexError "index out of bounds" end.

(** mpc.py:800-823, 831-862: step [j] of the solution [p] *)
Definition step_control (gen : bool) (p load pv : list T) (j : nat) : res (dict T) :=
  let b := (if gen then j * 8 + 1 else j * 7)%nat in
  let? ge := (if gen then let? x := entry_at p (j * 8) in Ok [("genset", x)] else Ok []) in
  let? ch := entry_at p (b + 2) in
  let? di := entry_at p (b + 3) in
  let? im := entry_at p b in
  let? ex := entry_at p (b + 1) in
  let? lo := entry_at p (b + 5) in
  let? cu := entry_at p (b + 4) in
  let? v := entry_at pv j in
  let? l := entry_at load j in
  Ok ([("battery_charge", ch); ("battery_discharge", di)] ++ ge
      ++ [("grid_import", im); ("grid_export", ex); ("loss_load", lo); ("pv_consummed", nsub v cu);
          ("pv_curtailed", cu); ("load", l); ("pv", v)]).
(** The values of the variables: [None] of a problem without solution *)
Definition values_of (sol : option (list T * list T)) : res (list T) :=
  match sol with
  | Some (p, _) => Ok p
  | None => raise TypeError "'NoneType' object is not subscriptable"
  end.
(** mpc.py:715-797 [_set_and_solve] with [return_steps = 0] *)
Definition nm_solve (c : mpc T) (solve : solver T) (k : nat) (d : mpc_data T) : res (dict T) :=
  let? pr := make_problem c d in
  let? sol := solve k pr in
  let? p := values_of sol in
  step_control (has_gen c) p (da_load d) (da_pv d) 0.
(** The same with [return_steps]: the steps 0, 1, ... of the solution *)
Definition nm_solve_steps (c : mpc T) (solve : solver T) (k : nat) (d : mpc_data T) (steps : nat) : res (list (dict T)) :=
  let? pr := make_problem c d in
  let? sol := solve k pr in
  if Nat.ltb (mp_horizon c) steps then raise ValueError "return_steps cannot be greater than horizon"
  else rmapM (fun j => let? p := values_of sol in step_control (has_gen c) p (da_load d) (da_pv d) j) (seq 0 steps).

(** ** Records *)

(** mpc.py:647-703, Control.py:140-200: the control of step [i] is recorded.  [load], [pv]
    and [status] are the values that the next row of the status shows. *)
Definition record_step (g : nonmod T) (i : Z) (control : dict T) (load pv : T) (status : res T) (r : copies T)
  : res (copies T) :=
  let par := nm_par g in
  let ar := nm_arch g in
  let actions := record_action control (cp_actions r) in
  let? production := on_copy (record_production par ar control (cp_state r)) (cp_production r) in
  let? prod := last_row production in
  let? now := (if has_grid ar then iloc (nm_co2_ts g) i else Ok n0) in
  let? co2 := on_copy (record_co2 par ar prod now) (cp_co2 r) in
  let? next := (if has_grid ar then
                  let? s := status in
                  let? im := iloc (nm_import_ts g) (i + 1) in
                  let? ex := iloc (nm_export_ts g) (i + 1) in
                  let? c := iloc (nm_co2_ts g) (i + 1) in
                  Ok (mkNext (CNum load) (CNum pv) (CNum s) (CNum im) (CNum ex) (CNum c))
                else Ok (mkNext (CNum load) (CNum pv) (CNum n0) (CNum n0) (CNum n0) (CNum n0))) in
  let? state := on_copy (update_status par ar (nm_t g) prod next) (cp_state r) in
  let? prices := (if has_grid ar then
                    let? im := iloc (nm_import_ts g) i in
                    let? ex := iloc (nm_export_ts g) i in Ok (im, ex)
                  else Ok (n0, n0)) in
  let? cost := on_copy (record_cost par ar prod co2 (fst prices) (snd prices)) (cp_cost r) in
  Ok (mkCopies actions state production cost co2).

(** ** Runs *)

(** mpc.py:603-703: one step.  [_set_and_solve] never returns [None], so the branches with
    earlier controls are not reached.  [sample.at[i + 1, 'load']] of a row that does not
    exist is a KeyError. *)
Definition row_at (l : list T) (i : nat) : res T :=
  match nth_error l i with Some x => Ok x | None => raise KeyError "row" end.
Definition nm_mpc_step (c : mpc T) (solve : solver T) (g : nonmod T) (s : sample) (i : nat) (r : copies T) : res (copies T) :=
  let? d := nm_values g s (Z.of_nat i) (cp_state r) in
  let? control := nm_solve c solve i d in
  let? load := row_at (sm_load s) (S i) in
  let? pv := row_at (sm_pv s) (S i) in
  record_step g (Z.of_nat i) control load pv (row_at (sm_grid s) (S i)) r.
Fixpoint nm_mpc_steps (c : mpc T) (solve : solver T) (g : nonmod T) (s : sample) (i n : nat) (r : copies T)
  : res (copies T) :=
  match n with
  | O => Ok r
  | S n' => let? r := nm_mpc_step c solve g s i r in nm_mpc_steps c solve g s (S i) n' r
  end.
(** mpc.py:591-598: the number of steps *)
Definition nm_num_iter (g : nonmod T) (s : sample) (steps : option Z) : res nat :=
  let most := (Z.of_nat (length (sm_load s)) - nm_horizon g)%Z in
  match steps with
  | None => Ok (Z.to_nat most)
  | Some n => if (n <=? most)%Z then Ok (Z.to_nat n)
              else raise AssertionError "forecast steps can't look past horizon"
  end.
(** mpc.py:563-713 [_run_mpc_on_sample]: the microgrid is reset; everything is recorded in
    copies. *)
Definition run_mpc_on_sample (c : mpc T) (solve : solver T) (s : sample) (steps : option Z) : M (nonmod T) (copies T) :=
  g <- mget ;;
  let s := cut_sample (nm_len g) s in
  nm_reset false ;;
  g <- mget ;;
  n <- mlift (nm_num_iter g s steps) ;;
  mlift (nm_mpc_steps c solve g s 0 n (copies_of g)).
(** mpc.py:494-532 [run] of a non-modular microgrid *)
Definition nm_mpc_run (c : mpc T) (solve : solver T) (steps : option Z) : M (nonmod T) (copies T) :=
  g <- mget ;;
  run_mpc_on_sample c solve (underlying_data g) steps.

End NmMpc.

Arguments sample T : clear implicits.
