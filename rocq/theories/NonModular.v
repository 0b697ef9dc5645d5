(** * src/pymgrid/_deprecated/non_modular_microgrid.py

    The microgrid generated by [MicrogridGenerator] and converted from and to
    modular ones.  Printing and plotting are not modelled.  A time series (a data
    frame with one column) is the list of its values; [parameters] (a data frame
    with one row) is the dictionary of that row. *)

From Coq Require Import ZArith Bool String List.
From Verif Require Import Num Py.
Import ListNotations.
Local Open Scope string_scope.
Local Open Scope list_scope.
Local Open Scope py_scope.

(** What is recorded: a number, [None] (the next value after the end of the data),
    or the dictionary [{key: 0}] that stands for a missing control (line 864). *)
Inductive cell (T : Type) := CNum (x : T) | CNone | CMissing (key : string).
Arguments CNum {T} x.
Arguments CNone {T}.
Arguments CMissing {T} key.

(** [architecture] *)
Record arch := mkArch { has_pv : bool; has_battery : bool; has_genset : bool; has_grid : bool }.

(** [_data_set_to_use] *)
Inductive dataset := All | Training | Testing.

Section NonModular.
Context {T : Type} `{NumOps T}.

(** A record: for each column its values, oldest first. *)
Definition record := dict (list (cell T)).

(** The argument [parameters] of the constructor.  A missing frame is [None]. *)
Record nm_spec := mkSpec {
  sp_parameters : dict T;
  sp_arch : arch;
  sp_load : option (list T);
  sp_pv : option (list T);
  sp_grid_ts : option (list T);
  sp_import : option (list T);
  sp_export : option (list T);
  sp_co2 : option (list T);
  sp_actions : record;
  sp_status : record;
  sp_generation : record;
  sp_cost : record;
  sp_df_co2 : record
}.

(** The variables that change with time: their values at the current step and at
    the next one. *)
Record now := mkNow {
  now_load : T; now_pv : T;
  now_status : T; now_import : T; now_export : T; now_co2 : T
}.
Record next := mkNext {
  nx_load : cell T; nx_pv : cell T;
  nx_status : cell T; nx_import : cell T; nx_export : cell T; nx_co2 : cell T
}.
(** The parts of the battery object that change. *)
Record battery_view := mkBview { bv_soc : cell T; bv_charge : cell T; bv_discharge : cell T }.

Record nonmod := mkNonmod {
  nm_par : dict T;
  nm_arch : arch;
  nm_load_ts : list T;
  nm_pv_ts : list T;
  nm_status_ts : list T;
  nm_import_ts : list T;
  nm_export_ts : list T;
  nm_co2_ts : list T;
  nm_now : now;
  nm_next : next;
  nm_battery : battery_view;
  nm_actions : record;
  nm_state : record;
  nm_production : record;
  nm_cost : record;
  nm_co2 : record;
  nm_per_epoch : list (record * nat);
  nm_horizon : Z;
  nm_t : Z;
  nm_len : Z;
  nm_done : bool;
  nm_epoch : nat;
  nm_limit : nat;
  nm_split : bool;
  nm_default : dataset;
  nm_use : dataset
}.

(** Assignments to attributes *)
Definition set_now (n : now) (g : nonmod) : nonmod :=
  mkNonmod (nm_par g) (nm_arch g) (nm_load_ts g) (nm_pv_ts g) (nm_status_ts g) (nm_import_ts g)
    (nm_export_ts g) (nm_co2_ts g) n (nm_next g) (nm_battery g) (nm_actions g) (nm_state g)
    (nm_production g) (nm_cost g) (nm_co2 g) (nm_per_epoch g) (nm_horizon g) (nm_t g) (nm_len g)
    (nm_done g) (nm_epoch g) (nm_limit g) (nm_split g) (nm_default g) (nm_use g).
Definition set_next (n : next) (g : nonmod) : nonmod :=
  mkNonmod (nm_par g) (nm_arch g) (nm_load_ts g) (nm_pv_ts g) (nm_status_ts g) (nm_import_ts g)
    (nm_export_ts g) (nm_co2_ts g) (nm_now g) n (nm_battery g) (nm_actions g) (nm_state g)
    (nm_production g) (nm_cost g) (nm_co2 g) (nm_per_epoch g) (nm_horizon g) (nm_t g) (nm_len g)
    (nm_done g) (nm_epoch g) (nm_limit g) (nm_split g) (nm_default g) (nm_use g).
Definition set_battery (b : battery_view) (g : nonmod) : nonmod :=
  mkNonmod (nm_par g) (nm_arch g) (nm_load_ts g) (nm_pv_ts g) (nm_status_ts g) (nm_import_ts g)
    (nm_export_ts g) (nm_co2_ts g) (nm_now g) (nm_next g) b (nm_actions g) (nm_state g)
    (nm_production g) (nm_cost g) (nm_co2 g) (nm_per_epoch g) (nm_horizon g) (nm_t g) (nm_len g)
    (nm_done g) (nm_epoch g) (nm_limit g) (nm_split g) (nm_default g) (nm_use g).
Definition set_records (a s p c o : record) (g : nonmod) : nonmod :=
  mkNonmod (nm_par g) (nm_arch g) (nm_load_ts g) (nm_pv_ts g) (nm_status_ts g) (nm_import_ts g)
    (nm_export_ts g) (nm_co2_ts g) (nm_now g) (nm_next g) (nm_battery g) a s p c o
    (nm_per_epoch g) (nm_horizon g) (nm_t g) (nm_len g)
    (nm_done g) (nm_epoch g) (nm_limit g) (nm_split g) (nm_default g) (nm_use g).
Definition set_clock (t len : Z) (done : bool) (g : nonmod) : nonmod :=
  mkNonmod (nm_par g) (nm_arch g) (nm_load_ts g) (nm_pv_ts g) (nm_status_ts g) (nm_import_ts g)
    (nm_export_ts g) (nm_co2_ts g) (nm_now g) (nm_next g) (nm_battery g) (nm_actions g) (nm_state g)
    (nm_production g) (nm_cost g) (nm_co2 g) (nm_per_epoch g) (nm_horizon g) t len
    done (nm_epoch g) (nm_limit g) (nm_split g) (nm_default g) (nm_use g).
Definition set_horizon (h : Z) (g : nonmod) : nonmod :=
  mkNonmod (nm_par g) (nm_arch g) (nm_load_ts g) (nm_pv_ts g) (nm_status_ts g) (nm_import_ts g)
    (nm_export_ts g) (nm_co2_ts g) (nm_now g) (nm_next g) (nm_battery g) (nm_actions g) (nm_state g)
    (nm_production g) (nm_cost g) (nm_co2 g) (nm_per_epoch g) h (nm_t g) (nm_len g)
    (nm_done g) (nm_epoch g) (nm_limit g) (nm_split g) (nm_default g) (nm_use g).
Definition set_epochs (l : list (record * nat)) (e : nat) (g : nonmod) : nonmod :=
  mkNonmod (nm_par g) (nm_arch g) (nm_load_ts g) (nm_pv_ts g) (nm_status_ts g) (nm_import_ts g)
    (nm_export_ts g) (nm_co2_ts g) (nm_now g) (nm_next g) (nm_battery g) (nm_actions g) (nm_state g)
    (nm_production g) (nm_cost g) (nm_co2 g) l (nm_horizon g) (nm_t g) (nm_len g)
    (nm_done g) e (nm_limit g) (nm_split g) (nm_default g) (nm_use g).
Definition set_data (limit : nat) (split : bool) (default use : dataset) (g : nonmod) : nonmod :=
  mkNonmod (nm_par g) (nm_arch g) (nm_load_ts g) (nm_pv_ts g) (nm_status_ts g) (nm_import_ts g)
    (nm_export_ts g) (nm_co2_ts g) (nm_now g) (nm_next g) (nm_battery g) (nm_actions g) (nm_state g)
    (nm_production g) (nm_cost g) (nm_co2 g) (nm_per_epoch g) (nm_horizon g) (nm_t g) (nm_len g)
    (nm_done g) (nm_epoch g) limit split default use.
Definition set_parameters (p : dict T) (g : nonmod) : nonmod :=
  mkNonmod p (nm_arch g) (nm_load_ts g) (nm_pv_ts g) (nm_status_ts g) (nm_import_ts g)
    (nm_export_ts g) (nm_co2_ts g) (nm_now g) (nm_next g) (nm_battery g) (nm_actions g) (nm_state g)
    (nm_production g) (nm_cost g) (nm_co2 g) (nm_per_epoch g) (nm_horizon g) (nm_t g) (nm_len g)
    (nm_done g) (nm_epoch g) (nm_limit g) (nm_split g) (nm_default g) (nm_use g).

(** [self.parameters[key].values[0]] *)
Definition dfind {A} (d : dict A) (key : string) : res A :=
  match dget key d with Some x => Ok x | None => raise KeyError key end.

(** [frame.iloc[i, 0]], [list[-1]], [list[0]] *)
Definition iloc (l : list T) (i : Z) : res T :=
  match py_nth l i with Some x => Ok x | None => raise IndexError "out of bounds" end.
Definition last_of {A} (l : list A) : res A :=
  match rev l with x :: _ => Ok x | [] => raise IndexError "list index out of range" end.
Definition first_of {A} (l : list A) : res A :=
  match l with x :: _ => Ok x | [] => raise IndexError "list index out of range" end.
(** Arithmetic on something that is no number *)
Definition num (c : cell T) : res T :=
  match c with CNum x => Ok x | _ => raise TypeError "unsupported operand type" end.
Definition last_num (r : record) (key : string) : res T :=
  let? l := dfind r key in let? c := last_of l in num c.

(** [record[key].append(x)] *)
Definition append (key : string) (x : cell T) : M record unit :=
  fun r => match dget key r with
           | Some l => (dset key (l ++ [x]) r, Ok tt)
           | None => (r, raise KeyError key)
           end.

(** ** What a control does: lines 856-1136 *)

(** 856-868 [_record_action] *)
Definition record_action (control : dict T) (df : record) : record :=
  map (fun kl => (fst kl, snd kl ++ [match dget (fst kl) control with
                                     | Some x => CNum x
                                     | None => CMissing (fst kl)
                                     end])) df.

(** 921-933 [_check_constraints_genset] *)
Definition check_genset (par : dict T) (p : T) : res T :=
  let p := if nltb p n0 then n0 else p in
  let? rated := dfind par "genset_rated_power" in
  let? pmin := dfind par "genset_pmin" in
  let p := if nltb p (nmul rated pmin) && ngtb p n1 then nmul rated pmin else p in
  let? pmax := dfind par "genset_pmax" in
  Ok (if ngtb p (nmul rated pmax) then nmul rated pmax else p).

(** 935-954 [_check_constraints_grid] *)
Definition check_grid (par : dict T) (imp exp : T) : res (T * T) :=
  let imp := if nltb imp n0 then n0 else imp in
  let exp := if nltb exp n0 then n0 else exp in
  let? mi := dfind par "grid_power_import" in
  let? me := dfind par "grid_power_export" in
  Ok (if ngtb imp mi then mi else imp, if ngtb exp me then me else exp).

(** 890-902, 968-978: the energy that can still be charged and discharged *)
Definition capa_to_charge (par : dict T) (soc : T) : res T :=
  let? smax := dfind par "battery_soc_max" in
  let? cap := dfind par "battery_capacity" in
  let? eff := dfind par "battery_efficiency" in
  Ok (nmax (nmul (nsub (nmul smax cap) (nmul soc cap)) eff) n0).
Definition capa_to_discharge (par : dict T) (soc : T) : res T :=
  let? smin := dfind par "battery_soc_min" in
  let? cap := dfind par "battery_capacity" in
  let? eff := dfind par "battery_efficiency" in
  Ok (nmax (nmul (nsub (nmul soc cap) (nmul smin cap)) eff) n0).

(** 956-987 [_check_constraints_battery] *)
Definition check_battery (par : dict T) (charge discharge soc : T) : res (T * T) :=
  let charge := if nltb charge n0 then n0 else charge in
  let discharge := if nltb discharge n0 then n0 else discharge in
  let? cc := capa_to_charge par soc in
  let? cd := capa_to_discharge par soc in
  let? pc := dfind par "battery_power_charge" in
  let? pd := dfind par "battery_power_discharge" in
  Ok (if ngtb charge cc || ngtb charge pc then nmin cc pc else charge,
      if ngtb discharge cd || ngtb discharge pd then nmin cd pd else discharge).

(** 1044-1072: the use of the PV energy, given what is required of it.  Result:
    consumed, lost load, curtailed, overgeneration. *)
Definition balance_pv (required available : T) : res (T * T * T * T) :=
  if nltb (nabs (nsub required available)) (nfrac 1 1000) then Ok (available, n0, n0, n0)
  else if ngtb required available then Ok (available, nsub required available, n0, n0)
  else if nltb n0 required && nltb required available
  then Ok (required, n0, nsub available required, n0)
  else if nltb required n0
  then Ok (n0, n0, if ngtb available n0 then available else n0, nopp required)
  else raise AssertionError "pv_required < 0".

(** 989-1080 [_record_production] *)
Definition record_production (par : dict T) (ar : arch) (control : dict T) (status : record)
  : M record unit :=
  load <- mlift (dfind control "load") ;;
  b <- (if has_battery ar then
          c <- mlift (dfind control "battery_charge") ;;
          d <- mlift (dfind control "battery_discharge") ;;
          soc <- mlift (last_num status "battery_soc") ;;
          cd <- mlift (check_battery par c d soc) ;;
          append "battery_charge" (CNum (fst cd)) ;;
          append "battery_discharge" (CNum (snd cd)) ;;
          mret (nadd n0 (snd cd), nadd load (fst cd))
        else mret (n0, load)) ;;
  g <- (if has_grid ar then
          i <- mlift (dfind control "grid_import") ;;
          e <- mlift (dfind control "grid_export") ;;
          ie <- mlift (check_grid par i e) ;;
          append "grid_import" (CNum (fst ie)) ;;
          append "grid_export" (CNum (snd ie)) ;;
          mret (nadd (fst b) (fst ie), nadd (snd b) (snd ie))
        else mret b) ;;
  s <- (if has_genset ar then
          p <- mlift (dfind control "genset") ;;
          p <- mlift (check_genset par p) ;;
          append "genset" (CNum p) ;;
          mret (nadd (fst g) p, snd g)
        else mret g) ;;
  let required := nsub (snd s) (fst s) in
  available <- mlift (dfind control "pv") ;;
  r <- mlift (balance_pv required available) ;;
  let '(consumed, loss, curtailed, over) := r in
  append "pv_consummed" (CNum consumed) ;;
  append "loss_load" (CNum loss) ;;
  append "pv_curtailed" (CNum curtailed) ;;
  append "overgeneration" (CNum over).

(** The last row of a record: [{i: record[i][-1] for i in record}] *)
Definition last_row (r : record) : res (dict (cell T)) :=
  rmapM (fun kl => rmap (pair (fst kl)) (last_of (snd kl))) r.
Definition find_num (d : dict (cell T)) (key : string) : res T :=
  let? c := dfind d key in num c.

(** 1082-1096 [_record_co2] *)
Definition record_co2 (par : dict T) (ar : arch) (prod : dict (cell T)) (grid_co2 : T)
  : M record unit :=
  gen <- mlift (if has_genset ar then
                  let? p := find_num prod "genset" in
                  let? c := dfind par "genset_co2" in Ok (nadd n0 (nmul p c))
                else Ok n0) ;;
  all <- mlift (if has_grid ar then
                  let? p := find_num prod "grid_import" in Ok (nadd gen (nmul grid_co2 p))
                else Ok gen) ;;
  append "co2" (CNum all).

(** 1098-1136 [_record_cost] *)
Definition record_cost (par : dict T) (ar : arch) (prod : dict (cell T)) (co2 : record)
    (price_import price_export : T) : M record unit :=
  loss <- mlift (find_num prod "loss_load") ;;
  closs <- mlift (dfind par "cost_loss_load") ;;
  over <- mlift (find_num prod "overgeneration") ;;
  cover <- mlift (dfind par "cost_overgeneration") ;;
  append "loss_load" (CNum (nmul loss closs)) ;;
  append "overgeneration" (CNum (nmul over cover)) ;;
  (if has_genset ar then
     p <- mlift (find_num prod "genset") ;;
     c <- mlift (dfind par "fuel_cost") ;;
     append "genset" (CNum (nmul p c))
   else mret tt) ;;
  (if has_grid ar then
     i <- mlift (find_num prod "grid_import") ;;
     e <- mlift (find_num prod "grid_export") ;;
     append "grid_import" (CNum (nmul price_import i)) ;;
     append "grid_export" (CNum (nmul (nopp price_export) e))
   else mret tt) ;;
  (if has_battery ar then
     c <- mlift (find_num prod "battery_charge") ;;
     d <- mlift (find_num prod "battery_discharge") ;;
     k <- mlift (dfind par "battery_cost_cycle") ;;
     append "battery" (CNum (nmul (nadd c d) k))
   else mret tt) ;;
  cc <- mlift (dfind par "cost_co2") ;;
  c <- mlift (last_num co2 "co2") ;;
  append "co2" (CNum (nmul cc c)) ;;
  df <- mget ;;
  vals <- mlift (rmapM (fun kl => let? x := last_of (snd kl) in num x)
                       (filter (fun kl => negb (String.eqb (fst kl) "total_cost")) df)) ;;
  append "total_cost" (CNum (nsum vals)).

(** 911-912: [for j in df: df[j].append(row[j])] *)
Fixpoint append_row (row : dict (cell T)) (df : record) : record * res unit :=
  match df with
  | [] => ([], Ok tt)
  | (k, l) :: df' =>
      match dget k row with
      | None => ((k, l) :: df', raise KeyError k)
      | Some x => let '(d, r) := append_row row df' in ((k, l ++ [x]) :: d, r)
      end
  end.

(** 870-916 [_update_status].  [production] is the dictionary the battery's charge
    and discharge are taken from. *)
Definition update_status (par : dict T) (ar : arch) (t : Z) (production : dict (cell T)) (nx : next)
  : M record unit :=
  df <- mget ;;
  b <- mlift (if has_battery ar then
                let? soc := last_num df "battery_soc" in
                let? c := find_num production "battery_charge" in
                let? eff := dfind par "battery_efficiency" in
                let? d := find_num production "battery_discharge" in
                let? cap := dfind par "battery_capacity" in
                let soc' := nadd soc (ndiv (nsub (nmul c eff) (ndiv d eff)) cap) in
                let? cc := capa_to_charge par soc' in
                let? cd := capa_to_discharge par soc' in
                Ok [("battery_soc", CNum soc'); ("capa_to_discharge", CNum cd);
                    ("capa_to_charge", CNum cc)]
              else Ok []) ;;
  append_row ([("load", nx_load nx); ("pv", nx_pv nx); ("hour", CNum (nofZ (t mod 24)))] ++ b
              ++ (if has_grid ar then
                    [("grid_status", nx_status nx); ("grid_price_import", nx_import nx);
                     ("grid_price_export", nx_export nx); ("grid_co2", nx_co2 nx)]
                  else [])).

(** ** Time: lines 607-668, 744-849 *)

(** The part of a series that is in use *)
Definition part (u : dataset) (limit : nat) (l : list T) : list T :=
  match u with All => l | Training => firstn limit l | Testing => skipn limit l end.

Definition in_use (g : nonmod) (l : list T) : list T := part (nm_use g) (nm_limit g) l.

Definition now_grid (f : now -> now) : M nonmod unit := mmodify (fun g => set_now (f (nm_now g)) g).
Definition next_grid (f : next -> next) : M nonmod unit :=
  mmodify (fun g => set_next (f (nm_next g)) g).

(** The next value of a series: [None] after the end if all data are in use,
    IndexError otherwise. *)
Definition next_value (g : nonmod) (l : list T) : res (cell T) :=
  match nm_use g with
  | All => if (nm_t g <? nm_len g - 1)%Z then rmap CNum (iloc l (nm_t g + 1)) else Ok CNone
  | _ => rmap CNum (iloc (in_use g l) (nm_t g + 1))
  end.

(** 744-816 [update_variables] *)
Definition update_variables : M nonmod unit :=
  g <- mget ;;
  x <- mlift (iloc (in_use g (nm_pv_ts g)) (nm_t g)) ;;
  now_grid (fun n => mkNow (now_load n) x (now_status n) (now_import n) (now_export n) (now_co2 n)) ;;
  x <- mlift (iloc (in_use g (nm_load_ts g)) (nm_t g)) ;;
  now_grid (fun n => mkNow x (now_pv n) (now_status n) (now_import n) (now_export n) (now_co2 n)) ;;
  x <- mlift (next_value g (nm_pv_ts g)) ;;
  next_grid (fun n => mkNext (nx_load n) x (nx_status n) (nx_import n) (nx_export n) (nx_co2 n)) ;;
  x <- mlift (next_value g (nm_load_ts g)) ;;
  next_grid (fun n => mkNext x (nx_pv n) (nx_status n) (nx_import n) (nx_export n) (nx_co2 n)) ;;
  (if has_grid (nm_arch g) then
     x <- mlift (iloc (in_use g (nm_status_ts g)) (nm_t g)) ;;
     now_grid (fun n => mkNow (now_load n) (now_pv n) x (now_import n) (now_export n) (now_co2 n)) ;;
     x <- mlift (iloc (in_use g (nm_import_ts g)) (nm_t g)) ;;
     now_grid (fun n => mkNow (now_load n) (now_pv n) (now_status n) x (now_export n) (now_co2 n)) ;;
     x <- mlift (iloc (in_use g (nm_export_ts g)) (nm_t g)) ;;
     now_grid (fun n => mkNow (now_load n) (now_pv n) (now_status n) (now_import n) x (now_co2 n)) ;;
     x <- mlift (iloc (in_use g (nm_co2_ts g)) (nm_t g)) ;;
     now_grid (fun n => mkNow (now_load n) (now_pv n) (now_status n) (now_import n) (now_export n) x) ;;
     x <- mlift (next_value g (nm_status_ts g)) ;;
     next_grid (fun n => mkNext (nx_load n) (nx_pv n) x (nx_import n) (nx_export n) (nx_co2 n)) ;;
     x <- mlift (next_value g (nm_import_ts g)) ;;
     next_grid (fun n => mkNext (nx_load n) (nx_pv n) (nx_status n) x (nx_export n) (nx_co2 n)) ;;
     x <- mlift (next_value g (nm_export_ts g)) ;;
     next_grid (fun n => mkNext (nx_load n) (nx_pv n) (nx_status n) (nx_import n) x (nx_co2 n)) ;;
     x <- mlift (next_value g (nm_co2_ts g)) ;;
     next_grid (fun n => mkNext (nx_load n) (nx_pv n) (nx_status n) (nx_import n) (nx_export n) x)
   else mret tt) ;;
  if has_battery (nm_arch g) then
    x <- mlift (let? l := dfind (nm_state g) "battery_soc" in last_of l) ;;
    mmodify (fun g => set_battery (mkBview x (bv_charge (nm_battery g)) (bv_discharge (nm_battery g))) g) ;;
    x <- mlift (let? l := dfind (nm_state g) "capa_to_discharge" in last_of l) ;;
    mmodify (fun g => set_battery (mkBview (bv_soc (nm_battery g)) (bv_charge (nm_battery g)) x) g) ;;
    x <- mlift (let? l := dfind (nm_state g) "capa_to_charge" in last_of l) ;;
    mmodify (fun g => set_battery (mkBview (bv_soc (nm_battery g)) x (bv_discharge (nm_battery g))) g)
  else mret tt.

(** 483-499 [get_updated_values] *)
Definition get_updated_values (g : nonmod) : res (dict (cell T)) := last_row (nm_state g).

(** Methods that work on one of the records *)
Definition on_production (f : M record unit) : M nonmod unit :=
  fun g => let '(r, x) := f (nm_production g) in
           (set_records (nm_actions g) (nm_state g) r (nm_cost g) (nm_co2 g) g, x).
Definition on_state (f : M record unit) : M nonmod unit :=
  fun g => let '(r, x) := f (nm_state g) in
           (set_records (nm_actions g) r (nm_production g) (nm_cost g) (nm_co2 g) g, x).
Definition on_cost (f : M record unit) : M nonmod unit :=
  fun g => let '(r, x) := f (nm_cost g) in
           (set_records (nm_actions g) (nm_state g) (nm_production g) r (nm_co2 g) g, x).
Definition on_co2 (f : M record unit) : M nonmod unit :=
  fun g => let '(r, x) := f (nm_co2 g) in
           (set_records (nm_actions g) (nm_state g) (nm_production g) (nm_cost g) r g, x).

(** 607-668 [run].  (The caller's dictionary gains 'load' and 'pv' and loses
    'pv_consummed'.)  Without a grid the status is updated from the control, not
    from the production; the next grid variables are then 0 and not recorded. *)
Definition nm_run (control : dict T) : M nonmod (dict (cell T)) :=
  g <- mget ;;
  let control := dset "pv" (now_pv (nm_now g)) (dset "load" (now_load (nm_now g)) control) in
  mmodify (fun g => set_records (record_action control (nm_actions g)) (nm_state g) (nm_production g)
                                (nm_cost g) (nm_co2 g) g) ;;
  let control := dremove "pv_consummed" control in
  on_production (record_production (nm_par g) (nm_arch g) control (nm_state g)) ;;
  g1 <- mget ;;
  prod <- mlift (last_row (nm_production g1)) ;;
  (if has_grid (nm_arch g) then
     on_co2 (record_co2 (nm_par g) (nm_arch g) prod (now_co2 (nm_now g))) ;;
     g2 <- mget ;;
     on_cost (record_cost (nm_par g) (nm_arch g) prod (nm_co2 g2)
                          (now_import (nm_now g)) (now_export (nm_now g))) ;;
     on_state (update_status (nm_par g) (nm_arch g) (nm_t g) prod (nm_next g))
   else
     on_co2 (record_co2 (nm_par g) (nm_arch g) prod n0) ;;
     g2 <- mget ;;
     on_cost (record_cost (nm_par g) (nm_arch g) prod (nm_co2 g2) n0 n0) ;;
     on_state (update_status (nm_par g) (nm_arch g) (nm_t g)
                 (map (fun kv => (fst kv, CNum (snd kv))) control) (nm_next g))) ;;
  if ((nm_t g =? nm_len g - nm_horizon g) || (nm_t g =? nm_len g - 1))%Z then
    mmodify (fun g => set_clock (nm_t g) (nm_len g) true g) ;;
    g3 <- mget ;;
    mlift (get_updated_values g3)
  else
    mmodify (fun g => set_clock (nm_t g + 1) (nm_len g) (nm_done g) g) ;;
    update_variables ;;
    g3 <- mget ;;
    mlift (get_updated_values g3).

(** The number of rows of the shorter of load and PV *)
Definition data_length (u : dataset) (g : nonmod) : Z :=
  Z.min (Z.of_nat (length (part u (nm_limit g) (nm_load_ts g))))
        (Z.of_nat (length (part u (nm_limit g) (nm_pv_ts g)))).

(** 818-849 [reset] *)
Definition nm_reset (testing : bool) : M nonmod unit :=
  mmodify (fun g => match nm_use g with
                    | Training => set_epochs (nm_per_epoch g ++ [(nm_cost g, nm_epoch g)]) (nm_epoch g) g
                    | _ => g
                    end) ;;
  mmodify (fun g => set_records (map (fun kl => (fst kl, [])) (nm_actions g)) (nm_state g)
                                (nm_production g) (nm_cost g) (nm_co2 g) g) ;;
  g <- mget ;;
  st <- mlift (rmapM (fun kl => let? x := first_of (snd kl) in Ok (fst kl, [x])) (nm_state g)) ;;
  mmodify (fun g => set_records (nm_actions g) st
                                (map (fun kl => (fst kl, [])) (nm_production g))
                                (map (fun kl => (fst kl, [])) (nm_cost g))
                                (map (fun kl => (fst kl, [])) (nm_co2 g)) g) ;;
  mmodify (fun g =>
    let use := match testing, nm_default g with
               | true, Training => Testing
               | _, d => d
               end in
    set_clock 0 (data_length use g) (nm_done g)
              (set_data (nm_limit g) (nm_split g) (nm_default g) use g)) ;;
  update_variables ;;
  mmodify (fun g => set_epochs (nm_per_epoch g) (S (nm_epoch g))
                               (set_clock (nm_t g) (nm_len g) false g)).

(** 671-742 [train_test_split].  [limit] is [int(np.ceil(len * train_size))], of the
    data then in use; a negative or fractional one is not modelled. *)
Definition train_test_split (limit : nat) (cancel : bool) : M nonmod unit :=
  mmodify (fun g =>
    if negb (nm_split g) then set_data limit true Training Training g
    else if cancel then set_data (nm_limit g) false All All g
    else g) ;;
  nm_reset false.

(** 516-601 [forecast_pv], [forecast_load], ...: the values of the next [horizon]
    steps, the current one included *)
Definition forecast_ts (l : list T) (g : nonmod) : list T :=
  py_slice (in_use g l) (nm_t g) (nm_t g + nm_horizon g).

(** 475-481 [get_cost], [get_co2] *)
Definition get_cost (g : nonmod) : res (cell T) := let? l := dfind (nm_cost g) "total_cost" in last_of l.
Definition get_co2 (g : nonmod) : res (cell T) := let? l := dfind (nm_co2 g) "co2" in last_of l.
(** 448-450 [set_cost_co2] *)
Definition set_cost_co2 (x : T) (g : nonmod) : nonmod := set_parameters (dset "cost_co2" x (nm_par g)) g.

(** 1251-1257 [penalty]; [abs] of a difference of numbers *)
Definition nm_penalty (coef : T) (g : nonmod) : res T :=
  let? l := rmapM (fun kl =>
              let? a := last_of (snd kl) in
              let? p := dfind (nm_production g) (fst kl) in
              let? b := last_of p in
              let? x := num a in
              let? y := num b in
              Ok (nabs (nsub x y))) (nm_actions g) in
  Ok (nmul (fold_left nadd l n0) coef).

(** ** 343-405: the constructor *)

(** An attribute of [None] *)
Definition frame_of (o : option (list T)) : res (list T) :=
  match o with Some l => Ok l | None => raise AttributeError "'NoneType' object has no attribute 'iloc'" end.

Definition new_nonmodular (sp : nm_spec) (horizon : Z) : res nonmod :=
  let? pv := frame_of (sp_pv sp) in
  let? pv0 := iloc pv 0 in
  let? load := frame_of (sp_load sp) in
  let? load0 := iloc load 0 in
  let? load1 := iloc load 1 in
  let? pv1 := iloc pv 1 in
  let? gr := (if has_grid (sp_arch sp) then
                let? s := frame_of (sp_grid_ts sp) in
                let? i := frame_of (sp_import sp) in
                let? e := frame_of (sp_export sp) in
                let? c := frame_of (sp_co2 sp) in
                let? s0 := iloc s 0 in
                let? e0 := iloc e 0 in
                let? i0 := iloc i 0 in
                let? c0 := iloc c 0 in
                Ok ((s, i, e, c), (s0, i0, e0, c0))
              else Ok (([], [], [], []), (n0, n0, n0, n0))) in
  let '((s, i, e, c), (s0, i0, e0, c0)) := gr in
  let? bat := (if has_battery (sp_arch sp) then
                 let? cc := (let? l := dfind (sp_status sp) "capa_to_charge" in first_of l) in
                 let? cd := (let? l := dfind (sp_status sp) "capa_to_discharge" in first_of l) in
                 let? soc := dfind (sp_parameters sp) "battery_soc_0" in
                 let? _ := rmapM (dfind (sp_parameters sp))
                             ["battery_capacity"; "battery_soc_max"; "battery_soc_min";
                              "battery_power_charge"; "battery_power_discharge";
                              "battery_efficiency"; "battery_cost_cycle"] in
                 Ok (mkBview (CNum soc) cc cd)
               else Ok (mkBview CNone CNone CNone)) in
  let? _ := (if has_genset (sp_arch sp) then
               rmapM (dfind (sp_parameters sp))
                     ["genset_rated_power"; "genset_pmin"; "genset_pmax"; "fuel_cost"; "genset_co2"]
             else Ok []) in
  let? _ := (if has_grid (sp_arch sp) then
               rmapM (dfind (sp_parameters sp)) ["grid_power_export"; "grid_power_import"]
             else Ok []) in
  Ok (mkNonmod (sp_parameters sp) (sp_arch sp) load pv s i e c
        (mkNow load0 pv0 s0 i0 e0 c0)
        (mkNext (CNum load1) (CNum pv1) (CNum s0) (CNum i0) (CNum e0) (CNum c0))
        bat (sp_actions sp) (sp_status sp) (sp_generation sp) (sp_cost sp) (sp_df_co2 sp) []
        horizon 0 (Z.min (Z.of_nat (length load)) (Z.of_nat (length pv))) false 0 0 false All All).

End NonModular.

Arguments record T : clear implicits.
Arguments nm_spec T : clear implicits.
Arguments nonmod T : clear implicits.
Arguments now T : clear implicits.
Arguments next T : clear implicits.
Arguments battery_view T : clear implicits.
