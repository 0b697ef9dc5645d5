(** * Model of algos/mpc/mpc.py on modular microgrids

    The solver is a parameter: all that is assumed of it, where anything is, is
    written in the statements.  The choice of a solver, progress bars and warnings
    are not modelled. *)

From Coq Require Import ZArith Bool String List.
From Verif Require Import Num Py Space Logger Forecast Module Container Microgrid NonModular Conversion.
Import ListNotations.
Local Open Scope string_scope.
Local Open Scope list_scope.
Local Open Scope py_scope.

Section MPC.
Context {T : Type} {N : NumOps T}.

(** ** Vectors and matrices *)

Definition zeros (n : nat) : list T := repeat n0 n.
(** [v[i] = x] *)
Fixpoint vec_set (i : nat) (x : T) (v : list T) : list T :=
  match v, i with
  | [], _ => []
  | _ :: v', O => x :: v'
  | y :: v', S i' => y :: vec_set i' x v'
  end.
(** [v[i:i+len(w)] = w] *)
Definition slice_set (i : nat) (w v : list T) : list T :=
  firstn i v ++ w ++ skipn (i + length w) v.
Fixpoint dot (a b : list T) : T :=
  match a, b with
  | x :: a', y :: b' => nadd (nmul x y) (dot a' b')
  | _, _ => n0
  end.
(** numpy's broadcasting of one-dimensional arrays *)
Definition broadcast (n : nat) (v : list T) : res (list T) :=
  if Nat.eqb (length v) n then Ok v
  else match v with
       | [x] => Ok (repeat x n)
       | _ => raise ValueError "could not broadcast"
       end.
Definition np_sub (a b : list T) : res (list T) :=
  let n := if Nat.eqb (length a) 1 then length b else length a in
  let? a' := broadcast n a in
  let? b' := broadcast n b in
  Ok (map (fun p => nsub (fst p) (snd p)) (combine a' b')).

(** ** The program *)

(** mpc.py:199-229: what [_parse_modular_microgrid] returns *)
Record mpc_params := mkParams {
  pa_eta : T; pa_capacity : T; pa_fuel : T; pa_cycle : T; pa_loss : T;
  pa_gmin : T; pa_gmax : T; pa_co2 : T; pa_gco2 : T
}.
(** mpc.py:81-103: [mp_names] are the modules' names by class *)
Record mpc := mkMpc {
  mp_names : dict string;
  mp_horizon : nat;
  mp_params : mpc_params
}.
(** mpc.py:106-113 *)
Definition has_gen (c : mpc) : bool := str_in "genset" (dkeys (mp_names c)).
(** Variables of one step: with a genset 8 (genset, import, export, charge, discharge,
    curtailment, loss load, state of charge), else 7 (the same without the genset). *)
Definition width (gen : bool) : nat := if gen then 8 else 7.

(** mpc.py:259-295: the matrix [Y] (state of charge) *)
Definition charge_coef (p : mpc_params) : T :=
  ndiv (nmul (nmul (nopp n1) (pa_eta p)) n1) (pa_capacity p).
Definition discharge_coef (p : mpc_params) : T := ndiv n1 (nmul (pa_eta p) (pa_capacity p)).
Definition y_first (gen : bool) (p : mpc_params) (h : nat) : list T :=
  let i := if gen then 3 else 2 in
  vec_set (i + 4) n1 (vec_set (i + 1) (discharge_coef p) (vec_set i (charge_coef p) (zeros (h * width gen)))).
Definition gamma (gen : bool) (p : mpc_params) : list T :=
  if gen
  then vec_set 15 n1 (vec_set 12 (discharge_coef p) (vec_set 11 (charge_coef p) (vec_set 7 (nopp n1) (zeros 16))))
  else vec_set 13 n1 (vec_set 10 (discharge_coef p) (vec_set 9 (charge_coef p) (vec_set 6 (nopp n1) (zeros 14)))).
Definition matrix_Y (gen : bool) (p : mpc_params) (h : nat) : list (list T) :=
  map (fun j => match j with
                | O => y_first gen p h
                | S j' => slice_set (j' * width gen) (gamma gen p) (zeros (h * width gen))
                end) (seq 0 h).
(** mpc.py:297-322: the matrix [X] (energy balance) *)
Definition alpha (gen : bool) : list T :=
  let m := nopp n1 in
  if gen
  then vec_set 7 n0 (vec_set 5 m (vec_set 3 m (vec_set 2 m (repeat n1 8))))
  else vec_set 6 n0 (vec_set 4 m (vec_set 2 m (vec_set 1 m (repeat n1 7)))).
Definition matrix_X (gen : bool) (h : nat) : list (list T) :=
  map (fun j => slice_set (j * width gen) (alpha gen) (zeros (h * width gen))) (seq 0 h).
(** mpc.py:324-325 *)
Definition matrix_A (gen : bool) (p : mpc_params) (h : nat) : list (list T) :=
  matrix_X gen h ++ matrix_Y gen p h.
(** mpc.py:332-344: without a genset the first row and column are dropped. *)
Definition C_block (gen : bool) : list (list T) :=
  let unit (j : nat) (x : T) := vec_set j x (zeros 8) in
  let full := [unit 0 n1; unit 7 n1; unit 7 (nopp n1); unit 3 n1; unit 4 n1; unit 1 n1; unit 2 n1; unit 5 n1; unit 6 n1] in
  if gen then full else map (@tl T) (tl full).
(** mpc.py:346-350 [np.block]: the block on the diagonal, zeros elsewhere *)
Definition matrix_C (gen : bool) (h : nat) : list (list T) :=
  concat (map (fun j => map (fun r => concat (map (fun i => if Nat.eqb i j then r else zeros (width gen)) (seq 0 h)))
                            (C_block gen)) (seq 0 h)).

(** The values of the parameters of one solution, mpc.py:401-403 *)
Record mpc_data := mkData {
  da_load : list T; da_pv : list T; da_grid : list T; da_import : list T; da_export : list T;
  da_emax : T; da_emin : T; da_pcharge : T; da_pdischarge : T; da_pimport : T; da_pexport : T;
  da_soc : T; da_gmax : T;
  da_co2 : option T; (* None: nan *)
  da_gridco2 : list T
}.
Record problem := mkProblem {
  pr_gen : bool;
  pr_A : list (list T); pr_b : list T; (* A @ p == b *)
  pr_C : list (list T); pr_d : list T; (* C @ p <= d *)
  pr_gmin : T; pr_gmax : T;            (* gmin * u <= p[::8] <= gmax * u *)
  pr_costs : list T                    (* minimize costs @ p *)
}.
(** mpc.py:446-453: [len(vector.shape) != 1 and ...] is false for vectors. *)
Definition equality_rhs (h : nat) (d : mpc_data) : res (list T) :=
  let? net := np_sub (da_load d) (da_pv d) in
  let? net := broadcast h net in
  Ok (net ++ match h with O => [] | S h' => da_soc d :: zeros h' end).
(** mpc.py:455-481.  A vector assigned to [[i::9]] gives its [k]-th entry to position
    [i] of block [k]. *)
Definition inequality_rhs (gen : bool) (h : nat) (d : mpc_data) : res (list T) :=
  let? imp := broadcast h (map (nmul (da_pimport d)) (da_grid d)) in
  let? exp := broadcast h (map (nmul (da_pexport d)) (da_grid d)) in
  let? pv := broadcast h (da_pv d) in
  let? load := broadcast h (da_load d) in
  Ok (concat (map (fun k =>
        (if gen then [da_gmax d] else [])
        ++ [da_emax d; nopp (da_emin d); da_pcharge d; da_pdischarge d;
            nth k imp n0; nth k exp n0; nth k pv n0; nth k load n0]) (seq 0 h))).
(** mpc.py:360-370 (the constant part) and 483-492 (the grid's) *)
Definition costs_of (gen : bool) (p : mpc_params) (h : nat) (d : mpc_data) : res (list T) :=
  let? imp :=
    match da_co2 d with
    | Some c =>
        if Nat.eqb (length (da_import d)) (length (da_gridco2 d))
        then broadcast h (map (fun x => nadd (fst x) (nmul (snd x) c)) (combine (da_import d) (da_gridco2 d)))
        else raise ValueError "operands could not be broadcast together"
    | None => raise RuntimeError "There are still nan values in self.costs.value"
    end in
  let? exp := broadcast h (da_export d) in
  Ok (concat (map (fun k =>
        (if gen then [nadd (pa_fuel p) (nmul (pa_co2 p) (pa_gco2 p))] else [])
        ++ [nth k imp n0; nth k exp n0; pa_cycle p; pa_cycle p; n0; pa_loss p; n0]) (seq 0 h))).
(** mpc.py:354-374, 436-492 *)
Definition make_problem (c : mpc) (d : mpc_data) : res problem :=
  let gen := has_gen c in
  let h := mp_horizon c in
  let? b := equality_rhs h d in
  let? dd := inequality_rhs gen h d in
  let? cs := costs_of gen (mp_params c) h d in
  Ok (mkProblem gen (matrix_A gen (mp_params c) h) b (matrix_C gen h) dd
        (pa_gmin (mp_params c)) (pa_gmax (mp_params c)) cs).

(** ** Solutions *)

(** [v[::8]] *)
Fixpoint every8 (v : list T) : list T :=
  match v with
  | x0 :: _ :: _ :: _ :: _ :: _ :: _ :: _ :: v' => x0 :: every8 v'
  | x0 :: _ => [x0]
  | [] => []
  end.
Definition all2 (f : T -> T -> bool) (a b : list T) : bool :=
  Nat.eqb (length a) (length b) && forallb (fun p => f (fst p) (snd p)) (combine a b).
(** What the variables (mpc.py:85-96: [pos=True], [boolean=True]) and the constraints
    (mpc.py:354-358) say about values [p] and [u].  Without a genset there is no [u]. *)
Definition satisfies (pr : problem) (p u : list T) : bool :=
  Nat.eqb (length p) (length (pr_costs pr))
  && forallb (nleb n0) p
  && all2 neqb (map (fun r => dot r p) (pr_A pr)) (pr_b pr)
  && all2 nleb (map (fun r => dot r p) (pr_C pr)) (pr_d pr)
  && (if pr_gen pr
      then forallb (fun x => neqb x n0 || neqb x n1) u
           && all2 nleb (map (nmul (pr_gmin pr)) u) (every8 p)
           && all2 nleb (every8 p) (map (nmul (pr_gmax pr)) u)
      else true).
(** mpc.py:372 *)
Definition objective (pr : problem) (p : list T) : T := dot (pr_costs pr) p.

(** A solver may depend on anything: its answer to the [k]-th problem is the values
    of [p_vars] and [u_genset], or [None] if there are none (infeasible), or an
    exception. *)
Definition solver := nat -> problem -> res (option (list T * list T)).

(** ** Construction *)

(** mpc.py:130-136 [_get_modules]: class names without "Module", in lower case *)
Definition class_name (k : kind T) : string :=
  match k with
  | KBattery _ => "battery" | KGenset _ => "genset" | KGrid _ _ => "grid" | KLoad _ => "load"
  | KRenewable _ => "renewable" | KUnbalanced _ => "unbalancedenergy"
  end.
(** [modules[name].item()] *)
Definition the_item (g : mgrid T) (name : string) : res (module T) :=
  let? l := ct_lookup (mg_ct g) name in
  match l with
  | [i] => match nth_error (mg_mods g) i with
           | Some m => Ok m
           | None => raise KeyError "no such module"
           end
  | _ => raise ValueError "Can only convert a ModuleList of length one to a scalar"
  end.
Definition modules_by_class (g : mgrid T) : res (dict string) :=
  rmap dict_of
    (rmapM (fun kl => let? m := the_item g (fst kl) in Ok (class_name (m_kind m), fst kl)) (all_dict g)).
Definition by_class (names : dict string) (g : mgrid T) (cls : string) : res (module T) :=
  let? name := dfind names cls in the_item g name.
(** [microgrid.battery.item()]: an attribute lookup by module name *)
Definition battery_item (g : mgrid T) : res (battery T) :=
  match ct_lookup (mg_ct g) "battery" with
  | Err _ => raise AttributeError "battery"
  | Ok _ =>
      let? m := the_item g "battery" in
      match m_kind m with
      | KBattery b => Ok b
      | _ => raise AttributeError "efficiency"
      end
  end.
(** mpc.py:199-229 [_parse_modular_microgrid].  A callable [genset_cost] cannot be
    converted to a non-modular microgrid here. *)
Definition parse_modular (names : dict string) (g : mgrid T) : res mpc_params :=
  let? b := battery_item g in
  let? um := by_class names g "unbalancedenergy" in
  let? loss := match m_kind um with
               | KUnbalanced u => Ok (u_loss_load_cost u)
               | _ => raise AttributeError "loss_load_cost"
               end in
  if str_in "genset" (dkeys names)
  then
    let? gm := by_class names g "genset" in
    match m_kind gm with
    | KGenset s =>
        match g_cost s with
        | FuelLin c =>
            Ok (mkParams (b_efficiency b) (b_max_capacity b) c (b_cost_cycle b) loss
                         (g_min_prod s) (g_max_prod s) (g_cost_co2 s) (g_co2_per_unit s))
        | FuelFn _ => raise TypeError "unmodelled: callable genset_cost"
        end
    | _ => raise AttributeError "genset_cost"
    end
  else Ok (mkParams (b_efficiency b) (b_max_capacity b) n0 (b_cost_cycle b) loss n0 n0 n0 n0).

Variables (round1 : T -> T) (poly : nat -> T).

(** mpc.py:81-103, 115-128, 138-145 [__init__] of a modular microgrid.  The horizon is
    at least 1.  Without a genset the costs are declared nonnegative. *)
Definition new_mpc (g : mgrid T) : res mpc :=
  match to_nonmodular round1 poly g with
  | Err _ => raise ValueError "Modular microgrid must be convertable to nonmodular."
  | Ok _ =>
      let? names := modules_by_class g in
      let? h := get_forecast_horizon g in
      let? p := parse_modular names g in
      if negb (str_in "genset" (dkeys names)) && (nltb (pa_cycle p) n0 || nltb (pa_loss p) n0)
      then raise ValueError "Parameter value must be nonnegative."
      else Ok (mkMpc names (S h) p)
  end.

(** ** One step *)

(** [x[i::4]] *)
Definition every4 (i : nat) (v : list T) : list T :=
  flat_map (fun k => match nth_error v (i + 4 * k) with Some x => [x] | None => [] end) (seq 0 (length v)).
(** mpc.py:898-963 [_get_modular_state_values].  [np.mean] of nothing is nan. *)
Definition state_values (c : mpc) (g : mgrid T) : res mpc_data :=
  let names := mp_names c in
  let h := mp_horizon c in
  let? lm := by_class names g "load" in
  let? ls := state lm in
  let? pm := by_class names g "renewable" in
  let? ps := state pm in
  let? gr :=
    (if str_in "grid" (dkeys names)
     then
       let? gm := by_class names g "grid" in
       let? s := state gm in
       match m_kind gm with
       | KGrid gr _ => Ok (repeat n1 h, every4 0 s, every4 1 s, every4 2 s, [gr_cost_co2 gr], gr_max_import gr, gr_max_export gr)
       | _ => raise AttributeError "import_price"
       end
     else Ok (zeros h, zeros h, zeros h, zeros h, [], n0, n0)) in
  let '(status, imp, exp, gco2, cco2, maximp, maxexp) := gr in
  let? b := match battery_item g with Ok b => Ok b | Err _ => raise ValueError "Microgrid has no battery." end in
  let? ge :=
    (if str_in "genset" (dkeys names)
     then
       let? gm := by_class names g "genset" in
       match m_kind gm with
       | KGenset s => Ok (g_max_prod s, [g_cost_co2 s])
       | _ => raise AttributeError "running_max_production"
       end
     else Ok (n0, [])) in
  let '(gmax, cco2') := ge in
  let co2 := match cco2 ++ cco2' with
             | [] => None
             | l => Some (ndiv (fold_right nadd n0 l) (nofZ (Z.of_nat (length l))))
             end in
  Ok (mkData (map (nmul (nopp n1)) ls) ps status imp exp n1 (b_min_soc b) (b_max_charge b) (b_max_discharge b)
             maximp maxexp (b_soc b) gmax co2 gco2).

(** mpc.py:866-896 [_extract_modular_control] *)
Definition extract_control (c : mpc) (sol : option (list T * list T)) : res (control T) :=
  match sol with
  | None => raise TypeError "'NoneType' object is not iterable"
  | Some (p, u) =>
      let? vu :=
        (if has_gen c
         then
           let? name := dfind (mp_names c) "genset" in
           match p, u with
           | x :: p', s :: _ => Ok (p', [(name, CList [VA [s; x]])])
           | _, _ => raise IndexError "index out of range"
           end
         else Ok (p, [])) in
      let '(vals, ctl) := vu in
      match vals with
      | imp :: exp :: ch :: di :: _ =>
          let ctl := if str_in "grid" (dkeys (mp_names c))
                     then match dget "grid" (mp_names c) with
                          | Some name => dset name (COne (nsub imp exp)) ctl
                          | None => ctl
                          end
                     else ctl in
          let? bname := dfind (mp_names c) "battery" in
          Ok (dset bname (COne (nsub di ch)) ctl)
      | _ => raise ValueError "not enough values to unpack"
      end
  end.

(** mpc.py:715-797 [_set_and_solve] *)
Definition set_and_solve (c : mpc) (solve : solver) (k : nat) (d : mpc_data) : res (control T) :=
  let? pr := make_problem c d in
  let? sol := solve k pr in
  extract_control c sol.
Definition mpc_step (c : mpc) (solve : solver) (k : nat) : M (mgrid T) (run_out T) :=
  g <- mget ;;
  d <- mlift (state_values c g) ;;
  ctl <- mlift (set_and_solve c solve k d) ;;
  run ctl false.

(** ** Runs *)

(** mpc.py:539-548 *)
Fixpoint mpc_loop (c : mpc) (solve : solver) (k n : nat) : M (mgrid T) unit :=
  match n with
  | O => mret tt
  | S n' =>
      out <- mpc_step c solve k ;;
      let '(_, _, done, _) := out in
      if (done : bool) then mret tt else mpc_loop c solve (S k) n'
  end.
(** mpc.py:553-561 [_get_num_iter].  Without time series [final_step] is infinite
    and [range] refuses it. *)
Definition num_iter (max_steps : option nat) (g : mgrid T) : res nat :=
  match max_steps with
  | Some n =>
      let? l := mg_len g in
      if Nat.leb n l then Ok n else raise AssertionError "forecast steps cannot be longer than data length."
  | None =>
      match mg_final g with
      | Some f => Ok (Z.to_nat (f - mg_initial g))
      | None => raise TypeError "'float' object cannot be interpreted as an integer"
      end
  end.
(** mpc.py:534-550 [run] *)
Definition mpc_run (c : mpc) (solve : solver) (max_steps : option nat)
  : M (mgrid T) (list ((string * nat * string) * list (option T))) :=
  g <- mget ;;
  n <- mlift (num_iter max_steps g) ;;
  mg_reset ;;
  mpc_loop c solve 0 n ;;
  g' <- mget ;;
  mlift (get_log g').

End MPC.

Arguments mpc T : clear implicits.
Arguments mpc_params T : clear implicits.
Arguments mpc_data T : clear implicits.
Arguments problem T : clear implicits.
Arguments solver T : clear implicits.
