(** * Model of algos/saa/saa.py and of [HorizonOutput] in algos/Control.py

    The samples are an input: they are drawn at random by utils/DataGenerator.py.  The
    solver, [np.floor] and [np.partition] are parameters.  Progress output is not modelled. *)

From Coq Require Import ZArith Bool String List.
From Verif Require Import Num Py NonModular MPC NmRbc NmMpc.
Import ListNotations.
Local Open Scope string_scope.
Local Open Scope list_scope.
Local Open Scope py_scope.

Section Saa.
Context {T : Type} {N : NumOps T}.

(** ** The solution of one program: Control.py:28-73 *)

Record horizon_output := mkHorizonOutput {
  ho_step : Z;            (* [current_step] *)
  ho_cost : T;            (* [cost] *)
  ho_first : dict T       (* [first_dict] *)
}.

(** A column of the data frame made from the dictionaries.  A frame without rows has no
    columns. *)
Definition frame_column (ds : list (dict T)) (name : string) : res (list T) :=
  match ds with
  | [] => raise KeyError name
  | _ => rmapM (fun d => dfind d name) ds
  end.
(** Control.py:51-57: [prices.reshape(-1)*column] *)
Definition priced (prices column : list T) : res (list T) :=
  let? ps := broadcast (length column) prices in
  Ok (map (fun x => nmul (fst x) (snd x)) (combine ps column)).
(** Control.py:37-58 [compute_cost_over_horizon] *)
Definition cost_over_horizon (g : nonmod T) (i : Z) (ds : list (dict T)) : res T :=
  let par := nm_par g in
  let ar := nm_arch g in
  let upto (l : list T) := py_slice l i (i + nm_horizon g) in
  let? loss := frame_column ds "loss_load" in
  let? closs := dfind par "cost_loss_load" in
  let cost := nadd n0 (nmul (nsum loss) closs) in
  let? cost := (if has_genset ar then
                  let? gen := frame_column ds "genset" in
                  let? fuel := dfind par "fuel_cost" in
                  Ok (nadd cost (nmul (nsum gen) fuel))
                else Ok cost) in
  if has_grid ar then
    let? im := frame_column ds "grid_import" in
    let? imported := priced (upto (nm_import_ts g)) im in
    let? ex := frame_column ds "grid_export" in
    let? exported := priced (upto (nm_export_ts g)) ex in
    Ok (nadd cost (nsub (nsum imported) (nsum exported)))
  else Ok cost.
(** Control.py:30-35 [__init__] *)
Definition new_horizon_output (g : nonmod T) (i : Z) (ds : list (dict T)) : res horizon_output :=
  let? cost := cost_over_horizon g i ds in
  let? first := entry_at ds 0 in
  Ok (mkHorizonOutput i cost first).

(** mpc.py:965-1031 [mpc_single_step]: the [k]-th program that is solved.  (With a horizon of
    zero, set after the controller was made, the vectors have no entries and the program cannot
    be made.)  The check for [None] never fails. *)
Definition mpc_single_step (c : mpc T) (solve : solver T) (k : nat) (g : nonmod T) (s : sample T) (status : record T) (i : nat)
  : res horizon_output :=
  let? d := nm_values g s (Z.of_nat i) status in
  let? ds := nm_solve_steps c solve k d (Z.to_nat (nm_horizon g)) in
  new_horizon_output g (Z.of_nat i) ds.

(** ** The choice *)

(** [np.floor] and [int] *)
Variable to_floor : T -> Z.
(** [np.partition], which compares by [HorizonOutput.__lt__] (Control.py:65-68).  (A position
    beyond the end is dealt with below.) *)
Variable partition : list horizon_output -> nat -> list horizon_output.

(** saa.py:81-112 [determine_optimal_actions] *)
Definition determine_optimal_actions (outputs : list horizon_output) (percentile : T) : res horizon_output :=
  if nltb percentile n0 || nltb n1 percentile then raise ValueError "percentile must be in [0,1]"
  else
    let len := Z.of_nat (length outputs) in
    let k := to_floor (nmul (nofZ len) percentile) in
    if (k <? 0)%Z || (len <=? k)%Z then raise ValueError "kth out of bounds"
    else entry_at (partition outputs (Z.to_nat k)) (Z.to_nat k).

(** ** Runs *)

Record saa := mkSaa {
  sa_mpc : mpc T;          (* [mpc] *)
  sa_data : sample T       (* [underlying_data] *)
}.
(** saa.py:41-51 [__init__], DataGenerator.py:812-824; the forecasts are not modelled *)
Definition new_saa (g : nonmod T) (control_duration : Z) : res saa :=
  if (8760 <? control_duration)%Z then raise ValueError "control_duration must be less than 8760"
  else let? c := nm_new_mpc g in Ok (mkSaa c (underlying_data g)).

Fixpoint put {A} (i : nat) (x : A) (l : list A) : list A :=
  match l, i with
  | [], _ => []
  | _ :: l', O => x :: l'
  | y :: l', S i' => y :: put i' x l'
  end.
(** saa.py:139: [sample.iloc[j] = self.underlying_data.iloc[j]] *)
Definition overwrite (data : sample T) (j : nat) (s : sample T) : res (sample T) :=
  let? l := entry_at (sm_load data) j in
  let? p := entry_at (sm_pv data) j in
  let? x := entry_at (sm_grid data) j in
  if Nat.ltb j (length (sm_load s))
  then Ok (mkSample (put j l (sm_load s)) (put j p (sm_pv s)) (put j x (sm_grid s)))
  else raise IndexError "iloc cannot enlarge its target object".

(** saa.py:132-143: one program for each sample.  The samples, which are distinct frames with
    the columns that are needed, are changed, as far as the loop gets. *)
Fixpoint sample_outputs (a : saa) (solve : solver T) (g : nonmod T) (status : record T) (j k : nat) (ss : list (sample T))
  : list (sample T) * res (list horizon_output) :=
  match ss with
  | [] => ([], Ok [])
  | s :: ss' =>
      match overwrite (sa_data a) j s with
      | Err e => (ss, Err e)
      | Ok s1 =>
          match mpc_single_step (sa_mpc a) solve k g s1 status j with
          | Err e => (s1 :: ss', Err e)
          | Ok o => let '(ss1, os) := sample_outputs a solve g status j (S k) ss' in
                    (s1 :: ss1, rmap (cons o) os)
          end
      end
  end.
(** saa.py:126-150 and Control.py:140-200: one step.  The values that are shown as those of the
    next row are the ones of row [j]. *)
Definition saa_step (a : saa) (solve : solver T) (g : nonmod T) (percentile : T) (j : nat) (r : copies T)
  : M (list (sample T)) (copies T) :=
  fun ss =>
    let '(ss1, os) := sample_outputs a solve g (cp_state r) j (j * length ss) ss in
    (ss1,
     let? os := os in
     let? o := determine_optimal_actions os percentile in
     let? load := row_at (sm_load (sa_data a)) j in
     let? pv := row_at (sm_pv (sa_data a)) j in
     record_step g (ho_step o) (ho_first o) load pv (row_at (sm_grid (sa_data a)) j) r).
Fixpoint saa_steps (a : saa) (solve : solver T) (g : nonmod T) (percentile : T) (j n : nat) (r : copies T)
  : M (list (sample T)) (copies T) :=
  match n with
  | O => mret r
  | S n' => r <- saa_step a solve g percentile j r ;; saa_steps a solve g percentile (S j) n' r
  end.
(** saa.py:119-123: the number of steps *)
Definition saa_num_iter (g : nonmod T) (ss : list (sample T)) (steps : option Z) : res nat :=
  match ss with
  | [] => raise ValueError "min() arg is an empty sequence"
  | s :: ss' =>
      let rows := fold_left Nat.min (map (fun s => length (sm_load s)) ss') (length (sm_load s)) in
      let most := (Z.of_nat rows - nm_horizon g)%Z in
      match steps with
      | None => Ok (Z.to_nat most)
      | Some n => if (most <? n)%Z then raise ValueError "forecast steps must be less than length of samples minus horizon"
                  else Ok (Z.to_nat n)
      end
  end.
(** saa.py:114-152 [run_mpc_on_group]: everything is recorded in copies of the records; the
    microgrid is not reset. *)
Definition run_mpc_on_group (a : saa) (solve : solver T) (g : nonmod T) (steps : option Z) (percentile : T)
  : M (list (sample T)) (copies T) :=
  ss <- mget ;;
  n <- mlift (saa_num_iter g ss steps) ;;
  saa_steps a solve g percentile 0 n (copies_of g).

(** saa.py:154-178 [run_deterministic_on_forecast] with [verbose=False], on a forecast of [rows]
    rows: the loop returns at the end of its first iteration.  ([None] after the loop) *)
Definition run_deterministic (g : nonmod T) (rows : nat) (steps : option Z) : res (option (copies T)) :=
  let most := (Z.of_nat rows - nm_horizon g)%Z in
  let? n := match steps with
            | None => Ok most
            | Some n => if (most <? n)%Z then raise ValueError "forecast steps must be less than length of samples minus horizon"
                        else Ok n
            end in
  Ok (if (0 <? n)%Z then Some (copies_of g) else None).

End Saa.

Arguments horizon_output T : clear implicits.
Arguments saa T : clear implicits.
