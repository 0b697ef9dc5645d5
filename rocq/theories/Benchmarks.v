(** * Model of [ControlOutput] and [Benchmarks] in algos/Control.py

    [np.ceil] and [round] are parameters, and so are the solver, [np.floor], [np.partition] and
    the samples that are drawn.  What is printed is a list of lines. *)

From Coq Require Import ZArith Bool String List.
From Verif Require Import Num Py NonModular MPC NmRbc NmMpc Saa.
Import ListNotations.
Local Open Scope string_scope.
Local Open Scope list_scope.
Local Open Scope py_scope.

Section Benchmarks.
Context {T : Type} {N : NumOps T}.

(** ** Outputs: Control.py:75-230 *)

(** An entry of a column: what was recorded, or a NaN that fills up the column *)
Inductive entry := ECell (c : cell T) | ENan.
Definition table := dict (list entry).
(** The dictionary of the tables, and [alg_name] *)
Record output := mkOutput { ou_alg : string; ou_tables : dict table }.

(** 108 *)
Definition names_needed : list string := ["action"; "status"; "production"; "cost"; "co2"].
(** 94-114 [__init__] with [empty=False] *)
Definition new_output (names : option (list string)) (dfs : option (list table)) (alg : option string) : res output :=
  match names, dfs, alg with
  | None, _, _ => raise TypeError "names cannot be None unless initializing empty and empty=True"
  | _, None, _ => raise TypeError "dfs cannot be None unless initializing empty and empty=True"
  | _, _, None => raise TypeError "alg_name cannot be None unless initializing empty and empty=True"
  | Some names, Some dfs, Some alg =>
      if existsb (fun needed => negb (str_in needed names)) names_needed then raise ValueError "Names must contain"
      else Ok (mkOutput alg (dict_of (combine names dfs)))
  end.
(** A record as a table, with a list of its own for every column *)
Definition table_of (r : record T) : table := map (fun c => (fst c, map ECell (snd c))) r.
(** 116-129 [__init__] with [empty=True]; mpc.py:705-713, _nonmodular_rbc.py:279-287: what the
    runs return *)
Definition output_of (alg : string) (r : copies T) : output :=
  mkOutput alg (combine names_needed
    [table_of (cp_actions r); table_of (cp_state r); table_of (cp_production r); table_of (cp_cost r); table_of (cp_co2 r)]).

(** 131-137 [append] of a [ControlOutput]: the tables are dictionaries, which have no
    [append]. *)
Definition append_output (o other : output) : res unit :=
  match ou_tables o with
  | [] => Ok tt
  | (name, _) :: _ =>
      if din name (ou_tables other) then raise AttributeError "'dict' object has no attribute 'append'"
      else raise KeyError "name not founds in other_output keys"
  end.

(** 202-215 [to_frame]: the frame is made of the columns themselves, which are filled up in
    place. *)
Definition max_len (ts : dict table) : nat :=
  fold_left Nat.max (map (fun c => length (snd c)) (concat (map snd ts))) O.
Definition fill_up (n : nat) (l : list entry) : list entry := l ++ repeat ENan (n - length l).
Definition to_frame : M output (list ((string * string) * list entry)) :=
  fun o =>
    let n := max_len (ou_tables o) in
    let ts := map (fun t => (fst t, map (fun c => (fst c, fill_up n (snd c))) (snd t))) (ou_tables o) in
    (mkOutput (ou_alg o) ts, Ok (concat (map (fun t => map (fun c => ((fst t, fst c), snd c)) (snd t)) ts))).

(** 217-230: comparisons.  [np.sum] of a dictionary is the dictionary itself.  [x == x] of the
    one object [np.nan] in two lists counts as equal. *)
Definition entry_eqb (x y : entry) : bool :=
  match x, y with
  | ECell (CNum a), ECell (CNum b) => neqb a b
  | ECell CNone, ECell CNone => true
  | ECell (CMissing a), ECell (CMissing b) => String.eqb a b
  | ENan, ENan => true
  | _, _ => false
  end.
Fixpoint column_eqb (l l' : list entry) : bool :=
  match l, l' with
  | [], [] => true
  | x :: l, y :: l' => entry_eqb x y && column_eqb l l'
  | _, _ => false
  end.
Definition table_eqb (t t' : table) : bool :=
  Nat.eqb (length t) (length t')
  && forallb (fun c => match dget (fst c) t' with Some l => column_eqb (snd c) l | None => false end) t.
Definition output_eq (o o' : output) : res bool :=
  let? t := dfind (ou_tables o) "cost" in
  let? t' := dfind (ou_tables o') "cost" in
  Ok (table_eqb t t').
(** [__lt__] and, with the same outcome, [__gt__] *)
Definition output_lt (o o' : output) : res bool :=
  let? _ := dfind (ou_tables o) "cost" in
  let? _ := dfind (ou_tables o') "cost" in
  raise TypeError "'<' not supported between instances of 'dict' and 'dict'".

(** ** Benchmarks: Control.py:233-411 *)

(** What a run returned: the log of a modular microgrid, which is a frame, or an output *)
Inductive returned := Frame | Output (o : output).
(** The entries of [outputs_dict] are the outputs that the attributes hold. *)
Record bench := mkBench {
  be_outputs : dict output;
  be_mpc : option returned; be_has_mpc : bool;
  be_rbc : option returned; be_has_rbc : bool;
  be_saa : option returned; be_has_saa : bool
}.
(** 258-270 [__init__] *)
Definition new_bench : bench := mkBench [] None false None false None false.

(** 272-282 [run_mpc_benchmark], once the control has run *)
Definition store_mpc (x : returned) : M bench unit := fun b =>
  let put d := mkBench d (Some x) true (be_rbc b) (be_has_rbc b) (be_saa b) (be_has_saa b) in
  match x with
  | Output o => (put (dset (ou_alg o) o (be_outputs b)), Ok tt)
  | Frame => (put (be_outputs b), raise AttributeError "'DataFrame' object has no attribute 'alg_name'")
  end.
(** 296-301 [run_saa_benchmark], likewise *)
Definition store_saa (o : output) : M bench unit := fun b =>
  (mkBench (dset (ou_alg o) o (be_outputs b)) (be_mpc b) (be_has_mpc b) (be_rbc b) (be_has_rbc b) (Some (Output o)) true, Ok tt).

Variable to_floor : T -> Z.
Variable partition : list (horizon_output T) -> nat -> list (horizon_output T).

(** A method of the benchmarks and a method of the microgrid *)
Definition on_bench {A} (f : M bench A) : M (nonmod T * bench) A :=
  fun s => let '(b, x) := f (snd s) in ((fst s, b), x).
Definition on_grid {A} (f : M (nonmod T) A) : M (nonmod T * bench) A :=
  fun s => let '(g, x) := f (fst s) in ((g, snd s), x).

(** 272-282 [run_mpc_benchmark] of a non-modular microgrid; [max_steps] is [steps]. *)
Definition run_mpc_benchmark (solve : solver T) (steps : option Z) : M (nonmod T * bench) unit :=
  s <- mget ;;
  c <- mlift (nm_new_mpc (fst s)) ;;
  r <- on_grid (nm_mpc_run c solve steps) ;;
  on_bench (store_mpc (Output (output_of "mpc" r))).
(** The same of a modular microgrid, where [run] is the outcome of the run *)
Definition run_mpc_benchmark_modular (run : res unit) : M bench unit :=
  mlift run ;; store_mpc Frame.
(** 284-294 [run_rule_based_benchmark] of a non-modular microgrid: the class is that of modular
    microgrids, and reads their modules (priority_list.py:28, rbc.py:27-37 and 125-128). *)
Definition run_rule_based_benchmark : M (nonmod T * bench) unit :=
  mraise AttributeError "modules".
(** The same of a modular microgrid, where [new] is the outcome of the constructor *)
Definition run_rule_based_benchmark_modular (new : res unit) : M bench unit :=
  mlift new ;; mraise AttributeError "'RuleBasedControl' object has no attribute 'run_rule_based'".
(** 296-301 [run_saa_benchmark], where [drawn] are the samples, or what went wrong when they
    were drawn *)
Definition run_saa_benchmark (solve : solver T) (drawn : res (list (sample T))) (steps : option Z) (percentile : T)
  : M (nonmod T * bench) unit :=
  s <- mget ;;
  a <- mlift (new_saa (fst s) 8760) ;;
  ss <- mlift drawn ;;
  r <- mlift (snd (run_mpc_on_group to_floor partition a solve (fst s) steps percentile ss)) ;;
  on_bench (store_saa (output_of "saa" r)).

(** *** What is printed *)

(** The sum of costs: [None] is a NaN. *)
Inductive line :=
| LLength (n : nat)                                                       (* 'length of MPCOutput cost is ...' *)
| LTail (algorithm : string) (steps : Z) (percent : T) (cost : option T)   (* 'Cost of the last ... steps' *)
| LTest (algorithm : string) (cost : option T)                            (* 'Test set cost' *)
| LTrain (algorithm : string) (cost : option T).                          (* 'Train set cost' *)

(** [np.ceil] and [int] *)
Variable to_ceil : T -> Z.
(** [round(x, digits)] *)
Variable rnd : nat -> T -> T.

Definition possible_benchmarks : list string := ["saa"; "mpc"; "rbc"].
Definition total_costs (o : output) : res (list entry) :=
  let? t := dfind (ou_tables o) "cost" in dfind t "total_cost".
Definition costs_of (x : option returned) : res (list entry) :=
  match x with
  | Some (Output o) => total_costs o
  | Some Frame => raise KeyError "cost"
  | None => raise TypeError "'NoneType' object is not subscriptable"
  end.
(** [round(np.sum(l), 2)] *)
Definition amount (e : entry) : res (option T) :=
  match e with
  | ECell (CNum x) => Ok (Some x)
  | ENan => Ok None
  | ECell _ => raise TypeError "unsupported operand type(s) for +"
  end.
Definition plus (a x : option T) : option T :=
  match a, x with Some a, Some x => Some (nadd a x) | _, _ => None end.
Definition rounded_sum (l : list entry) : res (option T) :=
  let? xs := rmapM amount l in
  Ok (option_map (rnd 2) (fold_left plus xs (Some n0))).

(** 371-388: the cost of the last steps *)
Definition tail_line (len : nat) (ratio : T) (algorithm : string) (l : list entry) : res (list line) :=
  let from := to_ceil (nmul (nofZ (Z.of_nat len)) (nsub n1 ratio)) in
  let? c := rounded_sum (py_slice l from (Z.of_nat (length l))) in
  Ok [LTail algorithm (Z.of_nat len - from) (rnd 1 (nmul ratio (nofZ 100))) c].
(** 390-411: the costs of the test set and of the training set *)
Definition split_lines (index : Z) (algorithm : string) (l : list entry) : res (list line) :=
  let? train := rounded_sum (py_slice l 0 index) in
  let? test := rounded_sum (py_slice l index (Z.of_nat (length l))) in
  Ok [LTest algorithm test; LTrain algorithm train].
(** 378-411: one after the other, for the algorithms that were run and are asked for *)
Definition lines_of (b : bench) (algorithms : list string) (f : string -> list entry -> res (list line)) : res (list line) :=
  let one (has : bool) name x := if has && str_in name algorithms then let? l := costs_of x in f name l else Ok [] in
  let? mpc := one (be_has_mpc b) "mpc" (be_mpc b) in
  let? rbc := one (be_has_rbc b) "rbc" (be_rbc b) in
  let? saa := one (be_has_saa b) "saa" (be_saa b) in
  Ok (mpc ++ rbc ++ saa).

(** 358-366: the options *)
Definition check_split (test_split : bool) (ratio : option T) (index : option Z) (len : nat) : res unit :=
  if test_split then
    match ratio, index with
    | None, None => raise ValueError "If test_split, must have either a test_ratio or test_index"
    | Some _, Some _ => raise ValueError "Cannot have both test_ratio and test_split"
    | Some r, None => if nleb n0 r && nleb r n1 then Ok tt else raise ValueError "test_ratio must be in [0,1]"
    | None, Some i => if (Z.of_nat len <? i)%Z then raise ValueError "test_index cannot be larger than length of output" else Ok tt
    end
  else Ok tt.
(** 326-411 [describe_benchmarks].  What was printed before an exception is not modelled. *)
Definition describe_benchmarks (test_split : bool) (ratio : option T) (index : option Z) (algorithms : option (list string)) (b : bench)
  : res (list line) :=
  let? algorithms := match algorithms with
                     | Some l => if existsb (fun name => negb (str_in name possible_benchmarks)) l
                                 then raise ValueError "Unable to recognize one or multiple of list_of_benchmarks" else Ok l
                     | None => Ok possible_benchmarks
                     end in
  let? ls := rmapM (fun o => let? l := total_costs (snd o) in Ok (length l)) (be_outputs b) in
  match ls with
  | [] => raise IndexError "list index out of range"
  | n :: _ =>
      if negb (forallb (Nat.eqb n) ls) then raise ValueError "Outputs are of different lengths"
      else
        let? _ := check_split test_split ratio index n in
        let first := if Z.eqb (Z.of_nat n) 8736 then [] else [LLength n] in
        let? ls := match test_split, ratio, index with
                   | false, _, _ => lines_of b algorithms (tail_line n n1)
                   | true, Some r, _ => lines_of b algorithms (tail_line n r)
                   | true, None, Some i => lines_of b algorithms (split_lines i)
                   | true, None, None => Ok []    (* refused above *)
                   end in
        Ok (first ++ ls)
  end.

(** 303-324 [run_benchmarks] of a non-modular microgrid.  (Of the keyword arguments, [max_steps]
    is that of the predictive control, [forecast_steps] and [percentile] are those of the
    sample average approximation.) *)
Definition run_benchmarks (algo : option string) (verbose : bool) (solve : solver T) (max_steps : option Z)
    (drawn : res (list (sample T))) (forecast_steps : option Z) (percentile : T)
  : M (nonmod T * bench) (list line) :=
  let is name := match algo with Some a => String.eqb a name | None => false end in
  (if is "mpc" then run_mpc_benchmark solve max_steps
   else if is "rbc" then run_rule_based_benchmark
   else if is "saa" then run_saa_benchmark solve drawn forecast_steps percentile
   else run_mpc_benchmark solve max_steps ;; run_rule_based_benchmark ;; run_saa_benchmark solve drawn forecast_steps percentile) ;;
  if verbose then s <- mget ;; mlift (describe_benchmarks false None None None (snd s)) else mret [].

(** non_modular_microgrid.py:1188-1207 [print_benchmark_cost]: of benchmarks that were just
    made.  (The line that says that all are run is not modelled.) *)
Definition print_benchmark_cost (g : nonmod T) : res (list line) :=
  if nm_split g then describe_benchmarks true None (Some (Z.of_nat (nm_limit g))) None new_bench
  else describe_benchmarks false None None None new_bench.

(** [to_frame] of the output of one of the algorithms *)
Definition frame_of (name : string) : M bench (list ((string * string) * list entry)) := fun b =>
  match dget name (be_outputs b) with
  | None => (b, raise KeyError name)
  | Some o =>
      let '(o', x) := to_frame o in
      let held r := match r with
                    | Some (Output p) => Some (Output (if String.eqb (ou_alg p) name then o' else p))
                    | _ => r
                    end in
      (mkBench (dset name o' (be_outputs b)) (held (be_mpc b)) (be_has_mpc b) (held (be_rbc b)) (be_has_rbc b)
         (held (be_saa b)) (be_has_saa b), x)
  end.

End Benchmarks.

Arguments entry T : clear implicits.
Arguments output T : clear implicits.
Arguments returned T : clear implicits.
Arguments bench T : clear implicits.
Arguments line T : clear implicits.
