(** * src/pymgrid/microgrid/microgrid.py and utils/step.py *)

From Coq Require Import ZArith Bool String List.
From Verif Require Import Num Py Space Logger Forecast Module Container.
Import ListNotations.
Local Open Scope string_scope.
Local Open Scope list_scope.
Local Open Scope py_scope.

(** A Python [for] loop with loop-carried variables. *)
Fixpoint mfold {S A B} (f : B -> A -> M S B) (l : list A) (b : B) : M S B :=
  match l with
  | [] => mret b
  | a :: l' => b' <- f b a ;; mfold f l' b'
  end.

Section Microgrid.
Context {T : Type} `{NumOps T}.

(** ** MicrogridStep, microgrid/utils/step.py *)

(** Values collected in [_info]: a module's info dict or one of its entries. *)
Inductive entry := EInfo (i : info T) | EVal (x : T).

Definition infos := dict (list entry).
(** Result of [get_cost_info] (microgrid.py:334-335): production and absorption
    marginal cost per module. *)
Definition cost_info := dict (list (T * T)).
(** A reward shaping function: an arbitrary pure function of the infos and the
    costs, which may raise. *)
Definition shaper := infos -> cost_info -> res T.

(** step.py:5-11 *)
Record mstep := mkMstep {
  ms_obs : dict (list (pyval T));
  ms_reward : T;
  ms_done : bool;
  ms_info : infos
}.
Definition mstep_init : mstep :=
  mkMstep [] n0 false [("absorbed_energy", []); ("provided_energy", [])].

(** [d[k].append(v)] or [d[k] = [v]] (step.py:14-25) *)
Definition dappend {A} (k : string) (v : A) (d : dict (list A)) : dict (list A) :=
  match dget k d with
  | Some l => dset k (l ++ [v]) d
  | None => dset k [v] d
  end.
(** step.py:27-31: append only to existing keys. *)
Definition dappend_existing {A} (k : string) (v : A) (d : dict (list A)) : dict (list A) :=
  match dget k d with
  | Some l => dset k (l ++ [v]) d
  | None => d
  end.

(** step.py:13-31 [append] *)
Definition mstep_append (name : string) (out : step_out T) (st : mstep) : mstep :=
  let '(obs, reward, done, inf) := out in
  mkMstep (dappend name obs (ms_obs st))
          (nadd (ms_reward st) reward)
          (done || ms_done st)
          (fold_left (fun d kv => dappend_existing (fst kv) (EVal (snd kv)) d) inf
                     (dappend name (EInfo inf) (ms_info st))).

(** [np.sum] of collected values.  If a module is called 'provided_energy' or
    'absorbed_energy' its info dict is among them and the sum (or the next
    subtraction) raises TypeError; modelled as raised by the sum. *)
Definition entry_val (e : entry) : res T :=
  match e with
  | EVal x => Ok x
  | EInfo _ => raise TypeError "unsupported operand type dict"
  end.
Definition info_sum (k : string) (i : infos) : res T :=
  match dget k i with
  | Some l => rmap nsum (rmapM entry_val l)
  | None => raise KeyError k
  end.

(** step.py:48-49 [_output_info] *)
Definition output_info (st : mstep) : infos :=
  filter (fun kv => negb (String.eqb (fst kv) "absorbed_energy"
                          || String.eqb (fst kv) "provided_energy")) (ms_info st).

(** step.py:41-46 [shaped_reward] *)
Definition shaped_reward (sh : option shaper) (ci : cost_info) (st : mstep) : res T :=
  match sh with
  | None => Ok (ms_reward st)
  | Some f => f (output_info st) ci
  end.

(** step.py:33-36 [balance]: provided, absorbed, reward, shaped reward *)
Definition mstep_balance (sh : option shaper) (ci : cost_info) (st : mstep)
  : res (T * T * T * T) :=
  let? p := info_sum "provided_energy" (ms_info st) in
  let? a := info_sum "absorbed_energy" (ms_info st) in
  let? s := shaped_reward sh ci st in
  Ok (p, a, ms_reward st, s).

(** ** Microgrid *)

(** A trajectory function; the first argument numbers the calls, so that random
    trajectories are covered.  [None] stands for [final_step = np.inf]. *)
Definition traj_fn := nat -> Z -> option Z -> res (Z * Z).

(** microgrid.py:100-128.  [mg_final = None] is [np.inf]. *)
Record mgrid := mkMgrid {
  mg_mods : list (module T);
  mg_ct : containers;
  mg_initial : Z;
  mg_final : option Z;
  mg_shaper : option shaper;
  mg_traj : option traj_fn;
  mg_calls : nat;
  mg_balance : logger T;
  mg_other : logger T
}.

Definition mg_set_mods (g : mgrid) (ms : list (module T)) : mgrid :=
  mkMgrid ms (mg_ct g) (mg_initial g) (mg_final g) (mg_shaper g) (mg_traj g) (mg_calls g)
          (mg_balance g) (mg_other g).
Definition mg_set_logs (g : mgrid) (b o : logger T) : mgrid :=
  mkMgrid (mg_mods g) (mg_ct g) (mg_initial g) (mg_final g) (mg_shaper g) (mg_traj g)
          (mg_calls g) b o.
Definition mg_set_calls (g : mgrid) (n : nat) : mgrid :=
  mkMgrid (mg_mods g) (mg_ct g) (mg_initial g) (mg_final g) (mg_shaper g) (mg_traj g)
          n (mg_balance g) (mg_other g).
Definition mg_set_steps (g : mgrid) (i : Z) (f : option Z) : mgrid :=
  mkMgrid (mg_mods g) (mg_ct g) i f (mg_shaper g) (mg_traj g) (mg_calls g)
          (mg_balance g) (mg_other g).

(** The flat views: [modules.iterlist()], [modules.iterdict()] and the
    [fixed]/[flex]/[controllable] parts. *)
Definition all_ids (g : mgrid) : list nat := to_list (subs_all (mg_ct g)).
Definition all_dict (g : mgrid) : dict (list nat) := to_dict (subs_all (mg_ct g)).
Definition part_dict (f : mtype) (g : mgrid) : dict (list nat) := to_dict (subs_of (mg_ct g) f).
Definition part_tuples (f : mtype) (g : mgrid) : list (string * nat) :=
  to_tuples (subs_of (mg_ct g) f).

(** Module objects are shared between the views: [with_module i f] runs a
    method on the module with index [i].  The index is always in range. *)
Definition with_module {A} (i : nat) (f : M (module T) A) : M mgrid A :=
  fun g =>
    match nth_error (mg_mods g) i with
    | None => (g, raise KeyError "no such module")
    | Some m => let '(m', r) := f m in (mg_set_mods g (set_nth (mg_mods g) i m'), r)
    end.
Definition get_module (i : nat) : M mgrid (module T) := with_module i mget.

(** module_container.py:97-195 [get_attrs(..., unique=True)] for one attribute:
    no module at all gives an empty Series ([Ok None]). *)
Fixpoint uniq_vals {A} (eqb : A -> A -> bool) (l : list A) : list A :=
  match l with
  | [] => []
  | a :: l' => a :: filter (fun b => negb (eqb a b)) (uniq_vals eqb l')
  end.
Definition get_attr_unique {A} (eqb : A -> A -> bool) (attr : module T -> option A)
    (ids : list nat) (ms : list (module T)) : res (option A) :=
  let vals := concat (map (fun i => match nth_error ms i with
                                    | Some m => [attr m]
                                    | None => []
                                    end) ids) in
  match vals with
  | [] => Ok None
  | _ =>
      match uniq_vals eqb (concat (map (fun o => match o with Some a => [a] | None => [] end) vals)) with
      | [] => raise AttributeError "No values found for key(s)"
      | [a] => Ok (Some a)
      | _ => raise ValueError "non-unique values"
      end
  end.
(** The modules seen by [get_attrs]: those of the merged dictionary. *)
Definition dict_ids (g : mgrid) : list nat := concat (map snd (all_dict g)).

Definition final_attr (m : module T) : option Z :=
  match kind_ts (m_kind m) with Some t => Some (ts_final t) | None => None end.

(** microgrid.py:614-624 [current_step] *)
Definition mg_current_step (g : mgrid) : res Z :=
  let? o := get_attr_unique Z.eqb (fun m => Some (m_cur m)) (dict_ids g) (mg_mods g) in
  match o with
  | Some c => Ok c
  | None => raise ValueError "can only convert an array of size 1 to a Python scalar"
  end.
(** microgrid.py:640-646 [_get_module_initial_step] *)
Definition get_module_initial_step (g : mgrid) : res Z :=
  let? o := get_attr_unique Z.eqb (fun m => Some (m_init m)) (dict_ids g) (mg_mods g) in
  Ok match o with Some c => c | None => 0%Z end.
(** microgrid.py:669-675 [_get_module_final_step] *)
Definition get_module_final_step (g : mgrid) : res (option Z) :=
  get_attr_unique Z.eqb final_attr (dict_ids g) (mg_mods g).

(** microgrid.py:175-203 [_check_trajectory_func]; a function returning
    something else than two integers is not modelled. *)
Definition check_trajectory (initial : Z) (final : option Z) (f : traj_fn) : res unit :=
  let? p := f 0%nat initial final in
  let '(i, e) := p in
  if (i <? initial)%Z then raise ValueError "trajectory_func returned initial_step"
  else if (match final with Some x => (x <? e)%Z | None => false end)
  then raise ValueError "trajectory_func returned final_step"
  else if (e <=? i)%Z then raise ValueError "initial_step >= final_step"
  else Ok tt.

(** microgrid.py:100-173 [__init__].  The spaces built at 107-114 cannot fail
    for the modelled modules and are not stored. *)
Definition new_microgrid (ds : list (mdef T)) (add_unbalanced : bool)
    (loss_load_cost overgeneration_cost : T)
    (sh : option shaper) (tr : option traj_fn) : res mgrid :=
  let ds' := if add_unbalanced
             then ds ++ [(None, new_unbalanced false 0 loss_load_cost overgeneration_cost)]
             else ds in
  let '(c, ms) := get_subcontainers 0 ds' ct_empty in
  let g0 := mkMgrid ms c 0 None sh tr 0 logger_empty logger_empty in
  let? i := get_module_initial_step g0 in
  let? f := get_module_final_step g0 in
  match tr with
  | None => Ok (mg_set_steps g0 i f)
  | Some t => let? _ := check_trajectory i f t in
              Ok (mg_set_calls (mg_set_steps g0 i f) 1)
  end.

(** microgrid.py:583-612 [set_module_attr].  [has] is [hasattr], [set] is
    [setattr] (a property setter may raise). *)
Definition set_module_attr (has : module T -> bool) (set : M (module T) unit) : M mgrid unit :=
  g <- mget ;;
  done <- mfold (fun (b : bool) i =>
                   m <- get_module i ;;
                   if has m then with_module i set ;; mret true else mret b)
                (all_ids g) false ;;
  if (done : bool) then mret tt else mraise AttributeError "No module has attribute".

Definition has_final (m : module T) : bool :=
  match kind_ts (m_kind m) with Some _ => true | None => false end.
(** base_timeseries_module.py:317-330 as a module method *)
Definition module_set_final (v : Z) : M (module T) unit :=
  fun m => match kind_ts (m_kind m) with
           | None => (m, raise AttributeError "final_step")
           | Some t => let '(t', r) := set_final_step t (Some (m_init m)) v in
                       (set_kind m (kind_set_ts (m_kind m) t'), r)
           end.

(** microgrid.py:652-655, 681-684 with [modules_only=True] *)
Definition set_initial_steps (v : Z) : M mgrid unit :=
  set_module_attr (fun _ => true) (mmodify (fun m => set_init m v)).
Definition set_final_steps (v : Z) : M mgrid unit :=
  set_module_attr has_final (module_set_final v).

(** The [initial_step]/[final_step] setters of the microgrid (648-655, 677-684) *)
Definition mg_set_initial_step (v : Z) : M mgrid unit :=
  set_initial_steps v ;;
  g <- mget ;;
  i <- mlift (get_module_initial_step g) ;;
  mmodify (fun g => mg_set_steps g i (mg_final g)).
Definition mg_set_final_step (v : Z) : M mgrid unit :=
  set_final_steps v ;;
  g <- mget ;;
  f <- mlift (get_module_final_step g) ;;
  mmodify (fun g => mg_set_steps g (mg_initial g) f).

(** microgrid.py:221-225 [_set_trajectory] *)
Definition set_trajectory : M mgrid unit :=
  g <- mget ;;
  match mg_traj g with
  | None => mret tt
  | Some f =>
      mput (mg_set_calls g (S (mg_calls g))) ;;
      p <- mlift (f (mg_calls g) (mg_initial g) (mg_final g)) ;;
      set_initial_steps (fst p) ;;
      set_final_steps (snd p)
  end.

(** microgrid.py:205-219 [reset].  Returned: the observations (the flushed logs
    that are returned with them are left out). *)
Definition mg_reset : M mgrid (dict (list (pyval T))) :=
  set_trajectory ;;
  g <- mget ;;
  obs <- mfold (fun acc kl =>
                  os <- mfold (fun os i => o <- with_module i reset ;; mret (os ++ [o]))
                              (snd kl) [] ;;
                  mret (acc ++ [(fst kl, os)]))
               (all_dict g) [] ;;
  mmodify (fun g => mg_set_logs g (fst (logger_flush (mg_balance g)))
                                  (fst (logger_flush (mg_other g)))) ;;
  mret obs.

(** microgrid.py:334-335 [get_cost_info] *)
Definition get_cost_info (g : mgrid) : res cost_info :=
  rmapM (fun kl =>
           rmap (fun l => (fst kl, l))
                (rmapM (fun i =>
                          match nth_error (mg_mods g) i with
                          | None => raise KeyError "no such module"
                          | Some m =>
                              let? p := production_marginal_cost m in
                              let? a := absorption_marginal_cost m in
                              Ok (p, a)
                          end) (snd kl)))
        (all_dict g).

(** Controls: for each name a list of actions, or a single number (which is not
    iterable, microgrid.py:269-272).  A one-dimensional array behaves as the list
    of its entries. *)
Inductive ctrl := CList (l : list (pyval T)) | COne (x : T).
Definition ctrl_list (c : ctrl) : list (pyval T) :=
  match c with CList l => l | COne x => [VS x] end.
Definition control := dict ctrl.

Definition step_append (name : string) (i : nat) (a : pyval T) (normalized : bool) (st : mstep)
  : M mgrid mstep :=
  out <- with_module i (step a normalized) ;;
  mret (mstep_append name out st).

(** microgrid.py:254-256: fixed modules *)
Definition run_fixed (g : mgrid) (st : mstep) : M mgrid mstep :=
  mfold (fun st ni => step_append (fst ni) (snd ni) (VS n0) false st)
        (part_tuples Fixed g) st.

(** microgrid.py:261-276: controllable modules.  The remaining (unused)
    controls only cause a warning. *)
Definition run_controllable (g : mgrid) (c : control) (normalized : bool) (st : mstep)
  : M mgrid mstep :=
  cs <- mfold (fun cs kl =>
                 match dget (fst kl) (fst cs) with
                 | None => mraise ValueError "Control for module not found"
                 | Some v =>
                     st' <- mfold (fun st ia => step_append (fst kl) (fst ia) (snd ia) normalized st)
                                  (combine (snd kl) (ctrl_list v)) (snd cs) ;;
                     mret (dremove (fst kl) (fst cs), st')
                 end)
              (part_dict Controllable g) (c, st) ;;
  mret (snd cs).

(** microgrid.py:287-300: dissipate an excess with the flex modules.  The loop
    carries the step and the remaining excess. *)
Definition run_excess (g : mgrid) (st : mstep) (excess : T) : M mgrid (mstep * T) :=
  mfold (fun se ni =>
           m <- get_module (snd ni) ;;
           amt <- (if negb (is_sink (m_kind m)) then mret n0
                   else mx <- mlift (max_consumption m) ;;
                        small <- mlift (gt_bound (snd se) mx) ;;
                        match (small : bool), mx with
                        | true, BFin x => mret (nmul (nopp n1) x)
                        | _, _ => mret (nmul (nopp n1) (snd se))
                        end) ;;
           st' <- step_append (fst ni) (snd ni) (VS amt) false (fst se) ;;
           mret (st', nadd (snd se) amt))
        (part_tuples Flex g) (st, excess).

(** microgrid.py:302-315: cover a deficit with the flex modules. *)
Definition run_deficit (g : mgrid) (st : mstep) (needed : T) : M mgrid (mstep * T) :=
  mfold (fun se ni =>
           m <- get_module (snd ni) ;;
           amt <- (if negb (is_source (m_kind m)) then mret n0
                   else mx <- mlift (max_production m) ;;
                        small <- mlift (gt_bound (snd se) mx) ;;
                        match (small : bool), mx with
                        | true, BFin x => mret x
                        | _, _ => mret (snd se)
                        end) ;;
           st' <- step_append (fst ni) (snd ni) (VS amt) false (fst se) ;;
           mret (st', nsub (snd se) amt))
        (part_tuples Flex g) (st, needed).

(** microgrid.py:327-332 [_get_log_dict] *)
Definition log_dict (provided absorbed : T) (old : dict T) (prefix : string) : dict T :=
  dupdate [((prefix ++ "_provided_to_microgrid")%string, provided);
           ((prefix ++ "_absorbed_from_microgrid")%string, absorbed)] old.

Definition run_out := (dict (list (pyval T)) * T * bool * infos)%type.

(** microgrid.py:227-325 [run] *)
Definition run (c : control) (normalized : bool) : M mgrid run_out :=
  g <- mget ;;
  ci <- mlift (get_cost_info g) ;;
  let sh := mg_shaper g in
  st1 <- run_fixed g mstep_init ;;
  b1 <- mlift (mstep_balance sh ci st1) ;;
  let '(fp, fa, _, _) := b1 in
  let log1 := log_dict fp fa [] "fixed" in
  st2 <- run_controllable g c normalized st1 ;;
  b2 <- mlift (mstep_balance sh ci st2) ;;
  let '(p, a, _, _) := b2 in
  let diff := nsub p a in
  let log2 := log_dict (nsub p fp) (nsub a fa) log1 "controllable" in
  st3 <- (if nltb n0 diff then run_excess g st2 diff else run_deficit g st2 (nopp diff)) ;;
  let st3 := fst st3 in
  b3 <- mlift (mstep_balance sh ci st3) ;;
  let '(p3, a3, r3, s3) := b3 in
  let log3 := log_dict p3 a3 log2 "overall" in
  (fun g => let '(lg, r) := logger_log (dupdate [("reward", r3); ("shaped_reward", s3)] log3)
                                       (mg_balance g) in
            (mg_set_logs g lg (mg_other g), r)) ;;
  if isclose p3 a3 then
    s <- mlift (shaped_reward sh ci st3) ;;
    mret (ms_obs st3, s, ms_done st3, output_info st3)
  else mraise RuntimeError "Microgrid modules unable to balance energy".

(** microgrid.py:337-362 [sample_action]: draws are consumed in the order of the
    dictionary; [draw k] is the k-th.  [flex] is [sample_flex_modules]. *)
Definition act_dims (m : module T) : nat :=
  match m_act m with Some sp => length (sp_low sp) | None => 1 end.
Definition draws_used (m : module T) : nat :=
  match m_kind m with KGenset _ => 2 | KLoad _ => 0 | _ => 1 end.
Definition action_dict (g : mgrid) (flex : bool) : dict (list nat) :=
  filter (fun kl => match snd kl with
                    | i :: _ => match nth_error (mg_mods g) i with
                                | Some m => negb (Nat.eqb (act_dims m) 0)
                                | None => false
                                end
                    | [] => false
                    end)
         (if flex then all_dict g else part_dict Controllable g).
Fixpoint sample_list (g : mgrid) (strict : bool) (draw : nat -> T) (k : nat) (ids : list nat)
  : res (nat * list (pyval T)) :=
  match ids with
  | [] => Ok (k, [])
  | i :: ids' =>
      match nth_error (mg_mods g) i with
      | None => raise KeyError "no such module"
      | Some m =>
          let? a := sample_action strict (draw k) (draw (S k)) m in
          let? r := sample_list g strict draw (k + draws_used m) ids' in
          Ok (fst r, a :: snd r)
      end
  end.
Fixpoint sample_dict (g : mgrid) (strict : bool) (draw : nat -> T) (k : nat)
    (d : dict (list nat)) : res control :=
  match d with
  | [] => Ok []
  | (n, ids) :: d' =>
      let? r := sample_list g strict draw k ids in
      let? rest := sample_dict g strict draw (fst r) d' in
      Ok ((n, CList (snd r)) :: rest)
  end.
Definition mg_sample_action (g : mgrid) (strict flex : bool) (draw : nat -> T) : res control :=
  sample_dict g strict draw 0 (action_dict g flex).

(** microgrid.py:364-386 [get_empty_action]: the number of [None] slots. *)
Definition get_empty_action (g : mgrid) (flex : bool) : dict (list (option (pyval T))) :=
  map (fun kl => (fst kl, repeat None (length (snd kl)))) (action_dict g flex).

(** base_module.py:358-406 [to_normalized], [from_normalized].  On the infinite
    action box of the unbalanced module they return NaN, which is not modelled. *)
Definition module_space (obs : bool) (m : module T) : res (space T) :=
  if obs then Ok (m_obs m)
  else match m_act m with
       | Some sp => Ok sp
       | None => raise RuntimeError "unmodelled: NaN"
       end.
Definition convert1 (to : bool) (obs : bool) (m : module T) (v : pyval T) : res (pyval T) :=
  let? sp := module_space obs m in
  if to then normalize sp v else denormalize sp v.

(** microgrid.py:388-432 [to_normalized] ([to = true]) and [from_normalized] *)
Definition mg_convert (to : bool) (obs : bool) (g : mgrid) (d : dict (list (pyval T)))
  : res (dict (list (pyval T))) :=
  rmapM (fun kl =>
           rmap (fun l => (fst kl, l))
                (rmapM (fun iv => match nth_error (mg_mods g) (fst iv) with
                                  | None => raise KeyError "no such module"
                                  | Some m => convert1 to obs m (snd iv)
                                  end)
                       (combine (snd kl) (match dget (fst kl) d with Some l => l | None => [] end))))
        (filter (fun kl => din (fst kl) d) (all_dict g)).

(** microgrid.py:434-475 [get_log]: the columns must all have the length of the
    index [RangeIndex(initial_step, current_step)].  A Series column (only after
    deserialization) is aligned with the index instead. *)
Definition log_columns (g : mgrid) : list ((string * nat * string) * column T) :=
  concat (map (fun kl =>
                 concat (map (fun ji =>
                                match nth_error (mg_mods g) (snd ji) with
                                | Some m => map (fun kc => ((fst kl, fst ji, fst kc), snd kc))
                                                (lg_data (m_log m))
                                | None => []
                                end)
                             (combine (seq 0 (length (snd kl))) (snd kl))))
              (all_dict g))
  ++ map (fun kc => (("balance", 0%nat, fst kc), snd kc)) (lg_data (mg_balance g))
  ++ map (fun kc => ((fst kc, 0%nat, ""), snd kc)) (lg_data (mg_other g)).
Definition align (start : Z) (n : nat) (cells : list (option T)) : list (option T) :=
  map (fun k => match py_nth cells (start + Z.of_nat k)%Z with
                | Some (Some x) => if (start + Z.of_nat k <? 0)%Z then None else Some x
                | _ => None
                end) (seq 0 n).
Definition get_log (g : mgrid) : res (list ((string * nat * string) * list (option T))) :=
  let? cur := mg_current_step g in
  let n := Z.to_nat (cur - mg_initial g) in
  rmapM (fun kc =>
           match snd kc with
           | ColList l => if Nat.eqb (length l) n then Ok (fst kc, l)
                          else raise ValueError "Length of values does not match length of index"
           | ColSeries l => Ok (fst kc, align (mg_initial g) n l)
           end)
        (log_columns g).

(** microgrid.py:477-551 [set_forecaster] with one forecaster for all modules
    ([rnd i] are the random choices made in module [i]); AttributeErrors are
    swallowed. *)
Definition mg_set_forecaster (fp : fparam T) (horizon : nat) (increase : bool)
    (rnd : nat -> frand T) : M mgrid unit :=
  g <- mget ;;
  mfold (fun _ i =>
           fun g => match with_module i (set_forecaster fp horizon increase (rnd i)) g with
                    | (g', Ok _) => (g', Ok tt)
                    | (g', Err e) => match ex_class e with
                                     | AttributeError => (g', Ok tt)
                                     | _ => (g', Err e)
                                     end
                    end)
        (all_ids g) tt.
(** ... and with a dictionary: a ModuleList has no [set_forecaster], and the
    resulting AttributeError is swallowed (microgrid.py:527-541). *)
Definition mg_set_forecaster_dict (d : dict (fparam T)) : M mgrid unit :=
  g <- mget ;;
  mfold (fun _ kv => if str_in (fst kv) (ct_names (mg_ct g)) then mret tt
                     else mraise NameError "Unrecognized module")
        d tt.

(** microgrid.py:553-581 [get_forecast_horizon]; DEFAULT_HORIZON is 23. *)
Definition get_forecast_horizon (g : mgrid) : res nat :=
  let hs := concat (map (fun i => match nth_error (mg_mods g) i with
                                  | Some m => match kind_ts (m_kind m) with
                                              | Some t => [ts_horizon t]
                                              | None => []
                                              end
                                  | None => []
                                  end) (all_ids g)) in
  match hs with
  | [] => Ok 23%nat
  | h :: _ => if forallb (Nat.eqb h) hs then Ok h
              else raise ValueError "Mismatched forecast_horizons found"
  end.

(** microgrid.py:699-718 [state_dict] *)
Definition mg_state_dict (normalized : bool) (g : mgrid) : res (dict (list (dict T))) :=
  rmapM (fun kl =>
           rmap (fun l => (fst kl, l))
                (rmapM (fun i => match nth_error (mg_mods g) i with
                                 | None => raise KeyError "no such module"
                                 | Some m => if normalized then state_dict_normalized m
                                             else state_dict m
                                 end) (snd kl)))
        (all_dict g).

(** microgrid.py:735-761 [state_series] *)
Definition mg_state_series (normalized : bool) (g : mgrid)
  : res (list ((string * nat * string) * T)%type) :=
  rmap (fun d => concat (map (fun kl =>
                   concat (map (fun js => map (fun kv => ((fst kl, fst js, fst kv), snd kv)) (snd js))
                               (combine (seq 0 (length (snd kl))) (snd kl)))) d))
       (mg_state_dict normalized g).

(** microgrid.py:996-1007 [__len__]: [min] of an empty list raises. *)
Definition mg_len (g : mgrid) : res nat :=
  let ls := concat (map (fun i => match nth_error (mg_mods g) i with
                                  | Some m => match kind_ts (m_kind m) with
                                              | Some t => [length (ts_rows t)]
                                              | None => []
                                              end
                                  | None => []
                                  end) (all_ids g)) in
  match ls with
  | [] => raise ValueError "min() arg is an empty sequence"
  | l :: ls' => Ok (fold_left Nat.min ls' l)
  end.

End Microgrid.

Arguments entry T : clear implicits.
Arguments infos T : clear implicits.
Arguments cost_info T : clear implicits.
Arguments shaper T : clear implicits.
Arguments mstep T : clear implicits.
Arguments mgrid T : clear implicits.
Arguments ctrl T : clear implicits.
Arguments control T : clear implicits.
Arguments run_out T : clear implicits.
