(** * src/pymgrid/envs: base, discrete and continuous environments

    gym itself is not modelled beyond what is used here: [Dict] sorts its keys,
    [flatten] concatenates, [Discrete(n)] contains the integers from 0 to n-1, and
    [Box] contains arrays of its shape within its bounds. *)

From Coq Require Import ZArith Bool String List.
From Verif Require Import Num Py Space Logger Forecast Module Container Microgrid PriorityList.
Import ListNotations.
Local Open Scope string_scope.
Local Open Scope list_scope.
Local Open Scope py_scope.

(** Keys in the order of [sorted]. *)
Fixpoint key_insert {A} (k : string) (v : A) (d : dict A) : dict A :=
  match d with
  | [] => [(k, v)]
  | (k', v') :: d' => if String.leb k k' then (k, v) :: (k', v') :: d' else (k', v') :: key_insert k v d'
  end.
Definition key_sort {A} (d : dict A) : dict A :=
  fold_right (fun kv acc => key_insert (fst kv) (snd kv) acc) [] d.

Section Env.
Context {T : Type} `{NumOps T}.

(** A nested observation space: for each name the sizes of the boxes. *)
Definition nested := dict (list nat).

(** base.py:87-111.  [ev_keys] is [observation_keys], empty for [None] or [()].
    [ev_space] is [_nested_observation_space].  [ev_lists] and [ev_n] are
    [actions_list] and [action_space.n] of the discrete environment. *)
Record env := mkEnv {
  ev_mg : mgrid T;
  ev_flat : bool;
  ev_keys : list string;
  ev_space : nested;
  ev_lists : list (list (element T));
  ev_n : nat
}.
Definition env_set_mg (e : env) (g : mgrid T) : env :=
  mkEnv g (ev_flat e) (ev_keys e) (ev_space e) (ev_lists e) (ev_n e).
Definition env_set_actions (e : env) (ls : list (list (element T))) (n : nat) : env :=
  mkEnv (ev_mg e) (ev_flat e) (ev_keys e) (ev_space e) ls n.

(** base.py:113-127 [_validate_observation_keys] (a single string counts as a
    list of one) *)
Definition validate_keys (g : mgrid T) (keys : list string) : res (list string) :=
  match keys with
  | [] => Ok []
  | _ =>
      let? s := mg_state_series false g in
      if forallb (fun k => str_in k (map (fun x => snd (fst x)) s)) keys then Ok keys
      else raise NameError "not found in state"
  end.

(** base.py:133-168 [_get_observation_space]: without keys the observation box of
    every module; with keys the box of those of its state entries that are named,
    if there are any. *)
Definition observation_space (g : mgrid T) (keys : list string) : res nested :=
  let? s := mg_state_series false g in
  Ok (concat (map (fun kl =>
    let sizes := concat (map (fun ji =>
                   match nth_error (mg_mods g) (snd ji) with
                   | None => []
                   | Some m =>
                       match keys with
                       | [] => [length (sp_low (m_obs m))]
                       | _ =>
                           let idx := map (fun x => snd (fst x))
                                          (filter (fun x => ref_eqb (fst (fst x)) (fst kl, fst ji)) s) in
                           match filter (fun k => str_in k idx) keys with
                           | [] => []
                           | l => [length l]
                           end
                       end
                   end) (combine (seq 0 (length (snd kl))) (snd kl))) in
    match sizes with [] => [] | _ => [(fst kl, sizes)] end) (all_dict g))).

(** The size of [flatten_space]. *)
Definition flat_size (sp : nested) : nat := list_sum (map (fun kl => list_sum (snd kl)) sp).

(** gym's [flatten] of a Dict of Tuples of Boxes *)
Definition flatten (sp : nested) (obs : dict (list (pyval T))) : res (list T) :=
  rmap (@concat _)
    (rmapM (fun kl => match dget (fst kl) obs with
                      | None => raise KeyError (fst kl)
                      | Some l => Ok (concat (map (fun xs => as_list (fst xs)) (combine l (snd kl))))
                      end) (key_sort sp)).

(** An observation: an array, a nested dictionary, or (with keys and without
    flattening) the entries of a dictionary whose layout is not modelled. *)
Inductive observation :=
| OFlat (xs : list T) | ONested (d : dict (list (pyval T))) | OEntries (l : list ((string * nat * string) * T)).

(** base.py:214-227 [_get_obs].  With keys pandas selects the entries; it returns
    them in the order of the state if the keys are sorted, and otherwise orders
    them by key first (pandas >= 1.4). *)
Definition keys_sorted (keys : list string) : bool :=
  (fix go l := match l with
               | a :: (b :: _) as l' => String.leb a b && go l'
               | _ => true
               end) keys.
Definition select (keys : list string) (s : list ((string * nat * string) * T))
  : list ((string * nat * string) * T) :=
  if keys_sorted keys then filter (fun x => str_in (snd (fst x)) keys) s
  else concat (map (fun k => filter (fun x => String.eqb k (snd (fst x))) s) (uniq_vals String.eqb keys)).
Definition get_obs (e : env) (obs : dict (list (pyval T))) : res observation :=
  match ev_keys e with
  | [] => if ev_flat e then rmap OFlat (flatten (ev_space e) obs) else Ok (ONested obs)
  | keys =>
      let? s := mg_state_series true (ev_mg e) in
      Ok (if ev_flat e then OFlat (map snd (select keys s)) else OEntries (select keys s))
  end.

(** base.py:87-111 [__init__]; [flatten_space] of an empty Dict raises (numpy cannot
    concatenate nothing). *)
Definition new_base_env (g : mgrid T) (flat : bool) (keys : list string) : res env :=
  let? ks := validate_keys g keys in
  let? sp := observation_space g ks in
  if flat && match sp with [] => true | _ => false end
  then raise ValueError "need at least one array to concatenate"
  else Ok (mkEnv g flat ks sp [] 0).

(** Methods of the microgrid, called on the environment. *)
Definition on_mg {A} (f : M (mgrid T) A) : M env A :=
  fun e => let '(g, r) := f (ev_mg e) in (env_set_mg e g, r).

Definition env_out := (observation * T * bool * infos T)%type.

(** base.py:170-172 [reset] *)
Definition env_reset : M env observation :=
  obs <- on_mg mg_reset ;;
  e <- mget ;;
  mlift (get_obs e obs).
(** base.py:174-212 [step] *)
Definition env_step (c : control T) (normalized : bool) : M env env_out :=
  out <- on_mg (run c normalized) ;;
  let '(obs, reward, done, inf) := out in
  e <- mget ;;
  o <- mlift (get_obs e obs) ;;
  mret (o, reward, done, inf).

(** base.py:252-285 [from_microgrid]: a microgrid built from the (name, module)
    pairs of the container.  The module objects are shared with the old microgrid,
    whose own logs are not ported. *)
Definition mg_tuples (g : mgrid T) : list (mdef T) :=
  concat (map (fun ni => match nth_error (mg_mods g) (snd ni) with
                         | Some m => [(Some (fst ni), m)]
                         | None => []
                         end) (to_tuples (subs_all (mg_ct g)))).
Definition from_microgrid (g : mgrid T) (lossc overc : T) : res (mgrid T) :=
  new_microgrid (mg_tuples g) false lossc overc (mg_shaper g) (mg_traj g).

(** ** discrete.py *)

(** discrete.py:39-80: the action space is computed from the priority lists.  (It
    is also computed by the base class, with all lists, and then replaced.) *)
Definition new_discrete_env (g : mgrid T) (flat : bool) (keys : list string) (remove_redundant : bool)
  : res env :=
  let? _ := get_priority_lists g false in
  let? e := new_base_env g flat keys in
  let? pls := get_priority_lists g remove_redundant in
  Ok (env_set_actions e pls (length pls)).

(** [action in self.action_space] *)
Definition in_discrete (n : nat) (a : Z) : bool := (0 <=? a)%Z && (a <? Z.of_nat n)%Z.

(** discrete.py:82-88 [_get_action] *)
Definition discrete_action (e : env) (a : Z) : res (control T) :=
  if negb (in_discrete (ev_n e) a) then raise ValueError "Action not in action space"
  else match py_nth (ev_lists e) a with
       | None => raise IndexError "list index out of range"
       | Some pl => let? s := populate_action (ev_mg e) pl in as_control s
       end.

(** discrete.py:109-136 [step]: the action is logged before it is looked at. *)
Definition log_action (a : Z) : M (mgrid T) unit :=
  fun g => let '(lg, r) := logger_log [("action", nofZ a)] (mg_other g) in
           (mg_set_logs g (mg_balance g) lg, r).
Definition discrete_step (a : Z) : M env env_out :=
  on_mg (log_action a) ;;
  e <- mget ;;
  c <- mlift (discrete_action e a) ;;
  env_step c false.

(** discrete.py:90-107 [remove_action] *)
Fixpoint remove_nth {A} (n : nat) (l : list A) : list A :=
  match n, l with
  | _, [] => []
  | O, _ :: l' => l'
  | S n', x :: l' => x :: remove_nth n' l'
  end.
Definition remove_action (a : Z) : M env unit :=
  e <- mget ;;
  if negb (in_discrete (ev_n e) a) then mraise ValueError "Cannot remove action that is not in the action space!"
  else mput (env_set_actions e (remove_nth (Z.to_nat a) (ev_lists e)) (ev_n e - 1)).

(** discrete.py:138-139 [sample_action]: the space draws some action. *)

(** ** continuous.py *)

(** continuous.py:52-54 [_get_nested_action_space]: fixed sources only.  The
    normalized box of a module has as many entries as its action space. *)
Definition action_names (g : mgrid T) : dict (list nat) :=
  filter (fun kl => match snd kl with
                    | i :: _ => match nth_error (mg_mods g) i with
                                | Some m => is_source (m_kind m)
                                | None => false
                                end
                    | [] => false
                    end) (part_dict Fixed g).

(** continuous.py:56-58 [_get_action_space]: [flatten_space] of an empty Dict
    raises. *)
Definition new_continuous_env (g : mgrid T) (flat : bool) (keys : list string) : res env :=
  let? ks := validate_keys g keys in
  if flat && match action_names g with [] => true | _ => false end
  then raise ValueError "need at least one array to concatenate"
  else new_base_env g flat ks.

(** What a caller can pass: an array, or a dictionary of lists of arrays. *)
Inductive cont_action := CArray (xs : list T) | CDict (d : dict (list (list T))).

(** [action in self._nested_action_space]: same keys, one array for each module,
    each of the right size and within [0, 1]. *)
Fixpoint all_unit (xs : list T) : bool :=
  match xs with [] => true | x :: xs' => nleb n0 x && nleb x n1 && all_unit xs' end.
Definition in_nested (g : mgrid T) (a : cont_action) : bool :=
  match a with
  | CArray _ => false
  | CDict d =>
      Nat.eqb (length d) (length (action_names g))
      && forallb (fun kl =>
           match dget (fst kl) d with
           | None => false
           | Some l =>
               Nat.eqb (length l) (length (snd kl))
               && forallb (fun xi => match nth_error (mg_mods g) (snd xi) with
                                     | None => false
                                     | Some m => Nat.eqb (length (fst xi)) (act_dims m) && all_unit (fst xi)
                                     end) (combine l (snd kl))
           end) (action_names g)
  end.

(** continuous.py:60-66 [_get_action]: the loads are added to the action. *)
Definition continuous_action (g : mgrid T) (a : cont_action) : res (control T) :=
  if negb (in_nested g a) then raise AssertionError "Action is not in action space."
  else match a with
       | CArray _ => raise AttributeError "copy"
       | CDict d =>
           let? loads :=
             rmapM (fun kl =>
                      rmap (fun l => (fst kl, CList l))
                        (rmapM (fun i => match nth_error (mg_mods g) i with
                                         | None => raise KeyError "no such module"
                                         | Some m =>
                                             let? b := max_consumption m in
                                             let? x := bound_num b in
                                             convert1 true false m (VS (nmul (nopp n1) x))
                                         end) (snd kl)))
                   (to_dict [ct_get (mg_ct g) Fixed Sinks]) in
           Ok (dupdate (map (fun kl => (fst kl, CList (map VA (snd kl)))) d) loads)
       end.
(** continuous.py:68-70 [step]: the result of [run], observations not flattened *)
Definition continuous_step (a : cont_action) : M env (run_out T) :=
  e <- mget ;;
  c <- mlift (continuous_action (ev_mg e) a) ;;
  on_mg (run c true).

End Env.

Arguments env T : clear implicits.
Arguments observation T : clear implicits.
Arguments env_out T : clear implicits.
Arguments cont_action T : clear implicits.
