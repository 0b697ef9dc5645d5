(** * Model of algos/priority_list and algos/rbc/rbc.py *)

From Coq Require Import ZArith Bool String List.
From Verif Require Import Num Py Space Logger Forecast Module Container Microgrid.
Import ListNotations.
Local Open Scope string_scope.
Local Open Scope list_scope.
Local Open Scope py_scope.

(** [itertools.permutations(l)]: in lexicographic order of the positions. *)
Fixpoint picks {A} (l : list A) : list (A * list A) :=
  match l with
  | [] => []
  | x :: l' => (x, l') :: map (fun p => (fst p, x :: snd p)) (picks l')
  end.
Fixpoint perms {A} (n : nat) (l : list A) : list (list A) :=
  match n with
  | O => [[]]
  | S n' => concat (map (fun p => map (cons (fst p)) (perms n' (snd p))) (picks l))
  end.
Definition permutations {A} (l : list A) : list (list A) := perms (length l) l.

Section PriorityList.
Context {T : Type} `{NumOps T}.

(** priority_list_element.py:25-60.  A marginal cost of [None] is not modelled:
    every module class has a number. *)
Record element := mkElement {
  el_module : string * nat;
  el_actions : nat;
  el_action : nat;
  el_cost : T
}.

(** priority_list_element.py:62-71 [__eq__] *)
Definition ref_eqb (a b : string * nat) : bool :=
  String.eqb (fst a) (fst b) && Nat.eqb (snd a) (snd b).
Definition el_eqb (a b : element) : bool :=
  ref_eqb (el_module a) (el_module b) && Nat.eqb (el_actions a) (el_actions b)
  && Nat.eqb (el_action a) (el_action b) && neqb (el_cost a) (el_cost b).
(** priority_list_element.py:73-80 [__lt__] *)
Definition el_ltb (a b : element) : bool :=
  nltb (el_cost a) (el_cost b)
  || (neqb (el_cost a) (el_cost b) && Nat.ltb (el_action b) (el_action a)).
(** Equality of tuples of elements. *)
Fixpoint pl_eqb (a b : list element) : bool :=
  match a, b with
  | [], [] => true
  | x :: a', y :: b' => el_eqb x y && pl_eqb a' b'
  | _, _ => false
  end.

(** [module.name]: the pair set by the container (module_container.py:400). *)
Definition module_ref (m : module T) : string * nat :=
  match m_name m with (Some s, Some n) => (s, n) | _ => ("", 0) end.

(** The elements of one module: priority_list.py:26-28 *)
Definition module_elements (g : mgrid T) (i : nat) : res (list element) :=
  match nth_error (mg_mods g) i with
  | None => raise KeyError "no such module"
  | Some m =>
      rmapM (fun a => let? c := production_marginal_cost m in
                      Ok (mkElement (module_ref m) (act_dims m) a c))
            (seq 0 (act_dims m))
  end.
(** priority_list.py:26-32 *)
Definition controllable_source_ids (g : mgrid T) : list nat :=
  concat (map snd (ct_get (mg_ct g) Controllable Sources))
  ++ concat (map snd (ct_get (mg_ct g) Controllable SourceAndSinks)).
Definition source_elements (g : mgrid T) : res (list element) :=
  rmap (@concat _) (rmapM (module_elements g) (controllable_source_ids g)).

(** priority_list.py:41-44: keep the first element of every module. *)
Fixpoint keep_first (seen : list (string * nat)) (pl : list element) : list element :=
  match pl with
  | [] => []
  | e :: pl' => if existsb (ref_eqb (el_module e)) seen then keep_first seen pl'
                else e :: keep_first (el_module e :: seen) pl'
  end.

(** priority_list.py:53-67 [_remove_redundant_gensets] *)
Definition redundant_elements (g : mgrid T) : res (list element) :=
  rmap (@concat _)
    (rmapM (fun kl =>
       rmap (@concat _)
         (rmapM (fun ji =>
            match nth_error (mg_mods g) (snd ji) with
            | None => raise KeyError "no such module"
            | Some m =>
                match m_kind m with
                | KGenset s =>
                    if neqb (g_min_prod s) n0
                    then let? c := production_marginal_cost m in
                         Ok [mkElement (fst kl, fst ji) 2 0 c]
                    else Ok []
                | _ => Ok []
                end
            end) (combine (seq 0 (length (snd kl))) (snd kl))))
       (all_dict g)).
Definition remove_redundant_gensets (g : mgrid T) (pls : list (list element))
  : res (list (list element)) :=
  let? rs := redundant_elements g in
  Ok (filter (fun pl => negb (existsb (fun r => existsb (el_eqb r) pl) rs)) pls).

(** priority_list.py:15-51 [get_priority_lists], [_remove_redundant_actions] *)
Definition get_priority_lists (g : mgrid T) (remove_redundant : bool) : res (list (list element)) :=
  let? es := source_elements g in
  let unique := uniq_vals pl_eqb (map (keep_first []) (permutations es)) in
  if remove_redundant then remove_redundant_gensets g unique else Ok unique.

(** priority_list.py:157-167 [_get_load], [_get_renewable].  A bound that is no
    number cannot be added (TypeError). *)
Definition bound_num (b : bound T) : res T :=
  match b with
  | BFin x => Ok x
  | BInf => raise TypeError "infinite"
  | BNone => raise TypeError "NoneType"
  end.
Definition sum_bounds (get : module T -> res (bound T)) (g : mgrid T) (ids : list nat) : res T :=
  rmap nsum (rmapM (fun i => match nth_error (mg_mods g) i with
                             | None => raise KeyError "no such module"
                             | Some m => let? b := get m in bound_num b
                             end) ids).
Definition get_load (g : mgrid T) : res T :=
  sum_bounds max_consumption g (concat (map snd (ct_get (mg_ct g) Fixed Sinks))).
Definition get_renewable (g : mgrid T) : res T :=
  sum_bounds max_production g (concat (map snd (ct_get (mg_ct g) Flex Sources))).

(** priority_list.py:118-136 [_consume_in_module] *)
Definition consume_in_module (m : module T) (remaining : T) : res T :=
  let? mx := max_consumption m in
  if negb (nleb remaining n0) then raise AssertionError "remaining_load <= 0.0"
  else
    let? c := (if is_sink (m_kind m) then
                 match mx with
                 | BFin x =>
                     if negb (nleb n0 x) then raise AssertionError "module_max_consumption >= 0"
                     else if nltb x (nmul (nopp n1) remaining) then Ok (nmul (nopp n1) x)
                     else Ok remaining
                 | BInf => Ok remaining
                 | BNone => raise TypeError "NoneType"
                 end
               else Ok n0) in
    if nleb c n0 then Ok c else raise AssertionError "module_consumption <= 0".

(** priority_list.py:138-155 [_produce_from_module]; only gensets have
    [next_max_production].  The goal status is the action number. *)
Definition produce_from_module (action : nat) (m : module T) (remaining : T) : res T :=
  let? limits := (match m_kind m with
                  | KGenset s => Ok (BFin (next_max_production s (negb (Nat.eqb action 0))),
                                     next_min_production s (negb (Nat.eqb action 0)))
                  | _ => let? mx := max_production m in Ok (mx, min_production m)
                  end) in
  let '(mx, mn) := limits in
  let? p := (if nleb mn remaining then
               match mx with
               | BFin x => if nleb remaining x then Ok remaining else Ok x
               | BInf => Ok remaining
               | BNone => raise TypeError "NoneType"
               end
             else Ok mn) in
  if nleb n0 p then Ok p else raise AssertionError "module_production >= 0".

(** [np.isclose(x, 0.0, atol=1e-4)] *)
Definition negligible (x : T) : bool := nleb (nabs x) (nfrac 1 10000).

(** An action under construction: [None] slots are filled one by one. *)
Definition slots := dict (list (option (pyval T))).
Definition slot_get (a : slots) (r : string * nat) : res (option (pyval T)) :=
  match dget (fst r) a with
  | None => raise KeyError (fst r)
  | Some l => match nth_error l (snd r) with
              | None => raise IndexError "list index out of range"
              | Some o => Ok o
              end
  end.
Definition slot_set (a : slots) (r : string * nat) (v : pyval T) : slots :=
  match dget (fst r) a with
  | None => a
  | Some l => dset (fst r) (set_nth l (snd r) (Some v)) a
  end.

(** [self.modules[name][number]] *)
Definition find_module (g : mgrid T) (r : string * nat) : res (module T) :=
  let? l := ct_lookup (mg_ct g) (fst r) in
  match nth_error l (snd r) with
  | None => raise IndexError "list index out of range"
  | Some i => match nth_error (mg_mods g) i with
              | None => raise KeyError "no such module"
              | Some m => Ok m
              end
  end.

(** The loop of priority_list.py:77-110.  For a module with more than one action
    the list [[action, energy]] is built up and then turned into an array; for
    the others the slot is set to the number. *)
Fixpoint deploy (g : mgrid T) (pl : list element) (a : slots) (remaining : T) : res slots :=
  match pl with
  | [] => Ok a
  | e :: pl' =>
      let? m := find_module g (el_module e) in
      let? s := slot_get a (el_module e) in
      if Nat.ltb 1 (el_actions e) && (match s with Some _ => true | None => false end)
      then deploy g pl' a remaining
      else
        let? x := (if negligible remaining then Ok n0
                   else if nltb n0 remaining then produce_from_module (el_action e) m remaining
                   else consume_in_module m remaining) in
        deploy g pl'
          (slot_set a (el_module e)
             (if Nat.ltb 1 (el_actions e)
              then VA [nofZ (Z.of_nat (el_action e)); x] else VS x))
          (nsub remaining x)
  end.

(** priority_list.py:69-116 [_populate_action].  The check at 112-114 never fires:
    the values are lists. *)
Definition populate_action (g : mgrid T) (pl : list element) : res slots :=
  let? load := get_load g in
  let? renewable := get_renewable g in
  if negb (nleb n0 load && nleb n0 renewable)
  then raise AssertionError "total_load >= 0 and renewable >= 0"
  else deploy g pl (get_empty_action g false) (nsub load renewable).

(** The action as the control of [run].  A slot left empty makes the step of that
    module raise; modelled as raised beforehand. *)
Definition as_control (a : slots) : res (control T) :=
  rmapM (fun kl => rmap (fun l => (fst kl, CList l))
                        (rmapM (fun o => match o with
                                         | Some v => Ok v
                                         | None => raise TypeError "NoneType"
                                         end) (snd kl))) a.

(** ** algos/rbc/rbc.py *)

(** [sorted]: a stable sort; only [__lt__] is used. *)
Fixpoint insert_el (e : element) (l : list element) : list element :=
  match l with
  | [] => [e]
  | x :: l' => if el_ltb e x then e :: x :: l' else x :: insert_el e l'
  end.
Definition sort_els (l : list element) : list element :=
  fold_left (fun acc e => insert_el e acc) l [].

(** A [priority_list] argument: a tuple or a list of elements. *)
Inductive pl_arg := PLTuple (l : list element) | PLList (l : list element).

(** rbc.py:27-46.  A list never equals a tuple, and [get_priority_lists] returns
    tuples. *)
Definition rbc_priority_list (g : mgrid T) (arg : option pl_arg) (remove_redundant : bool)
  : res (list element) :=
  let? pls := get_priority_lists g remove_redundant in
  match arg with
  | None => match pls with
            | [] => raise IndexError "list index out of range"
            | pl :: _ => Ok (sort_els pl)
            end
  | Some (PLTuple l) => if existsb (pl_eqb l) pls then Ok l
                        else raise ValueError "Invalid priority list."
  | Some (PLList l) => raise ValueError "Invalid priority list."
  end.

(** rbc.py:48-52, 90-91: one step. *)
Definition rbc_step (pl : list element) : M (mgrid T) (run_out T) :=
  g <- mget ;;
  a <- mlift (populate_action g pl) ;;
  c <- mlift (as_control a) ;;
  run c false.
(** rbc.py:89-93 *)
Fixpoint rbc_loop (n : nat) (pl : list element) : M (mgrid T) unit :=
  match n with
  | O => mret tt
  | S n' =>
      out <- rbc_step pl ;;
      let '(_, _, done, _) := out in
      if (done : bool) then mret tt else rbc_loop n' pl
  end.
(** rbc.py:66-95 [run] *)
Definition rbc_run (pl : list element) (max_steps : option nat)
  : M (mgrid T) (list ((string * nat * string) * list (option T))) :=
  g <- mget ;;
  n <- mlift (match max_steps with Some n => Ok n | None => mg_len g end) ;;
  mg_reset ;;
  rbc_loop n pl ;;
  g' <- mget ;;
  mlift (get_log g').

End PriorityList.

Arguments element T : clear implicits.
Arguments pl_arg T : clear implicits.
Arguments slots T : clear implicits.
