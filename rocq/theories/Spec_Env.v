(** * Specification vocabulary for environments *)

From Coq Require Import ZArith QArith Bool String List Sorted.
From Verif Require Import Num Py Space Logger Forecast Module Container Microgrid PriorityList Env
  Spec_Module Spec_Reach Spec_Microgrid.
Import ListNotations.
Local Open Scope string_scope.
Local Open Scope list_scope.

(** The microgrid of an environment, its log of actions left out. *)
Definition quiet (g : mgrid Q) : mgrid Q := mg_set_logs g (mg_balance g) logger_empty.
Definition grid_of (e : env Q) : mgrid Q := quiet (ev_mg e).

(** Calls on a discrete environment: its own and those of the microgrid. *)
Inductive ecall := EStep (a : Z) | EReset | ERemove (a : Z) | ECall (c : mcall).
Definition do_ecall (c : ecall) (e : env Q) : env Q :=
  match c with
  | EStep a => fst (discrete_step a e)
  | EReset => fst (env_reset e)
  | ERemove a => fst (remove_action a e)
  | ECall c => env_set_mg e (do_mcall c (ev_mg e))
  end.
(** Any calls, exceptions caught. *)
Definition eplay (cs : list ecall) (e : env Q) : env Q := fold_left (fun e c => do_ecall c e) cs e.

(** [e] was built from the modules [D] and used in any way. *)
Definition discrete_env (D : list (mdef Q)) (e : env Q) : Prop :=
  exists ds add lossc overc sh tr g0 flat keys rr e0 cs,
    mbuilt ds add lossc overc sh tr g0 /\ D = all_defs ds add lossc overc
    /\ new_discrete_env g0 flat keys rr = Ok e0 /\ e = eplay cs e0.

(** The same for the base environment, whose [step] takes a control. *)
Inductive bcall := BStep (c : control Q) (normalized : bool) | BReset | BCall (c : mcall).
Definition do_bcall (c : bcall) (e : env Q) : env Q :=
  match c with
  | BStep c n => fst (env_step c n e)
  | BReset => fst (env_reset e)
  | BCall c => env_set_mg e (do_mcall c (ev_mg e))
  end.
Definition bplay (cs : list bcall) (e : env Q) : env Q := fold_left (fun e c => do_bcall c e) cs e.
Definition base_env (D : list (mdef Q)) (e : env Q) : Prop :=
  exists ds add lossc overc sh tr g0 flat keys e0 cs,
    mbuilt ds add lossc overc sh tr g0 /\ D = all_defs ds add lossc overc
    /\ new_base_env g0 flat keys = Ok e0 /\ e = bplay cs e0.

(** The action is one of the environment's. *)
Definition in_action_space (e : env Q) (a : Z) : Prop := (0 <= a < Z.of_nat (length (ev_lists e)))%Z.

(** [k] accepted and [r] refused actions since the environment was built or last
    reset. *)
Inductive env_episode (e0 : env Q) : nat -> nat -> env Q -> Prop :=
| ee_start : env_episode e0 0 0 e0
| ee_step k r e e' a out : env_episode e0 k r e -> discrete_step a e = (e', Ok out) ->
    env_episode e0 (S k) r e'
| ee_refused k r e e' a x : env_episode e0 k r e -> ~ in_action_space e a ->
    discrete_step a e = (e', Err x) -> env_episode e0 k (S r) e'
| ee_remove k r e e' a : env_episode e0 k r e -> remove_action a e = (e', Ok tt) ->
    env_episode e0 k r e'
| ee_reset k r e e' obs : env_episode e0 k r e -> env_reset e = (e', Ok obs) -> env_episode e0 0 0 e'.

(** ** Observations *)

(** The names of the modules, sorted, each once. *)
Definition sorted_names (D : list (mdef Q)) (nms : list string) : Prop :=
  StronglySorted (fun a b => String.leb a b = true) nms /\ NoDup nms
  /\ forall nm, In nm nms <-> exists d, In d D /\ mdef_name d = nm.

(** The normalized state of module [i], as a list. *)
Definition observed (g : mgrid Q) (i : nat) : list Q :=
  match nth_error (mg_mods g) i with
  | Some m => match norm_obs m with Ok v => as_list v | Err _ => [] end
  | None => []
  end.

(** An environment of either kind. *)
Definition any_env (D : list (mdef Q)) (e : env Q) : Prop := base_env D e \/ discrete_env D e.

(** The calls that return an observation [o] and leave the environment as [e']. *)
Inductive answers (D : list (mdef Q)) (e : env Q) : env Q -> observation Q -> Prop :=
| an_reset e' o : env_reset e = (e', Ok o) -> answers D e e' o
| an_step c n e' o rw dn inf : complete D c -> env_step c n e = (e', Ok (o, rw, dn, inf)) -> answers D e e' o
| an_action a e' o rw dn inf : discrete_env D e -> discrete_step a e = (e', Ok (o, rw, dn, inf)) ->
    answers D e e' o.

(** The state of a module is a single number. *)
Definition one_entry (m : module Q) : Prop := exists x, state m = Ok [x].

(** The entries of a state series whose key is one of [keys], in the order of the
    series. *)
Definition requested (keys : list string) (s : list ((string * nat * string) * Q))
  : list ((string * nat * string) * Q) :=
  filter (fun x => str_in (snd (fst x)) keys) s.

(** ** The continuous environment *)
Inductive ccall := CStep (a : cont_action Q) | CReset | CCall (c : mcall).
Definition do_ccall (c : ccall) (e : env Q) : env Q :=
  match c with
  | CStep a => fst (continuous_step a e)
  | CReset => fst (env_reset e)
  | CCall c => env_set_mg e (do_mcall c (ev_mg e))
  end.
Definition cplay (cs : list ccall) (e : env Q) : env Q := fold_left (fun e c => do_ccall c e) cs e.
Definition continuous_env (D : list (mdef Q)) (e : env Q) : Prop :=
  exists ds add lossc overc sh tr g0 flat keys e0 cs,
    mbuilt ds add lossc overc sh tr g0 /\ D = all_defs ds add lossc overc
    /\ new_continuous_env g0 flat keys = Ok e0 /\ e = cplay cs e0.

Definition has_load (D : list (mdef Q)) : Prop := exists d t, In d D /\ m_kind (snd d) = KLoad t.
Definition has_controllable (D : list (mdef Q)) : Prop :=
  exists d, In d D /\ module_type (m_kind (snd d)) = Controllable.
(** No grid was made a fixed module. *)
Definition no_fixed_grid (D : list (mdef Q)) : Prop :=
  forall d gr t, In d D -> m_kind (snd d) = KGrid gr t -> gr_type gr <> Fixed.

(** The modules of this name are grids made fixed modules. *)
Definition fixed_grid (D : list (mdef Q)) (nm : string) : Prop :=
  exists d gr t, In d D /\ mdef_name d = nm /\ m_kind (snd d) = KGrid gr t /\ gr_type gr = Fixed.
(** An action of the continuous environment: a dictionary with the names of the fixed
    grids as keys and, for each grid, one number between 0 and 1. *)
Definition valid_action (D : list (mdef Q)) (a : cont_action Q) : Prop :=
  exists dd, a = CDict dd /\ forall nm,
    match dget nm dd with
    | Some l => fixed_grid D nm /\ length l = length (positions nm D)
                /\ Forall (fun xs => exists x, xs = [x] /\ 0 <= x <= 1) l
    | None => ~ fixed_grid D nm
    end.
