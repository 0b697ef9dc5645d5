(** * Model of microgrid/the trajectory functions

    A trajectory function is called by [Microgrid.reset] with the initial and
    final step of the microgrid and returns the initial and final step of the
    next episode.  [traj_fn] (Microgrid.v) numbers the calls, so that a random
    function is a deterministic one that reads the draws of its call: [draw k]
    are the integers the generator delivers in the [k]-th call. *)

From Coq Require Import ZArith Bool String List.
From Verif Require Import Num Py Microgrid.
Local Open Scope string_scope.
Local Open Scope py_scope.
Local Open Scope Z_scope.

(** [numpy.random.randint(lo, hi)]: an integer of the half-open interval, or
    ValueError if the interval is empty.  [r] is an arbitrary integer; every
    element of the interval is delivered for some [r]. *)
Definition randint (lo hi r : Z) : res Z :=
  if hi <=? lo then raise ValueError "low >= high" else Ok (lo + r mod (hi - lo)).

(** trajectory/deterministic.py:7-12 *)
Definition deterministic_trajectory (initial_step final_step : Z) : traj_fn :=
  fun _ _ _ => Ok (initial_step, final_step).

(** trajectory/stochastic.py:6-14.  [final = None] stands for [np.inf], which
    [randint] refuses (numpy's exception is a ValueError). *)
Definition stochastic_trajectory (draw : nat -> Z * Z) : traj_fn :=
  fun k initial_step final_step =>
    match final_step with
    | None => raise ValueError "high is out of bounds"
    | Some f =>
        let? i := randint initial_step (f - 2) (fst (draw k)) in
        let? e := randint i f (snd (draw k)) in
        Ok (i, e)
    end.

(** trajectory/stochastic.py:17-30 *)
Definition fixed_length_trajectory (trajectory_length : Z) (draw : nat -> Z) : traj_fn :=
  fun k initial_step final_step =>
    match final_step with
    | None => raise ValueError "high is out of bounds"
    | Some f =>
        if f - initial_step <? trajectory_length
        then raise ValueError "Cannot create a trajectory of length"
        else let? i := randint initial_step (f - trajectory_length) (draw k) in
             Ok (i, i + trajectory_length)
    end.
