(** * The life cycle of a genset, independent of the code *)

From Coq Require Import ZArith QArith Bool String List.
From Verif Require Import Num Py Space Module Spec_Module.
Import ListNotations.
Local Open Scope Q_scope.

(** Settled off, starting up with [k] waiting steps left, settled on, winding
    down with [k] waiting steps left. *)
Inductive phase := Off | StartingUp (k : Z) | On | WindingDown (k : Z).

(** One request to be on or off. *)
Definition phase_next (start_up wind_down : Z) (abort : bool) (p : phase) (want_on : bool) : phase :=
  match p, want_on with
  | Off, false => Off
  | Off, true => if (start_up =? 0)%Z then On
                 else if abort then StartingUp (start_up - 1) else Off
  | StartingUp _, false => Off
  | StartingUp k, true => if (k =? 0)%Z then On else StartingUp (k - 1)
  | On, true => On
  | On, false => if (wind_down =? 0)%Z then Off
                 else if abort then WindingDown (wind_down - 1) else On
  | WindingDown _, true => On
  | WindingDown k, false => if (k =? 0)%Z then Off else WindingDown (k - 1)
  end.

(** What [state_dict] shows of a phase: status, goal, steps until up / down. *)
Definition shows (su wd : Z) (p : phase) (g : genset Q) : Prop :=
  match p with
  | Off => g_status g = false /\ g_goal g = false /\ g_until_up g = su /\ g_until_down g = 0%Z
  | On => g_status g = true /\ g_goal g = true /\ g_until_up g = 0%Z /\ g_until_down g = wd
  | StartingUp k => g_status g = false /\ g_goal g = true /\ g_until_up g = k /\ g_until_down g = 0%Z
  | WindingDown k => g_status g = true /\ g_goal g = false /\ g_until_up g = 0%Z /\ g_until_down g = k
  end.

(** [status] of a genset module: is it running? *)
Definition running (m : module Q) : bool :=
  match m_kind m with KGenset g => g_status g | _ => false end.
Definition goal_on (m : module Q) : bool :=
  match m_kind m with KGenset g => g_goal g | _ => false end.
Definition steps_until_up (m : module Q) : Z :=
  match m_kind m with KGenset g => g_until_up g | _ => 0%Z end.
Definition steps_until_down (m : module Q) : Z :=
  match m_kind m with KGenset g => g_until_down g | _ => 0%Z end.

(** A step call that asks the genset to be on / off, whatever energy it asks for. *)
Definition asks_on (c : call Q) : Prop :=
  match c with
  | Step (VA (x :: _)) _ => 1#2 < x /\ x <= 1
  | _ => False
  end.
Definition asks_off (c : call Q) : Prop :=
  match c with
  | Step (VA (x :: _)) _ => 0 <= x /\ x <= 1#2
  | _ => False
  end.
