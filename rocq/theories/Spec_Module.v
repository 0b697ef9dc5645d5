(** * Small specification vocabulary for module-level properties

    Nothing here refers to how the code computes its results; only to what a
    caller passes and gets back. *)

From Coq Require Import ZArith QArith Qabs Bool String List.
From Verif Require Import Num Py Space Logger Forecast Module.
Import ListNotations.
Local Open Scope string_scope.
Local Open Scope list_scope.
Local Open Scope Q_scope.

(** The numbers in a scalar or array value. *)
Definition entries (v : pyval Q) : list Q :=
  match v with VS x => [x] | VA xs => xs end.

(** Two values hold the same numbers. *)
Definition same_value (v w : pyval Q) : Prop := Forall2 Qeq (entries v) (entries w).

(** A box: as many upper as lower bounds. *)
Definition box (sp : space Q) : Prop := length (sp_low sp) = length (sp_high sp).
(** The value has the box's number of coordinates. *)
Definition fits (sp : space Q) (v : pyval Q) : Prop := length (entries v) = length (sp_low sp).

(** The value lies in the box / in the unit cube. *)
Definition in_range (sp : space Q) (v : pyval Q) : Prop :=
  Forall2 Qle (sp_low sp) (entries v) /\ Forall2 Qle (entries v) (sp_high sp).
Definition in_unit (v : pyval Q) : Prop := Forall (fun y => 0 <= y /\ y <= 1) (entries v).

(** A call raised an exception of the given class. *)
Definition raises {A} (c : exn_class) (r : res A) : Prop :=
  exists e, r = Err e /\ ex_class e = c.

(** Energy reported in an info dictionary. *)
Definition provided (i : info Q) : Q :=
  match dget "provided_energy" i with Some e => e | None => 0 end.
Definition absorbed (i : info Q) : Q :=
  match dget "absorbed_energy" i with Some e => e | None => 0 end.

(** [x] limited to the interval [[lo, hi]]. *)
Definition clip (lo hi x : Q) : Q :=
  if Qlt_le_dec hi x then hi else if Qlt_le_dec x lo then lo else x.

(** ** Histories of calls on one module *)

(** The calls a caller can make in any order. *)
Inductive call (T : Type) := Step (a : pyval T) (normalized : bool) | Reset.
Arguments Step {T} a normalized.
Arguments Reset {T}.

(** Make a call, catching any exception; a step that returned is recorded. *)
Definition do_call {T} `{NumOps T} (c : call T) (m : module T)
  : module T * list (step_out T) :=
  match c with
  | Step a n => match step a n m with
                | (m', Ok o) => (m', [o])
                | (m', Err _) => (m', [])
                end
  | Reset => (fst (reset m), [])
  end.

(** Make the calls one after the other: the module at the end and the results
    of the steps that returned. *)
Fixpoint play {T} `{NumOps T} (cs : list (call T)) (m : module T)
  : module T * list (step_out T) :=
  match cs with
  | [] => (m, [])
  | c :: cs' => let '(m1, o) := do_call c m in
                let '(m2, os) := play cs' m1 in (m2, o ++ os)
  end.

(** The four components of a step's result. *)
Definition obs_of {T} (o : step_out T) : pyval T := fst (fst (fst o)).
Definition reward_of {T} (o : step_out T) : T := snd (fst (fst o)).
Definition done_of {T} (o : step_out T) : bool := snd (fst o).
Definition info_of {T} (o : step_out T) : info T := snd o.

Definition total (f : step_out Q -> Q) (os : list (step_out Q)) : Q :=
  fold_right (fun o acc => f o + acc) 0 os.
Definition total_provided : list (step_out Q) -> Q := total (fun o => provided (info_of o)).
Definition total_absorbed : list (step_out Q) -> Q := total (fun o => absorbed (info_of o)).
Definition total_reward : list (step_out Q) -> Q := total reward_of.

(** [current_charge] of a battery module. *)
Definition charge (m : module Q) : Q :=
  match m_kind m with KBattery b => b_charge b | _ => 0 end.

(** The modules passed through while making the calls. *)
Fixpoint trace {T} `{NumOps T} (cs : list (call T)) (m : module T) : list (module T) :=
  match cs with
  | [] => [m]
  | c :: cs' => m :: trace cs' (fst (do_call c m))
  end.
(** Sum of the absolute changes along a list of numbers. *)
Fixpoint variation (l : list Q) : Q :=
  match l with
  | x :: ((y :: _) as l') => Qabs (y - x) + variation l'
  | _ => 0
  end.

(** As [play], but stops at the first call that raised. *)
Fixpoint play_strict {T} `{NumOps T} (cs : list (call T)) (m : module T) : option (module T) :=
  match cs with
  | [] => Some m
  | Step a n :: cs' => match step a n m with
                       | (m', Ok _) => play_strict cs' m'
                       | (_, Err _) => None
                       end
  | Reset :: cs' => match reset m with
                    | (m', Ok _) => play_strict cs' m'
                    | (_, Err _) => None
                    end
  end.
