(** * Specification vocabulary: modules a program can get hold of, and limits *)

From Coq Require Import ZArith QArith Qabs Bool String List.
From Verif Require Import Num Py Space Logger Forecast Module Spec_Module.
Import ListNotations.
Local Open Scope string_scope.
Local Open Scope list_scope.
Local Open Scope Q_scope.

(** A series with one value per step. *)
Definition single_column (rows : list (list Q)) : Prop :=
  Forall (fun r => length r = 1%nat) rows.

(** The results of the six constructors, with any arguments they accept.
    (Load and renewable series are one-dimensional, as the classes document.) *)
Inductive built : module Q -> Prop :=
| built_battery minc maxc maxch maxdis eff cost model ic is init rs m :
    new_battery minc maxc maxch maxdis eff cost model ic is init rs = Ok m -> built m
| built_genset mn mx co cp cc su wd ab up init rs prov m :
    new_genset mn mx co cp cc su wd ab up init rs prov = Ok m -> built m
| built_load rows fp h inc initial final re rnd m :
    single_column rows -> new_load rows fp h inc initial final re rnd = Ok m -> built m
| built_renewable rows fp h inc initial final re prov rnd m :
    single_column rows -> new_renewable rows fp h inc initial final re prov rnd = Ok m -> built m
| built_grid mi me rows fp h inc initial final cc re gt rnd m :
    new_grid mi me rows fp h inc initial final cc re gt rnd = Ok m -> built m
| built_unbalanced re init l o : built (new_unbalanced re init l o).

(** Modules obtained from a constructor by any calls, failed ones included. *)
Definition reachable (m : module Q) : Prop :=
  exists m0 cs, built m0 /\ m = fst (play cs m0).

(** [x] limited to [[lo, hi]] where [hi] may be infinite or absent. *)
Definition clip_to (lo : Q) (hi : bound Q) (x : Q) : Q :=
  match hi with
  | BFin h => clip lo h x
  | _ => if Qlt_le_dec x lo then lo else x
  end.
Definition within (lo : Q) (hi : bound Q) (x : Q) : Prop :=
  lo <= x /\ match hi with BFin h => x <= h | _ => True end.

Definition is_genset (k : kind Q) : bool := match k with KGenset _ => true | _ => false end.

(** ** Attributes of time-series modules *)
Definition series (m : module Q) : list (list Q) :=
  match kind_ts (m_kind m) with Some t => ts_rows t | None => [] end.
Definition final_step (m : module Q) : option Z := option_map ts_final (kind_ts (m_kind m)).
Definition horizon (m : module Q) : nat :=
  match kind_ts (m_kind m) with Some t => ts_horizon t | None => 0%nat end.
Definition is_ts (m : module Q) : Prop := kind_ts (m_kind m) <> None.
(** Entries per row: four for a grid, one for loads and renewables. *)
Definition columns (m : module Q) : nat :=
  match m_kind m with KGrid _ _ => 4%nat | _ => 1%nat end.
(** The data row at a step, if the series is long enough. *)
Definition data_at (m : module Q) (k : nat) : option (list Q) := nth_error (series m) k.

(** Declared lower and upper bounds of one row of observations. *)
Definition low_row (m : module Q) : list Q := firstn (columns m) (sp_low (m_obs m)).
Definition high_row (m : module Q) : list Q := firstn (columns m) (sp_high (m_obs m)).
Definition row_within (lo hi r : list Q) : Prop := Forall2 Qle lo r /\ Forall2 Qle r hi.
(** Entry by entry midpoint of two rows. *)
Definition mid_row (lo hi : list Q) : list Q :=
  map (fun p => (fst p + snd p) / 2) (combine hi lo).

(** The module forecasts with a user-supplied function. *)
Definition user_forecaster (m : module Q) : Prop :=
  exists t vec f, kind_ts (m_kind m) = Some t /\ fc_kind (ts_fc t) = FcUser vec f.
(** The module has no forecaster. *)
Definition no_forecaster (m : module Q) : Prop :=
  exists t, kind_ts (m_kind m) = Some t /\ fc_kind (ts_fc t) = FcNone.

Definition step_only (c : call Q) : Prop := match c with Step _ _ => True | Reset => False end.

(** A load, renewable or grid module built with forecaster [fp] and
    [forecast_horizon] [h]. *)
Inductive built_ts (fp : fparam Q) (h : nat) : module Q -> Prop :=
| bts_load rows inc initial final re rnd m :
    single_column rows -> new_load rows fp h inc initial final re rnd = Ok m -> built_ts fp h m
| bts_renewable rows inc initial final re prov rnd m :
    single_column rows -> new_renewable rows fp h inc initial final re prov rnd = Ok m ->
    built_ts fp h m
| bts_grid mi me rows inc initial final cc re gt rnd m :
    new_grid mi me rows fp h inc initial final cc re gt rnd = Ok m -> built_ts fp h m.

(** Each entry limited to its own interval. *)
Fixpoint clip_each (lo hi r : list Q) : list Q :=
  match lo, hi, r with
  | l :: lo', h :: hi', x :: r' => clip l h x :: clip_each lo' hi' r'
  | _, _, _ => []
  end.

(** ** Signs *)
Definition all_nonneg (rows : list (list Q)) : Prop := Forall (Forall (fun x => 0 <= x)) rows.
Definition all_nonpos (rows : list (list Q)) : Prop := Forall (Forall (fun x => x <= 0)) rows.
(** Entry by entry: same magnitude, and of the given sign. *)
Definition same_magnitude (sign : Q -> Prop) (rows rows' : list (list Q)) : Prop :=
  Forall2 (Forall2 (fun x y => Qabs y == Qabs x /\ sign y)) rows rows'.
(** The forecaster argument is a user-supplied function. *)
Definition asks_user {T} (fp : fparam T) : Prop := exists f, fp = FPUser f.
(** [e] under key [k] of an info dictionary. *)
Definition reports (i : info Q) (k : string) (e : Q) : Prop :=
  exists v, dget k i = Some v /\ v == e.
(** The data a grid keeps: a missing fourth (status) column means always on. *)
Definition grid_rows (rows : list (list Q)) : list (list Q) :=
  map (fun r => if Nat.eqb (length r) 3 then r ++ [1] else r) rows.
