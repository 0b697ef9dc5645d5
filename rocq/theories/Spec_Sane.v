(** * Specification vocabulary: modules with sensible parameters, acceptable actions *)

From Coq Require Import ZArith QArith Bool String List.
From Verif Require Import Num Py Space Logger Forecast Module Container Microgrid
  Spec_Module Spec_Reach Spec_Microgrid.
Import ListNotations.
Local Open Scope list_scope.
Local Open Scope Q_scope.

(** Modules built with sensible parameters: the initial charge of a battery lies
    within its capacity and its rates are not negative; a genset has no negative
    times or minimum production; prices of unbalanced energy are not negative; a
    grid is not fixed; forecasters are the library's own. *)
Inductive sane : module Q -> Prop :=
| sane_battery minc maxc maxch maxdis eff cost ic is init rs m :
    new_battery minc maxc maxch maxdis eff cost None ic is init rs = Ok m ->
    minc <= charge m -> charge m <= maxc -> 0 <= maxch -> 0 <= maxdis -> sane m
| sane_genset mn mx co cp cc su wd ab up init rs prov m :
    (0 <= su)%Z -> (0 <= wd)%Z -> 0 <= mn ->
    new_genset mn mx co cp cc su wd ab up init rs prov = Ok m -> sane m
| sane_load rows fp h inc initial final re rnd m :
    single_column rows -> ~ asks_user fp ->
    new_load rows fp h inc initial final re rnd = Ok m -> sane m
| sane_renewable rows fp h inc initial final re prov rnd m :
    single_column rows -> ~ asks_user fp ->
    new_renewable rows fp h inc initial final re prov rnd = Ok m -> sane m
| sane_grid mi me rows fp h inc initial final cc re gt rnd m :
    gt <> Fixed -> ~ asks_user fp ->
    new_grid mi me rows fp h inc initial final cc re gt rnd = Ok m -> sane m
| sane_unbalanced re init l o : 0 <= l -> 0 <= o -> sane (new_unbalanced re init l o).

(** ... and used in any way since. *)
Definition sane_reachable (m : module Q) : Prop :=
  exists m0 cs, sane m0 /\ m = fst (play cs m0).

(** A time-series module still has data at its current step. *)
Definition in_data (m : module Q) : Prop :=
  is_ts m -> exists k row, m_cur m = Z.of_nat k /\ data_at m k = Some row.

(** An action of the right shape for a controllable module: one number for a
    battery or a grid; for a genset a status in [0,1] and an amount. *)
Definition acceptable (m : module Q) (a : pyval Q) : Prop :=
  match m_kind m with
  | KBattery _ | KGrid _ _ => length (entries a) = 1%nat
  | KGenset _ => exists goal e, a = VA [goal; e] /\ 0 <= goal /\ goal <= 1 /\ 0 <= e
  | _ => True
  end.

(** Every action given for a controllable module is acceptable to it. *)
Definition well_shaped (D : list (mdef Q)) (c : control Q) : Prop :=
  forall d v, In d D -> module_type (m_kind (snd d)) = Controllable ->
    dget (mdef_name d) c = Some v -> Forall (acceptable (snd d)) (ctrl_list v).

(** A battery's charge is between its capacities and its state of charge is the
    charge over the maximum. *)
Definition within_capacity (m : module Q) : Prop :=
  forall b, m_kind m = KBattery b ->
    b_min_capacity b <= b_charge b /\ b_charge b <= b_max_capacity b
    /\ b_soc b == b_charge b / b_max_capacity b.

(** Errors are clipped away rather than raised. *)
Definition lenient (m : module Q) : Prop := m_raise m = false.

(** The reward shaping function, if any, never raises. *)
Definition total_shaper (sh : option (shaper Q)) : Prop :=
  match sh with None => True | Some f => forall i c, exists x, f i c = Ok x end.

(** In the step [e'] the module, if it is a flex module, gave all it could / took
    all it could (if it can take anything). *)
Definition exhausts (g : mgrid Q) (e' : event) : Prop :=
  forall m', at_index g (ev_id e') m' -> is_flex m' ->
    exists y, max_production m' = Ok (BFin y) /\ ev_provided e' == y.
Definition saturates (g : mgrid Q) (e' : event) : Prop :=
  forall m', at_index g (ev_id e') m' -> is_flex m' -> is_sink (m_kind m') = true ->
    exists y, max_consumption m' = Ok (BFin y) /\ ev_absorbed e' == y.

(** The modules for which an action is sampled: the controllable ones, or with
    [sample_flex_modules] all but loads. *)
Definition takes_action (flex : bool) (m : module Q) : Prop :=
  if flex then (forall t, m_kind m <> KLoad t) else module_type (m_kind m) = Controllable.

(** A time-series module has data for at least [k] more steps. *)
Definition data_left (k : nat) (m : module Q) : Prop :=
  is_ts m -> exists j, m_cur m = Z.of_nat j /\ (j + k <= length (series m))%nat.

(** One [run] after the other, all returning. *)
Inductive all_run (n : bool) : mgrid Q -> list (control Q) -> mgrid Q -> Prop :=
| all_run_nil g : all_run n g [] g
| all_run_cons g c g1 out cs g' : run c n g = (g1, Ok out) -> all_run n g1 cs g' -> all_run n g (c :: cs) g'.

(** Every controllable module's name has an entry. *)
Definition controls_given (D : list (mdef Q)) (c : control Q) : Prop :=
  forall d, In d D -> module_type (m_kind (snd d)) = Controllable -> dget (mdef_name d) c <> None.
(** No module is named like the two bookkeeping entries of the info dictionary. *)
Definition no_reserved_name (D : list (mdef Q)) : Prop :=
  forall d, In d D -> mdef_name d <> "provided_energy"%string /\ mdef_name d <> "absorbed_energy"%string.
