(** * Specification vocabulary: what saving and loading should keep *)

From Coq Require Import ZArith QArith Bool String List.
From Verif Require Import Num Py Space Logger Forecast Module Container Microgrid Serialize Spec_Module Spec_Reach.
Import ListNotations.
Local Open Scope string_scope.
Local Open Scope list_scope.
Local Open Scope Q_scope.

(** A log as the user sees it: the columns, by name, and their cells. *)
Definition log_view (lg : logger Q) : list (string * list (option Q)) :=
  map (fun kc => (fst kc, col_cells (snd kc))) (lg_data lg).

(** The module was built with user functions (a transition model, a fuel cost
    curve, a forecaster). *)
Definition has_functions (m : module Q) : Prop :=
  match m_kind m with
  | KBattery b => b_model b <> None
  | KGenset g => exists f, g_cost g = FuelFn f
  | KGrid _ t | KLoad t | KRenewable t => asks_user (ts_fparam t)
  | KUnbalanced _ => False
  end.
(** The module forecasts with random noise. *)
Definition noisy (m : module Q) : Prop :=
  exists t s d c, kind_ts (m_kind m) = Some t /\ fc_kind (ts_fc t) = FcGauss s d c.

(** The class of a forecaster, without its random stream. *)
Inductive fc_same_class : fkind Q -> fkind Q -> Prop :=
| FscNone : fc_same_class FcNone FcNone
| FscOracle : fc_same_class FcOracle FcOracle
| FscGauss s d c d' c' : fc_same_class (FcGauss s d c) (FcGauss s d' c').

(** Same data, parameters and bounds; the stored forecast is not compared. *)
Definition ts_kept (t t' : tsdata Q) : Prop :=
  ts_rows t' = ts_rows t /\ ts_comps t' = ts_comps t
  /\ ts_minobs t' = ts_minobs t /\ ts_maxobs t' = ts_maxobs t
  /\ ts_final t' = ts_final t /\ ts_horizon t' = ts_horizon t
  /\ ts_fparam t' = ts_fparam t /\ fc_same_class (fc_kind (ts_fc t)) (fc_kind (ts_fc t')).

(** Same class, parameters and internal state.  The state of charge is the charge
    over the maximum capacity (as it is for every battery within its capacity). *)
Definition kind_kept (k k' : kind Q) : Prop :=
  match k, k' with
  | KBattery b, KBattery b' =>
      b_min_capacity b' = b_min_capacity b /\ b_max_capacity b' = b_max_capacity b
      /\ b_max_charge b' = b_max_charge b /\ b_max_discharge b' = b_max_discharge b
      /\ b_efficiency b' = b_efficiency b /\ b_cost_cycle b' = b_cost_cycle b
      /\ b_model b' = b_model b /\ b_min_soc b' = b_min_soc b
      /\ b_init_charge b' = b_init_charge b /\ b_init_soc b' = b_init_soc b
      /\ b_charge b' = b_charge b /\ b_soc b' == b_charge b / b_max_capacity b
  | KGenset g, KGenset g' => g' = g
  | KUnbalanced u, KUnbalanced u' => u' = u
  | KLoad t, KLoad t' | KRenewable t, KRenewable t' => ts_kept t t'
  | KGrid g t, KGrid g' t' =>
      gr_max_import g' = gr_max_import g /\ gr_max_export g' = gr_max_export g
      /\ gr_cost_co2 g' = gr_cost_co2 g /\ ts_kept t t'
  | _, _ => False
  end.

(** Everything but the forecast: class, parameters, state, spaces, clock, name
    and the contents of the log. *)
Record kept (m m' : module Q) : Prop := mkKept {
  kp_kind : kind_kept (m_kind m) (m_kind m');
  kp_raise : m_raise m' = m_raise m;
  kp_init : m_init m' = m_init m;
  kp_cur : m_cur m' = m_cur m;
  kp_act : m_act m' = m_act m;
  kp_obs : m_obs m' = m_obs m;
  kp_prov : m_prov m' = m_prov m;
  kp_abs : m_abs m' = m_abs m;
  kp_name : m_name m' = m_name m;
  kp_log : log_view (m_log m') = log_view (m_log m) /\ lg_len (m_log m') = lg_len (m_log m)
}.

(** The forecast the module shows in its state. *)
Definition shown_forecast (m : module Q) : option (list (list Q)) :=
  match kind_ts (m_kind m) with Some t => ts_cur_fc t | None => None end.

(** At most one module of each class. *)
Definition classes_distinct (g : mgrid Q) : Prop :=
  NoDup (map (fun m => yaml_tag (m_kind m)) (mg_mods g)).
(** All grid modules are of this type (fixed, flex or controllable); it is an
    attribute of the class, not of the module. *)
Definition grids_are (gt : mtype) (g : mgrid Q) : Prop :=
  forall m gr t, In m (mg_mods g) -> m_kind m = KGrid gr t -> gr_type gr = gt.

(** What loading changes in a module that is at its start and has an empty log:
    the state of charge is recomputed and a grid gets the type of its class. *)
Definition loaded_kind (gt : mtype) (k : kind Q) : kind Q :=
  match k with
  | KBattery b => KBattery (set_charge b (b_charge b) (b_charge b / b_max_capacity b))
  | KGrid g t => KGrid (mkGrid (gr_max_import g) (gr_max_export g) (gr_cost_co2 g) gt) t
  | _ => k
  end.
Definition as_loaded (gt : mtype) (m : module Q) : module Q := set_kind m (loaded_kind gt (m_kind m)).
