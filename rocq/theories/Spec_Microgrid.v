(** * Specification vocabulary for microgrids *)

From Coq Require Import ZArith QArith Bool String List.
From Verif Require Import Num Py Space Logger Forecast Module Container Microgrid
  Spec_Module Spec_Reach.
Import ListNotations.
Local Open Scope string_scope.
Local Open Scope list_scope.
Local Open Scope Q_scope.

(** ** Categories *)

(** Fixed / flex / controllable, and source / sink / both, of a module. *)
Definition category := (mtype * ssink)%type.
Definition category_of {T} (m : module T) : category :=
  (module_type (m_kind m), ssink_of (m_kind m)).
(** The order in which a container lists its categories. *)
Definition categories : list category := list_prod all_mtypes all_ssinks.

(** The positions, counted from [i], of the entries of a module list that carry
    a name and belong to a category. *)
Fixpoint members {T} (nm : string) (c : category) (i : nat) (ds : list (mdef T)) : list nat :=
  match ds with
  | [] => []
  | d :: ds' =>
      if String.eqb nm (mdef_name d) && mtype_eqb (fst c) (fst (category_of (snd d)))
         && ssink_eqb (snd c) (snd (category_of (snd d)))
      then i :: members nm c (S i) ds' else members nm c (S i) ds'
  end.

(** Entries with one name belong to one category. *)
Definition names_separate {T} (ds : list (mdef T)) : Prop :=
  forall d d', In d ds -> In d' ds -> mdef_name d = mdef_name d' ->
    category_of (snd d) = category_of (snd d').

(** The module list a microgrid is built from: what the caller passes, and the
    default unbalanced-energy module if asked for. *)
Definition all_defs (ds : list (mdef Q)) (add : bool) (lossc overc : Q) : list (mdef Q) :=
  if add then ds ++ [(None, new_unbalanced false 0 lossc overc)] else ds.

(** ** Microgrids a program can get hold of *)
Definition mbuilt (ds : list (mdef Q)) (add : bool) (lossc overc : Q) sh tr (g : mgrid Q) : Prop :=
  Forall (fun d => reachable (snd d)) ds /\ new_microgrid ds add lossc overc sh tr = Ok g.

Inductive mcall := MRun (c : control Q) (normalized : bool) | MReset
  | MSetInitial (v : Z) | MSetFinal (v : Z).
Definition do_mcall (c : mcall) (g : mgrid Q) : mgrid Q :=
  match c with
  | MRun c n => fst (run c n g)
  | MReset => fst (mg_reset g)
  | MSetInitial v => fst (mg_set_initial_step v g)
  | MSetFinal v => fst (mg_set_final_step v g)
  end.
(** Any calls, exceptions caught. *)
Definition mplay (cs : list mcall) (g : mgrid Q) : mgrid Q := fold_left (fun g c => do_mcall c g) cs g.

Definition mreachable (g : mgrid Q) : Prop :=
  exists ds add lossc overc sh tr g0 cs, mbuilt ds add lossc overc sh tr g0 /\ g = mplay cs g0.

(** ** What a run did *)

(** One module step made by a run: the module's name, its index, the action,
    and what the module's [step] returned. *)
Record event := mkEvent {
  ev_name : string; ev_id : nat; ev_act : pyval Q; ev_norm : bool; ev_out : step_out Q
}.

(** The steps happened, one after the other, on this list of modules. *)
Inductive performs : list (module Q) -> list event -> list (module Q) -> Prop :=
| perf_nil ms : performs ms [] ms
| perf_cons ms e es m m' ms' :
    nth_error ms (ev_id e) = Some m ->
    step (ev_act e) (ev_norm e) m = (m', Ok (ev_out e)) ->
    performs (set_nth ms (ev_id e) m') es ms' ->
    performs ms (e :: es) ms'.

Definition sum_of (f : event -> Q) (es : list event) : Q :=
  fold_right (fun e acc => f e + acc) 0 es.
Definition ev_provided (e : event) : Q := provided (info_of (ev_out e)).
Definition ev_absorbed (e : event) : Q := absorbed (info_of (ev_out e)).
Definition ev_reward (e : event) : Q := reward_of (ev_out e).
(** The results of the events under one name, in order. *)
Definition under {A} (f : event -> A) (nm : string) (es : list event) : list A :=
  map f (filter (fun e => String.eqb nm (ev_name e)) es).

Definition event_ids (es : list event) : list nat := map ev_id es.

(** What a call of [run] did to the modules: these steps, at most one per
    module; the other modules are untouched. *)
Definition did (g : mgrid Q) (es : list event) (g' : mgrid Q) : Prop :=
  performs (mg_mods g) es (mg_mods g') /\ NoDup (event_ids es).

(** Equal up to the tolerances of [np.isclose]. *)
Definition nearly (p a : Q) : Prop :=
  Qabs.Qabs (p - a) <= (1 # 100000000) + (1 # 100000) * Qabs.Qabs a.

(** The module with index [i]. *)
Definition at_index (g : mgrid Q) (i : nat) (m : module Q) : Prop := nth_error (mg_mods g) i = Some m.
Definition is_unbalanced (m : module Q) : Prop := exists u, m_kind m = KUnbalanced u.
Definition has_unbalanced (g : mgrid Q) : Prop := exists i m, at_index g i m /\ is_unbalanced m.
Definition is_flex (m : module Q) : Prop := module_type (m_kind m) = Flex.

(** Info keys the module classes use. *)
Definition energy_keys : list string :=
  ["provided_energy"; "absorbed_energy"; "co2_production"; "curtailment"].

(** A non-empty list as a dictionary value. *)
Definition entry_for {A} (l : list A) : option (list A) :=
  match l with [] => None | _ => Some l end.

(** [g] was built from the modules [ds] (the default unbalanced-energy module
    included) and used in any way. *)
Definition from_modules (D : list (mdef Q)) (g : mgrid Q) : Prop :=
  exists ds add lossc overc sh tr g0 cs,
    mbuilt ds add lossc overc sh tr g0 /\ D = all_defs ds add lossc overc /\ g = mplay cs g0.

(** A control with at least one entry for each controllable module. *)
Definition complete (D : list (mdef Q)) (c : control Q) : Prop :=
  forall nm s, members nm (Controllable, s) 0 D <> [] ->
    exists v, dget nm c = Some v
      /\ (length (members nm (Controllable, s) 0 D) <= length (ctrl_list v))%nat.

(** The indices of the modules with a name, in the order of the list. *)
Definition positions (nm : string) (D : list (mdef Q)) : list nat :=
  map fst (filter (fun id => String.eqb nm (mdef_name (snd id))) (combine (seq 0 (length D)) D)).

(** Module by module: exactly one successful step; the clock advanced by one
    and one row was logged. *)
Definition stepped_once (m m' : module Q) : Prop :=
  exists a n o, step a n m = (m', Ok o)
    /\ m_cur m' = (m_cur m + 1)%Z /\ lg_len (m_log m') = S (lg_len (m_log m)).

(** Battery charge and genset status, with all parameters, are as before. *)
Definition physical_same (m m' : module Q) : Prop :=
  (forall b, m_kind m = KBattery b -> m_kind m' = KBattery b)
  /\ (forall s, m_kind m = KGenset s -> m_kind m' = KGenset s).

(** Just built or just reset. *)
Definition fresh (m : module Q) : Prop := m_cur m = m_init m /\ m_log m = logger_empty.

(** [k] runs with complete controls have returned since the microgrid [g0] was
    built or last reset. *)
Inductive episode (D : list (mdef Q)) (g0 : mgrid Q) : nat -> mgrid Q -> Prop :=
| ep_start : episode D g0 0 g0
| ep_run k g g' c n out : episode D g0 k g -> complete D c ->
    run c n g = (g', Ok out) -> episode D g0 (S k) g'
| ep_reset k g g' obs : episode D g0 k g -> mg_reset g = (g', Ok obs) -> episode D g0 0 g'.

(** [microgrid.modules[nm]]: the modules with a name, in order. *)
Definition named (nm : string) (g : mgrid Q) : list (module Q) :=
  match dget nm (all_dict g) with
  | Some ids => concat (map (fun i => match nth_error (mg_mods g) i with Some m => [m] | None => [] end) ids)
  | None => []
  end.

(** All modules have one initial step, all time series one final step (and there
    is a time series). *)
Definition windows_agree (g : mgrid Q) : Prop :=
  (forall m m', In m (mg_mods g) -> In m' (mg_mods g) -> m_init m = m_init m')
  /\ (forall m m' f f', In m (mg_mods g) -> In m' (mg_mods g) ->
        final_step m = Some f -> final_step m' = Some f' -> f = f')
  /\ (exists m, In m (mg_mods g) /\ final_step m <> None).
