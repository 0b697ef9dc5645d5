(** * Properties C54 (whole runs) and C43 (which actions are accepted)

    [controlled pl g k g' d]: [k] steps of the controller with list [pl] lead from [g]
    to [g'], only the last of which may have reported the end ([d]).
    [valid_action D a]: [a] has one number between 0 and 1 for each fixed grid. *)

From Coq Require Import ZArith QArith Qabs Bool String List Lia Lqa.
From Verif Require Import Num Py Space Logger Forecast Module Container Microgrid PriorityList Env
  Spec_Module Spec_Reach Spec_Microgrid Spec_Sane Spec_Priority Spec_Env
  Proofs_Any Proofs_MgProps Proofs_Deploy Proofs_Rbc Proofs_Env Proofs_Cont Proofs_RbcRun Examples_Mg Properties_Priority Properties_Env.
Import ListNotations.
Local Open Scope string_scope.
Local Open Scope list_scope.
Local Open Scope Q_scope.

(** C54.  A run of the controller rewinds the microgrid, takes the given number of steps
    (without one, as many as the shortest series has rows) unless the data end
    earlier, and returns a log with exactly one row per step taken. *)
Theorem C54_whole_run ds add lossc overc sh (g0 : mgrid Q) j (g g' : mgrid Q) pl limit log :
  let D := all_defs ds add lossc overc in
  mbuilt ds add lossc overc sh None g0 -> names_separate D -> Forall (fun d => fresh (snd d)) ds -> D <> [] ->
  episode D g0 j g -> drives D g pl -> rbc_run pl limit g = (g', Ok log) ->
  exists n g1 obs k d, match limit with Some l => n = l | None => shortest_series g n end
    /\ mg_reset g = (g1, Ok obs) /\ controlled pl g1 k g' d /\ (k <= n)%nat /\ (k = n \/ d = true)
    /\ (forall h cells, In (h, cells) log -> length cells = k)
    /\ (forall nm j key cells, In ((nm, j, key), cells) log <->
         (exists i m, nth_error (positions nm D) j = Some i /\ at_index g' i m
            /\ dget key (lg_data (m_log m)) = Some (ColList cells))
         \/ (nm = "balance" /\ j = 0%nat /\ dget key (lg_data (mg_balance g')) = Some (ColList cells))).
Proof. intros D B SEP FR DN. exact (rbc_whole ds add lossc overc sh g0 B SEP FR DN j g g' pl limit log). Qed.
Print Assumptions C54_whole_run.

(** Two steps were made before; the run of three steps starts over. *)
Definition off_list : list (element Q) :=
  [mkElement ("genset", 0%nat) 2 1 (7#10); mkElement ("battery", 0%nat) 1 0 (1#50)].
Example C54_whole_run_example :
  exists g0 g g' log, off_mg = Ok g0 /\ mbuilt off_defs true 10 2 None None g0
    /\ Forall (fun d => fresh (snd d)) off_defs /\ rbc_loop 2 off_list g0 = (g, Ok tt)
    /\ rbc_run off_list (Some 3%nat) g = (g', Ok log)
    /\ map (fun c => length (snd c)) log = repeat 3%nat (length log) /\ log <> []
    /\ map m_cur (mg_mods g) = repeat 2%Z 5 /\ map m_cur (mg_mods g') = repeat 3%Z 5.
Proof.
  destruct off_mg as [g0|x] eqn:G; [|vm_compute in G; discriminate G].
  destruct (rbc_loop 2 off_list g0) as [g r] eqn:L1. destruct (rbc_run off_list (Some 3%nat) g) as [g' r'] eqn:L2.
  exists g0, g, g'.
  assert (R : r = Ok tt) by (vm_compute in G; injection G as <-; vm_compute in L1; congruence). subst r.
  destruct r' as [log|x].
  2:{ exfalso. vm_compute in G. injection G as <-. vm_compute in L1. injection L1 as <-. vm_compute in L2. discriminate L2. }
  exists log. split; [reflexivity|]. split; [split; [exact off_reachable|exact G]|].
  split; [repeat constructor; vm_compute; auto|]. split; [exact L1|]. split; [exact L2|].
  vm_compute in G. injection G as <-. vm_compute in L1. injection L1 as <-. vm_compute in L2. injection L2 as <- <-.
  split; [reflexivity|]. split; [discriminate|]. split; reflexivity.
Qed.

(** C43.  The action space, whatever the microgrid: a number in [0, 1] for each fixed
    grid.  Any other action is refused and changes nothing. *)
Theorem C43_accepts D e a : continuous_env D e -> names_separate D ->
  (forall dd, a = CDict dd -> NoDup (map fst dd)) ->
  (in_nested (ev_mg e) a = true <-> valid_action D a)
  /\ (~ valid_action D a -> raises AssertionError (snd (continuous_step a e)) /\ fst (continuous_step a e) = e).
Proof. exact (continuous_accepts D e a). Qed.
Print Assumptions C43_accepts.

(** Nor can an accepted one be executed if there is a fixed grid: such a grid cannot be
    stepped (base_module.py:211 passes it no energy), by no control. *)
Theorem C43_fixed_grid D e a nm : continuous_env D e -> names_separate D -> fixed_grid D nm ->
  exists e' x, continuous_step a e = (e', Err x).
Proof. exact (continuous_fixed_grid D e a nm). Qed.
Print Assumptions C43_fixed_grid.
Theorem C43_fixed_grid_never_runs D (g : mgrid Q) c n nm : from_modules D g -> names_separate D -> fixed_grid D nm ->
  exists g' x, run c n g = (g', Err x).
Proof. exact (fixed_grid_never_runs D g c n nm). Qed.
Print Assumptions C43_fixed_grid_never_runs.

(** A microgrid that consists of a fixed grid: 1/2 is accepted, 3/2 is not. *)
Definition fixed_defs : list (mdef Q) :=
  [(None, or_balancing (new_grid 10 20 [[1; 2; 3]; [4; 5; 6]; [7; 8; 9]]%Q FPNone 0 false 0 3 (1#10) false Fixed mg_rnd))].
Definition fixed_mg : res (mgrid Q) := new_microgrid fixed_defs true 10 2 None None.
Example C43_accepts_example :
  exists g e, fixed_mg = Ok g /\ new_continuous_env g false [] = Ok e
    /\ continuous_env (all_defs fixed_defs true 10 2) e /\ names_separate (all_defs fixed_defs true 10 2)
    /\ in_nested (ev_mg e) (CDict [("grid", [[1#2]])]) = true
    /\ valid_action (all_defs fixed_defs true 10 2) (CDict [("grid", [[1#2]])])
    /\ ~ valid_action (all_defs fixed_defs true 10 2) (CDict [("grid", [[3#2]])])
    /\ fixed_grid (all_defs fixed_defs true 10 2) "grid"
    /\ raises TypeError (snd (continuous_step (CDict [("grid", [[1#2]])]) e)).
Proof.
  destruct fixed_mg as [g|x] eqn:G; [|vm_compute in G; discriminate G].
  destruct (new_continuous_env g false []) as [e|x] eqn:E; [|vm_compute in G; injection G as <-; vm_compute in E; discriminate E].
  exists g, e. split; [reflexivity|]. split; [exact E|].
  assert (C : continuous_env (all_defs fixed_defs true 10 2) e).
  { exists fixed_defs, true, 10, 2, None, None, g, false, [], e, []. split; [|split; [reflexivity|split; [exact E|reflexivity]]].
    split; [|exact G]. repeat constructor. apply or_balancing_reachable. intros m M. eapply built_grid; exact M. }
  assert (SEP : names_separate (all_defs fixed_defs true 10 2)) by (apply separate_b_ok; vm_compute; reflexivity).
  split; [exact C|]. split; [exact SEP|].
  assert (IN : in_nested (ev_mg e) (CDict [("grid", [[1#2]])]) = true)
    by (vm_compute in G; injection G as <-; vm_compute in E; injection E as <-; vm_compute; reflexivity).
  assert (OUT : in_nested (ev_mg e) (CDict [("grid", [[3#2]])]) = false)
    by (vm_compute in G; injection G as <-; vm_compute in E; injection E as <-; vm_compute; reflexivity).
  assert (ND : forall (x : list (list Q)) dd, CDict [("grid", x)] = CDict dd -> NoDup (map fst dd)).
  { intros x dd X. injection X as <-. repeat constructor. intros []. }
  split; [exact IN|]. split; [apply (C43_accepts _ e _ C SEP (ND _)); exact IN|]. split.
  { intros X. apply (C43_accepts _ e _ C SEP (ND _)) in X. congruence. }
  split.
  { eexists _, _, _. split; [left; reflexivity|]. split; [reflexivity|]. split; vm_compute; reflexivity. }
  vm_compute in G; injection G as <-; vm_compute in E; injection E as <-.
  eexists. split; vm_compute; reflexivity.
Qed.
