(** * Model predictive control (algos/mpc/mpc.py) on modular microgrids

    A plan ([good_plan]) says for each step of the horizon what every part does.
    Its steps obey the balance of energy and the limits of the equipment.  Exact
    rationals; the solver is a parameter. *)

From Coq Require Import ZArith QArith Qminmax Bool String List Lia Lqa.
From Verif Require Import Num Py Space Logger Forecast Module Container Microgrid NonModular Conversion MPC
  Spec_Module Spec_Reach Spec_Sane Spec_Microgrid Spec_Conversion Spec_MPC
  Proofs_Num Proofs_Any Proofs_Mgrid Proofs_MgProps Proofs_Mpc Proofs_Mpc3 Proofs_Mpc4 Proofs_Mpc5 Proofs_Mpc6 Proofs_Mpc7 Examples_Mg Examples_Mpc.
Import ListNotations.
Local Open Scope string_scope.
Local Open Scope list_scope.
Local Open Scope Q_scope.

(** ** C65: what the program says *)

(** Its solutions are the plans. *)
Theorem C65_program (c : mpc Q) (d : mpc_data Q) pr p u : vectors_fit c d -> make_problem c d = Ok pr ->
  (satisfies pr p u = true <->
   exists plan, is_plan (has_gen c) p u plan /\ good_plan (equipment_of c d) (da_soc d) (expected_of d (mp_horizon c)) plan).
Proof. intros W M. exact (program c d pr W M p u). Qed.
Print Assumptions C65_program.

(** It minimizes their cost. *)
Theorem C65_objective (c : mpc Q) (d : mpc_data Q) pr p u plan : vectors_fit c d -> make_problem c d = Ok pr ->
  is_plan (has_gen c) p u plan -> good_plan (equipment_of c d) (da_soc d) (expected_of d (mp_horizon c)) plan ->
  objective pr p == plan_cost (equipment_of c d) (expected_of d (mp_horizon c)) plan.
Proof. intros W M. exact (objective_cost c d pr W M p u plan). Qed.
Print Assumptions C65_objective.

(** The best solutions are the cheapest plans. *)
Theorem C65_optimal (c : mpc Q) (d : mpc_data Q) pr p u : vectors_fit c d -> make_problem c d = Ok pr ->
  satisfies pr p u = true -> (forall p' u', satisfies pr p' u' = true -> objective pr p <= objective pr p') ->
  exists plan, is_plan (has_gen c) p u plan
    /\ cheapest (equipment_of c d) (da_soc d) (expected_of d (mp_horizon c)) plan.
Proof.
  intros W M S OPT. destruct (proj1 (C65_program c d pr p u W M) S) as (plan & IP & GP). exists plan. split; [exact IP|]. split; [exact GP|].
  intros plan' GP'. assert (IP' : is_plan (has_gen c) (concat (map (variables (has_gen c)) plan')) (map pl_on plan') plan') by (split; reflexivity).
  pose proof (OPT _ _ (proj2 (C65_program c d pr _ _ W M) (ex_intro _ plan' (conj IP' GP')))) as L.
  rewrite (C65_objective c d pr p u plan W M IP GP), (C65_objective c d pr _ _ plan' W M IP' GP') in L. exact L.
Qed.
Print Assumptions C65_optimal.

(** A plan of three steps: the genset serves what sun and battery do not. *)
Definition pc_plan : list planned :=
  [mkPlanned 0 0 0 0 2 0 0 (5#18) 0; mkPlanned 7 0 0 0 0 0 0 (5#18) 1; mkPlanned 0 0 0 4 0 4 0 (287#450) 0].
Example C65_example :
  match pc_posed with
  | Ok (g, c, d, pr) => has_gen c = true /\ mp_horizon c = 3%nat
      /\ satisfies pr (concat (map (variables true) pc_plan)) (map pl_on pc_plan) = true
      /\ satisfies pr (concat (map (variables true) pc_plan)) [1; 1; 1] = false
      /\ Qred (objective pr (concat (map (variables true) pc_plan))) = 251 # 50
  | Err _ => False
  end.
Proof. vm_compute. repeat split; reflexivity. Qed.
Example C65_example_fits :
  match pc_posed with Ok (g, c, d, pr) => vectors_fit c d /\ make_problem c d = Ok pr | Err _ => False end.
Proof. vm_compute. split; [|reflexivity]. split; [repeat constructor|reflexivity]. Qed.

(** ** C66: the controller is made for, and poses the program of, its microgrid *)

Section Made.
(** As in C64: [round] to one decimal, a polynomial *)
Variables (round1 : Q -> Q) (poly : nat -> Q).

Theorem C66_when D (mg : mgrid Q) : from_modules D mg -> names_separate D ->
  ((exists c, new_mpc round1 poly mg = Ok c) <-> controllable D mg).
Proof. intros F. exact (new_mpc_iff round1 poly D mg (from_modules_inv D mg F)). Qed.

(** In any state [mg] of the microgrid: the data are those of its modules. *)
Theorem C66_posed D (mg0 mg : mgrid Q) (c : mpc Q) : from_modules D mg0 -> names_separate D ->
  new_mpc round1 poly mg0 = Ok c -> from_modules D mg ->
  exists d, state_values c mg = Ok d /\ vectors_fit c d
    /\ posed_for mg (equipment_of c d) (da_soc d) (expected_of d (mp_horizon c))
    /\ (any_module mg is_grid \/ any_module mg is_a_genset -> exists pr, make_problem c d = Ok pr)
    /\ (~ any_module mg is_grid -> ~ any_module mg is_a_genset -> raises RuntimeError (make_problem c d)).
Proof.
  intros F0 S M F. destruct (state_posed round1 poly D mg0 mg c (from_modules_inv _ _ F0) (from_modules_inv _ _ F) S M) as (d & E & W & P & Z).
  exists d. split; [exact E|]. split; [exact W|]. split; [exact P|]. pose proof (problem_made c d W) as PM. split.
  - intros G. destruct (da_co2 d) eqn:CO; [exact PM|]. destruct (proj1 Z eq_refl) as (N1 & N2). tauto.
  - intros N1 N2. rewrite (proj2 Z (conj N1 N2)) in PM. exact PM.
Qed.

(** The program has a solution. *)
Theorem C66_feasible D (mg0 mg : mgrid Q) (c : mpc Q) d pr : from_modules D mg0 -> names_separate D ->
  new_mpc round1 poly mg0 = Ok c -> from_modules D mg ->
  Forall (fun df => sane_reachable (snd df)) D ->
  (forall i m b, at_index mg i m -> m_kind m = KBattery b -> 0 <= b_min_capacity b /\ 0 < b_max_capacity b) ->
  state_values c mg = Ok d -> make_problem c d = Ok pr ->
  exists p u, satisfies pr p u = true.
Proof.
  intros F0 S M F SR CAP E MP. destruct (idle_posed round1 poly D mg0 mg c (from_modules_inv _ _ F0) F S M SR CAP d E) as (plan & GP).
  destruct (C66_posed D mg0 mg c F0 S M F) as (d' & E' & W & _). rewrite E in E'. injection E' as <-.
  exists (concat (map (variables (has_gen c)) plan)), (map pl_on plan).
  apply (C65_program c d pr _ _ W MP). exists plan. split; [split; reflexivity|exact GP].
Qed.
End Made.
Print Assumptions C66_when.
Print Assumptions C66_posed.
Print Assumptions C66_feasible.

(** The microgrid of the example: its controller exists, its first program was shown
    above. *)
Example C66_example :
  match pc_posed with
  | Ok (g, c, d, pr) => from_modules pc_all g /\ new_mpc no_round no_poly g = Ok c /\ state_values c g = Ok d /\ make_problem c d = Ok pr
      /\ (forall i m b, at_index g i m -> m_kind m = KBattery b -> 0 <= b_min_capacity b /\ 0 < b_max_capacity b)
      /\ da_load d = [5; 7; 1] /\ da_pv d = [3; 0; 9] /\ da_grid d = [1; 1; 1] /\ da_import d = [1; 4; 7] /\ da_export d = [2; 5; 8]
  | Err _ => False
  end.
Proof.
  destruct pc_posed as [[[[g c] d] pr]|e] eqn:E; [|vm_compute in E; discriminate E].
  unfold pc_posed in E. destruct pc_mg as [g0|] eqn:EG; [|discriminate]. cbn [rbind] in E.
  destruct (new_mpc no_round no_poly g0) as [c0|] eqn:EC; [|discriminate]. cbn [rbind] in E.
  destruct (state_values c0 g0) as [d0|] eqn:ED; [|discriminate]. cbn [rbind] in E.
  destruct (make_problem c0 d0) as [pr0|] eqn:EP; [|discriminate]. cbn [rbind] in E. injection E as <- <- <- <-.
  split; [exact (pc_from g0 [] EG)|]. split; [exact EC|]. split; [exact ED|]. split; [exact EP|].
  vm_compute in EG. injection EG as <-. vm_compute in EC. injection EC as <-. vm_compute in ED. injection ED as <-.
  split; [|repeat split; reflexivity].
  intros [|[|[|[|[|[|i]]]]]] m b A K; try (injection A as <-; try discriminate K); [|destruct i; discriminate A].
  injection K as <-. split; vm_compute; congruence.
Qed.
(** A microgrid without grid and genset gets a controller that cannot make a step; one
    whose battery has another name gets none. *)
Definition pc_poses (ds : list (mdef Q)) : string :=
  match new_microgrid ds true 10 2 None None with
  | Ok g => match new_mpc no_round no_poly g with
            | Ok c => match rbind (state_values c g) (make_problem c) with
                      | Ok _ => "posed"
                      | Err e => match ex_class e with RuntimeError => "RuntimeError when solving" | _ => "error when solving" end
                      end
            | Err e => match ex_class e with AttributeError => "AttributeError" | _ => "another error" end
            end
  | Err _ => "not built"
  end.
Example C66_refused :
  pc_poses [(Some "load", pc_load); (Some "pv", pc_pv); (None, mg_battery)] = "RuntimeError when solving"
  /\ pc_poses [(Some "load", pc_load); (Some "pv", pc_pv); (Some "storage", mg_battery); (None, pc_grid)] = "AttributeError"
  /\ pc_poses [(Some "load", pc_load); (Some "pv", pc_pv); (None, mg_battery); (None, pc_grid)] = "posed".
Proof. vm_compute. repeat split; reflexivity. Qed.

(** ** C67: the first step of the plan is carried out *)

Section Carried.
Variables (round1 : Q -> Q) (poly : nat -> Q).

(** A step of the controller tells the microgrid the first step of a plan.  If the
    modules can do it ([realistic]), they do it, and the reward is what it costs. *)
Theorem C67_carried_out D (mg0 mg : mgrid Q) (c : mpc Q) d pr (solve : solver Q) k p u :
  from_modules D mg0 -> names_separate D -> new_mpc round1 poly mg0 = Ok c -> from_modules D mg ->
  Forall (fun d => sane_reachable (snd d)) D -> Forall (fun d => lenient (snd d)) D -> no_reserved_name D ->
  Forall in_data (mg_mods mg) -> state_values c mg = Ok d -> make_problem c d = Ok pr ->
  solve k pr = Ok (Some (p, u)) -> satisfies pr p u = true -> mg_shaper mg = None ->
  (forall i m b, at_index mg i m -> m_kind m = KBattery b -> 0 <= b_min_capacity b /\ 0 < b_max_capacity b) ->
  let e := equipment_of c d in
  let xs := expected_of d (mp_horizon c) in
  exists s rest x, is_plan (has_gen c) p u (s :: rest) /\ good_plan e (da_soc d) xs (s :: rest) /\ nth_error xs 0 = Some x
    /\ (realistic mg s -> exists mg' obs rw dn inf es, mpc_step c solve k mg = (mg', Ok (obs, rw, dn, inf)) /\ did mg es mg'
         /\ carried_out D es mg' x s /\ forall price, import_price mg price -> rw == - actual_cost e price x s).
Proof.
  intros F0 S M F SR L NR ID DT PR SOL SAT SH CAP e xs.
  exact (step_carried round1 poly D mg0 mg c d pr solve k p u F0 S M F SR L NR ID DT PR SOL SAT SH CAP).
Qed.

(** Realistic or not, the step is made. *)
Theorem C67_made D (mg0 mg : mgrid Q) (c : mpc Q) d pr (solve : solver Q) k p u :
  from_modules D mg0 -> names_separate D -> new_mpc round1 poly mg0 = Ok c -> from_modules D mg ->
  Forall (fun d => sane_reachable (snd d)) D -> Forall (fun d => lenient (snd d)) D -> no_reserved_name D ->
  Forall in_data (mg_mods mg) -> state_values c mg = Ok d -> make_problem c d = Ok pr ->
  solve k pr = Ok (Some (p, u)) -> satisfies pr p u = true -> total_shaper (mg_shaper mg) ->
  exists s rest ctl mg' out, is_plan (has_gen c) p u (s :: rest) /\ told D s ctl
    /\ run ctl false mg = (mg', Ok out) /\ mpc_step c solve k mg = (mg', Ok out).
Proof.
  intros F0 S M F SR L NR ID DT PR SOL SAT SH.
  destruct (step_plan round1 poly D mg0 mg c d pr solve k p u F0 S M F DT PR SOL SAT) as (s & rest & ctl & IP & GP & TD & ES).
  destruct (step_returns round1 poly D mg0 mg c d pr solve k p u F0 S M F SR L NR ID DT PR SOL SAT SH) as (mg' & out & R).
  exists s, rest, ctl, mg', out. split; [exact IP|]. split; [exact TD|]. rewrite ES in R. split; [exact R|]. rewrite ES. exact R.
Qed.

(** A solver that finds nothing stops the run. *)
Theorem C67_infeasible (mg : mgrid Q) (c : mpc Q) d pr (solve : solver Q) k :
  state_values c mg = Ok d -> make_problem c d = Ok pr -> solve k pr = Ok None ->
  fst (mpc_step c solve k mg) = mg /\ raises TypeError (snd (mpc_step c solve k mg)).
Proof.
  intros DT PR SOL. unfold mpc_step, mbind, mget, mlift. rewrite DT. unfold set_and_solve. rewrite PR. cbn [rbind]. rewrite SOL. cbn [rbind].
  split; [reflexivity|]. eexists. split; reflexivity.
Qed.
End Carried.
Print Assumptions C67_carried_out.
Print Assumptions C67_made.
Print Assumptions C67_infeasible.

(** What is paid is not what the plan counts: wear is paid for what leaves or enters the
    store, sold energy is paid for by the grid, CO2 at the grid's own cost and not at
    the mean of grid and genset, and the loss that curtailed energy makes up for is
    not paid. *)
Theorem C67_difference e x s price :
  step_cost e x s - actual_cost e price x s ==
    (ex_import x - price) * pl_import s + 2 * ex_export x * pl_export s
    + eq_cycle_cost e * ((1 - eq_eta e) * pl_charge s + (pl_discharge s - pl_discharge s / eq_eta e))
    + eq_loss_cost e * Qmin (pl_loss s) (pl_curtail s).
Proof. unfold step_cost, actual_cost. ring. Qed.
Print Assumptions C67_difference.

(** The first step of the plan above, made: the battery gives 2 and ends as planned. *)
Definition answer (plan : list planned) : solver Q := fun _ _ => Ok (Some (concat (map (variables true) plan), map pl_on plan)).
Definition soc_after (mg : mgrid Q) : list Q :=
  flat_map (fun m => match m_kind m with KBattery b => [Qred (b_soc b)] | _ => [] end) (mg_mods mg).
Example C67_example :
  match pc_posed with
  | Ok (g, c, d, pr) => from_modules pc_all g /\ Forall in_data (mg_mods g) /\ mg_shaper g = None
      /\ satisfies pr (concat (map (variables true) pc_plan)) (map pl_on pc_plan) = true
      /\ match mpc_step c (answer pc_plan) 0 g with
         | (g', Ok (_, rw, _, _)) => soc_after g = [1#2] /\ soc_after g' = [5#18] /\ Qred rw = -2#45
         | _ => False
         end
  | Err _ => False
  end.
Proof.
  destruct pc_posed as [[[[g c] d] pr]|e] eqn:E; [|vm_compute in E; discriminate E].
  unfold pc_posed in E. destruct pc_mg as [g0|] eqn:EG; [|discriminate]. cbn [rbind] in E.
  destruct (new_mpc no_round no_poly g0) as [c0|] eqn:EC; [|discriminate]. cbn [rbind] in E.
  destruct (state_values c0 g0) as [d0|] eqn:ED; [|discriminate]. cbn [rbind] in E.
  destruct (make_problem c0 d0) as [pr0|] eqn:EP; [|discriminate]. cbn [rbind] in E. injection E as <- <- <- <-.
  split; [exact (pc_from g0 [] EG)|].
  vm_compute in EG. injection EG as <-. vm_compute in EC. injection EC as <-. vm_compute in ED. injection ED as <-. vm_compute in EP. injection EP as <-.
  split; [repeat (apply Forall_cons; [intros TS; first [exists 0%nat; eexists; split; vm_compute; reflexivity|exfalso; apply TS; vm_compute; reflexivity|vm_compute in TS; firstorder discriminate]|]); apply Forall_nil|].
  split; [reflexivity|]. split; [vm_compute; reflexivity|].
  vm_compute. repeat split; reflexivity.
Qed.
Example C67_example_realistic :
  match pc_posed, pc_plan with
  | Ok (g, _, _, _), s :: _ => realistic g s
  | _, _ => False
  end.
Proof.
  destruct pc_posed as [[[[g c] d] pr]|e] eqn:E; [|vm_compute in E; discriminate E]. cbn [pc_plan].
  vm_compute in E. injection E as <- _ _ _.
  split; [left; reflexivity|left; reflexivity| | |].
  - intros [|[|[|[|[|[|i]]]]]] m b A K; try (injection A as <-; try discriminate K); [|destruct i; discriminate A].
    injection K as <-. vm_compute. congruence.
  - intros [|[|[|[|[|[|i]]]]]] m b A K; try (injection A as <-; try discriminate K); [|destruct i; discriminate A].
    injection K as <-. split; reflexivity.
  - intros [|[|[|[|[|[|i]]]]]] m gr t st A K S; try (injection A as <-; try discriminate K); [|destruct i; discriminate A].
    injection K as <- <-. vm_compute in S. injection S as <-. split; [reflexivity|]. right. split; reflexivity.
Qed.

(** Plans that are no plans for the modules.  The grid is down (its status is not looked
    at): the 2 to be bought are not served.  The battery is to give 3, as much as its
    limit, and can lose no more than 3, which gives 27/10.  The genset takes two steps
    to start.  Each plan solves the program. *)
Definition pc_try (battery genset grid : module Q) (s : planned) (rest : list planned) : option (bool * list Q * Q * Q) :=
  match new_microgrid [(Some "load", pc_load); (Some "pv", pc_pv); (None, battery); (None, genset); (None, grid)] true 10 2 None None with
  | Ok g =>
      match new_mpc no_round no_poly g with
      | Ok c =>
          match state_values c g with
          | Ok d =>
              match make_problem c d, mpc_step c (answer (s :: rest)) 0 g, expected_of d (mp_horizon c) with
              | Ok pr, (g', Ok (_, rw, _, _)), x :: _ =>
                  Some (satisfies pr (concat (map (variables true) (s :: rest))) (map pl_on (s :: rest)),
                        soc_after g', Qred rw, Qred (- step_cost (equipment_of c d) x s))
              | _, _, _ => None
              end
          | Err _ => None
          end
      | Err _ => None
      end
  | Err _ => None
  end.
Definition pc_down : module Q :=
  or_balancing (new_grid 10 20 [[1; 2; 3; 0]; [4; 5; 6; 0]; [7; 8; 9; 1]; [1; 1; 1; 1]]%Q FPOracle 2 false 0 4 (1#10) false Controllable mg_rnd).
Definition pc_full : module Q := or_balancing (new_battery 2 10 4 3 (9#10) (1#50) None (Some 9%Q) None 0 false).
Definition pc_slow : module Q :=
  or_balancing (new_genset 1 20 (FuelLin (2#5)) (1#10) 3 2 2 true false 0 false "genset_production").
Definition pc_rest (soc : Q) : list planned := [mkPlanned 7 0 0 0 0 0 0 soc 1; mkPlanned 0 0 0 0 0 8 0 soc 0].
Example C67_realistic_needed :
  pc_try mg_battery mg_genset pc_grid (mkPlanned 0 2 0 0 0 0 0 (1#2) 0) (pc_rest (1#2)) = Some (true, [1#2], -13#5, -113#10)
  /\ pc_try mg_battery mg_genset pc_down (mkPlanned 0 2 0 0 0 0 0 (1#2) 0) (pc_rest (1#2)) = Some (true, [1#2], -20, -113#10)
  /\ pc_try pc_full mg_genset pc_grid (mkPlanned 0 0 0 0 3 1 0 (17#30) 0) (pc_rest (17#30)) = Some (true, [3#5], -3#50, -3#50)
  /\ pc_try mg_battery mg_genset pc_grid (mkPlanned 2 0 0 0 0 0 0 (1#2) 1) (pc_rest (1#2)) = Some (true, [1#2], -7#5, -7#5)
  /\ pc_try mg_battery pc_slow pc_grid (mkPlanned 2 0 0 0 0 0 0 (1#2) 1) (pc_rest (1#2)) = Some (true, [1#2], -20, -7#5).
Proof. vm_compute. repeat split; reflexivity. Qed.
(** Selling earns 2 a unit and is planned as an expense of 2 a unit. *)
Example C67_selling :
  pc_try mg_battery mg_genset pc_grid (mkPlanned 6 0 4 0 0 0 0 (1#2) 1) (pc_rest (1#2)) = Some (true, [1#2], 19#5, -61#5).
Proof. vm_compute. reflexivity. Qed.
