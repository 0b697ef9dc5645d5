(** * Model predictive control: cheapest plans and whole runs

    [cheapest]: no plan for the same expectations costs less (C65: the best solutions
    of the program).  Exact rationals; the solver is a parameter. *)

From Coq Require Import ZArith QArith Qminmax Bool String List Lia Lqa.
From Verif Require Import Num Py Space Logger Forecast Module Container Microgrid NonModular Conversion MPC
  Spec_Module Spec_Reach Spec_Sane Spec_Microgrid Spec_Conversion Spec_Priority Spec_MPC
  Proofs_Num Proofs_Any Proofs_Mgrid Proofs_MgProps Proofs_Mpc8 Proofs_Mpc9 Examples_Mg Examples_Mpc.
Import ListNotations.
Local Open Scope string_scope.
Local Open Scope list_scope.
Local Open Scope Q_scope.

(** ** C68: what the cheapest plans do *)

(** In every step: energy is not bought and sold at once; no load is lost while sun is
    thrown away; the sun is used before energy is bought, and energy is bought before
    load is lost. *)
Theorem C68_every_step e soc xs plan k x s : cheapest e soc xs plan -> nth_error xs k = Some x -> nth_error plan k = Some s ->
  (0 < ex_import x + ex_export x -> pl_import s == 0 \/ pl_export s == 0)
  /\ (0 < eq_loss_cost e -> pl_loss s == 0 \/ pl_curtail s == 0)
  /\ (0 < ex_import x -> pl_import s == 0 \/ pl_curtail s == 0)
  /\ (ex_import x < eq_loss_cost e -> pl_loss s == 0 \/ pl_import s == eq_import e * ex_grid x).
Proof.
  intros C N M. split; [exact (ch_one_way e soc xs plan k x s C N M)|]. split; [exact (ch_no_waste e soc xs plan k x s C N M)|].
  split; [exact (ch_sun_first e soc xs plan k x s C N M)|exact (ch_serve e soc xs plan k x s C N M)].
Qed.
Print Assumptions C68_every_step.

(** A genset that is on produces before load is lost and before dearer energy is
    bought, and gives way to cheaper energy and to the sun. *)
Theorem C68_genset e soc xs plan k x s : cheapest e soc xs plan -> nth_error xs k = Some x -> nth_error plan k = Some s ->
  eq_gen e = true -> pl_on s == 1 ->
  (eq_gen_cost e < eq_loss_cost e -> pl_loss s == 0 \/ pl_genset s == eq_gen_max e)
  /\ (eq_gen_cost e < ex_import x -> pl_import s == 0 \/ pl_genset s == eq_gen_max e)
  /\ (ex_import x < eq_gen_cost e -> pl_genset s == Qmax 0 (eq_gen_min e) \/ pl_import s == eq_import e * ex_grid x)
  /\ (0 < eq_gen_cost e -> pl_genset s == Qmax 0 (eq_gen_min e) \/ pl_curtail s == 0).
Proof.
  intros C N M G O. split; [exact (ch_gen_serve e soc xs plan k x s C N M O G)|]. split; [exact (ch_gen_first e soc xs plan k x s C N M O G)|].
  split; [exact (ch_grid_first e soc xs plan k x s C N M O G)|exact (ch_sun_gen e soc xs plan k x s C N M O G)].
Qed.
Print Assumptions C68_genset.

(** Where the grid pays for energy, none is sold, unless there is no sun left to throw
    away and the genset, if on, runs at its minimum. *)
Theorem C68_never_sells e soc xs plan k x s : cheapest e soc xs plan -> nth_error xs k = Some x -> nth_error plan k = Some s ->
  0 < ex_export x -> 0 < pl_export s ->
  pl_curtail s == ex_pv x /\ (0 < ex_import x + ex_export x -> pl_import s == 0)
  /\ (eq_gen e = true -> pl_on s == 1 -> 0 <= eq_gen_cost e -> pl_genset s == Qmax 0 (eq_gen_min e)).
Proof.
  intros C N M P E. split; [destruct (ch_no_sale e soc xs plan k x s C N M P); [exfalso; lra|assumption]|]. split.
  - intros Q. destruct (ch_one_way e soc xs plan k x s C N M Q); [assumption|exfalso; lra].
  - intros G O Q. destruct (ch_gen_sale e soc xs plan k x s C N M O G ltac:(lra)); [assumption|exfalso; lra].
Qed.
Print Assumptions C68_never_sells.

(** Charging and discharging at once is only a way to get rid of energy. *)
Theorem C68_battery e soc xs plan k x s : cheapest e soc xs plan -> nth_error xs k = Some x -> nth_error plan k = Some s ->
  0 < eq_eta e <= 1 -> 0 < eq_cycle_cost e -> 0 <= ex_import x -> 0 <= eq_loss_cost e ->
  pl_charge s == 0 \/ pl_discharge s == 0
  \/ (eq_eta e < 1 /\ pl_curtail s == ex_pv x /\ pl_import s == 0 /\ pl_loss s == 0).
Proof. intros C N M. exact (ch_battery_way e soc xs plan k x s C N M). Qed.
Print Assumptions C68_battery.

(** The plan is short-sighted.  In its last step it charges only to get rid of energy,
    and draws what saves buying or losing. *)
Theorem C68_last_step e soc xs plan k x s : cheapest e soc xs plan -> nth_error xs k = Some x -> nth_error plan k = Some s ->
  length xs = S k -> 0 < eq_eta e <= 1 -> 0 < eq_capacity e -> 0 < eq_cycle_cost e ->
  (0 <= soc -> eq_soc_min e <= soc -> 0 <= ex_import x -> 0 <= eq_loss_cost e ->
     pl_charge s == 0 \/ pl_curtail s == ex_pv x /\ pl_import s == 0 /\ pl_loss s == 0)
  /\ (pl_discharge s == eq_discharge e \/ pl_soc s == Qmax 0 (eq_soc_min e)
      \/ (eq_cycle_cost e < ex_import x -> pl_import s == 0) /\ (eq_cycle_cost e < eq_loss_cost e -> pl_loss s == 0)).
Proof.
  intros C N M L ET CA CY. split.
  - intros S0 S1 I LC. exact (last_charge e soc xs plan k x s C L N M ET CA S0 S1 CY I LC).
  - exact (last_drawn e soc xs plan k x s C L N M ET CA (Qlt_le_weak _ _ CY)).
Qed.
Print Assumptions C68_last_step.

(** A cheapest plan of two steps: the battery serves what the sun does not; the sun of
    the second step is thrown away, though the grid would pay 2 for it. *)
Definition tw_equipment : equipment := mkEquipment true (9#10) 10 (1#5) 1 4 3 10 20 1 20 (7#10) (1#50) 10.
Definition tw_expected : list expected := [mkExpected 5 3 1 1 2; mkExpected 1 9 1 1 2].
Definition tw_plan : list planned := [mkPlanned 0 0 0 0 2 0 0 (5#18) 0; mkPlanned 0 0 0 0 0 8 0 (5#18) 0].
Example C68_example : cheapest tw_equipment (1#2) tw_expected tw_plan.
Proof.
  split.
  - split; [reflexivity|]. intros [|[|k]] x s N M; [| |destruct k; discriminate]; injection N as <-; injection M as <-.
    + split; cbn; first [lra | vm_compute; reflexivity | left; repeat split; lra | repeat split; lra | idtac].
    + split; cbn; first [lra | vm_compute; reflexivity | left; repeat split; lra | repeat split; lra | idtac].
  - intros plan' (L & A). destruct plan' as [|s1 [|s2 [|]]]; try discriminate L.
    pose proof (A 0%nat _ _ eq_refl eq_refl) as A1. pose proof (A 1%nat _ _ eq_refl eq_refl) as A2. clear A L.
    destruct A1 as [B1 _ _ C1 D1 I1 E1 U1 L1 G1], A2 as [B2 _ _ C2 D2 I2 E2 U2 L2 G2].
    unfold plan_cost, step_cost, tw_plan, tw_expected in *. cbn in *.
    destruct G1 as [(_ & G1 & _)|(_ & G1 & _)], G2 as [(_ & G2 & _)|(_ & G2 & _)]; lra.
Qed.

(** ** C69: whole runs *)

Section Runs.
Variables (round1 : Q -> Q) (poly : nat -> Q).

(** A microgrid built from fresh modules that clip, with data for its whole window, and
    a controller made for it.  A run from any state [g] rewinds it, makes the steps asked
    for (without a number: all steps of the window; never more than these), and
    returns a log with one row for each, provided that the programs posed are solved. *)
Theorem C69_whole_run ds add lossc overc sh (g0 mgc : mgrid Q) (c : mpc Q) f (solve : solver Q) j (g : mgrid Q) limit n :
  let D := all_defs ds add lossc overc in
  mbuilt ds add lossc overc sh None g0 -> names_separate D -> Forall (fun d => fresh (snd d)) ds ->
  from_modules D mgc -> new_mpc round1 poly mgc = Ok c ->
  Forall (fun d => sane_reachable (snd d)) D -> Forall (fun d => lenient (snd d)) D -> no_reserved_name D -> total_shaper sh ->
  (exists d, In d D /\ (class_name (m_kind (snd d)) = "grid" \/ class_name (m_kind (snd d)) = "genset")) ->
  (forall d b, In d D -> m_kind (snd d) = KBattery b -> 0 <= b_min_capacity b /\ 0 < b_max_capacity b) ->
  mg_final g0 = Some f -> (0 <= mg_initial g0 < f)%Z ->
  (forall d, In d D -> is_ts (snd d) -> (f <= Z.of_nat (length (series (snd d))))%Z) ->
  episode D g0 j g -> num_iter limit g = Ok n ->
  let k := Nat.min n (Z.to_nat (f - mg_initial g0)) in
  (forall i g1 obs g', (i < k)%nat -> mg_reset g = (g1, Ok obs) -> predicted c solve g1 i g' false -> solved c solve i g') ->
  match limit with Some l => n = l | None => Z.of_nat n = (f - mg_initial g0)%Z end /\
  exists g1 obs g' d log, mpc_run c solve limit g = (g', Ok log) /\ mg_reset g = (g1, Ok obs) /\ predicted c solve g1 k g' d
    /\ (forall h cells, In (h, cells) log -> length cells = k)
    /\ (forall nm j key cells, In ((nm, j, key), cells) log <->
         (exists i m, nth_error (positions nm D) j = Some i /\ at_index g' i m
            /\ dget key (lg_data (m_log m)) = Some (ColList cells))
         \/ (nm = "balance" /\ j = 0%nat /\ dget key (lg_data (mg_balance g')) = Some (ColList cells))).
Proof.
  intros D B SEP FR FC MADE SR LE NR SH GG CAP FF I0 ROWS.
  exact (mpc_whole round1 poly ds add lossc overc sh g0 mgc c B SEP FR FC MADE SR LE NR SH GG CAP f FF I0 ROWS solve j g limit n).
Qed.

(** They are, by every solver that finds a solution where there is one. *)
Theorem C69_solved ds add lossc overc sh (g0 mgc : mgrid Q) (c : mpc Q) f (solve : solver Q) j (g : mgrid Q) limit n i g1 obs g' :
  let D := all_defs ds add lossc overc in
  mbuilt ds add lossc overc sh None g0 -> names_separate D -> Forall (fun d => fresh (snd d)) ds ->
  from_modules D mgc -> new_mpc round1 poly mgc = Ok c ->
  Forall (fun d => sane_reachable (snd d)) D -> Forall (fun d => lenient (snd d)) D -> no_reserved_name D -> total_shaper sh ->
  (exists d, In d D /\ (class_name (m_kind (snd d)) = "grid" \/ class_name (m_kind (snd d)) = "genset")) ->
  (forall d b, In d D -> m_kind (snd d) = KBattery b -> 0 <= b_min_capacity b /\ 0 < b_max_capacity b) ->
  mg_final g0 = Some f -> (0 <= mg_initial g0 < f)%Z ->
  (forall d, In d D -> is_ts (snd d) -> (f <= Z.of_nat (length (series (snd d))))%Z) ->
  finds_solutions solve -> episode D g0 j g -> num_iter limit g = Ok n ->
  (i < Nat.min n (Z.to_nat (f - mg_initial g0)))%nat -> mg_reset g = (g1, Ok obs) ->
  predicted c solve g1 i g' false -> solved c solve i g'.
Proof.
  intros D B SEP FR FC MADE SR LE NR SH GG CAP FF I0 ROWS.
  exact (mpc_whole_finder round1 poly ds add lossc overc sh g0 mgc c B SEP FR FC MADE SR LE NR SH GG CAP f FF I0 ROWS solve j g limit n i g1 obs g').
Qed.

(** More steps than the shortest series has rows are refused before anything happens. *)
Theorem C69_too_many D (c : mpc Q) (solve : solver Q) (g : mgrid Q) l len : from_modules D g -> mg_len g = Ok len -> (len < l)%nat ->
  shortest_series g len /\ fst (mpc_run c solve (Some l) g) = g /\ raises AssertionError (snd (mpc_run c solve (Some l) g)).
Proof.
  intros F L LT. split; [exact (Proofs_RbcRun.mg_len_shortest D g len F L)|].
  unfold mpc_run, mbind, mget, mlift, num_iter. rewrite L. cbn [rbind]. rewrite (proj2 (Nat.leb_gt l len) LT). split; [reflexivity|]. eexists. split; reflexivity.
Qed.
End Runs.
Print Assumptions C69_whole_run.
Print Assumptions C69_solved.
Print Assumptions C69_too_many.

(** Two steps with the answers of a solver that knows nothing else: a solution each. *)
Definition two_answers : solver Q := fun k _ =>
  let plan := match k with
              | O => [mkPlanned 0 0 0 0 2 0 0 (5#18) 0; mkPlanned 7 0 0 0 0 0 0 (5#18) 1; mkPlanned 0 0 0 4 0 4 0 (287#450) 0]
              | _ => [mkPlanned 7 0 0 0 0 0 0 (5#18) 1; mkPlanned 0 0 0 0 0 8 0 (5#18) 0; mkPlanned 1 0 0 0 0 0 0 (5#18) 1]
              end in
  Ok (Some (concat (map (variables true) plan), map pl_on plan)).
Lemma pc_built g : pc_mg = Ok g -> mbuilt pc_defs true 10 2 None None g.
Proof. intros E. split; [exact pc_reachable|exact E]. Qed.
Example C69_example :
  match pc_posed with
  | Ok (g, c, d, pr) => mbuilt pc_defs true 10 2 None None g /\ new_mpc no_round no_poly g = Ok c
      /\ Forall (fun d => fresh (snd d)) pc_defs
      /\ mg_final g = Some 4%Z /\ mg_initial g = 0%Z /\ num_iter (Some 2%nat) g = Ok 2%nat /\ num_iter None g = Ok 4%nat
      /\ (forall i g1 obs g', (i < 2)%nat -> mg_reset g = (g1, Ok obs) -> predicted c two_answers g1 i g' false -> solved c two_answers i g')
      /\ match mpc_run c two_answers (Some 2%nat) g with
         | (g', Ok log) => log <> [] /\ map (fun x => length (snd x)) log = repeat 2%nat (length log) /\ map m_cur (mg_mods g') = repeat 2%Z 6
         | _ => False
         end
  | Err _ => False
  end.
Proof.
  destruct pc_posed as [[[[g c] d] pr]|e] eqn:E; [|vm_compute in E; discriminate E].
  unfold pc_posed in E. destruct pc_mg as [g0|] eqn:EG; [|discriminate]. cbn [rbind] in E.
  destruct (new_mpc no_round no_poly g0) as [c0|] eqn:EC; [|discriminate]. cbn [rbind] in E.
  destruct (state_values c0 g0) as [d0|] eqn:ED; [|discriminate]. cbn [rbind] in E.
  destruct (make_problem c0 d0) as [pr0|] eqn:EP; [|discriminate]. cbn [rbind] in E. injection E as <- <- <- <-. clear ED EP.
  split; [exact (pc_built g0 EG)|]. split; [exact EC|].
  split; [repeat (apply Forall_cons; [vm_compute; split; reflexivity|]); apply Forall_nil|].
  vm_compute in EG. injection EG as <-. vm_compute in EC. injection EC as <-.
  split; [vm_compute; reflexivity|]. split; [vm_compute; reflexivity|]. split; [vm_compute; reflexivity|]. split; [vm_compute; reflexivity|]. split.
  - intros i g1 obs g' LI RS P. vm_compute in RS. injection RS as <- _.
    destruct i as [|[|i]]; [| |lia].
    + inversion P; subst. intros d pr DT PR. vm_compute in DT. injection DT as <-. vm_compute in PR. injection PR as <-.
      eexists _, _. split; [reflexivity|]. vm_compute. reflexivity.
    + inversion P as [|k h1 h2 o r dd inf P0 ST]; subst. inversion P0; subst. vm_compute in ST. injection ST as <- _ _ _.
      intros d pr DT PR. vm_compute in DT. injection DT as <-. vm_compute in PR. injection PR as <-.
      eexists _, _. split; [reflexivity|]. vm_compute. reflexivity.
  - vm_compute. split; [discriminate|]. split; reflexivity.
Qed.
