(** * Whole runs of the rule-based control of non-modular microgrids *)

From Coq Require Import ZArith QArith Qabs Qminmax Bool String List Lia Lqa Permutation.
From Verif Require Import Num Py Spec_Module Proofs_Num NonModular Spec_NonModular Proofs_NonModular Proofs_NmRun
  Proofs_NmHistory Proofs_NmBattery Proofs_NmProgress Proofs_NmEpisode Proofs_NmTotal Proofs_NmRecord Properties_NonModular
  Proofs_NmReads NmRbc Spec_NmRbc Spec_NmRbcRun Proofs_NmRbc Proofs_NmRbcRun Proofs_NmRbcServe Proofs_NmRbcTwin Properties_NmRbc.
Import ListNotations.
Local Open Scope string_scope.
Local Open Scope list_scope.
Local Open Scope Q_scope.

(** ** C71: the records of a run *)

Section C71.
  Variables (to_int : Q -> Z) (sp : nm_spec Q) (h : Z) (g0 : nonmod Q) (cs : list nm_call).
  Hypothesis CO : converts to_int.
  Hypothesis W : wired sp.
  Hypothesis N : new_nonmodular sp h = Ok g0.
  Hypothesis A : aligned g0.
  Hypothesis P : Forall (proper (all_rows g0)) cs.
  Let g := nm_after cs g0.
  Hypothesis HZ : (0 <= nm_horizon g)%Z.

  Let E : equipped g := equipped_after cs _ (equipped_new _ _ _ W N).
  Let AL : aligned g := aligned_after cs _ A.
  Let CK : clock_ok g.
  Proof. pose proof (new_rows _ _ _ N) as R. exact (clock_after _ _ (equipped_new _ _ _ W N) ltac:(lia) (clock_new _ _ _ N ltac:(lia)) P). Qed.

  (** Whatever was done with the microgrid before, on sensible data the run returns. *)
  Theorem C71_total length : has_pv (nm_arch g) = true -> has_battery (nm_arch g) = true ->
    sensible_parameters g -> sensible_rows g (rb_count g length) ->
    exists r, run_rule_based to_int g length = Ok r.
  Proof. exact (run_total to_int g length E AL CK HZ CO). Qed.

  (** A run that returns consists of [rb_count g length] steps: each decides by the rules for
      its row, carries the decision out and adds one row to the records of the run that is one
      step shorter. *)
  Theorem C71_steps length r : run_rule_based to_int g length = Ok r ->
    let upto k := run_rule_based to_int g (Some (Z.of_nat k + nm_horizon g)%Z) in
    upto O = Ok (copies_of g) /\ upto (rb_count g length) = Ok r
    /\ all_longer (rb_count g length) (copies_of g) r
    /\ forall k, (k < rb_count g length)%nat -> exists r1 r2 n x c o,
         upto k = Ok r1 /\ upto (S k) = Ok r2 /\ all_longer 1 r1 r2 /\ rows g k n x
         /\ rb_control to_int g (Z.of_nat k) (cp_state r1) = Ok c /\ carried g c n x r1 r2 o.
  Proof.
    intros H upto. destruct (run_trace to_int g E AL length r CK HZ H) as (rs & R0 & RM & RS & RK).
    pose proof (run_prefix to_int g length rs R0 (fun k K => proj1 (RS k K))) as UP.
    split; [rewrite <- R0; apply UP; lia|]. split; [rewrite <- RM; apply UP; lia|]. split; [rewrite <- RM; apply RK; lia|].
    intros k K. destruct (RS k K) as (ST & n & x & c & o & R & C & CA). exists (rs k), (rs (S k)), n, x, c, o.
    split; [apply UP; lia|]. split; [apply UP; lia|]. destruct (RK k ltac:(lia)) as (EK & _).
    split; [exact (proj2 (step_kept _ _ _ _ _ _ _ _ R (EK n x) C ST))|]. auto.
  Qed.

  (** The state of charge stays within its limits, with or without a grid. *)
  Theorem C71_soc length r smin smax cap eff pc pd : run_rule_based to_int g length = Ok r -> has_battery (nm_arch g) = true ->
    parameter g "battery_soc_min" smin -> parameter g "battery_soc_max" smax ->
    parameter g "battery_capacity" cap -> parameter g "battery_efficiency" eff ->
    parameter g "battery_power_charge" pc -> parameter g "battery_power_discharge" pd ->
    0 < eff <= 1 -> 0 < cap -> 0 <= pc -> 0 <= pd ->
    (forall l, dget "battery_soc" (nm_state g) = Some l -> Forall (fun c => exists s, c = CNum s /\ smin <= s /\ s <= smax) l) ->
    forall l, dget "battery_soc" (cp_state r) = Some l -> Forall (fun c => exists s, c = CNum s /\ smin <= s /\ s <= smax) l.
  Proof.
    intros H HB P1 P2 P3 P4 P5 P6 EF C K1 K2 I0. destruct (run_trace to_int g E AL length r CK HZ H) as (rs & R0 & RM & RS & _).
    assert (X : forall k, (k <= rb_count g length)%nat -> column_within smin smax (cp_state (rs k))).
    { induction k as [|k IH]; intros K; [rewrite R0; exact I0|].
      destruct (RS k ltac:(lia)) as (_ & n & x & c & o & _ & _ & CA).
      exact (carried_within g c n x _ _ o smin smax cap eff pc pd HB P1 P2 P3 P4 P5 P6 EF C K1 K2 CA (IH ltac:(lia))). }
    rewrite <- RM. exact (X _ (le_n _)).
  Qed.
End C71.
Print Assumptions C71_total.
Print Assumptions C71_steps.
Print Assumptions C71_soc.

(** The load of a step is met, and nothing is produced in vain: without the genset if the grid
    works and its limit is not below the load that the PV leaves, or if the battery has what
    the PV leaves; with the genset if that is more than its smallest and not more than its
    largest power. *)
Theorem C71_served to_int (g : nonmod Q) i r r' n x c o soc room on : converts to_int -> furnished g -> sensible_parameters g ->
  situation g i (cp_state r) (now_load n) (now_pv n) soc room on ->
  rb_control to_int g (Z.of_nat i) (cp_state r) = Ok c -> carried g c n x r r' o ->
  (~ genset_needed g (now_load n) (now_pv n) room on ->
     oc_over o == 0 /\ oc_genset o == 0
     /\ ((on = true /\ (exists mi, parameter g "grid_power_import" mi /\ now_load n - now_pv n <= mi)
          \/ on = false /\ now_load n <= now_pv n + room) -> oc_loss o == 0))
  /\ (genset_needed g (now_load n) (now_pv n) room on -> forall least rated pmax,
     least_power g least -> parameter g "genset_rated_power" rated -> parameter g "genset_pmax" pmax ->
     least < now_load n - now_pv n - room <= rated * pmax ->
     oc_over o == 0 /\ oc_loss o == 0 /\ oc_genset o == now_load n - now_pv n - room).
Proof.
  intros CO FU SP SU C CA. destruct (rb_decides to_int g i _ _ _ _ _ _ CO SU FU) as (d & take & TK & C' & D).
  rewrite C' in C. injection C as C. symmetry in C. split.
  - intros NN. exact (usual_served g i r r' n x soc room take on d o c SU SP TK D C CA NN).
  - intros NE least rated pmax L1 L2 L3 L4. exact (genset_served g i r r' n x soc room take on d o c least rated pmax SU SP TK D C CA NE L1 L2 L3 L4).
Qed.
Print Assumptions C71_served.

(** *** Examples *)

Lemma example_sensible (g : nonmod Q) : nm_par g = nm_parameters -> sensible_parameters g.
Proof.
  intros E. constructor; unfold parameter; rewrite E.
  - exists 25. split; [reflexivity|lra].
  - exists 25. split; [reflexivity|lra].
  - intros _. exists 60, 60. repeat split; try reflexivity; lra.
  - intros _. exists 40, (1 # 20), (9 # 10). repeat split; try reflexivity; lra.
Qed.
Lemma island_new : new_nonmodular (nm_example island_arch [10; 31; 40; 1; 10; 10] [5; 5; 5; 0; 50; 10]) 2 = Ok rb_island.
Proof. vm_compute. reflexivity. Qed.

Definition column (k : string) (r : record Q) : list Q :=
  match dget k r with Some l => map (fun c => match c with CNum x => Qred x | _ => - (1) end) l | None => [] end.

(** Six hours without a grid of which three are simulated *)
Example C71_example :
  wired (nm_example island_arch [10; 31; 40; 1; 10; 10] [5; 5; 5; 0; 50; 10]) /\ aligned rb_island
  /\ nm_horizon rb_island = 2%Z /\ sensible_parameters rb_island /\ sensible_rows rb_island (rb_count rb_island None)
  /\ rb_count rb_island None = 3%nat
  /\ exists r, run_rule_based whole rb_island None = Ok r
     /\ column "genset" (cp_production r) = [0; 4; 35]
     /\ column "loss_load" (cp_production r) = [0; 0; 0]
     /\ column "battery_soc" (cp_state r) = [1 # 2; 4 # 9; 1 # 5; 1 # 5].
Proof.
  split; [apply example_wired; reflexivity|].
  split; [split; [vm_compute; repeat constructor|intros X; vm_compute in X; discriminate X]|].
  split; [vm_compute; reflexivity|]. split; [apply example_sensible; vm_compute; reflexivity|].
  split.
  { intros i I. change (rb_count rb_island None) with 3%nat in I.
    destruct i as [|[|[|i]]]; [| | |lia]; (split; [|split]); intros; try match goal with H : has_grid _ = true |- _ => vm_compute in H; discriminate H end;
      match goal with H : nth_error _ _ = Some _ |- _ => vm_compute in H; injection H as <- end; lra. }
  split; [vm_compute; reflexivity|]. eexists. split; [vm_compute; reflexivity|]. vm_compute.
  repeat split.
Qed.

(** With a grid: the hour of the day stays that of the microgrid's own clock. *)
Example C71_grid_example :
  sensible_parameters full_grid /\ sensible_rows full_grid (rb_count full_grid None)
  /\ rb_count full_grid None = 2%nat
  /\ exists r, run_rule_based whole full_grid None = Ok r
     /\ column "grid_import" (cp_production r) = [0; 0] /\ column "grid_export" (cp_production r) = [0; 5]
     /\ column "battery_soc" (cp_state r) = [1 # 2; 4 # 9; 241 # 360]
     /\ column "hour" (cp_state r) = [0; 0; 0].
Proof.
  split; [apply example_sensible; vm_compute; reflexivity|]. split.
  { intros i I. change (rb_count full_grid None) with 2%nat in I.
    destruct i as [|[|i]]; [| |lia]; (split; [|split]); intros;
      match goal with H : nth_error _ _ = Some _ |- _ => vm_compute in H; injection H as <- end; try lra; right; reflexivity. }
  split; [vm_compute; reflexivity|]. eexists. split; [vm_compute; reflexivity|]. vm_compute. repeat split.
Qed.

(** Load is lost though the genset could serve it: 31 is asked, the PV gives 5, the battery
    could give 25 and the genset anything from 2 to 36. *)
Definition lost_island : nonmod Q := nm_get (new_nonmodular (nm_example island_arch [31; 31; 40; 1] [5; 5; 5; 0]) 2).
Theorem C71_served_refuted : ~ (forall to_int (g : nonmod Q) length r i least rated pmax load pv soc room,
  converts to_int -> sensible_parameters g -> sensible_rows g (rb_count g length) -> run_rule_based to_int g length = Ok r ->
  situation g 0 (nm_state g) load pv soc room false -> genset_needed g load pv room false -> least_power g least ->
  parameter g "genset_rated_power" rated -> parameter g "genset_pmax" pmax -> load <= pv + rated * pmax -> least <= load ->
  nth_error (column "loss_load" (cp_production r)) i = Some 0 \/ (rb_count g length <= i)%nat).
Proof.
  intros H.
  destruct (run_rule_based whole lost_island None) as [r|e] eqn:E; [|vm_compute in E; discriminate E].
  specialize (H whole lost_island None r 0%nat 2 40 (9 # 10) 31 5 (1 # 2) 25 whole_converts).
  destruct H as [H|H].
  - apply example_sensible. vm_compute. reflexivity.
  - intros i I. change (rb_count lost_island None) with 1%nat in I.
    destruct i as [|i]; [|lia]; (split; [|split]); intros; try match goal with H : has_grid _ = true |- _ => vm_compute in H; discriminate H end;
      match goal with H : nth_error _ _ = Some _ |- _ => vm_compute in H; injection H as <- end; lra.
  - exact E.
  - constructor; try (vm_compute; reflexivity); try lra.
    + exists []. vm_compute. reflexivity.
    + eapply limit_eq; [apply example_discharge; vm_compute; reflexivity|vm_compute; reflexivity].
    + exists 25. split; [vm_compute; reflexivity|lra].
    + intros X. vm_compute in X. discriminate X.
    + split; [discriminate|]. intros (X & _). vm_compute in X. discriminate X.
  - split; [vm_compute; reflexivity|]. split; [reflexivity|lra].
  - exists 40, (1 # 20). repeat split; vm_compute; reflexivity.
  - vm_compute. reflexivity.
  - vm_compute. reflexivity.
  - lra.
  - lra.
  - vm_compute in E. injection E as <-. vm_compute in H. discriminate H.
  - vm_compute in H. lia.
Qed.
Print Assumptions C71_served_refuted.

(** Loads of zero are not allowed for: the run raises if the battery is full. *)
Definition idle_spec : nm_spec Q :=
  let sp := nm_example island_arch [0; 0; 0; 0] [90; 90; 90; 90] in
  mkSpec (sp_parameters sp) (sp_arch sp) (sp_load sp) (sp_pv sp) (sp_grid_ts sp) (sp_import sp) (sp_export sp) (sp_co2 sp) (sp_actions sp)
    (dset "battery_soc" [CNum 1] (sp_status sp)) (sp_generation sp) (sp_cost sp) (sp_df_co2 sp).
Lemma idle_wired : wired idle_spec.
Proof.
  destruct (example_wired island_arch [0; 0; 0; 0] [90; 90; 90; 90] eq_refl). constructor; try assumption.
  - repeat (constructor; [eexists; reflexivity|]). constructor.
  - intros _. exists 1. reflexivity.
Qed.
Definition idle_island : nonmod Q := nm_get (new_nonmodular idle_spec 2).
Theorem C71_total_refuted : ~ (forall to_int sp h (g : nonmod Q) length, converts to_int -> wired sp -> new_nonmodular sp h = Ok g ->
  aligned g -> (0 <= nm_horizon g)%Z -> has_pv (nm_arch g) = true -> has_battery (nm_arch g) = true -> sensible_parameters g ->
  Forall (fun x => 0 <= x) (nm_load_ts g) -> Forall (fun x => 0 <= x) (nm_pv_ts g) -> has_grid (nm_arch g) = false ->
  exists r, run_rule_based to_int g length = Ok r).
Proof.
  intros H.
  assert (R : raises AssertionError (run_rule_based whole idle_island None)) by (eexists; split; vm_compute; reflexivity).
  destruct (H whole idle_spec 2%Z idle_island None) as (r & E).
  - exact whole_converts.
  - exact idle_wired.
  - vm_compute. reflexivity.
  - split; [vm_compute; repeat constructor|intros X; vm_compute in X; discriminate X].
  - vm_compute. discriminate.
  - vm_compute. reflexivity.
  - vm_compute. reflexivity.
  - apply example_sensible. vm_compute. reflexivity.
  - vm_compute. repeat constructor; discriminate.
  - vm_compute. repeat constructor; discriminate.
  - vm_compute. reflexivity.
  - destruct R as (e & R & _). congruence.
Qed.
Print Assumptions C71_total_refuted.

(** ** C72: the run and its decisions *)

(** The controls decided by a run of [length], in order *)
Definition decisions (to_int : Q -> Z) (g : nonmod Q) (length : option Z) (controls : list (dict Q)) : Prop :=
  List.length controls = rb_count g length
  /\ forall k c, nth_error controls k = Some c ->
       exists r, run_rule_based to_int g (Some (Z.of_nat k + nm_horizon g)%Z) = Ok r
         /\ rb_control to_int g (Z.of_nat k) (cp_state r) = Ok c.

(** A microgrid with a grid that was reset, on all of its data: running the decisions one by one
    leaves the records that the rule-based control returns, except for the hour. *)
Theorem C72_same to_int sp h (g0 : nonmod Q) cs testing g length r : wired sp -> new_nonmodular sp h = Ok g0 -> aligned g0 ->
  Forall (proper (all_rows g0)) cs -> nm_reset testing (nm_after cs g0) = (g, Ok tt) -> nm_use g = All ->
  has_grid (nm_arch g) = true -> (0 <= nm_horizon g)%Z -> run_rule_based to_int g length = Ok r ->
  exists controls g', decisions to_int g length controls /\ nm_quiet g (map HRun controls) g'
    /\ nm_t g' = Z.of_nat (rb_count g length)
    /\ nm_actions g' = cp_actions r /\ nm_production g' = cp_production r /\ nm_cost g' = cp_cost r /\ nm_co2 g' = cp_co2 r
    /\ same_but "hour" (cp_state r) (nm_state g').
Proof.
  intros W N A P RS U HG HZ H. pose proof (new_rows _ _ _ N) as R.
  pose proof (equipped_after cs _ (equipped_new _ _ _ W N)) as E. pose proof (aligned_after cs _ A) as AL.
  pose proof (clock_after _ _ (equipped_new _ _ _ W N) ltac:(lia) (clock_new _ _ _ N ltac:(lia)) P) as CK.
  assert (SR : set_right (nm_after cs g0)).
  { split; [apply AL|]. split; [|apply (ck_split _ CK)]. pose proof (ck_default _ CK) as X. destruct (nm_default (nm_after cs g0)); [exact I|apply X|exact X]. }
  destruct (reset_reads testing _ _ E SR RS) as (C' & T & _ & _ & R1 & R2 & R3).
  assert (EQ : g = nm_after [HReset testing] (nm_after cs g0)) by (change (g = fst (nm_reset testing (nm_after cs g0))); rewrite RS; reflexivity).
  assert (E' : equipped g) by (rewrite EQ; apply equipped_after; exact E).
  assert (A' : aligned g) by (rewrite EQ; apply aligned_after; exact AL).
  destruct (runs_same to_int g U HG length r E' A' C' HZ T R1 R2 R3 H) as (controls & g' & Q1 & Q2 & Q3 & Q4).
  exists controls, g'. split; [split; assumption|]. split; [exact Q1|]. destruct Q3. auto 10.
Qed.
Print Assumptions C72_same.

Example C72_example : let g := fst (nm_reset false full_grid) in
  nm_reset false full_grid = (g, Ok tt) /\ nm_use g = All /\ has_grid (nm_arch g) = true /\ nm_horizon g = 2%Z
  /\ rb_count g None = 2%nat
  /\ exists r, run_rule_based whole g None = Ok r /\ column "total_cost" (cp_cost r) = [1 # 10; 0] /\ column "hour" (cp_state r) = [0; 0; 0].
Proof.
  cbv zeta. split; [vm_compute; reflexivity|]. split; [vm_compute; reflexivity|]. split; [vm_compute; reflexivity|].
  split; [vm_compute; reflexivity|]. split; [vm_compute; reflexivity|]. eexists. split; [vm_compute; reflexivity|]. vm_compute. repeat split.
Qed.

(** Without a grid they differ: a battery that is nearly full is charged by more than it takes
    when the decisions are run. *)
Definition sunny : nm_spec Q := nm_example island_arch [10; 10; 10; 10; 10; 10] [50; 50; 50; 50; 50; 50].
Definition sunny_island : nonmod Q := fst (nm_reset false (nm_get (new_nonmodular sunny 2))).
Theorem C72_island_refuted : ~ (forall to_int sp h (g0 : nonmod Q) g length r, converts to_int -> wired sp ->
  new_nonmodular sp h = Ok g0 -> aligned g0 -> nm_reset false g0 = (g, Ok tt) -> nm_use g = All -> (0 <= nm_horizon g)%Z ->
  sensible_parameters g -> sensible_rows g (rb_count g length) -> run_rule_based to_int g length = Ok r ->
  exists controls g', decisions to_int g length controls /\ nm_quiet g (map HRun controls) g'
    /\ same_but "hour" (cp_state r) (nm_state g')).
Proof.
  intros H.
  destruct (run_rule_based whole sunny_island None) as [r|e] eqn:E; [|vm_compute in E; discriminate E].
  destruct (H whole sunny 2%Z (nm_get (new_nonmodular sunny 2)) sunny_island None r) as (cs & g' & (LN & DC) & Q & SB); try assumption.
  - exact whole_converts.
  - apply example_wired. reflexivity.
  - vm_compute. reflexivity.
  - split; [vm_compute; repeat constructor|intros X; vm_compute in X; discriminate X].
  - vm_compute. reflexivity.
  - vm_compute. reflexivity.
  - vm_compute. discriminate.
  - apply example_sensible. vm_compute. reflexivity.
  - intros i I. change (rb_count sunny_island None) with 3%nat in I.
    destruct i as [|[|[|i]]]; [| | |lia]; (split; [|split]); intros; try match goal with H : has_grid _ = true |- _ => vm_compute in H; discriminate H end;
      match goal with H : nth_error _ _ = Some _ |- _ => vm_compute in H; injection H as <- end; lra.
  - change (rb_count sunny_island None) with 3%nat in LN.
    destruct cs as [|c0 [|c1 [|c2 [|c3 cs]]]]; try discriminate LN. clear LN.
    destruct (DC 0%nat c0 eq_refl) as (r0 & R0 & C0). destruct (DC 1%nat c1 eq_refl) as (r1 & R1 & C1). destruct (DC 2%nat c2 eq_refl) as (r2 & R2 & C2).
    clear DC. vm_compute in R0. injection R0 as <-. vm_compute in R1. injection R1 as <-. vm_compute in R2. injection R2 as <-.
    vm_compute in C0. injection C0 as <-. vm_compute in C1. injection C1 as <-. vm_compute in C2. injection C2 as <-.
    apply nm_quiet_after in Q. subst g'. apply (same_but_get _ _ _ "battery_soc") in SB; [|discriminate].
    assert (X : column "battery_soc" (nm_state (nm_after (map HRun _) sunny_island)) = column "battery_soc" (cp_state r))
      by (unfold column; rewrite SB; reflexivity).
    vm_compute in E. injection E as <-. vm_compute in X. discriminate X.
Qed.
Print Assumptions C72_island_refuted.
