(** * The sample average approximation *)

From Coq Require Import ZArith QArith Qround Qabs Qminmax Bool String List Lia Lqa Permutation.
From Verif Require Import Num Py Spec_Module Proofs_Num NonModular Spec_NonModular Proofs_NonModular Proofs_NmRun
  Proofs_NmHistory Proofs_NmBattery Proofs_NmProgress Proofs_NmEpisode Proofs_NmTotal Proofs_NmRecord Properties_NonModular
  Conversion Spec_Conversion Properties_Conversion
  Proofs_NmReads NmRbc Spec_NmRbc Spec_NmRbcRun Proofs_NmRbc Proofs_NmRbcRun Proofs_NmRbcServe Properties_NmRbc Properties_NmRbcRun
  MPC NmMpc Spec_MPC Spec_NmMpc Proofs_NmMpc Proofs_NmMpcPlan Proofs_NmMpcRun Properties_NmMpc
  Saa Spec_Saa Proofs_Saa Proofs_SaaRun Proofs_SaaSame.
Import ListNotations.
Local Open Scope string_scope.
Local Open Scope list_scope.
Local Open Scope Q_scope.

(** ** C75: the choice *)

(** Of the outputs, one is chosen whose cost has the rank that belongs to the percentile. *)
Theorem C75_choice fl part (os : list (horizon_output Q)) p : floors fl -> partitions part ->
  (forall o, determine_optimal_actions fl part os p = Ok o ->
     In o os /\ exists k, position (length os) p k /\ ranked k (map ho_cost os) (ho_cost o))
  /\ (os <> [] -> 0 <= p < 1 -> exists o, determine_optimal_actions fl part os p = Ok o)
  /\ (p < 0 \/ 1 <= p -> raises ValueError (determine_optimal_actions fl part os p)).
Proof.
  intros FL PA. split; [|split].
  - intros o H. destruct (choice_ok fl part FL PA os p o H) as (k & A & B & C). eauto.
  - intros NE (P0 & P1). apply (choice_total fl part FL PA); [destruct os; [congruence|cbn; lia]|exact P0|exact P1].
  - apply (choice_range fl part FL).
Qed.
Print Assumptions C75_choice.

Section C75.
  Variables (fl : Q -> Z) (part : list (horizon_output Q) -> nat -> list (horizon_output Q)) (a : saa Q) (solve : solver Q)
    (sp : nm_spec Q) (h : Z) (g0 : nonmod Q) (cs : list nm_call) (p : Q) (ss : list (sample Q)) (rows : nat).
  Hypothesis FL : floors fl.
  Hypothesis PA : partitions part.
  Hypothesis W : wired sp.
  Hypothesis N : new_nonmodular sp h = Ok g0.
  Hypothesis A : aligned g0.
  Hypothesis P : Forall (proper (all_rows g0)) cs.
  Let g := nm_after cs g0.
  Hypothesis HB : has_battery (nm_arch g) = true.
  Hypothesis SF : saa_for a g.
  Hypothesis AA : assigns_all solve.
  Hypothesis FS : Forall (fits g) ss.
  Hypothesis SH : shortest ss rows.

  Let E : equipped g := equipped_after cs _ (equipped_new _ _ _ W N).
  Let AL : aligned g := aligned_after cs _ A.
  Let CK : clock_ok g.
  Proof. pose proof (new_rows _ _ _ N) as R. exact (clock_after _ _ (equipped_new _ _ _ W N) ltac:(lia) (clock_new _ _ _ N ltac:(lia)) P). Qed.

  (** A run that returns consists of [saa_count g rows steps] steps, starting with the records
      as they are.  In step [k] row [k] of every sample is overwritten with the actual data, the
      program of every sample is solved, and the first step of one of the plans is carried out:
      of one whose cost has the rank that belongs to the percentile. *)
  Theorem C75_steps steps ss' r : run_mpc_on_group fl part a solve g steps p ss = (ss', Ok r) ->
    exists (rs : nat -> copies Q) (sss : nat -> list (sample Q)), rs O = copies_of g /\ rs (saa_count g rows steps) = r
      /\ sss O = ss /\ sss (saa_count g rows steps) = ss'
      /\ all_longer (saa_count g rows steps) (copies_of g) r
      /\ forall k, (k < saa_count g rows steps)%nat ->
           run_mpc_on_group fl part a solve g (Some (Z.of_nat k)) p ss = (sss k, Ok (rs k))
           /\ run_mpc_on_group fl part a solve g (Some (Z.of_nat (S k))) p ss = (sss (S k), Ok (rs (S k)))
           /\ Forall2 (known_upto g (S k)) ss (sss (S k))
           /\ votes solve g p k (sss (S k)) (rs k) (rs (S k)).
  Proof.
    intros H. destruct (group_trace fl part a solve g p ss rows FL PA E AL HB SF FS SH steps ss' r AA H) as (LM & rs & sss & R0 & RM & S0 & SM & ST & VO & KE).
    exists rs, sss. split; [exact R0|]. split; [exact RM|]. split; [exact S0|]. split; [exact SM|]. split; [rewrite <- RM; apply KE; lia|].
    intros k K. pose proof (saa_prefix fl part a solve g p rs sss _ ST) as UP. rewrite R0, S0 in UP.
    rewrite !(group_upto fl part a solve g p ss rows FS SH) by lia. rewrite !UP by lia. split; [reflexivity|]. split; [reflexivity|].
    split; [apply KE; lia|exact (VO k K)].
  Qed.

  (** A percentile of one, or one that is out of range, is refused. *)
  Theorem C75_percentile steps ss' r : run_mpc_on_group fl part a solve g steps p ss = (ss', Ok r) -> (0 < saa_count g rows steps)%nat ->
    0 <= p < 1.
  Proof.
    intros H C. destruct (group_trace fl part a solve g p ss rows FL PA E AL HB SF FS SH steps ss' r AA H) as (_ & rs & sss & _ & _ & _ & _ & ST & _).
    specialize (ST O C). unfold saa_step in ST. destruct (sample_outputs _ _ _ _ _ _ _) as [ss1 os]. injection ST as _ ST.
    apply rbind_ok in ST. destruct ST as (os' & _ & ST). apply rbind_ok in ST. destruct ST as (o & CH & _).
    pose proof (choice_range fl part FL os' p) as RA.
    destruct (Qlt_le_dec p 0) as [H0|H0]; [destruct (RA (or_introl H0)) as (er & X & _); congruence|].
    destruct (Qlt_le_dec p 1) as [H1|H1]; [auto|]. destruct (RA (or_intror H1)) as (er & X & _). congruence.
  Qed.

  (** More steps than the shortest sample allows are refused. *)
  Theorem C75_too_many n : (Z.of_nat rows - nm_horizon g < n)%Z ->
    raises ValueError (snd (run_mpc_on_group fl part a solve g (Some n) p ss)) /\ fst (run_mpc_on_group fl part a solve g (Some n) p ss) = ss.
  Proof.
    intros H. rewrite (group_eq fl part a solve g p ss rows FS SH). destruct (Z.ltb_spec (Z.of_nat rows - nm_horizon g) n); [|lia].
    split; [eexists; split; reflexivity|reflexivity].
  Qed.

  (** The state of charge stays within its limits, whatever the solver answers. *)
  Theorem C75_soc steps ss' r smin smax cap eff pc pd : run_mpc_on_group fl part a solve g steps p ss = (ss', Ok r) ->
    parameter g "battery_soc_min" smin -> parameter g "battery_soc_max" smax ->
    parameter g "battery_capacity" cap -> parameter g "battery_efficiency" eff ->
    parameter g "battery_power_charge" pc -> parameter g "battery_power_discharge" pd ->
    0 < eff <= 1 -> 0 < cap -> 0 <= pc -> 0 <= pd ->
    (forall l, dget "battery_soc" (nm_state g) = Some l -> Forall (fun c => exists s, c = CNum s /\ smin <= s /\ s <= smax) l) ->
    forall l, dget "battery_soc" (cp_state r) = Some l -> Forall (fun c => exists s, c = CNum s /\ smin <= s /\ s <= smax) l.
  Proof.
    intros H P1 P2 P3 P4 P5 P6 EF CP K1 K2 CW.
    destruct (group_trace fl part a solve g p ss rows FL PA E AL HB SF FS SH steps ss' r AA H) as (_ & rs & sss & R0 & RM & _ & _ & _ & VO & _).
    rewrite <- RM. set (m := saa_count g rows steps) in *.
    assert (X : forall k, (k <= m)%nat -> column_within smin smax (cp_state (rs k))); [|exact (X m (le_n _))].
    induction k as [|k IH]; intros K; [rewrite R0; exact CW|].
    destruct (VO k ltac:(lia)) as (plans & costs & m' & rank & st & rest & n & x & o & _ & _ & _ & _ & _ & _ & _ & CA & _).
    exact (carried_within g _ n x _ _ o smin smax cap eff pc pd HB P1 P2 P3 P4 P5 P6 EF CP K1 K2 CA (IH ltac:(lia))).
  Qed.

  (** The load, the PV and the status of the grid that the records show are one row late. *)
  Lemma late_column (f : next Q -> cell Q) (v : now Q -> Q) key (ts : list Q) (rs : nat -> copies Q) (sss : nat -> list (sample Q)) m l0 :
    (forall k n x, rows_late g k n x -> nth_error ts k = Some (v n) /\ f x = CNum (v n)) ->
    (forall c n x r r' o, carried g c n x r r' o -> gained (cp_state r) (cp_state r') key (f x)) ->
    dget key (cp_state (rs O)) = Some l0 ->
    (forall k, (k < m)%nat -> votes solve g p k (sss (S k)) (rs k) (rs (S k))) ->
    dget key (cp_state (rs m)) = Some (l0 ++ map CNum (firstn m ts)).
  Proof.
    intros RV GA D0 VO. assert (X : forall k, (k <= m)%nat -> dget key (cp_state (rs k)) = Some (l0 ++ map CNum (firstn k ts))); [|exact (X m (le_n _))].
    induction k as [|k IH]; intros K; [cbn; rewrite app_nil_r; exact D0|]. specialize (IH ltac:(lia)).
    destruct (VO k ltac:(lia)) as (plans & costs & m' & rank & st & rest & n & x & o & _ & _ & _ & _ & _ & _ & RL & CA & _).
    destruct (RV _ _ _ RL) as (T & F). destruct (GA _ _ _ _ _ _ CA) as (l & G1 & G2). rewrite IH in G1. injection G1 as <-. rewrite G2, F, <- app_assoc. do 2 f_equal.
    change [CNum (v n)] with (map CNum [v n]). rewrite <- map_app. f_equal. clear -T. revert k T.
    induction ts as [|y ts IH]; intros [|k] T; try discriminate; cbn in T; [injection T as ->; reflexivity|]. cbn. f_equal. apply IH. exact T.
  Qed.
  Theorem C75_late steps ss' r : run_mpc_on_group fl part a solve g steps p ss = (ss', Ok r) ->
    (forall l, dget "load" (nm_state g) = Some l -> dget "load" (cp_state r) = Some (l ++ map CNum (firstn (saa_count g rows steps) (nm_load_ts g))))
    /\ (forall l, dget "pv" (nm_state g) = Some l -> dget "pv" (cp_state r) = Some (l ++ map CNum (firstn (saa_count g rows steps) (nm_pv_ts g))))
    /\ (has_grid (nm_arch g) = true -> forall l, dget "grid_status" (nm_state g) = Some l ->
          dget "grid_status" (cp_state r) = Some (l ++ map CNum (firstn (saa_count g rows steps) (nm_status_ts g)))).
  Proof.
    intros H. destruct (group_trace fl part a solve g p ss rows FL PA E AL HB SF FS SH steps ss' r AA H) as (_ & rs & sss & R0 & RM & _ & _ & _ & VO & _).
    rewrite <- RM. split; [|split].
    - intros l D. apply (late_column nx_load now_load "load" (nm_load_ts g) rs sss); [| |rewrite R0; exact D|exact VO].
      + intros k n x [L1 _ L2 _ _]. auto.
      + intros c n x r1 r2 o CA. apply (ca_status _ _ _ _ _ _ _ CA).
    - intros l D. apply (late_column nx_pv now_pv "pv" (nm_pv_ts g) rs sss); [| |rewrite R0; exact D|exact VO].
      + intros k n x [_ L1 _ L2 _]. auto.
      + intros c n x r1 r2 o CA. apply (ca_status _ _ _ _ _ _ _ CA).
    - intros HG l D. apply (late_column nx_status now_status "grid_status" (nm_status_ts g) rs sss); [| |rewrite R0; exact D|exact VO].
      + intros k n x [_ _ _ _ L]. rewrite HG in L. destruct L as (L1 & _ & _ & _ & L2 & _). auto.
      + intros c n x r1 r2 o CA. destruct (ca_status _ _ _ _ _ _ _ CA) as (_ & _ & _ & X). apply X. exact HG.
  Qed.

  (** ** C76: perfect samples *)

  (** With samples that predict everything, and a solver that answers the same program the same
      way, the runs are those of the predictive control: one returns if and only if the other
      does, and the records are the same except for the columns that are one row late. *)
  Theorem C76_perfect n (g1 : nonmod Q) : Forall (perfect g) ss -> steady solve -> 0 <= p < 1 -> nm_reset false g = (g1, Ok tt) ->
    (Z.of_nat n <= Z.of_nat rows - nm_horizon g)%Z -> (Z.of_nat n <= nm_len g - nm_horizon g)%Z ->
    (forall r, nm_mpc_run (sa_mpc a) solve (Some (Z.of_nat n)) g = (g1, Ok r) ->
       exists ss' r', run_mpc_on_group fl part a solve g1 (Some (Z.of_nat n)) p ss = (ss', Ok r')
         /\ cp_actions r' = cp_actions r /\ cp_production r' = cp_production r /\ cp_cost r' = cp_cost r /\ cp_co2 r' = cp_co2 r
         /\ same_but_those ["load"; "pv"; "grid_status"] (cp_state r) (cp_state r'))
    /\ ((exists r, nm_mpc_run (sa_mpc a) solve (Some (Z.of_nat n)) g = (g1, Ok r))
        <-> exists ss' r', run_mpc_on_group fl part a solve g1 (Some (Z.of_nat n)) p ss = (ss', Ok r')).
  Proof.
    intros PE SS (P0 & P1) RS N1 N2.
    destruct (runs_agree fl part a solve g g1 p ss rows FL PA E AL CK HB SF RS FS SH PE AA SS P0 P1 n N1 N2) as (F & B). split; [|split].
    - intros r H. destruct (F r H) as (ss' & r' & H' & [A1 A2 A3 A4 A5]). exists ss', r'. auto 10.
    - intros (r & H). destruct (F r H) as (ss' & r' & H' & _). eauto.
    - intros (ss' & r' & H). destruct (B ss' r' H) as (r & H' & _). eauto.
  Qed.
End C75.
Print Assumptions C75_steps.
Print Assumptions C75_percentile.
Print Assumptions C75_too_many.
Print Assumptions C75_soc.
Print Assumptions C75_late.
Print Assumptions C76_perfect.

(** What plans are compared by is not what the programs minimize: it leaves out the wear of the
    battery and the emissions, and counts exported energy as an income. *)
Lemma bill_rest (g : nonmod Q) loss fuel wear dirt co2 e : eq_loss_cost e = loss -> eq_cycle_cost e = wear -> eq_gen e = has_genset (nm_arch g) ->
  (has_genset (nm_arch g) = true -> eq_gen_cost e == fuel + co2 * dirt) ->
  forall plan xs i, length plan = length xs ->
  (forall k x s, nth_error xs k = Some x -> nth_error plan k = Some s -> exists b, allowed e b x s) ->
  (forall k x, nth_error xs k = Some x -> if has_grid (nm_arch g)
     then nth_error (nm_export_ts g) (i + k) = Some (ex_export x)
       /\ exists im d, nth_error (nm_import_ts g) (i + k) = Some im /\ nth_error (nm_co2_ts g) (i + k) = Some d /\ ex_import x == im + d * co2
     else ex_import x == 0 /\ ex_export x = 0) ->
  plan_cost e xs plan == plan_bill g loss fuel i plan + left_out g wear dirt co2 i plan.
Proof.
  intros E1 E2 E3 E4. induction plan as [|s plan IH]; intros [|x xs] i L AL R; cbn in L; try discriminate; [cbn; lra|].
  cbn [plan_cost plan_bill left_out]. rewrite (IH xs (S i)); [| congruence | intros k y t Y TT; exact (AL (S k) y t Y TT) |].
  2:{ intros k y Y. pose proof (R (S k) y Y) as RK. rewrite Nat.add_succ_r in RK. exact RK. }
  destruct (AL O x s eq_refl eq_refl) as (b & OK). pose proof (al_genset _ _ _ _ OK) as AG. rewrite E3 in AG.
  pose proof (R O x eq_refl) as RO. rewrite Nat.add_0_r in RO. unfold step_cost. rewrite E1, E2.
  generalize (plan_bill g loss fuel (S i) plan) (left_out g wear dirt co2 (S i) plan). intros X Y.
  destruct (has_genset (nm_arch g)).
  - rewrite (E4 eq_refl). destruct (has_grid (nm_arch g)).
    + destruct RO as (R1 & im & d & R2 & R3 & R4). rewrite (nth_error_nth _ _ 0 R1), (nth_error_nth _ _ 0 R2), (nth_error_nth _ _ 0 R3), R4. ring.
    + destruct RO as (R1 & R2). rewrite R1, R2. ring.
  - destruct AG as (AG & _). rewrite AG. destruct (has_grid (nm_arch g)).
    + destruct RO as (R1 & im & d & R2 & R3 & R4). rewrite (nth_error_nth _ _ 0 R1), (nth_error_nth _ _ 0 R2), (nth_error_nth _ _ 0 R3), R4. ring.
    + destruct RO as (R1 & R2). rewrite R1, R2. ring.
Qed.
Theorem C75_compared (g : nonmod Q) s k e xs soc plan cost wear co2 dirt : posed_at (expecting g s) k e xs -> good_plan e soc xs plan -> bills g k plan cost ->
  parameter g "battery_cost_cycle" wear -> parameter g "cost_co2" co2 -> (has_genset (nm_arch g) = true -> parameter g "genset_co2" dirt) ->
  plan_cost e xs plan == cost + left_out g wear dirt co2 k plan.
Proof.
  intros [PB PL (PG1 & PG2) _ _ PR] (GL & GP) (loss & fuel & B1 & B2 & B3) W C D. rewrite B3.
  unfold parameter in *. cbn [expecting nm_par nm_arch nm_load_ts nm_pv_ts nm_status_ts nm_import_ts nm_export_ts nm_co2_ts] in *. apply (bill_rest g loss fuel wear dirt co2 e).
  - congruence.
  - destruct PB as (_ & _ & _ & _ & _ & _ & PW). congruence.
  - exact PG1.
  - intros HG. destruct (PG2 HG) as (rated & pmin & pmax & fu & di & co & _ & _ & _ & Q4 & Q5 & Q6 & _ & _ & Q9). pose proof (B2 HG) as B2'. pose proof (D HG) as D'.
    assert (fu = fuel) by congruence. assert (di = dirt) by congruence. assert (co = co2) by congruence. subst. exact Q9.
  - exact GL.
  - intros j x t X TT. eexists. exact (GP j x t X TT).
  - intros j x X. destruct (PR j x X) as (_ & _ & R). destruct (has_grid (nm_arch g)).
    + destruct R as (_ & R1 & im & d & co & R2 & R3 & R4 & R5). assert (co = co2) by congruence. subst co. split; [exact R1|]. exists im, d. auto.
    + destruct R as (_ & R1 & R2). auto.
Qed.
Print Assumptions C75_compared.

(** The run on a forecast: more steps than the forecast has beyond the horizon are refused; for
    at least one step it returns the records of the microgrid as they are; for none, nothing. *)
Theorem C75_forecast (g : nonmod Q) rows n :
  let most := (Z.of_nat rows - nm_horizon g)%Z in
  (raises ValueError (run_deterministic g rows (Some n)) <-> (most < n)%Z)
  /\ ((0 < n <= most)%Z -> exists r, run_deterministic g rows (Some n) = Ok (Some r)
        /\ cp_actions r = nm_actions g /\ cp_state r = nm_state g /\ cp_production r = nm_production g
        /\ cp_cost r = nm_cost g /\ cp_co2 r = nm_co2 g)
  /\ ((n <= 0)%Z -> (n <= most)%Z -> run_deterministic g rows (Some n) = Ok None)
  /\ run_deterministic g rows None = run_deterministic g rows (Some most).
Proof.
  cbv zeta. unfold run_deterministic. rewrite Z.ltb_irrefl.
  destruct (Z.ltb_spec (Z.of_nat rows - nm_horizon g) n) as [A|A].
  - split; [split; [intros _; exact A|intros _; eexists; split; reflexivity]|].
    split; [lia|]. split; [lia|]. reflexivity.
  - split; [split; [intros (x & E & _); discriminate E|lia]|].
    split; [intros (B & _); apply Z.ltb_lt in B; cbn [rbind]; rewrite B; eexists; split; [reflexivity|repeat split; reflexivity]|].
    split; [intros B _; apply Z.ltb_ge in B; cbn [rbind]; rewrite B; reflexivity|]. reflexivity.
Qed.
Print Assumptions C75_forecast.
Example C75_forecast_example : run_deterministic full_grid 5 (Some 2%Z) = Ok (Some (copies_of full_grid))
  /\ run_deterministic full_grid 5 (Some 0%Z) = Ok None /\ raises ValueError (run_deterministic full_grid 5 (Some 6%Z)).
Proof. split; [vm_compute; reflexivity|]. split; [vm_compute; reflexivity|]. eexists. split; vm_compute; reflexivity. Qed.
(** Nothing is done for a forecast: what is returned are the records as they were. *)
Theorem C75_forecast_refuted : ~ (forall (g : nonmod Q) rows n r, run_deterministic g rows (Some n) = Ok (Some r) -> all_longer (Z.to_nat n) (copies_of g) r).
Proof.
  intros H. specialize (H full_grid 5%nat 2%Z (copies_of full_grid)).
  assert (R : run_deterministic full_grid 5 (Some 2%Z) = Ok (Some (copies_of full_grid))) by (vm_compute; reflexivity).
  destruct (H R) as (_ & (_ & L) & _). destruct (dget "load" (cp_state (copies_of full_grid))) as [l|] eqn:D; [|vm_compute in D; discriminate D].
  destruct (L "load" l D) as (l' & E & M). rewrite D in E. injection E as E. apply (f_equal (@length _)) in E. rewrite app_length, M in E. change (Z.to_nat 2) with 2%nat in E. lia.
Qed.
Print Assumptions C75_forecast_refuted.

(** *** Examples *)

Lemma floors_Qfloor : floors Qfloor.
Proof. intros x. split; [apply Qfloor_le|apply Qlt_floor]. Qed.
(** Sorting partitions. *)
Fixpoint insert_output (o : horizon_output Q) (l : list (horizon_output Q)) : list (horizon_output Q) :=
  match l with
  | [] => [o]
  | x :: l' => if Qle_bool (ho_cost o) (ho_cost x) then o :: l else x :: insert_output o l'
  end.
Fixpoint sort_outputs (l : list (horizon_output Q)) : list (horizon_output Q) :=
  match l with [] => [] | o :: l' => insert_output o (sort_outputs l') end.
Definition by_sorting (l : list (horizon_output Q)) (k : nat) : list (horizon_output Q) := sort_outputs l.
Lemma insert_perm o l : Permutation (o :: l) (insert_output o l).
Proof.
  induction l as [|x l IH]; cbn; [apply Permutation_refl|]. destruct (Qle_bool _ _); [apply Permutation_refl|].
  eapply Permutation_trans; [apply perm_swap|]. apply perm_skip. exact IH.
Qed.
Inductive ascending : list (horizon_output Q) -> Prop :=
| asc_nil : ascending []
| asc_cons x l : Forall (fun y => ho_cost x <= ho_cost y) l -> ascending l -> ascending (x :: l).
Lemma insert_ascending o l : ascending l -> ascending (insert_output o l).
Proof.
  induction l as [|x l IH]; intros S; cbn; [constructor; constructor|]. inversion_clear S as [|? ? F S'].
  destruct (Qle_bool (ho_cost o) (ho_cost x)) eqn:B.
  - apply Qle_bool_iff in B. constructor; [constructor; [exact B|]|constructor; assumption].
    eapply Forall_impl; [|exact F]. intros y Y. cbv beta in Y. lra.
  - assert (X : ho_cost x <= ho_cost o).
    { destruct (Qlt_le_dec (ho_cost x) (ho_cost o)) as [H|H]; [lra|]. apply Qle_bool_iff in H. congruence. }
    constructor; [|exact (IH S')]. eapply Permutation_Forall; [apply insert_perm|]. constructor; assumption.
Qed.
Lemma ascending_nth l : ascending l -> forall i j x y, nth_error l i = Some x -> nth_error l j = Some y -> (i <= j)%nat -> ho_cost x <= ho_cost y.
Proof.
  induction 1 as [|z l F S IH]; intros [|i] [|j] x y X Y L; cbn in X, Y; try discriminate; try lia.
  - injection X as <-. injection Y as <-. lra.
  - injection X as <-. rewrite Forall_forall in F. apply F. exact (nth_error_In _ _ Y).
  - exact (IH i j x y X Y ltac:(lia)).
Qed.
Lemma partitions_sorting : partitions by_sorting.
Proof.
  intros l k K. unfold by_sorting. split.
  - clear. induction l as [|o l IH]; cbn; [constructor|]. eapply Permutation_trans; [apply perm_skip; exact IH|apply insert_perm].
  - intros i j x y X Y L. apply (ascending_nth (sort_outputs l)) with i j; [|exact X|exact Y|lia].
    clear. induction l as [|o l IH]; cbn; [constructor|apply insert_ascending; exact IH].
Qed.

Definition sa_get (r : res (saa Q)) : saa Q := match r with Ok a => a | Err _ => mkSaa (mp_get (raise ValueError "")) (mkSample [] [] []) end.
Definition full_saa : saa Q := sa_get (new_saa full_grid 100).
Lemma full_saa_new : saa_for full_saa full_grid.
Proof. exists full_grid, 100%Z. split; [vm_compute; reflexivity|repeat split]. Qed.

(** Two samples, one with the actual load and one with a higher load.  At the percentile of one
    half it is the more expensive plan that is carried out: the battery is charged. *)
Definition two_samples : list (sample Q) :=
  [mkSample [10; 20; 30; 40] [5; 50; 0; 10] [1; 1; 0; 1]; mkSample [11; 80; 60; 40] [0; 50; 0; 10] [1; 1; 0; 1]].
Definition two_plans : list (list planned) :=
  [[mkPlanned 0 5 0 0 0 0 0 (1 # 2) 0; mkPlanned 0 0 0 0 0 30 0 (1 # 2) 0];
   [mkPlanned 0 15 0 10 0 0 0 (59 # 100) 0; mkPlanned 0 30 0 0 0 0 0 (59 # 100) 0];
   [mkPlanned 0 0 0 0 0 30 0 (59 # 100) 0; mkPlanned 30 0 0 0 0 0 0 (59 # 100) 1];
   [mkPlanned 0 0 0 10 0 20 0 (17 # 25) 0; mkPlanned 35 0 0 0 25 0 0 (181 # 450) 1]].
Definition group_get (x : list (sample Q) * res (copies Q)) : copies Q := match snd x with Ok r => r | Err _ => copies_of full_grid end.
Definition two_run p := run_mpc_on_group Qfloor by_sorting full_saa (mp_answers two_plans) full_grid None p two_samples.
Definition two_records := group_get (two_run (1 # 2)).
Lemma two_fit : Forall (fits full_grid) two_samples /\ shortest two_samples 4.
Proof.
  split; [repeat constructor; vm_compute; repeat constructor|]. split; [eexists; split; [left; reflexivity|reflexivity]|].
  intros s I. cbn in I. destruct I as [<-|[<-|[]]]; cbn; lia.
Qed.
Example C75_example :
  wired (nm_example full_arch nm_load nm_pv) /\ aligned full_grid /\ saa_for full_saa full_grid /\ assigns_all (mp_answers two_plans)
  /\ Forall (fits full_grid) two_samples /\ shortest two_samples 4 /\ saa_count full_grid 4 None = 2%nat
  /\ two_run (1 # 2) = ([mkSample [10; 20; 30; 40] [5; 50; 0; 10] [1; 1; 0; 1]; mkSample [10; 20; 60; 40] [5; 50; 0; 10] [1; 1; 0; 1]], Ok two_records)
  /\ column "grid_import" (cp_production two_records) = [15; 0] /\ column "battery_charge" (cp_production two_records) = [10; 10]
  /\ column "pv_curtailed" (cp_production two_records) = [0; 20] /\ column "loss_load" (cp_production two_records) = [0; 0]
  /\ column "battery_soc" (cp_state two_records) = [1 # 2; 59 # 100; 17 # 25]
  /\ column "load" (cp_state two_records) = [10; 10; 20]
  /\ column "grid_price_import" (cp_state two_records) = [3 # 10; 1 # 5; 3 # 10]
  /\ raises ValueError (snd (two_run 1)).
Proof.
  split; [apply example_wired; reflexivity|]. split; [split; [vm_compute; repeat constructor|intros _; vm_compute; repeat constructor]|].
  split; [exact full_saa_new|]. split; [apply mp_assigns|]. split; [apply two_fit|]. split; [apply two_fit|]. split; [reflexivity|].
  split; [vm_compute; reflexivity|]. do 7 (split; [vm_compute; reflexivity|]). eexists. split; [vm_compute; reflexivity|reflexivity].
Qed.

(** The documented range of the percentile includes one. *)
Theorem C75_range_refuted : ~ (forall fl part (os : list (horizon_output Q)) p, floors fl -> partitions part -> os <> [] -> 0 <= p <= 1 ->
  exists o, determine_optimal_actions fl part os p = Ok o).
Proof.
  intros H. destruct (H Qfloor by_sorting [mkHorizonOutput 0 0 []] 1 floors_Qfloor partitions_sorting ltac:(discriminate) ltac:(lra)) as (o & E).
  vm_compute in E. discriminate E.
Qed.
Print Assumptions C75_range_refuted.

(** The load that is shown after a step is not that of the next row. *)
Theorem C75_shown_refuted : ~ (forall fl part (a : saa Q) (solve : solver Q) sp h (g : nonmod Q) n p ss ss' r l,
  floors fl -> partitions part -> wired sp -> new_nonmodular sp h = Ok g -> aligned g -> has_battery (nm_arch g) = true -> saa_for a g ->
  assigns_all solve -> Forall (fits g) ss -> run_mpc_on_group fl part a solve g (Some (Z.of_nat n)) p ss = (ss', Ok r) ->
  dget "load" (nm_state g) = Some l -> dget "load" (cp_state r) = Some (l ++ map CNum (firstn n (skipn 1 (nm_load_ts g))))).
Proof.
  intros H. destruct C75_example as (W & A & SF & AA & F & _).
  assert (R : exists ss' r, run_mpc_on_group Qfloor by_sorting full_saa (mp_answers two_plans) full_grid (Some (Z.of_nat 2)) (1 # 2) two_samples = (ss', Ok r)
     /\ dget "load" (cp_state r) = Some [CNum 10; CNum 10; CNum 20]).
  { exists (fst (two_run (1 # 2))), two_records. vm_compute. split; reflexivity. }
  destruct R as (ss' & r & R & D).
  assert (D' := H Qfloor by_sorting full_saa (mp_answers two_plans) _ 2%Z full_grid 2%nat (1 # 2) two_samples ss' r [CNum 10]
    floors_Qfloor partitions_sorting W full_new A eq_refl SF AA F R ltac:(vm_compute; reflexivity)).
  rewrite D in D'. vm_compute in D'. discriminate D'.
Qed.
Print Assumptions C75_shown_refuted.

(** The choice does not find the plan that the programs prefer: the first plan is cheaper in the
    program (it wears the battery and emits less), the second in the comparison. *)
Example C75_compared_example : exists e x plan1 plan2, posed_at (expecting full_grid (mkSample nm_load nm_pv [1; 1; 0; 1; 1])) 0 e x
  /\ good_plan e (1 # 2) x plan1 /\ good_plan e (1 # 2) x plan2
  /\ plan_cost e x plan1 < plan_cost e x plan2
  /\ exists c1 c2, bills full_grid 0 plan1 c1 /\ bills full_grid 0 plan2 c2 /\ c2 < c1.
Proof.
  set (s := mkSample nm_load nm_pv [1; 1; 0; 1; 1]).
  destruct (values_ok full_mpc (expecting full_grid s) 5 s eq_refl) with (i := 0%nat) (r := copies_of full_grid) (n := nm_now full_grid) (x := nm_next full_grid)
    as (d & soc & pr & V1 & _ & _ & _ & _ & V6 & _).
  - apply expecting_aligned; [split; [vm_compute; repeat constructor|intros _; vm_compute; repeat constructor]|vm_compute; repeat constructor].
  - apply expecting_made. exists full_grid. split; [exact full_mpc_new|auto].
  - constructor; try reflexivity; vm_compute; repeat constructor.
  - apply expecting_equipped. apply equipped_start. apply (equipped_new _ _ _ (example_wired full_arch nm_load nm_pv eq_refl) full_new).
  - vm_compute. repeat constructor.
  - vm_compute in V1. injection V1 as <-.
    do 2 eexists.
    exists [mkPlanned 0 5 0 0 0 0 0 (1 # 2) 0; mkPlanned 0 0 0 0 0 30 0 (1 # 2) 0], [mkPlanned 0 5 0 0 0 0 0 (1 # 2) 0; mkPlanned 0 0 30 0 0 0 0 (1 # 2) 0].
    split; [exact V6|]. clear V6. unfold expected_of.
    split; [vm_compute mp_horizon; apply two_steps; constructor; vm_compute; repeat split; try discriminate; try (left; repeat split; discriminate)|].
    split; [vm_compute mp_horizon; apply two_steps; constructor; vm_compute; repeat split; try discriminate; try (left; repeat split; discriminate)|].
    split; [vm_compute; reflexivity|].
    exists (3 # 2), (- (3 # 2)). split; [|split; [|reflexivity]]; exists 10, (2 # 5); (split; [vm_compute; reflexivity|split; [intros _; vm_compute; reflexivity|vm_compute; reflexivity]]).
Qed.

(** Two perfect samples, one shorter than the data *)
Definition any_answers (plans : list (list planned)) : solver Q := fun _ pr =>
  match find (fun plan => satisfies pr (concat (map (variables true) plan)) (map pl_on plan)) plans with
  | Some plan => Ok (Some (concat (map (variables true) plan), map pl_on plan))
  | None => Ok None
  end.
Lemma any_assigns plans : assigns_all (any_answers plans).
Proof.
  apply true_assigns. intros k pr p u. unfold any_answers. destruct (find _ plans) as [plan|] eqn:F; [|discriminate].
  intros H. injection H as <- <-. apply find_some in F. apply F.
Qed.
Definition perfect_samples : list (sample Q) :=
  [mkSample nm_load nm_pv [1; 1; 0; 1; 1]; mkSample [10; 20; 30; 40] [5; 50; 0; 10] [1; 1; 0; 1]].
Definition perfect_run := run_mpc_on_group Qfloor by_sorting full_saa (any_answers mp_plans) full_reset (Some 2%Z) 0 perfect_samples.
Example C76_example : Forall (perfect full_grid) perfect_samples /\ Forall (fits full_grid) perfect_samples /\ shortest perfect_samples 4
  /\ steady (any_answers mp_plans) /\ assigns_all (any_answers mp_plans) /\ nm_reset false full_grid = (full_reset, Ok tt)
  /\ (Z.of_nat 2 <= Z.of_nat 4 - nm_horizon full_grid)%Z /\ (Z.of_nat 2 <= nm_len full_grid - nm_horizon full_grid)%Z
  /\ exists r r', nm_mpc_run (sa_mpc full_saa) (any_answers mp_plans) (Some 2%Z) full_grid = (full_reset, Ok r)
     /\ perfect_run = (perfect_samples, Ok r')
     /\ column "battery_charge" (cp_production r) = [0; 10] /\ column "battery_charge" (cp_production r') = [0; 10]
     /\ column "load" (cp_state r) = [10; 20; 30] /\ column "load" (cp_state r') = [10; 10; 20].
Proof.
  split; [|split; [|split; [|split; [|split; [|split; [|split; [|split]]]]]]].
  - repeat constructor; do 5 (destruct i as [|i]; [vm_compute; auto|]); cbn in H; lia.
  - repeat constructor; vm_compute; repeat constructor.
  - split; [eexists; split; [right; left; reflexivity|reflexivity]|]. intros s I. cbn in I. destruct I as [<-|[<-|[]]]; cbn; lia.
  - intros k k' pr. reflexivity.
  - apply any_assigns.
  - vm_compute. reflexivity.
  - vm_compute. discriminate.
  - vm_compute. discriminate.
  - exists (copies_get (nm_mpc_run (sa_mpc full_saa) (any_answers mp_plans) (Some 2%Z) full_grid)), (group_get perfect_run).
    do 5 (split; [vm_compute; reflexivity|]). vm_compute; reflexivity.
Qed.
