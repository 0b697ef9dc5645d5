(** * When the model predictive control can be made, and the program it poses *)

From Coq Require Import ZArith QArith Bool String List Lia Lqa Permutation.
From Verif Require Import Num Py Space Logger Forecast Module Container Microgrid NonModular Conversion MPC
  Spec_Module Spec_Reach Spec_Sane Spec_Microgrid Spec_Conversion Spec_MPC
  Proofs_Num Proofs_Module Proofs_Battery Proofs_Genset Proofs_Ts Proofs_Any Proofs_Data Proofs_Sane Proofs_Mgrid Proofs_MgProps Proofs_Episode Proofs_NonModular Proofs_Build Proofs_Obs Proofs_RbcRun Proofs_Twin
  Proofs_Copy2 Proofs_Copy3 Proofs_Copy5 Proofs_Mpc Proofs_Mpc2.
Import ListNotations.
Local Open Scope string_scope.
Local Open Scope list_scope.
Local Open Scope py_scope.
Local Open Scope Q_scope.

Section Made.
Variables (round1 : Q -> Q) (poly : nat -> Q).

Lemma convertible_one D (mg : mgrid Q) : mg_inv D mg -> convertible D mg -> NoDup (map mdef_name D) /\ one_each D.
Proof.
  intros V (N & U & _). split; [exact N|]. intros i j d d' E E' C.
  destruct (def_mod D mg V i d E) as (m & A & _ & L). destruct (def_mod D mg V j d' E') as (m' & A' & _ & L').
  apply (U i j m m' A A'). apply class_name_iff. rewrite (like_class _ _ L), (like_class _ _ L'). exact C.
Qed.
Lemma gen_class (mg : mgrid Q) : (exists i m, at_index mg i m /\ class_name (m_kind m) = "genset") <-> any_module mg is_a_genset.
Proof.
  unfold any_module, is_a_genset. split; intros (i & m & A & K); exists i, m; split; auto; destruct (m_kind m); try discriminate; eauto; destruct K; try discriminate; reflexivity.
Qed.
Lemma grid_class (mg : mgrid Q) : (exists i m, at_index mg i m /\ class_name (m_kind m) = "grid") <-> any_module mg is_grid.
Proof.
  unfold any_module, is_grid. split; intros (i & m & A & K); exists i, m; split; auto; destruct (m_kind m); try discriminate; eauto; destruct K as (? & ? & K); try discriminate; reflexivity.
Qed.
Lemma key_false (names : dict string) c : str_in c (dkeys names) = false <-> ~ str_in c (dkeys names) = true.
Proof. destruct (str_in c (dkeys names)); split; congruence. Qed.

(** What the parameters are *)
Record params_of (D : list (mdef Q)) (mg : mgrid Q) (gen : bool) (p : mpc_params Q) : Prop := mkParamsOf {
  po_battery : exists b, named_battery D mg b /\ pa_eta p = b_efficiency b /\ pa_capacity p = b_max_capacity b /\ pa_cycle p = b_cost_cycle b;
  po_unbalanced : exists i m u, at_index mg i m /\ m_kind m = KUnbalanced u /\ pa_loss p = u_loss_load_cost u;
  po_genset : if gen then exists i m s c, at_index mg i m /\ m_kind m = KGenset s /\ g_cost s = FuelLin c
      /\ pa_fuel p = c /\ pa_gmin p = g_min_prod s /\ pa_gmax p = g_max_prod s /\ pa_co2 p = g_cost_co2 s /\ pa_gco2 p = g_co2_per_unit s
    else pa_fuel p = 0 /\ pa_gmin p = 0 /\ pa_gmax p = 0 /\ pa_co2 p = 0 /\ pa_gco2 p = 0
}.
Lemma parse_ok D (mg : mgrid Q) names p : mg_inv D mg -> names_separate D -> NoDup (map mdef_name D) -> named_by D names ->
  parse_modular names mg = Ok p -> params_of D mg (str_in "genset" (dkeys names)) p.
Proof.
  intros V S ND NB E. unfold parse_modular in E. apply rbind_ok in E. destruct E as (b & B & E). apply rbind_ok in E. destruct E as (um & U & E).
  apply rbind_ok in E. destruct E as (l & L & E). apply (battery_item_iff D mg V S ND) in B. destruct (class_inv D mg V S ND names um _ NB U) as (iu & AU & CU).
  destruct (m_kind um) as [| | | | |u] eqn:KU; try discriminate. injection L as <-.
  destruct (str_in "genset" (dkeys names)).
  - apply rbind_ok in E. destruct E as (gm & G & E). destruct (class_inv D mg V S ND names gm _ NB G) as (ig & AG & CG). destruct (m_kind gm) as [|s| | | |] eqn:KG; try discriminate.
    destruct (g_cost s) as [c|] eqn:C; [|discriminate]. injection E as <-. constructor; cbn; [exists b; auto|exists iu, um, u; auto|]. exists ig, gm, s, c. auto 12.
  - injection E as <-. constructor; cbn; [exists b; auto|exists iu, um, u; auto|]. auto.
Qed.

Lemma new_mpc_inv D (mg : mgrid Q) c : mg_inv D mg -> names_separate D -> new_mpc round1 poly mg = Ok c ->
  convertible D mg /\ sufficient mg /\ named_by D (mp_names c) /\ params_of D mg (has_gen c) (mp_params c)
  /\ (exists h, get_forecast_horizon mg = Ok h /\ mp_horizon c = S h)
  /\ (has_gen c = true \/ 0 <= pa_cycle (mp_params c) /\ 0 <= pa_loss (mp_params c)).
Proof.
  intros V S E. unfold new_mpc in E. destruct (to_nonmodular round1 poly mg) as [nm|] eqn:T; [|discriminate].
  destruct (proj1 (to_nonmodular_iff round1 poly D mg V S) (ex_intro _ nm T)) as (C & F). destruct (convertible_one D mg V C) as (ND & ONE).
  destruct (by_class_made D mg V S ND ONE) as (names & EN & NB). rewrite EN in E. cbn [rbind] in E.
  apply rbind_ok in E. destruct E as (h & EH & E). apply rbind_ok in E. destruct E as (p & EP & E).
  destruct (negb _ && _)%bool eqn:X; [discriminate|]. injection E as <-. cbn [mp_names mp_horizon mp_params]. unfold has_gen. cbn [mp_names].
  split; [exact C|]. split; [exact F|]. split; [exact NB|]. split; [exact (parse_ok D mg names p V S ND NB EP)|]. split; [exists h; auto|].
  destruct (str_in "genset" (dkeys names)); [left; reflexivity|]. right. cbn [negb andb] in X. apply orb_false_iff in X. destruct X as (X1 & X2).
  unum. qprop. split; assumption.
Qed.
Lemma new_mpc_iff D (mg : mgrid Q) : mg_inv D mg -> names_separate D ->
  ((exists c, new_mpc round1 poly mg = Ok c) <-> controllable D mg).
Proof.
  intros V S. split.
  - intros (c & E). destruct (new_mpc_inv D mg c V S E) as (C & F & NB & P & _ & COST). split; [exact C|]. split; [exact F|].
    destruct P as [(b & B & P1 & P2 & P3) (i & m & u & A & K & P4) PG]. exists b, i, m, u. conj; auto. destruct COST as [G|(C1 & C2)]; [left|right; rewrite <- P3, <- P4; auto].
    rewrite G in PG. destruct PG as (i' & m' & s & c' & A' & K' & _). exists i', m'. split; [exact A'|]. exists s. exact K'.
  - intros (C & F & b & i & m & u & B & A & K & COST). destruct (convertible_one D mg V C) as (ND & ONE). unfold new_mpc.
    destruct (proj2 (to_nonmodular_iff round1 poly D mg V S) (conj C F)) as (nm & ->).
    destruct (by_class_made D mg V S ND ONE) as (names & -> & NB). cbn [rbind].
    destruct (forecast_horizon_total D mg V (su_horizon _ F)) as (h & ->). cbn [rbind].
    unfold parse_modular. rewrite (proj2 (battery_item_iff D mg V S ND b) B). cbn [rbind].
    rewrite (class_ok D mg V S ND names i m "unbalancedenergy" ONE NB A) by (rewrite K; reflexivity). cbn [rbind]. rewrite K. cbn [rbind].
    destruct (str_in "genset" (dkeys names)) eqn:G.
    + apply (class_key D mg V names "genset" NB) in G. destruct G as (ig & gm & AG & CG).
      rewrite (class_ok D mg V S ND names ig gm "genset" ONE NB AG CG). cbn [rbind]. destruct (m_kind gm) as [|s| | | |] eqn:KG; try discriminate.
      destruct (su_genset _ F ig gm s AG KG) as (_ & cc & ->). cbn [rbind negb andb]. eexists. reflexivity.
    + cbn [rbind negb andb pa_cycle pa_loss]. assert (NG : ~ any_module mg is_a_genset).
      { intros X. apply gen_class in X. apply (class_key D mg V names "genset" NB) in X. congruence. }
      destruct COST as [X|(C1 & C2)]; [contradiction|]. assert (Z : forall x : Q, 0 <= x -> nltb x n0 = false).
      { intros x X. unum. destruct (Qltb x 0) eqn:Y; [|reflexivity]. qprop. exfalso. lra. }
      rewrite (Z _ C1), (Z _ C2). cbn [orb]. eexists. reflexivity.
Qed.
End Made.
