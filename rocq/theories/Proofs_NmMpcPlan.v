(** * What is recorded of a plan *)

From Coq Require Import ZArith QArith Qabs Qminmax Bool String List Lia Lqa Permutation.
From Verif Require Import Num Py Spec_Module Proofs_Num NonModular Spec_NonModular NmRbc Spec_NmRbcRun Proofs_NmRbcServe
  MPC NmMpc Spec_MPC Spec_NmMpc Proofs_NmMpc.
Import ListNotations.
Local Open Scope string_scope.
Local Open Scope list_scope.
Local Open Scope Q_scope.

Lemma latest_unique (r : record Q) k x y : latest r k x -> latest r k y -> x = y.
Proof. intros (l & E) (m & F). rewrite E in F. injection F as F. apply app_inj_tail in F. apply F. Qed.

(** From a difference of states of charge to an amount *)
Lemma amount_of a b eff cap : 0 < eff -> 0 < cap -> a / eff / cap <= b -> a <= b * cap * eff.
Proof.
  intros E C H. assert (X : a / eff / cap * cap * eff == a) by (field; split; lra). rewrite <- X.
  apply Qmult_le_compat_r; [|lra]. apply Qmult_le_compat_r; [exact H|lra].
Qed.

Section Plan.
  Variables (g : nonmod Q) (r r' : copies Q) (k : nat) (n : now Q) (nx : next Q) (e : equipment) (xs : list expected) (x : expected)
    (soc : Q) (s : planned) (o : outcome).
  Hypothesis HB : has_battery (nm_arch g) = true.
  Hypothesis SE : sensible_for_mpc g.
  Hypothesis PO : posed_at g k e xs.
  Hypothesis X0 : nth_error xs 0 = Some x.
  Hypothesis RO : rows g k n nx.
  Hypothesis LS : latest (cp_state r) "battery_soc" (CNum soc).
  Hypothesis SL : eq_soc_min e <= soc <= eq_soc_max e.
  Hypothesis OK : allowed e soc x s.
  Hypothesis FO : follows (at_row g r n nx) (decided_by (eq_gen e) n s) o.

  Lemma pl_now : now_load n = ex_load x /\ now_pv n = ex_pv x /\ 0 <= now_load n /\ 0 <= now_pv n.
  Proof.
    destruct (pa_rows _ _ _ _ PO 0%nat x X0) as (L1 & L2 & _). rewrite Nat.add_0_r in *.
    rewrite (ro_load _ _ _ _ RO) in L1. rewrite (ro_pv _ _ _ _ RO) in L2. injection L1 as <-. injection L2 as <-.
    destruct (sm_rows _ SE) as (F1 & F2 & _). rewrite Forall_forall in F1, F2.
    split; [reflexivity|]. split; [reflexivity|]. split; [apply F1|apply F2]; eapply nth_error_In; [exact (ro_load _ _ _ _ RO)|exact (ro_pv _ _ _ _ RO)].
  Qed.

  Lemma pl_battery_facts : 0 < eq_eta e <= 1 /\ 0 < eq_capacity e /\ 0 <= eq_charge e /\ 0 <= eq_discharge e.
  Proof.
    destruct (sm_battery _ SE) as (smin & smax & cap & eff & pc & pd & P1 & P2 & P3 & P4 & P5 & P6 & B0 & B1 & B2 & B3 & B4 & _).
    destruct (pa_battery _ _ _ _ PO) as (Q1 & Q2 & Q3 & Q4 & Q5 & Q6 & _).
    rewrite (parameter_unique _ _ _ _ Q1 P4), (parameter_unique _ _ _ _ Q2 P3), (parameter_unique _ _ _ _ Q5 P5), (parameter_unique _ _ _ _ Q6 P6). auto.
  Qed.

  Theorem plan_kept : one_way s -> kept_to e soc s o.
  Proof.
    intros OW. destruct pl_battery_facts as (E1 & E2 & E3 & E4).
    destruct FO as (F1 & F2 & F3). cbn [at_row nm_arch set_records set_next set_now] in F1, F2, F3.
    rewrite HB in F1. destruct F1 as (a & b & sc & cc & cd & A & B & L & CC & CD & O1 & O2).
    pose proof (latest_unique _ _ _ _ L LS) as SC. injection SC as ->.
    assert (a = pl_charge s) as -> by (cbn in A; congruence). assert (b = pl_discharge s) as -> by (cbn in B; congruence).
    destruct (pa_battery _ _ _ _ PO) as (Q1 & Q2 & Q3 & Q4 & Q5 & Q6 & _).
    destruct CC as (c1 & c2 & c3 & c4 & P1 & P2 & P3 & P4 & CE). destruct CD as (d1 & d2 & d3 & d4 & R1 & R2 & R3 & R4 & DE).
    assert (PU : forall key u v, parameter (at_row g r n nx) key u -> parameter g key v -> u = v) by (intros key u v U V; exact (parameter_unique g key u v U V)).
    rewrite (PU _ _ _ P1 Q4), (PU _ _ _ P2 Q2), (PU _ _ _ P3 Q1), (PU _ _ _ P4 Q5) in CE.
    rewrite (PU _ _ _ R1 Q3), (PU _ _ _ R2 Q2), (PU _ _ _ R3 Q1), (PU _ _ _ R4 Q6) in DE.
    clear P1 P2 P3 P4 R1 R2 R3 R4 c1 c2 c3 c4 d1 d2 d3 d4.
    pose proof (al_charge _ _ _ _ OK) as C1. pose proof (al_discharge _ _ _ _ OK) as D1.
    assert (A0 : 0 <= (eq_soc_max e - soc) * eq_capacity e * eq_eta e) by (apply Qmult_le_0_compat; [apply Qmult_le_0_compat|]; lra).
    assert (B0 : 0 <= (soc - eq_soc_min e) * eq_capacity e * eq_eta e) by (apply Qmult_le_0_compat; [apply Qmult_le_0_compat|]; lra).
    constructor.
    - rewrite O1. unfold limited, charged. rewrite CE. rewrite (Q.max_r 0 (pl_charge s)) by lra. rewrite (Q.max_r 0 (_ * _ * _)) by exact A0.
      rewrite Q.min_assoc. apply Q.min_l. apply Qle_trans with (pl_charge s); [apply Q.le_min_l|lra].
    - rewrite O2. apply limited_eq; [lra|]. rewrite DE. rewrite (Q.max_r 0 (_ * _ * _)) by exact B0. apply Q.min_glb; [|lra].
      destruct OW as [Z|Z]; [|rewrite Z; exact B0].
      apply amount_of; [lra|lra|]. pose proof (al_soc _ _ _ _ OK) as AS. pose proof (al_soc_limits _ _ _ _ OK) as AL.
      assert (AS' : pl_soc s == soc - pl_discharge s / eq_eta e / eq_capacity e) by (rewrite AS, Z; field; split; lra). lra.
    - pose proof (al_import _ _ _ _ OK) as I1. pose proof (pa_grid _ _ _ _ PO) as PG. destruct (pa_rows _ _ _ _ PO 0%nat x X0) as (_ & _ & PR).
      destruct (has_grid (nm_arch g)) eqn:HG.
      + destruct F2 as (a & b & mi & me & A' & B' & M1 & M2 & H1 & H2).
        assert (a = pl_import s) as -> by (cbn in A'; destruct (eq_gen e); cbn in A'; congruence). rewrite H1. apply limited_eq; [lra|].
        destruct PG as (G1 & G2). rewrite (PU _ _ _ M1 G1). destruct PR as (PR & _).
        destruct (sm_grid_power _ SE HG) as (u & v & U1 & V1 & U2 & V2). rewrite (parameter_unique _ _ _ _ G1 U1) in *.
        destruct (sm_rows _ SE) as (_ & _ & ST). specialize (ST HG). rewrite Forall_forall in ST. pose proof (ST _ (nth_error_In _ _ PR)) as S01. nra.
      + destruct F2 as (-> & _). destruct PR as (PR & _). destruct PG as (PG & _). rewrite PR, PG in I1. lra.
    - pose proof (al_export _ _ _ _ OK) as I1. pose proof (pa_grid _ _ _ _ PO) as PG. destruct (pa_rows _ _ _ _ PO 0%nat x X0) as (_ & _ & PR).
      destruct (has_grid (nm_arch g)) eqn:HG.
      + destruct F2 as (a & b & mi & me & A' & B' & M1 & M2 & H1 & H2).
        assert (b = pl_export s) as -> by (cbn in B'; destruct (eq_gen e); cbn in B'; congruence). rewrite H2. apply limited_eq; [lra|].
        destruct PG as (G1 & G2). rewrite (PU _ _ _ M2 G2). destruct PR as (PR & _).
        destruct (sm_grid_power _ SE HG) as (u & v & U1 & V1 & U2 & V2). rewrite (parameter_unique _ _ _ _ G2 V1) in *.
        destruct (sm_rows _ SE) as (_ & _ & ST). specialize (ST HG). rewrite Forall_forall in ST. pose proof (ST _ (nth_error_In _ _ PR)) as S01. nra.
      + destruct F2 as (_ & ->). destruct PR as (PR & _). destruct PG as (_ & PG). rewrite PR, PG in I1. lra.
    - pose proof (al_genset _ _ _ _ OK) as AG. destruct (pa_genset _ _ _ _ PO) as (EG & PG). rewrite EG in AG.
      destruct (has_genset (nm_arch g)) eqn:HS.
      + destruct F3 as (a & rated & pmin & pmax & A' & M1 & M2 & M3 & H1 & H2). rewrite EG in A'.
        assert (a = pl_genset s) as -> by (cbn in A'; congruence).
        destruct (PG eq_refl) as (rated' & pmin' & pmax' & fuel & dirt & co2 & G1 & G2 & G3 & _ & _ & _ & G4 & G5 & _).
        rewrite <- (PU _ _ _ M1 G1), <- (PU _ _ _ M2 G2) in G4. rewrite <- (PU _ _ _ M1 G1), <- (PU _ _ _ M3 G3) in G5.
        destruct AG as [(_ & Z & GM)|(_ & Z0 & Z1)].
        * rewrite H1 by lra. rewrite limited_0; [lra|exact Z|]. rewrite G5 in GM. lra.
        * rewrite G4, G5 in Z1. destruct (Qlt_le_dec 1 (pl_genset s)) as [W|W].
          -- rewrite (H2 W). rewrite Q.max_l by lra. apply Q.min_l. lra.
          -- rewrite (H1 W). apply limited_eq; lra.
      + destruct AG as (-> & _). rewrite F3. reflexivity.
  Qed.

  Lemma fits_charged : charge_fits e soc s -> charged e soc s == pl_charge s.
  Proof. intros F. unfold charged. apply Q.min_l. exact F. Qed.

  (** Nothing but the PV is curtailed: what the sources lack without it. *)
  Theorem plan_without_pv : one_way s -> charge_fits e soc s ->
    (now_load n + oc_charge o + oc_export o == oc_discharge o + oc_import o + oc_genset o <-> pl_loss s == 0 /\ pl_curtail s == now_pv n).
  Proof.
    intros OW CF. destruct (plan_kept OW) as [K1 K2 K3 K4 K5]. rewrite (fits_charged CF) in K1.
    destruct pl_now as (N1 & N2 & N3 & N4). pose proof (al_balance _ _ _ _ OK) as AB. pose proof (al_curtail _ _ _ _ OK) as A1. pose proof (al_loss _ _ _ _ OK) as A2.
    rewrite <- N1, <- N2 in *. rewrite K1, K2, K3, K4, K5. split; [intros H; split|intros (H1 & H2)]; lra.
  Qed.

  Hypothesis CA : carried g (decided_by (eq_gen e) n s) n nx r r' o.

  Theorem plan_even : one_way s -> charge_fits e soc s -> oc_over o == 0 /\ evened_out s o.
  Proof.
    intros OW CF. destruct (plan_kept OW) as [K1 K2 K3 K4 K5]. rewrite (fits_charged CF) in K1.
    destruct pl_now as (N1 & N2 & N3 & N4). pose proof (al_balance _ _ _ _ OK) as AB. pose proof (al_curtail _ _ _ _ OK) as A1. pose proof (al_loss _ _ _ _ OK) as A2.
    destruct (ca_loss _ _ _ _ _ _ _ CA) as (L1 & L2 & L3). destruct (ca_pv _ _ _ _ _ _ _ CA N4) as (V1 & V2 & V3 & V4).
    pose proof (ca_balance _ _ _ _ _ _ _ CA) as BA. unfold supply, demand in BA. rewrite <- N1, <- N2 in *.
    rewrite K1, K2, K3, K4, K5 in BA. destruct BA as [BA|(BA & B1 & B2 & B3)].
    - assert (OV : oc_over o == 0).
      { destruct V4 as [V4|V4]; [exact V4|]. destruct L3 as [L3|(L3 & _)]; [|exact L3]. lra. }
      split; [exact OV|]. left. destruct L3 as [L3|(_ & L3)].
      + assert (oc_curtailed o == pl_curtail s - pl_loss s) by lra.
        rewrite (Q.max_l 0 (pl_loss s - pl_curtail s)), (Q.max_r 0 (pl_curtail s - pl_loss s)) by lra. auto.
      + assert (oc_loss o == pl_loss s - pl_curtail s) by lra. assert (oc_curtailed o == 0) by lra.
        rewrite (Q.max_r 0 (pl_loss s - pl_curtail s)), (Q.max_l 0 (pl_curtail s - pl_loss s)) by lra. auto.
    - split; [exact B3|]. right. split; [exact B2|]. split; [lra|].
      match type of BA with Qabs ?u < _ => assert (D : u == - (pl_loss s - pl_curtail s)) by lra end. rewrite D, Qabs_opp in BA. exact BA.
  Qed.

  Theorem plan_soc : one_way s -> charge_fits e soc s -> exists soc', gained (cp_state r) (cp_state r') "battery_soc" (CNum soc') /\ soc' == pl_soc s.
  Proof.
    intros OW CF. destruct (plan_kept OW) as [K1 K2 _ _ _]. rewrite (fits_charged CF) in K1.
    destruct (ca_soc _ _ _ _ _ _ _ CA HB) as (soc0 & soc' & eff & cap & L & G & P1 & P2 & E). exists soc'. split; [exact G|].
    pose proof (latest_unique _ _ _ _ L LS) as SC. injection SC as ->.
    destruct (pa_battery _ _ _ _ PO) as (Q1 & Q2 & _). rewrite (parameter_unique _ _ _ _ P1 Q1), (parameter_unique _ _ _ _ P2 Q2) in E.
    rewrite E, (al_soc _ _ _ _ OK), K1, K2. rewrite (Qmult_comm (pl_charge s)). reflexivity.
  Qed.

  Theorem plan_billed : exists total over_cost, parameter g "cost_overgeneration" over_cost
    /\ gained (cp_cost r) (cp_cost r') "total_cost" (CNum total) /\ total == outcome_cost e over_cost x o.
  Proof.
    destruct (ca_bill _ _ _ _ _ _ _ CA) as (emitted & total & _ & G & (loss & over & co2 & fuel & dirt & cycle & P1 & P2 & P3 & PG & PB & EM & TO)).
    exists total, over. split; [exact P2|]. split; [exact G|]. rewrite TO, EM. unfold outcome_cost.
    cbn [at_row nm_arch nm_now set_records set_next set_now] in *. rewrite HB in PB.
    assert (PU : forall key u v, parameter (at_row g r n nx) key u -> parameter g key v -> u = v) by (intros key u v U V; exact (parameter_unique g key u v U V)).
    destruct (pa_battery _ _ _ _ PO) as (_ & _ & _ & _ & _ & _ & Q7). rewrite (PU _ _ _ PB Q7), (PU _ _ _ P1 (pa_loss_cost _ _ _ _ PO)).
    destruct FO as (_ & F2 & F3). cbn [at_row nm_arch set_records set_next set_now] in F2, F3.
    assert (GEN : fuel * oc_genset o + co2 * (dirt * oc_genset o) == eq_gen_cost e * oc_genset o).
    { destruct (pa_genset _ _ _ _ PO) as (_ & GS). destruct (has_genset (nm_arch g)).
      - destruct (GS eq_refl) as (rated' & pmin' & pmax' & fuel' & dirt' & co2' & _ & _ & _ & G1 & G2 & G3 & _ & _ & G4). destruct PG as (PG1 & PG2).
        rewrite (PU _ _ _ PG1 G1), (PU _ _ _ PG2 G2), (PU _ _ _ P3 G3), G4. ring.
      - rewrite F3. ring. }
    assert (IMP : now_import n * oc_import o + co2 * (now_co2 n * oc_import o) == ex_import x * oc_import o /\ now_export n * oc_export o == ex_export x * oc_export o).
    { destruct (pa_rows _ _ _ _ PO 0%nat x X0) as (_ & _ & PR). rewrite Nat.add_0_r in PR. pose proof (ro_grid _ _ _ _ RO) as RG. destruct (has_grid (nm_arch g)).
      - destruct PR as (_ & E1 & im & dd & cc & I1 & I2 & I3 & I4). destruct RG as (_ & R1 & R2 & R3 & _).
        rewrite R1 in I1. rewrite R2 in E1. rewrite R3 in I2. injection I1 as <-. injection E1 as <-. injection I2 as <-.
        rewrite (PU _ _ _ P3 I3), I4. split; ring.
      - destruct F2 as (-> & ->). split; ring. }
    destruct IMP as (I1 & I2).
    setoid_replace (co2 * (dirt * oc_genset o + now_co2 n * oc_import o)) with (co2 * (dirt * oc_genset o) + co2 * (now_co2 n * oc_import o)) by ring. lra.
  Qed.

  Theorem plan_cost_known : one_way s -> charge_fits e soc s -> exists total,
    gained (cp_cost r) (cp_cost r') "total_cost" (CNum total)
    /\ total == step_cost e x s - 2 * ex_export x * pl_export s - eq_loss_cost e * (pl_loss s - oc_loss o).
  Proof.
    intros OW CF. destruct plan_billed as (total & oc & _ & G & T). exists total. split; [exact G|].
    destruct (plan_even OW CF) as (OV & _). destruct (plan_kept OW) as [K1 K2 K3 K4 K5]. rewrite (fits_charged CF) in K1.
    rewrite T. unfold outcome_cost, step_cost. rewrite OV, K1, K2, K3, K4, K5. ring.
  Qed.
End Plan.

(** ** There is always a plan *)

Lemma idle_good (g : nonmod Q) k e xs soc : sensible_for_mpc g -> posed_at g k e xs -> eq_soc_min e <= soc <= eq_soc_max e ->
  good_plan e soc xs (map (fun x => mkPlanned 0 0 0 0 0 (ex_pv x) (ex_load x) soc 0) xs).
Proof.
  intros SE PO SL. set (plan := map _ xs). split; [apply map_length|]. intros j x s XJ SJ.
  unfold plan in SJ. rewrite nth_error_map, XJ in SJ. injection SJ as <-.
  assert (SB : soc_before soc plan j = soc).
  { destruct j as [|j]; [reflexivity|]. cbn. unfold plan. rewrite nth_error_map. destruct (nth_error xs j); reflexivity. }
  rewrite SB. clear SB.
  destruct (pa_rows _ _ _ _ PO j x XJ) as (R1 & R2 & R3). destruct (sm_rows _ SE) as (F1 & F2 & F3). rewrite Forall_forall in F1, F2.
  pose proof (F1 _ (nth_error_In _ _ R1)) as L0. pose proof (F2 _ (nth_error_In _ _ R2)) as V0.
  destruct (sm_battery _ SE) as (smin & smax & cap & eff & pc & pd & P1 & P2 & P3 & P4 & P5 & P6 & B0 & B1 & B2 & B3 & B4 & _).
  destruct (pa_battery _ _ _ _ PO) as (Q1 & Q2 & Q3 & Q4 & Q5 & Q6 & _).
  rewrite <- (parameter_unique _ _ _ _ Q1 P4), <- (parameter_unique _ _ _ _ Q2 P3), <- (parameter_unique _ _ _ _ Q5 P5), <- (parameter_unique _ _ _ _ Q6 P6),
    <- (parameter_unique _ _ _ _ Q3 P1) in *.
  assert (GR : 0 <= eq_import e * ex_grid x /\ 0 <= eq_export e * ex_grid x).
  { pose proof (pa_grid _ _ _ _ PO) as PG. destruct (has_grid (nm_arch g)) eqn:HG.
    - destruct PG as (G1 & G2). destruct (sm_grid_power _ SE HG) as (u & v & U1 & V1 & U2 & V2).
      rewrite (parameter_unique _ _ _ _ G1 U1), (parameter_unique _ _ _ _ G2 V1). destruct R3 as (R3 & _).
      specialize (F3 eq_refl). rewrite Forall_forall in F3. destruct (F3 _ (nth_error_In _ _ R3)) as (Z & _). split; apply Qmult_le_0_compat; assumption.
    - destruct PG as (-> & ->). rewrite !Qmult_0_l. lra. }
  constructor; cbn [pl_genset pl_import pl_export pl_charge pl_discharge pl_curtail pl_loss pl_soc pl_on]; try lra.
  - unfold Qdiv. ring.
  - destruct (pa_genset _ _ _ _ PO) as (EG & PG). destruct (eq_gen e) eqn:HS; [|auto]. left. split; [reflexivity|]. split; [reflexivity|].
    rewrite <- EG in PG. destruct (PG eq_refl) as (rated & pmin & pmax & fuel & dirt & co2 & G1 & G2 & G3 & _ & _ & _ & _ & G5 & _).
    destruct (sm_gen _ SE (eq_sym EG)) as (r2 & p2 & m2 & H1 & H2 & H3 & H4 & _).
    rewrite (parameter_unique _ _ _ _ G1 H1), (parameter_unique _ _ _ _ G3 H3) in G5. rewrite G5. lra.
Qed.

Lemma always_solvable (g : nonmod Q) k e xs soc pr : sensible_for_mpc g -> posed_at g k e xs -> eq_soc_min e <= soc <= eq_soc_max e ->
  program_of pr e soc xs -> exists p u, satisfies pr p u = true.
Proof.
  intros SE PO SL (PG & _). pose proof (idle_good _ _ _ _ _ SE PO SL) as GP. set (plan := map _ xs) in GP.
  exists (concat (map (variables (eq_gen e)) plan)), (map pl_on plan). apply PG. exists plan. split; [split; [reflexivity|reflexivity]|exact GP].
Qed.
