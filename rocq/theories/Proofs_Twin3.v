(** * A non-modular microgrid and its modular copy: every run *)

From Coq Require Import ZArith QArith Qabs Qminmax Bool String List Lia Lqa Permutation.
From Verif Require Import Num Py Space Logger Forecast Module Container Microgrid NonModular Conversion
  Proofs_Num Proofs_Logger Spec_Module Spec_Reach Proofs_Module Proofs_Ts Proofs_Any Proofs_Request
  Proofs_Battery Proofs_Genset Proofs_Data Proofs_Classes Proofs_Props
  Spec_Microgrid Spec_Sane Spec_Shaping Proofs_Container Proofs_Run Proofs_Mgrid Proofs_Views Proofs_MgProps Proofs_MgProps2
  Proofs_Build Proofs_Sane Proofs_Progress Proofs_Control Proofs_Rebuild Proofs_Episode Proofs_Rbc Proofs_RbcRun
  Spec_NonModular Proofs_NonModular Proofs_NmRun Proofs_NmReads Proofs_NmBattery Proofs_NmCost Proofs_NmTotal Proofs_NmEpisode
  Proofs_NmHistory Spec_Conversion Proofs_Conversion Proofs_Twin Proofs_Twin2.
Import ListNotations.
Local Open Scope string_scope.
Local Open Scope list_scope.
Local Open Scope Q_scope.

(** ** Records *)
Lemma gained_same p p' k (x y : Q) : gained p p' k (CNum x) -> gained p p' k (CNum y) -> x = y.
Proof.
  intros (l & A & B) (l' & A' & B'). rewrite A in A'. injection A' as <-. rewrite B in B'.
  injection B' as E. apply app_inv_head in E. congruence.
Qed.
Lemma produced_unique g g' o o' : produced g g' o -> produced g g' o' -> o = o'.
Proof.
  intros (B & G & N & P1 & P2 & P3 & P4) (B' & G' & N' & P1' & P2' & P3' & P4').
  destruct o as [a1 a2 a3 a4 a5 a6 a7 a8 a9], o' as [b1 b2 b3 b4 b5 b6 b7 b8 b9]. cbn in *.
  assert (a1 = b1 /\ a2 = b2) as [-> ->].
  { destruct (has_battery (nm_arch g)); destruct B, B'; split; try congruence; eapply gained_same; eassumption. }
  assert (a3 = b3 /\ a4 = b4) as [-> ->].
  { destruct (has_grid (nm_arch g)); destruct G, G'; split; try congruence; eapply gained_same; eassumption. }
  assert (a5 = b5) as -> by (destruct (has_genset (nm_arch g)); [eapply gained_same; eassumption|congruence]).
  f_equal; eapply gained_same; eassumption.
Qed.
Lemma latest_same r k (x y : Q) : latest r k (CNum x) -> latest r k (CNum y) -> x = y.
Proof.
  intros (l & A) (l' & A'). rewrite A in A'. injection A' as E. apply app_inj_tail in E. destruct E as [_ E]. congruence.
Qed.
Lemma limited_id x l : 0 <= x -> x <= l -> limited x l == x.
Proof.
  intros A B. unfold limited. assert (E : Qmax 0 x == x) by (apply Q.max_r; exact A). rewrite E. apply Q.min_l. exact B.
Qed.

Lemma descends_trans a b c : descends a b -> descends b c -> descends a c.
Proof.
  intros [A1 A2 A3 A4 A5 A6 A7 A8 A9 A10 A11 A12 A13 A14 A15] [B1 B2 B3 B4 B5 B6 B7 B8 B9 B10 B11 B12 B13 B14 B15].
  constructor; try congruence.
  - intros k N. rewrite (B8 k N). apply A8. exact N.
  - intros x X. destruct (A9 x X) as (y & Y). exact (B9 y Y).
  - intros k x l X. destruct (A15 k x l X) as (l' & Y). exact (B15 k x l' Y).
Qed.

(** ** The rest *)
Lemma rest_exact x R pv loss over cur gp gu tu cu :
  pv + loss - over == R -> 0 <= loss -> 0 <= over -> (loss == 0 \/ over == 0 /\ pv == x) ->
  pv + cur == x -> 0 <= pv -> 0 <= cur -> (over == 0 \/ pv == 0) ->
  gp + gu - tu == R -> 0 <= gp -> gp <= x -> cu == x - gp -> 0 <= gu -> 0 <= tu ->
  (0 < gu -> gp == x /\ tu == 0) -> (0 < tu -> gp == 0 /\ gu == 0) ->
  gp == pv /\ cu == cur /\ gu == loss /\ tu == over.
Proof.
  intros E1 L0 O0 A1 E2 P0 C0 A2 E3 G0 G1 E4 U0 T0 I1 I2.
  destruct (Qlt_le_dec 0 gu) as [U|U]; [destruct (I1 U); clear I1 I2|clear I1; destruct (Qlt_le_dec 0 tu) as [V|V]; [destruct (I2 V)|]; clear I2];
    destruct A1 as [A1|[A1 A1']], A2 as [A2|A2]; conj; lra.
Qed.
Lemma rest_near x R pv loss over cur gp gu tu cu :
  - (1#1000) < x - R -> x - R < 1#1000 -> pv == x -> loss == 0 -> over == 0 -> pv + cur == x ->
  gp + gu - tu == R -> 0 <= gp -> gp <= x -> cu == x - gp -> 0 <= gu -> 0 <= tu ->
  (0 < gu -> gp == x /\ tu == 0) -> (0 < tu -> gp == 0 /\ gu == 0) ->
  - (1#1000) <= gp - pv <= 1#1000 /\ - (1#1000) <= cu - cur <= 1#1000
  /\ - (1#1000) <= gu - loss <= 1#1000 /\ - (1#1000) <= tu - over <= 1#1000.
Proof.
  intros N1 N2 P L O E2 E3 G0 G1 E4 U0 T0 I1 I2.
  destruct (Qlt_le_dec 0 gu) as [U|U]; [destruct (I1 U); clear I1 I2|clear I1; destruct (Qlt_le_dec 0 tu) as [V|V]; [destruct (I2 V)|]; clear I2];
    conj; lra.
Qed.

(** ** One run of both *)
Section Both.
Variables (g0 : nonmod Q) (D : list (mdef Q)).
Hypothesis PL : plausible g0.
Hypothesis HP : has_pv (nm_arch g0) = true.
Hypothesis LD : modular_list false g0 = Ok D.

Lemma agree_follows g control o : nm_par g = nm_par g0 -> nm_arch g = nm_arch g0 -> agreeable g control -> follows g control o ->
  (if has_battery (nm_arch g) then exists ch di, dget "battery_charge" control = Some ch /\ dget "battery_discharge" control = Some di
     /\ oc_charge o == ch /\ oc_discharge o == di else oc_charge o = 0 /\ oc_discharge o = 0)
  /\ (if has_grid (nm_arch g) then exists i e, dget "grid_import" control = Some i /\ dget "grid_export" control = Some e
     /\ oc_import o == i /\ oc_export o == e else oc_import o = 0 /\ oc_export o = 0)
  /\ (if has_genset (nm_arch g) then exists p, dget "genset" control = Some p /\ oc_genset o == p else oc_genset o = 0).
Proof.
  intros EP EA (AB & AG & AN) (FB & FG & FN). conj.
  - destruct (has_battery (nm_arch g)) eqn:HB; [|exact FB].
    destruct (AB eq_refl) as (ch & di & soc & cap & smin & smax & eff & pc & pd & E1 & E2 & LS & P1 & P2 & P3 & P4 & P5 & P6
      & C0 & C1 & C2 & SM & D0 & D1 & D2 & CD).
    destruct FB as (x & y & soc' & cc & cd & F1 & F2 & LS' & (smax' & cap' & eff' & pc' & Q1 & Q2 & Q3 & Q4 & LC)
      & (smin' & cap2 & eff2 & pd' & R1 & R2 & R3 & R4 & LDi) & O1 & O2).
    pose proof (latest_same _ _ _ _ LS LS') as <-. unfold parameter in *.
    assert (x = ch) as -> by congruence. assert (y = di) as -> by congruence.
    assert (smax' = smax) as -> by congruence. assert (cap' = cap) as -> by congruence. assert (eff' = eff) as -> by congruence.
    assert (pc' = pc) as -> by congruence. assert (smin' = smin) as -> by congruence. assert (cap2 = cap) as -> by congruence.
    assert (eff2 = eff) as -> by congruence. assert (pd' = pd) as -> by congruence.
    rewrite EA in HB. destruct (pl_battery _ PL HB) as (cap3 & smin3 & pc3 & pd3 & eff3 & cost3 & soc3 & T1 & T2 & T3 & T4 & T5 & T6 & T7 & T8 & T9 & T10 & T11 & T12 & _).
    unfold parameter in *. rewrite <- EP in *. assert (eff3 = eff) as -> by congruence. assert (pd3 = pd) as -> by congruence.
    exists ch, di. conj; auto.
    + rewrite O1. apply limited_id; [exact C0|]. rewrite LC.
      apply Q.min_glb; [|exact C1]. apply Qle_trans with (1 := C2). apply Q.le_max_r.
    + rewrite O2. apply limited_id; [exact D0|]. rewrite LDi.
      apply Q.min_glb; [apply Qle_trans with (1 := D2); apply Q.le_max_r|].
      apply Qle_trans with (1 := D1). rewrite <- (Qmult_1_r pd) at 2. rewrite !(Qmult_comm pd). apply Qmult_le_compat_r; assumption.
  - destruct (has_grid (nm_arch g)) eqn:HG; [|exact FG].
    destruct (AG eq_refl) as (i & e & mi & me & E1 & E2 & P1 & P2 & I0 & I1 & X0 & X1 & _).
    destruct FG as (x & y & mi' & me' & F1 & F2 & Q1 & Q2 & O1 & O2). unfold parameter in *.
    assert (x = i) as -> by congruence. assert (y = e) as -> by congruence.
    assert (mi' = mi) as -> by congruence. assert (me' = me) as -> by congruence.
    exists i, e. conj; auto; [rewrite O1|rewrite O2]; apply limited_id; assumption.
  - destruct (has_genset (nm_arch g)) eqn:HG; [|exact FN].
    destruct (AN eq_refl) as (p & rated & pmin & pmax & E1 & P1 & P2 & P3 & DJ).
    destruct FN as (x & rated' & pmin' & pmax' & F1 & Q1 & Q2 & Q3 & LO & HI). unfold parameter in *.
    assert (x = p) as -> by congruence. assert (rated' = rated) as -> by congruence.
    assert (pmin' = pmin) as -> by congruence. assert (pmax' = pmax) as -> by congruence.
    rewrite EA in HG. destruct (pl_genset _ PL HG) as (rated3 & pmin3 & pmax3 & fuel & co2 & cost & T1 & T2 & T3 & _ & _ & _ & R0 & M0 & MM).
    unfold parameter in *. rewrite <- EP in *. assert (rated3 = rated) as -> by congruence.
    assert (pmin3 = pmin) as -> by congruence. assert (pmax3 = pmax) as -> by congruence.
    assert (N0 : 0 <= pmin * rated) by (apply Qmult_le_0_compat; assumption).
    assert (NN : pmin * rated <= pmax * rated) by (apply Qmult_le_compat_r; assumption).
    exists p. split; [exact E1|]. destruct (Qlt_le_dec 1 p) as [L|L].
    + rewrite (HI L). destruct DJ as [DJ|[D1 D2]]; [exfalso; lra|].
      rewrite (Qmult_comm rated pmin), (Qmult_comm rated pmax).
      assert (E : Qmax p (pmin * rated) == p) by (apply Q.max_l; exact D1). rewrite E. apply Q.min_l. exact D2.
    + rewrite (LO L). apply limited_id; rewrite ?(Qmult_comm rated pmax); destruct DJ as [DJ|[D1 D2]]; lra.
Qed.

(** What the two runs have in common *)
Definition alike_runs (g : nonmod Q) (g' : nonmod Q) (mg mg' : mgrid Q) (rw : Q) (es : list event) (o : outcome) : Prop :=
  did mg es mg' /\ produced g g' o /\ same_dispatch g o es /\ same_rest (1 # 1000) o es
  /\ (1 # 1000 <= Qabs (pv_required g o - now_pv (nm_now g)) -> same_rest 0 o es)
  /\ (forall i m b soc, at_index mg' i m -> m_kind m = KBattery b -> latest (nm_state g') "battery_soc" (CNum soc) ->
        b_soc b == soc /\ b_charge b == soc * b_max_capacity b)
  /\ exists total l ov extra, gained (nm_cost g) (nm_cost g') "total_cost" (CNum total)
       /\ parameter g "cost_loss_load" l /\ parameter g "cost_overgeneration" ov /\ 0 <= l /\ 0 <= ov
       /\ (if has_battery (nm_arch g)
           then exists cyc eff, parameter g "battery_cost_cycle" cyc /\ parameter g "battery_efficiency" eff
                  /\ extra == cyc * (oc_charge o * (eff - 1) + oc_discharge o * (1 / eff - 1))
           else extra == 0)
       /\ forall tol, same_rest tol o es -> Qabs (- rw - (total + extra)) <= (l + ov) * tol.

Lemma twin_both g mg control g' v : twin g0 D g mg -> agreeable g control -> nm_run control g = (g', Ok v) ->
  exists mg' obs rw dn inf es o, run (modular_control g control) false mg = (mg', Ok (obs, rw, dn, inf))
    /\ (forall i d, nth_error D i = Some d -> exists e, In e es /\ ev_id e = i)
    /\ alike_runs g g' mg mg' rw es o.
Proof.
  intros TW AG RN. destruct (tw_runs g0 D PL HP LD g mg TW control AG) as (mg' & [[[obs rw] dn] inf] & RM).
  destruct (tw_modules g0 D PL HP LD g mg TW control AG mg' obs rw dn inf RM)
    as (es & DID & RW & EACH & SUM & BAL & (L1 & L2 & L3) & (V1 & V2 & V3 & V4 & V5) & (U1 & U2 & U3 & U4 & l & ov & PA & PB & U5) & BP & GP & NP).
  destruct (run_balance _ _ _ _ RN) as (o & PR & SD & LO0 & OV0 & DJ & PVC).
  destruct (run_follows _ _ _ _ RN) as (o1 & PR1 & FO). rewrite <- (produced_unique _ _ _ _ PR PR1) in FO. clear o1 PR1.
  destruct (run_bill _ _ _ _ (eq_cost _ (tw_eq _ _ _ _ TW)) RN) as (o1 & em & total & PR1 & GE & GT & BI).
  rewrite <- (produced_unique _ _ _ _ PR PR1) in BI. clear o1 PR1.
  assert (EP := tw_par _ _ _ _ TW). assert (EA := ds_arch _ _ (tw_desc _ _ _ _ TW)).
  destruct (agree_follows g control o EP EA AG FO) as (FB & FG & FN).
  assert (X0 : 0 <= now_pv (nm_now g)) by (apply Qle_trans with (1 := V2); exact V3).
  destruct (PVC X0) as (PC1 & PC2 & PC3 & PC4). clear PVC.
  (* the controllable modules *)
  assert (KB : taken "battery" es == oc_charge o /\ given "battery" es == oc_discharge o).
  { unfold battery_part in BP. destruct (has_battery (nm_arch g)).
    - destruct BP as (ch & di & cap & eff & cyc & E1 & E2 & _ & _ & _ & T & G & _). destruct FB as (ch' & di' & E1' & E2' & A & B).
      assert (ch' = ch) as -> by congruence. assert (di' = di) as -> by congruence. rewrite T, G, A, B. split; reflexivity.
    - destruct BP as (T & G & _). destruct FB as (A & B). rewrite T, G, A, B. split; reflexivity. }
  assert (KG : given "grid" es == oc_import o /\ taken "grid" es == oc_export o).
  { unfold grid_part in GP. destruct (has_grid (nm_arch g)).
    - destruct GP as (i & e & co2 & E1 & E2 & _ & G & T & _). destruct FG as (i' & e' & E1' & E2' & A & B).
      assert (i' = i) as -> by congruence. assert (e' = e) as -> by congruence. rewrite T, G, A, B. split; reflexivity.
    - destruct GP as (T & G & _). destruct FG as (A & B). rewrite T, G, A, B. split; reflexivity. }
  assert (KN : given "genset" es == oc_genset o /\ taken "genset" es == 0).
  { unfold genset_part in NP. destruct (has_genset (nm_arch g)).
    - destruct NP as (p & fuel & dirt & co2 & E1 & _ & _ & _ & G & T & _). destruct FN as (p' & E1' & A).
      assert (p' = p) as -> by congruence. rewrite T, G, A. split; reflexivity.
    - destruct NP as (T & G & _). rewrite T, G, FN. split; reflexivity. }
  destruct KB as [KB1 KB2]. destruct KG as [KG1 KG2]. destruct KN as [KN1 KN2].
  assert (RQ : given "PV" es + given "unbalanced_energy" es - taken "unbalanced_energy" es == pv_required g o).
  { pose proof (SUM ev_provided) as S1. pose proof (SUM ev_absorbed) as S2. fold (given "load" es) (given "PV" es) (given "unbalanced_energy" es)
      (given "battery" es) (given "genset" es) (given "grid" es) in S1.
    fold (taken "load" es) (taken "PV" es) (taken "unbalanced_energy" es) (taken "battery" es) (taken "genset" es) (taken "grid" es) in S2.
    unfold pv_required. lra. }
  assert (EXA : supply o == demand (now_load (nm_now g)) o -> given "PV" es == oc_pv o /\ curtailed es == oc_curtailed o
     /\ given "unbalanced_energy" es == oc_loss o /\ taken "unbalanced_energy" es == oc_over o).
  { intros E. unfold supply, demand in E.
    assert (E' : oc_pv o + oc_loss o - oc_over o == pv_required g o) by (unfold pv_required; lra).
    eapply (rest_exact _ _ _ _ _ _ _ _ _ _ E' LO0 OV0 DJ PC1 PC2 PC3 PC4 RQ V2 V3 V4 U1 U2 U3 U4). }
  assert (ZR : forall a b tol, 0 <= tol -> a == b -> Qabs (a - b) <= tol).
  { intros a b tol T E. apply Qabs_Qle_condition. split; lra. }
  exists mg', obs, rw, dn, inf, es, o. split; [exact RM|]. split; [exact EACH|].
  split; [exact DID|]. split; [exact PR|]. split; [unfold same_dispatch; conj; assumption|]. split.
  { destruct SD as [SD|(N & P & L & O)].
    - destruct (EXA SD) as (A & B & C & E). unfold same_rest. conj; apply ZR; auto; lra.
    - apply Qabs_Qlt_condition in N. destruct N as [N1 N2]. unfold supply, demand in N1, N2.
      assert (M1 : - (1#1000) < now_pv (nm_now g) - pv_required g o) by (unfold pv_required; lra).
      assert (M2 : now_pv (nm_now g) - pv_required g o < 1#1000) by (unfold pv_required; lra).
      pose proof (rest_near _ _ _ _ _ _ _ _ _ _ M1 M2 P L O PC1 RQ V2 V3 V4 U1 U2 U3 U4) as (A & B & C & E).
      unfold same_rest. conj; apply Qabs_Qle_condition; assumption. }
  split.
  { intros F. destruct SD as [SD|(N & P & L & O)].
    - destruct (EXA SD) as (A & B & C & E). unfold same_rest. conj; apply ZR; auto; lra.
    - exfalso. rewrite Qabs_Qminus in F. apply (Qlt_not_le _ _ N). apply Qle_trans with (1 := F). apply Qle_lteq. right.
      apply Qabs_wd. unfold supply, demand, pv_required. lra. }
  split.
  { intros i m b soc' AI K LS'. unfold battery_part in BP. destruct (has_battery (nm_arch g)) eqn:HB.
    - destruct (run_soc _ _ _ _ RN HB) as (o1 & soc & c1 & d1 & soc1 & PR1 & LS & CD & (eff' & cap' & PE & PC & ->) & GS).
      rewrite <- (produced_unique _ _ _ _ PR PR1) in CD. apply gained_latest in GS.
      rewrite (latest_same _ _ _ _ LS' GS). clear LS' GS.
      destruct BP as (ch & di & cap & eff & cyc & E1 & E2 & P1 & P2 & P3 & _ & _ & _ & NX). unfold parameter in P1, P2.
      assert (eff' = eff) as -> by congruence. assert (cap' = cap) as -> by congruence.
      destruct FB as (ch' & di' & E1' & E2' & A & B). assert (ch' = ch) as -> by congruence. assert (di' = di) as -> by congruence.
      eapply (NX soc _ LS); [|exact AI|exact K].
      destruct (has_grid (nm_arch g)).
      + destruct CD as [-> ->]. rewrite A, B. reflexivity.
      + destruct CD as [X Y]. assert (c1 = ch) as -> by congruence. assert (d1 = di) as -> by congruence. reflexivity.
    - exfalso. assert (FM : from_modules D mg') by (exact (proj1 (run_keeps _ _ _ _ _ _ (tw_from _ _ _ _ TW) RM))).
      pose proof (from_modules_inv _ _ FM) as IV. destruct (Forall2_nth_r _ _ _ i m (iv_mods _ _ IV) AI) as (d & ND & _ & ML).
      pose proof (ml_kind _ _ ML) as LK. rewrite K in LK.
      pose proof (list_cases g0 D LD d (nth_error_In _ _ ND)) as CV.
      destruct CV as [(_ & CV & _)|[(_ & CV & _)|[(_ & _ & CV & _)|[(H & _)|[(_ & _ & CV & _)|(_ & _ & CV & _)]]]]].
      + destruct CV as (_ & (t & K') & _). rewrite K' in LK. exact LK.
      + destruct CV as (_ & u & K' & _). rewrite K' in LK. exact LK.
      + destruct CV as (_ & (t & K') & _). rewrite K' in LK. exact LK.
      + rewrite EA in HB. congruence.
      + destruct CV as (_ & _ & s & _ & _ & _ & _ & K' & _). rewrite K' in LK. exact LK.
      + destruct CV as (_ & (gr & t & K' & _) & _). rewrite K' in LK. exact LK. }
  destruct (pl_costs _ PL) as (l' & ov' & PA' & PB' & Z1 & Z2). unfold parameter in PA', PB'. rewrite <- EP in PA', PB'.
  assert (l' = l) as -> by (unfold parameter in PA; congruence). assert (ov' = ov) as -> by (unfold parameter in PB; congruence). clear PA' PB'.
  destruct BI as (l1 & ov1 & co2 & fuel & dirt & cyc & P1 & P2 & P3 & P4 & P5 & EM & TO). unfold parameter in *.
  assert (l1 = l) as -> by congruence. assert (ov1 = ov) as -> by congruence.
  assert (SR : rw == earned "load" es + (earned "unbalanced_energy" es + (earned "PV" es + (earned "battery" es + (earned "genset" es + (earned "grid" es + 0)))))).
  { rewrite RW. exact (SUM ev_reward). }
  assert (XB : exists extra, (if has_battery (nm_arch g)
           then exists cyc eff, dget "battery_cost_cycle" (nm_par g) = Some cyc /\ dget "battery_efficiency" (nm_par g) = Some eff
                  /\ extra == cyc * (oc_charge o * (eff - 1) + oc_discharge o * (1 / eff - 1))
           else extra == 0)
        /\ - earned "battery" es == cyc * (oc_charge o + oc_discharge o) + extra).
  { unfold battery_part in BP. destruct (has_battery (nm_arch g)).
    - destruct BP as (ch & di & cap & eff & cyc' & E1 & E2 & _ & Q1 & Q2 & _ & _ & EB & _). unfold parameter in *.
      assert (cyc' = cyc) as -> by congruence. destruct FB as (ch' & di' & E1' & E2' & A & B).
      assert (ch' = ch) as -> by congruence. assert (di' = di) as -> by congruence.
      eexists. split; [exists cyc, eff; split; [exact P5|]; split; [exact Q1|reflexivity]|].
      rewrite EB, A, B. unfold Qdiv. ring.
    - destruct BP as (_ & _ & EB). exists 0. split; [reflexivity|]. rewrite EB, P5. ring. }
  destruct XB as (extra & XE & XB).
  assert (XG : - earned "grid" es == now_import (nm_now g) * oc_import o - now_export (nm_now g) * oc_export o + co2 * (now_co2 (nm_now g) * oc_import o)).
  { unfold grid_part in GP. destruct (has_grid (nm_arch g)).
    - destruct GP as (i & e & co2' & E1 & E2 & Q1 & _ & _ & EG). unfold parameter in *. assert (co2' = co2) as -> by congruence.
      destruct FG as (i' & e' & E1' & E2' & A & B). assert (i' = i) as -> by congruence. assert (e' = e) as -> by congruence.
      rewrite EG, A, B. ring.
    - destruct GP as (_ & _ & EG). destruct FG as [A B]. rewrite EG, A, B. ring. }
  assert (XN : - earned "genset" es == fuel * oc_genset o + co2 * (dirt * oc_genset o)).
  { unfold genset_part in NP. destruct (has_genset (nm_arch g)).
    - destruct NP as (p & fuel' & dirt' & co2' & E1 & Q1 & Q2 & Q3 & _ & _ & EG). unfold parameter in *. destruct P4 as [P4 P4'].
      assert (co2' = co2) as -> by congruence. assert (fuel' = fuel) as -> by congruence. assert (dirt' = dirt) as -> by congruence.
      destruct FN as (p' & E1' & A). assert (p' = p) as -> by congruence. rewrite EG, A. ring.
    - destruct NP as (_ & _ & EG). destruct P4 as [-> ->]. rewrite EG, FN. ring. }
  exists total, l, ov, extra. conj; auto.
  intros tol (_ & _ & S3 & S4). apply Qabs_Qle_condition in S3, S4. destruct S3 as [S3 S3'], S4 as [S4 S4'].
  assert (DF : - rw - (total + extra) == l * (given "unbalanced_energy" es - oc_loss o) + ov * (taken "unbalanced_energy" es - oc_over o)).
  { rewrite TO, EM.
    assert (- rw == (l * given "unbalanced_energy" es + ov * taken "unbalanced_energy" es) + - earned "battery" es + - earned "genset" es + - earned "grid" es) as ->.
    { rewrite SR, L3, V5, U5. ring. }
    rewrite XB, XG, XN. ring. }
  rewrite DF. apply Qabs_Qle_condition.
  pose proof (Qmult_le_compat_r _ _ l S3 Z1) as W1. pose proof (Qmult_le_compat_r _ _ l S3' Z1) as W2.
  pose proof (Qmult_le_compat_r _ _ ov S4 Z2) as W3. pose proof (Qmult_le_compat_r _ _ ov S4' Z2) as W4.
  split; lra.
Qed.

(** ** Afterwards they are still twins *)
Lemma twin_next g mg control g' v mg' out : twin g0 D g mg -> agreeable g control -> ~ last_step g ->
  nm_run control g = (g', Ok v) -> run (modular_control g control) false mg = (mg', Ok out) -> twin g0 D g' mg'.
Proof.
  intros TW AG NL RN RM. destruct (twin_both g mg control g' v TW AG RN) as (mg1 & obs & rw & dn & inf & es & o & RM1 & EACH & AL).
  rewrite RM in RM1. injection RM1 as <- ->.
  destruct AL as (DID & _ & _ & _ & _ & SOC & _).
  destruct (run_keeps _ _ _ _ _ _ (tw_from _ _ _ _ TW) RM) as (FM & SH & _).
  destruct (run_advances _ _ _ _ (tw_clock _ _ _ _ TW) RN) as (_ & ADV & _ & _ & US & _). destruct (ADV NL) as (T & _ & RD & _).
  destruct (run_kept _ _ _ _ RN) as (KP & _).
  assert (GA : g' = nm_after [HRun control] g) by (unfold nm_after; cbn [fold_left]; unfold nm_do; rewrite RN; reflexivity).
  pose proof (tw_desc _ _ _ _ TW) as DS. pose proof (tw_clock _ _ _ _ TW) as CK. pose proof (tw_eq _ _ _ _ TW) as EQ.
  constructor.
  - exact FM.
  - rewrite SH. exact (tw_shaper _ _ _ _ TW).
  - intros i m' A'. pose proof (from_modules_inv _ _ FM) as IV. destruct (Forall2_nth_r _ _ _ i m' (iv_mods _ _ IV) A') as (d & ND & _).
    destruct (EACH i d ND) as (e & I & ID). destruct DID as [PF DI]. destruct (performs_each _ _ _ PF DI e I) as (m & m1 & A & A1 & ST).
    rewrite ID in A, A1. assert (m1 = m') as -> by (unfold at_index in A'; congruence).
    destruct (tw_def g0 D PL LD g mg TW i m A) as (_ & _ & P & _).
    destruct (step_clock _ _ _ _ _ (ph_ok _ P) ST) as (_ & _ & C & _). rewrite C, (tw_cur _ _ _ _ TW i m A). lia.
  - rewrite KP. exact (tw_par _ _ _ _ TW).
  - rewrite GA. pose proof (descends_after [HRun control] g) as DS'. eapply descends_trans; eassumption.
  - rewrite US. exact (tw_use _ _ _ _ TW).
  - exact RD.
  - rewrite GA. apply clock_after; [exact EQ| |exact CK|].
    + pose proof (ck_len _ CK) as L. pose proof (ck_t _ CK) as TT. rewrite (tw_use _ _ _ _ TW), data_length_all in L. lia.
    + repeat constructor.
  - rewrite GA. apply equipped_after. exact EQ.
  - exact SOC.
Qed.

(** ** At first *)
Lemma twin_first mg0 : starting g0 -> new_microgrid D false 0 0 None None = Ok mg0 -> twin g0 D g0 mg0.
Proof.
  intros ((sp & h & W & N) & SB) E. destruct (new_microgrid_inv _ _ _ _ _ _ _ E) as (ct & ms & GS & _ & M & SH & _).
  pose proof (new_nonmodular_ok _ _ _ N) as NO.
  destruct NO as (_ & _ & _ & _ & _ & _ & _ & _ & _ & _ & _ & _ & _ & _ & _ & T0 & LN & _ & _ & _ & _ & _ & DF & US).
  destruct (get_subcontainers_mods _ _ _ _ _ GS) as (LE & NTH). change (all_defs D false 0 0) with D in *.
  assert (AT : forall i m, at_index mg0 i m -> exists d nn, nth_error D i = Some d /\ m = set_name (snd d) nn).
  { intros i m A. unfold at_index in A. rewrite M in A. destruct (nth_error D i) as [d|] eqn:ND.
    - rewrite (NTH i d ND) in A. injection A as <-. eauto.
    - apply nth_error_None in ND. assert (i < length ms)%nat by (apply nth_error_Some; congruence). lia. }
  constructor.
  - exists D, false, 0, 0, None, None, mg0, []. split; [split; [|exact E]|split; reflexivity].
    pose proof (modular_converted _ _ _ LD) as F. eapply Forall_impl; [|exact F]. intros d (_ & _ & B). exists (snd d), []. split; [exact B|reflexivity].
  - exact SH.
  - intros i m A. destruct (AT i m A) as (d & nn & ND & ->).
    destruct (list_finals false g0 PL D LD) as (F & _). destruct (F d (nth_error_In _ _ ND)) as (_ & C & _). rewrite T0. destruct (snd d). exact C.
  - reflexivity.
  - exact (descends_after [] g0).
  - exact US.
  - exact (proj1 (new_reads _ _ _ N)).
  - apply (clock_new _ _ _ N). pose proof (new_rows _ _ _ N). lia.
  - exact (equipped_new _ _ _ W N).
  - intros i m b soc A K LS. destruct (AT i m A) as (d & nn & ND & ->).
    assert (K' : m_kind (snd d) = KBattery b) by (destruct (snd d); exact K). clear K.
    pose proof (list_cases g0 D LD d (nth_error_In _ _ ND)) as CV.
    destruct CV as [(_ & CV & _)|[(_ & CV & _)|[(_ & _ & CV & _)|[(H & _ & CV & _)|[(_ & _ & CV & _)|(_ & _ & CV & _)]]]]].
    + destruct CV as (_ & (t & K) & _). congruence.
    + destruct CV as (_ & u & K & _). congruence.
    + destruct CV as (_ & (t & K) & _). congruence.
    + destruct CV as (_ & b' & cap & smin & soc' & K & _ & _ & _ & BS & E1 & _ & E2 & E3 & _).
      assert (b' = b) as -> by congruence. specialize (SB H). rewrite BS in SB. rewrite (latest_same _ _ _ _ LS SB), E2, E3, E1. split; reflexivity.
    + destruct CV as (_ & _ & s & _ & _ & _ & _ & K & _). congruence.
    + destruct CV as (_ & (gr & t & K & _) & _). congruence.
Qed.
End Both.

(** ** Along all runs *)
Lemma twins_all (g0 : nonmod Q) mg0 g mg : plausible g0 -> has_pv (nm_arch g0) = true -> starting g0 -> to_modular false g0 = Ok mg0 ->
  side_by_side g0 mg0 g mg -> exists D, modular_list false g0 = Ok D /\ twin g0 D g mg.
Proof.
  intros PL HP ST TM SS. unfold to_modular in TM. apply rbind_ok in TM. destruct TM as (D & LD & NM). exists D. split; [exact LD|].
  induction SS as [|g mg control g' v mg' out SS IH AG NL RN RM].
  - apply twin_first; assumption.
  - eapply twin_next; eassumption.
Qed.
Lemma runs_alike (g0 : nonmod Q) mg0 g mg control g' v : plausible g0 -> has_pv (nm_arch g0) = true -> starting g0 ->
  to_modular false g0 = Ok mg0 -> side_by_side g0 mg0 g mg -> agreeable g control -> nm_run control g = (g', Ok v) ->
  exists mg' obs rw dn inf es o, run (modular_control g control) false mg = (mg', Ok (obs, rw, dn, inf))
    /\ alike_runs g g' mg mg' rw es o.
Proof.
  intros PL HP ST TM SS AG RN. destruct (twins_all _ _ _ _ PL HP ST TM SS) as (D & LD & TW).
  destruct (twin_both g0 D PL HP LD g mg control g' v TW AG RN) as (mg' & obs & rw & dn & inf & es & o & RM & _ & AL). eauto 10.
Qed.
