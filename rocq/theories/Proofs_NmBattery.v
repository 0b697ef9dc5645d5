(** * The battery of a non-modular microgrid *)

From Coq Require Import ZArith QArith Qabs Qminmax Bool String List Lia Lqa Permutation.
From Verif Require Import Num Py Proofs_Num Proofs_Run NonModular Spec_NonModular Proofs_NonModular Proofs_NmRun
  Proofs_NmHistory.
Import ListNotations.
Local Open Scope string_scope.
Local Open Scope list_scope.
Local Open Scope Q_scope.

Lemma find_last (p : record Q) prod k x : last_row p = Ok prod -> latest p k (CNum x) -> find_num prod k = Ok x.
Proof.
  intros L (l & E). destruct (last_row_get _ _ _ _ L E) as (y & Y1 & Y2). rewrite last_of_snoc in Y1.
  injection Y1 as <-. unfold find_num. apply dfind_ok in Y2. rewrite Y2. reflexivity.
Qed.

Lemma gained_latest p p' k x : gained p p' k x -> latest p' k x.
Proof. intros (l & _ & E). exists l. exact E. Qed.

Lemma map_get (d : dict Q) k : dget k (map (fun kv => (fst kv, @CNum Q (snd kv))) d) = option_map CNum (dget k d).
Proof. induction d as [|[k' x] d IH]; simpl; [reflexivity|]. destruct (String.eqb k k'); [reflexivity|assumption]. Qed.

Lemma append_row_ok row (df df' : record Q) u k l : append_row row df = (df', Ok u) -> dget k df = Some l ->
  exists x, dget k row = Some x /\ dget k df' = Some (l ++ [x]).
Proof.
  revert df' u. induction df as [|[k' l'] df IH]; simpl; intros df' u H E; [discriminate|].
  destruct (dget k' row) as [x|] eqn:R; [|unfold raise in H; discriminate H].
  destruct (append_row row df) as [d' r'] eqn:Q'. injection H as <- ->. simpl.
  destruct (String.eqb k k') eqn:K.
  - apply String.eqb_eq in K. subst k'. injection E as <-. eauto.
  - eapply IH; [reflexivity|exact E].
Qed.

(** The charge after a step in which [c] and [d] were exchanged. *)
Definition soc_after (par : dict Q) (soc c d soc' : Q) : Prop :=
  exists eff cap, dget "battery_efficiency" par = Some eff /\ dget "battery_capacity" par = Some cap
    /\ soc' = soc + (c * eff - d / eff) / cap.

Lemma update_status_soc par ar t prod nx st s r : has_battery ar = true ->
  update_status par ar t prod nx st = (s, r) ->
  s = st \/ exists soc c d soc', latest st "battery_soc" (CNum soc)
    /\ find_num prod "battery_charge" = Ok c /\ find_num prod "battery_discharge" = Ok d
    /\ soc_after par soc c d soc'
    /\ (forall l, dget "battery_soc" st = Some l ->
          dget "battery_soc" s = Some l \/ dget "battery_soc" s = Some (l ++ [CNum soc']))
    /\ (forall u, r = Ok u -> gained st s "battery_soc" (CNum soc')).
Proof.
  intros HB H. unfold update_status in H. rewrite HB in H.
  mgo H E g1; [unfold mget in E; injection E as <- <-|discriminate E].
  apply mbind_inv in H. destruct H as [(g1 & b & E & H)|(e & E & ->)]; unfold mlift in E.
  2:{ left. injection E as <- _. reflexivity. }
  injection E as <- E. right. minv. unfind. injection E as <-.
  match goal with H : latest _ _ (CNum ?a) |- _ => rename a into soc; rename H into HS end.
  match goal with H : find_num _ "battery_charge" = Ok ?a |- _ => rename a into c; rename H into HC end.
  match goal with H : find_num _ "battery_discharge" = Ok ?a |- _ => rename a into d; rename H into HD end.
  match goal with H : dget "battery_efficiency" _ = Some ?a |- _ => rename a into eff; rename H into HE end.
  match goal with H : dget "battery_capacity" _ = Some ?a |- _ => rename a into cap; rename H into HP end.
  exists soc, c, d, (soc + (c * eff - d / eff) / cap).
  split; [exact HS|]. split; [exact HC|]. split; [exact HD|].
  split; [exists eff, cap; auto|].
  pose proof (append_row_any _ _ _ _ H) as (A1 & A2). split.
  - intros l E. destruct (A2 _ _ E) as [E'|(x' & X1 & X2)]; [left; exact E'|right].
    simpl in X1. injection X1 as <-. exact X2.
  - intros u ->. destruct HS as (l0 & E). exists (l0 ++ [CNum soc]). split; [exact E|].
    destruct (append_row_ok _ _ _ _ _ _ H E) as (x' & X1 & X2).
    simpl in X1. injection X1 as <-. exact X2.
Qed.

(** What the state is updated with *)
Lemma source_charge control (g : nonmod Q) p prod x : has_battery (nm_arch g) = true ->
  columns_gained (nm_arch g) (nm_production g) p x -> last_row p = Ok prod ->
  battery_part (nm_par g) (nm_arch g) (full_control control g) (nm_state g) x ->
  exists c d, find_num (status_source g prod control) "battery_charge" = Ok c
    /\ find_num (status_source g prod control) "battery_discharge" = Ok d
    /\ (if has_grid (nm_arch g) then c = oc_charge x /\ d = oc_discharge x
        else dget "battery_charge" control = Some c /\ dget "battery_discharge" control = Some d).
Proof.
  intros HB C L B. unfold columns_gained in C. unfold battery_part in B. rewrite HB in C, B.
  destruct C as ((C1 & C2) & _). unfold status_source. destruct (has_grid (nm_arch g)) eqn:G.
  - exists (oc_charge x), (oc_discharge x).
    split; [eapply find_last; [exact L|]; eapply gained_latest; exact C1|].
    split; [eapply find_last; [exact L|]; eapply gained_latest; exact C2|]. auto.
  - destruct B as (a & b & soc & B1 & B2 & _ & _).
    exists a, b. unfold find_num.
    rewrite (proj2 (dfind_ok _ _ (CNum a)))
      by (rewrite map_get, B1; reflexivity).
    rewrite (proj2 (dfind_ok _ _ (CNum b)))
      by (rewrite map_get, B2; reflexivity).
    rewrite full_control_get in B1, B2 by discriminate. auto.
Qed.

Lemma run_soc control (g : nonmod Q) g' v : nm_run control g = (g', Ok v) -> has_battery (nm_arch g) = true ->
  exists o soc c d soc', produced g g' o /\ latest (nm_state g) "battery_soc" (CNum soc)
    /\ (if has_grid (nm_arch g) then c = oc_charge o /\ d = oc_discharge o
        else dget "battery_charge" control = Some c /\ dget "battery_discharge" control = Some d)
    /\ soc_after (nm_par g) soc c d soc'
    /\ gained (nm_state g) (nm_state g') "battery_soc" (CNum soc').
Proof.
  intros H HB. apply run_records in H. destruct H as (prod & R & _).
  destruct (recorded_outcome _ _ _ _ _ _ _ R) as (o & C & F & BP & PV).
  destruct (source_charge _ _ _ _ _ HB C (rc_last _ _ _ _ _ _ _ R) BP) as (c & d & S1 & S2 & S3).
  destruct (rc_state _ _ _ _ _ _ _ R) as (u & E).
  apply update_status_soc in E; [|exact HB].
  destruct E as [E|(soc & c' & d' & soc' & L & E1 & E2 & SA & _ & G)].
  - exfalso. (* the row was appended *)
    destruct (rc_state _ _ _ _ _ _ _ R) as (u' & E').
    rewrite E in E'. unfold update_status in E'. rewrite HB in E'. minv.
    unfold battery_part in BP. rewrite HB in BP. destruct BP as (? & ? & soc & _ & _ & (l & L) & _).
    match goal with H : append_row _ _ = _ |- _ => destruct (append_row_ok _ _ _ _ _ _ H L) as (x' & _ & X2) end.
    rewrite L in X2. injection X2 as X2. apply (f_equal (@length _)) in X2. rewrite !app_length in X2. simpl in X2. lia.
  - rewrite S1 in E1. injection E1 as <-. rewrite S2 in E2. injection E2 as <-.
    exists o, soc, c, d, soc'. split; [exact C|]. split; [exact L|]. split; [exact S3|]. split; [exact SA|].
    apply (G u). reflexivity.
Qed.

(** *** Within its limits *)

Definition soc_within (smin smax : Q) (g : nonmod Q) : Prop :=
  forall l, dget "battery_soc" (nm_state g) = Some l ->
    Forall (fun c => exists s, c = CNum s /\ smin <= s /\ s <= smax) l.

(** What one exchange within the limits gives *)
Lemma soc_step g soc c d cc cd soc' smin smax cap eff pc pd :
  parameter g "battery_soc_min" smin -> parameter g "battery_soc_max" smax ->
  parameter g "battery_capacity" cap -> parameter g "battery_efficiency" eff ->
  parameter g "battery_power_charge" pc -> parameter g "battery_power_discharge" pd ->
  0 < eff <= 1 -> 0 < cap -> 0 <= pc -> 0 <= pd ->
  smin <= soc <= smax -> charge_limit g soc cc -> discharge_limit g soc cd ->
  (exists x, c == limited x cc) -> (exists y, d == limited y cd) ->
  soc_after (nm_par g) soc c d soc' -> smin <= soc' <= smax.
Proof.
  intros P1 P2 P3 P4 P5 P6 E C K1 K2 B (q1 & q2 & q3 & q4 & L1 & L2 & L3 & L4 & LE)
    (r1 & r2 & r3 & r4 & M1 & M2 & M3 & M4 & ME) (x & X) (y & Y) (e' & c' & S1 & S2 & ->).
  unfold parameter in *.
  rewrite P2 in L1; rewrite P3 in L2; rewrite P4 in L3; rewrite P5 in L4.
  rewrite P1 in M1; rewrite P3 in M2; rewrite P4 in M3; rewrite P6 in M4.
  rewrite P4 in S1; rewrite P3 in S2.
  injection L1 as <-; injection L2 as <-; injection L3 as <-; injection L4 as <-.
  injection M1 as <-; injection M2 as <-; injection M3 as <-; injection M4 as <-.
  injection S1 as <-; injection S2 as <-.
  assert (U1 : 0 <= (smax - soc) * cap * eff) by (apply Qmult_le_0_compat; [apply Qmult_le_0_compat|]; lra).
  assert (U2 : 0 <= (soc - smin) * cap * eff) by (apply Qmult_le_0_compat; [apply Qmult_le_0_compat|]; lra).
  rewrite Q.max_r in LE by assumption. rewrite Q.max_r in ME by assumption.
  assert (V1 : 0 <= cc) by (rewrite LE; apply Q.min_glb; assumption).
  assert (V2 : 0 <= cd) by (rewrite ME; apply Q.min_glb; assumption).
  assert (W1 : 0 <= c <= (smax - soc) * cap * eff).
  { rewrite X. unfold limited. split; [apply Q.min_glb; [apply Q.le_max_l|assumption]|].
    eapply Qle_trans; [apply Q.le_min_r|]. rewrite LE. apply Q.le_min_l. }
  assert (W2 : 0 <= d <= (soc - smin) * cap * eff).
  { rewrite Y. unfold limited. split; [apply Q.min_glb; [apply Q.le_max_l|assumption]|].
    eapply Qle_trans; [apply Q.le_min_r|]. rewrite ME. apply Q.le_min_l. }
  assert (E0 : ~ eff == 0) by lra. assert (C0 : ~ cap == 0) by lra.
  set (a := c * eff / cap). set (b := d / eff / cap).
  assert (EQ : (c * eff - d / eff) / cap == a - b) by (unfold a, b; field; split; assumption).
  assert (A1 : 0 <= a).
  { unfold a. apply Qle_shift_div_l; [lra|]. rewrite Qmult_0_l. apply Qmult_le_0_compat; lra. }
  assert (A2 : a <= smax - soc).
  { unfold a. apply Qle_shift_div_r; [lra|].
    assert (c * eff <= c * 1) by nra.
    assert ((smax - soc) * cap * eff <= (smax - soc) * cap * 1).
    { assert (0 <= (smax - soc) * cap) by (apply Qmult_le_0_compat; lra). nra. }
    lra. }
  assert (B1 : 0 <= b).
  { unfold b. apply Qle_shift_div_l; [lra|]. rewrite Qmult_0_l.
    apply Qle_shift_div_l; [lra|]. rewrite Qmult_0_l. lra. }
  assert (B2 : b <= soc - smin).
  { unfold b. apply Qle_shift_div_r; [lra|]. apply Qle_shift_div_r; [lra|]. lra. }
  lra.
Qed.

Lemma soc_within_run control g smin smax cap eff pc pd :
  parameter g "battery_soc_min" smin -> parameter g "battery_soc_max" smax ->
  parameter g "battery_capacity" cap -> parameter g "battery_efficiency" eff ->
  parameter g "battery_power_charge" pc -> parameter g "battery_power_discharge" pd ->
  0 < eff <= 1 -> 0 < cap -> 0 <= pc -> 0 <= pd ->
  has_battery (nm_arch g) = true -> has_grid (nm_arch g) = true ->
  soc_within smin smax g -> soc_within smin smax (fst (nm_run control g)).
Proof.
  intros P1 P2 P3 P4 P5 P6 E C K1 K2 HB HG I.
  destruct (nm_run control g) as [g' r] eqn:H. apply nm_run_any in H.
  destruct H as (p & cc & o & s & _ & _ & _ & SS & CK).
  assert (X : nm_state g' = s) by (destruct CK; reflexivity). simpl.
  unfold soc_within. rewrite X. clear X CK.
  destruct SS as [->|(prod & u & r' & EP & EL & EU)]; [exact I|].
  apply record_production_ok in EP. destruct EP as (x & BP & _ & _ & _ & CG).
  destruct (source_charge control _ _ _ _ HB CG EL BP) as (c & d & S1 & S2 & S3). rewrite HG in S3.
  destruct S3 as [-> ->].
  apply update_status_soc in EU; [|exact HB].
  destruct EU as [->|(soc & c' & d' & soc' & L & E1 & E2 & SA & GG & _)]; [exact I|].
  rewrite S1 in E1. injection E1 as <-. rewrite S2 in E2. injection E2 as <-.
  unfold battery_part in BP. rewrite HB in BP. destruct BP as (x1 & y1 & soc1 & _ & _ & L1 & CB).
  assert (soc1 = soc) as -> by (destruct L as (l & EL1), L1 as (l1 & EL2); rewrite EL1 in EL2;
    injection EL2 as EL2; apply app_inj_tail in EL2; destruct EL2 as [_ EL2]; congruence).
  apply check_battery_ok in CB. destruct CB as (lc & ld & LC & LD & X1 & X2).
  destruct L as (l & EL1). pose proof (I _ EL1) as FI.
  assert (smin <= soc <= smax) as BB.
  { apply Forall_app in FI. destruct FI as [_ FI]. inversion FI; subst.
    match goal with H : exists _, _ |- _ => destruct H as (s0 & S0 & S1' & S2') end. injection S0 as ->. split; assumption. }
  assert (smin <= soc' <= smax) as BB'.
  { eapply soc_step; try eassumption; eauto. }
  intros l' E'. destruct (GG _ EL1) as [G|G]; rewrite G in E'; injection E' as <-; [exact FI|].
  apply Forall_app. split; [exact FI|]. constructor; [|constructor]. exists soc'. split; [reflexivity|exact BB'].
Qed.

Lemma soc_within_reset testing smin smax (g : nonmod Q) : soc_within smin smax g ->
  soc_within smin smax (fst (nm_reset testing g)).
Proof.
  intros I. destruct (nm_reset testing g) as [g' r] eqn:E. apply nm_reset_any in E. simpl.
  destruct E as [(e & _ & _ & ->)|(st & g1 & r1 & ES & E & K)]; [exact I|].
  apply update_variables_varies in E. destruct E as (n & x & b & ->).
  apply firsts_ok in ES. destruct ES as (_ & _ & F).
  assert (X : nm_state g' = st) by (destruct r1; destruct K as (_ & ->); reflexivity).
  unfold soc_within. rewrite X. intros l EL. destruct (F _ _ EL) as (y & l' & -> & EL').
  specialize (I _ EL'). inversion I; subst. constructor; [assumption|constructor].
Qed.

Lemma soc_within_after cs g0 smin smax cap eff pc pd :
  parameter g0 "battery_soc_min" smin -> parameter g0 "battery_soc_max" smax ->
  parameter g0 "battery_capacity" cap -> parameter g0 "battery_efficiency" eff ->
  parameter g0 "battery_power_charge" pc -> parameter g0 "battery_power_discharge" pd ->
  0 < eff <= 1 -> 0 < cap -> 0 <= pc -> 0 <= pd ->
  has_battery (nm_arch g0) = true -> has_grid (nm_arch g0) = true ->
  soc_within smin smax g0 -> soc_within smin smax (nm_after cs g0).
Proof.
  intros P1 P2 P3 P4 P5 P6 E C K1 K2 HB HG I.
  assert (X : descends g0 (nm_after cs g0) /\ soc_within smin smax (nm_after cs g0)); [|apply X].
  apply nm_after_ind; [split; [apply descends_refl|exact I]|].
  intros c g (D & J). split; [apply descends_do; exact D|].
  unfold parameter in *.
  destruct c as [control|testing|limit cancel|h|x]; simpl.
  - apply (soc_within_run control g smin smax cap eff pc pd); unfold parameter; try assumption;
      try (rewrite (ds_par _ _ D) by discriminate; assumption);
      rewrite (ds_arch _ _ D); assumption.
  - apply soc_within_reset. exact J.
  - unfold train_test_split, mbind, mmodify. apply soc_within_reset.
    destruct (negb (nm_split g)); [exact J|]. destruct cancel; exact J.
  - exact J.
  - exact J.
Qed.
