(** * The episodes of a non-modular microgrid *)

From Coq Require Import ZArith QArith Qabs Qminmax Bool String List Lia Lqa Permutation.
From Verif Require Import Num Py Spec_Module Proofs_Num Proofs_Run Proofs_Progress NonModular Spec_NonModular Proofs_NonModular
  Proofs_NmRun Proofs_NmHistory Proofs_NmBattery Proofs_NmCost Proofs_NmClock Proofs_NmProgress.
Import ListNotations.
Local Open Scope string_scope.
Local Open Scope list_scope.
Local Open Scope Q_scope.

(** ** A microgrid that has what a run needs *)

Record equipped (g : nonmod Q) : Prop := mkEquipped {
  eq_par : forall k, In k (parameter_names (nm_arch g)) -> present k (nm_par g);
  eq_production : columns (nm_production g) (production_columns (nm_arch g));
  eq_cost : columns (nm_cost g) (cost_columns (nm_arch g));
  eq_co2 : columns (nm_co2 g) ["co2"];
  eq_state : columns (nm_state g) (status_columns (nm_arch g));
  eq_first : forall k, In k (status_columns (nm_arch g)) -> exists x l, dget k (nm_state g) = Some (x :: l);
  eq_soc : has_battery (nm_arch g) = true ->
    forall l, dget "battery_soc" (nm_state g) = Some l -> Forall (fun c => exists s, c = CNum s) l
}.

(** The numbers in the column of the charge *)
Definition soc_numbers (g : nonmod Q) : Prop :=
  forall l, dget "battery_soc" (nm_state g) = Some l -> Forall (fun c => exists s, c = CNum s) l.

Lemma soc_numbers_reset testing g : soc_numbers g -> soc_numbers (fst (nm_reset testing g)).
Proof.
  intros I. destruct (nm_reset testing g) as [g' r] eqn:E. apply nm_reset_any in E. simpl.
  destruct E as [(e & _ & _ & ->)|(st & g1 & r1 & ES & E & K)]; [exact I|].
  apply update_variables_varies in E. destruct E as (n & x & b & ->).
  apply firsts_ok in ES. destruct ES as (_ & _ & F).
  assert (X : nm_state g' = st) by (destruct r1; destruct K as (_ & ->); reflexivity).
  unfold soc_numbers. rewrite X. intros l EL. destruct (F _ _ EL) as (y & l' & -> & EL').
  specialize (I _ EL'). inversion I; subst. constructor; [assumption|constructor].
Qed.
Lemma soc_numbers_do c g : has_battery (nm_arch g) = true -> soc_numbers g -> soc_numbers (nm_do c g).
Proof.
  intros HB I. destruct c as [control|testing|limit cancel|h|x]; simpl.
  - destruct (nm_run control g) as [g' r] eqn:H. apply nm_run_any in H.
    destruct H as (p & cc & o & s & _ & _ & _ & SS & CK).
    assert (X : nm_state g' = s) by (destruct CK; reflexivity). simpl.
    unfold soc_numbers. rewrite X. clear X CK.
    destruct SS as [->|(prod & u & r' & EP & EL & EU)]; [exact I|].
    apply update_status_soc in EU; [|exact HB].
    destruct EU as [->|(soc & c' & d' & soc' & (l & L) & _ & _ & _ & GG & _)]; [exact I|].
    intros l' E'. destruct (GG _ L) as [G|G]; rewrite G in E'; injection E' as <-; [exact (I _ L)|].
    apply Forall_app. split; [exact (I _ L)|]. constructor; [|constructor]. eauto.
  - apply soc_numbers_reset. exact I.
  - unfold train_test_split, mbind, mmodify. apply soc_numbers_reset.
    destruct (negb (nm_split g)); [exact I|]. destruct cancel; exact I.
  - exact I.
  - exact I.
Qed.

Lemma equipped_descends g0 g : equipped g0 -> descends g0 g ->
  (has_battery (nm_arch g) = true -> soc_numbers g) -> equipped g.
Proof.
  intros [E1 E2 E3 E4 E5 E6 E7] [D1 D2 D3 D4 D5 D6 D7 D8 D9 D10 D11 D12 D13 D14 D15] SN.
  constructor; rewrite ?D1; unfold columns in *; try congruence.
  - intros k I. destruct (E1 k I) as (x & E). unfold present. destruct (String.eqb k "cost_co2") eqn:K.
    + apply String.eqb_eq in K. subst. eapply D9. exact E.
    + apply String.eqb_neq in K. rewrite D8 by assumption. eauto.
  - intros k I. destruct (E6 k I) as (x & l & E). destruct (D15 _ _ _ E) as (l' & E'). eauto.
  - intros HB. apply SN. rewrite D1. exact HB.
Qed.

Lemma equipped_after cs g0 : equipped g0 -> equipped (nm_after cs g0).
Proof.
  intros E0. apply equipped_descends with g0; [exact E0|apply descends_after|].
  assert (X : descends g0 (nm_after cs g0) /\ (has_battery (nm_arch (nm_after cs g0)) = true -> soc_numbers (nm_after cs g0))); [|apply X].
  apply nm_after_ind.
  - split; [apply descends_refl|]. intros HB l. apply (eq_soc _ E0 HB).
  - intros c g (D & S). pose proof (descends_do _ c _ D) as D'. split; [exact D'|].
    rewrite (ds_arch _ _ D'), <- (ds_arch _ _ D). intros HB. apply soc_numbers_do; auto.
Qed.

(** ** The constructor *)

Lemma new_nonmodular_ok (sp : nm_spec Q) h g : new_nonmodular sp h = Ok g ->
  nm_par g = sp_parameters sp /\ nm_arch g = sp_arch sp /\ nm_production g = sp_generation sp
  /\ nm_cost g = sp_cost sp /\ nm_co2 g = sp_df_co2 sp /\ nm_state g = sp_status sp /\ nm_actions g = sp_actions sp
  /\ sp_load sp = Some (nm_load_ts g) /\ sp_pv sp = Some (nm_pv_ts g)
  /\ (has_grid (sp_arch sp) = true ->
      sp_grid_ts sp = Some (nm_status_ts g) /\ sp_import sp = Some (nm_import_ts g)
      /\ sp_export sp = Some (nm_export_ts g) /\ sp_co2 sp = Some (nm_co2_ts g)
      /\ iloc (nm_status_ts g) 0 = Ok (now_status (nm_now g)) /\ iloc (nm_import_ts g) 0 = Ok (now_import (nm_now g))
      /\ iloc (nm_export_ts g) 0 = Ok (now_export (nm_now g)) /\ iloc (nm_co2_ts g) 0 = Ok (now_co2 (nm_now g))
      /\ nx_status (nm_next g) = CNum (now_status (nm_now g)) /\ nx_import (nm_next g) = CNum (now_import (nm_now g))
      /\ nx_export (nm_next g) = CNum (now_export (nm_now g)) /\ nx_co2 (nm_next g) = CNum (now_co2 (nm_now g)))
  /\ iloc (nm_load_ts g) 0 = Ok (now_load (nm_now g)) /\ iloc (nm_pv_ts g) 0 = Ok (now_pv (nm_now g))
  /\ (exists x, iloc (nm_load_ts g) 1 = Ok x /\ nx_load (nm_next g) = CNum x)
  /\ (exists x, iloc (nm_pv_ts g) 1 = Ok x /\ nx_pv (nm_next g) = CNum x)
  /\ nm_horizon g = h /\ nm_t g = 0%Z /\ nm_len g = data_length All g /\ nm_done g = false
  /\ nm_epoch g = 0%nat /\ nm_per_epoch g = [] /\ nm_limit g = 0%nat /\ nm_split g = false
  /\ nm_default g = All /\ nm_use g = All.
Proof.
  unfold new_nonmodular. intros H.
  apply rbind_ok in H. destruct H as (pv & F1 & H). apply rbind_ok in H. destruct H as (pv0 & F2 & H).
  apply rbind_ok in H. destruct H as (load & F3 & H). apply rbind_ok in H. destruct H as (load0 & F4 & H).
  apply rbind_ok in H. destruct H as (load1 & F5 & H). apply rbind_ok in H. destruct H as (pv1 & F6 & H).
  apply rbind_ok in H. destruct H as ([[[[s i] e] c] [[[s0 i0] e0] c0]] & F7 & H).
  apply rbind_ok in H. destruct H as (bat & F8 & H).
  apply rbind_ok in H. destruct H as (u1 & F9 & H). apply rbind_ok in H. destruct H as (u2 & F10 & H).
  injection H as <-. cbn.
  assert (SL : forall o (l : list Q), frame_of o = Ok l -> o = Some l).
  { intros [l'|] l E; inversion E; reflexivity. }
  apply SL in F1, F3.
  do 9 (split; [first [reflexivity|assumption]|]).
  split.
  { intros G. rewrite G in F7. minv. injection F7 as <- <- <- <- <- <- <- <-.
    repeat match goal with H : frame_of _ = Ok _ |- _ => apply SL in H end. auto 20. }
  do 2 (split; [assumption|]). do 2 (split; [eauto|]).
  repeat split; reflexivity.
Qed.

Lemma equipped_new (sp : nm_spec Q) h g : wired sp -> new_nonmodular sp h = Ok g -> equipped g.
Proof.
  intros W H. apply new_nonmodular_ok in H.
  destruct H as (H1 & H2 & H3 & H4 & H5 & H6 & H7 & _).
  destruct W. constructor; rewrite ?H1, ?H2, ?H3, ?H4, ?H5, ?H6; try assumption.
  - intros k I. assert (P : present k (sp_status sp)).
    { apply present_in. eapply Permutation_in; [symmetry; exact wi_status|exact I]. }
    destruct P as (l & E). pose proof (Proofs_Num.dget_In _ _ _ E) as IN.
    rewrite Forall_forall in wi_first. destruct (wi_first _ IN) as (x & X). simpl in X. subst l. eauto.
  - intros HB l E. destruct (wi_soc HB) as (x & X). rewrite X in E. injection E as <-. repeat constructor. eauto.
Qed.

(** ** A run with all it needs *)

Lemma parts_total g control : equipped g ->
  (forall k, In k (control_names (nm_arch g)) -> present k control) ->
  exists ch di im ex ge, forall pv l cu ov,
    let o := mkOutcome ch di im ex ge pv l cu ov in
    battery_part (nm_par g) (nm_arch g) (full_control control g) (nm_state g) o
    /\ grid_part (nm_par g) (nm_arch g) (full_control control g) o
    /\ genset_part (nm_par g) (nm_arch g) (full_control control g) o.
Proof.
  intros E PC. destruct E. unfold battery_part, grid_part, genset_part, parameter_names, control_names, status_columns in *. cbn zeta.
  assert (B : exists ch di, if has_battery (nm_arch g) then
     exists x y soc, dget "battery_charge" (full_control control g) = Some x /\ dget "battery_discharge" (full_control control g) = Some y
      /\ latest (nm_state g) "battery_soc" (CNum soc) /\ check_battery (nm_par g) x y soc = Ok (ch, di) else ch = 0 /\ di = 0).
  { destruct (has_battery (nm_arch g)); [|eauto].
    destruct (PC "battery_charge") as (x & X); [rewrite !in_app_iff; simpl; auto 20|].
    destruct (PC "battery_discharge") as (y & Y); [rewrite !in_app_iff; simpl; auto 20|].
    destruct (eq_first0 "battery_soc") as (s & l & S); [rewrite !in_app_iff; simpl; auto 20|].
    assert (exists soc, latest (nm_state g) "battery_soc" (CNum soc)) as (soc & L).
    { pose proof (eq_soc0 eq_refl _ S) as F.
      destruct (exists_last (l := s :: l)) as (l' & c & EL); [discriminate|]. rewrite EL in F, S.
      apply Forall_app in F. destruct F as (_ & F). inversion F as [|? ? (z & ->) _]; subst. exists z, l'. exact S. }
    assert (P : forall k, In k ["battery_power_charge"; "battery_power_discharge"; "battery_capacity";
            "battery_efficiency"; "battery_soc_min"; "battery_soc_max"] -> exists x, dfind (nm_par g) k = Ok x).
    { intros k I. destruct (eq_par0 k) as (z & Z); [rewrite !in_app_iff; simpl in *; intuition auto 20|].
      exists z. apply dfind_ok. exact Z. }
    destruct (P "battery_power_charge") as (p1 & P1); [simpl; auto 10|]. destruct (P "battery_power_discharge") as (p2 & P2); [simpl; auto 10|].
    destruct (P "battery_capacity") as (p3 & P3); [simpl; auto 10|]. destruct (P "battery_efficiency") as (p4 & P4); [simpl; auto 10|].
    destruct (P "battery_soc_min") as (p5 & P5); [simpl; auto 10|]. destruct (P "battery_soc_max") as (p6 & P6); [simpl; auto 10|].
    do 2 eexists. exists x, y, soc. rewrite !full_control_get by discriminate. do 3 (split; [assumption|]).
    unfold check_battery, capa_to_charge, capa_to_discharge. rewrite P1, P2, P3, P4, P5, P6. simpl. reflexivity. }
  assert (G : exists im ex, if has_grid (nm_arch g) then
     exists x y, dget "grid_import" (full_control control g) = Some x /\ dget "grid_export" (full_control control g) = Some y
      /\ check_grid (nm_par g) x y = Ok (im, ex) else im = 0 /\ ex = 0).
  { destruct (has_grid (nm_arch g)); [|eauto].
    destruct (PC "grid_import") as (x & X); [rewrite !in_app_iff; simpl; auto 20|].
    destruct (PC "grid_export") as (y & Y); [rewrite !in_app_iff; simpl; auto 20|].
    destruct (eq_par0 "grid_power_import") as (p1 & P1); [rewrite !in_app_iff; simpl; auto 20|].
    destruct (eq_par0 "grid_power_export") as (p2 & P2); [rewrite !in_app_iff; simpl; auto 20|].
    apply dfind_ok in P1, P2. do 2 eexists. exists x, y. rewrite !full_control_get by discriminate. do 2 (split; [assumption|]).
    unfold check_grid. rewrite P1, P2. simpl. reflexivity. }
  assert (S : exists ge, if has_genset (nm_arch g) then
     exists x, dget "genset" (full_control control g) = Some x /\ check_genset (nm_par g) x = Ok ge else ge = 0).
  { destruct (has_genset (nm_arch g)); [|eauto].
    destruct (PC "genset") as (x & X); [rewrite !in_app_iff; simpl; auto 20|].
    destruct (eq_par0 "genset_rated_power") as (p1 & P1); [rewrite !in_app_iff; simpl; auto 20|].
    destruct (eq_par0 "genset_pmin") as (p2 & P2); [rewrite !in_app_iff; simpl; auto 20|].
    destruct (eq_par0 "genset_pmax") as (p3 & P3); [rewrite !in_app_iff; simpl; auto 20|].
    apply dfind_ok in P1, P2, P3. eexists. exists x. rewrite !full_control_get by discriminate. split; [assumption|].
    unfold check_genset. rewrite P1, P2, P3. simpl. reflexivity. }
  destruct B as (ch & di & B), G as (im & ex & G), S as (ge & S). exists ch, di, im, ex, ge.
  intros pv l cu ov. simpl. auto.
Qed.

Lemma parts_follow g control o :
  battery_part (nm_par g) (nm_arch g) (full_control control g) (nm_state g) o ->
  grid_part (nm_par g) (nm_arch g) (full_control control g) o ->
  genset_part (nm_par g) (nm_arch g) (full_control control g) o -> follows g control o.
Proof.
  unfold follows, battery_part, grid_part, genset_part. intros BP GP SP.
  destruct (has_battery (nm_arch g)), (has_grid (nm_arch g)), (has_genset (nm_arch g));
    repeat match goal with H : exists _, _ |- _ => destruct H | H : _ /\ _ |- _ => destruct H end;
    repeat match goal with H : dget _ (full_control _ _) = _ |- _ => rewrite full_control_get in H by discriminate end;
    repeat match goal with
    | H : check_battery _ _ _ _ = Ok _ |- _ => apply check_battery_ok in H; destruct H as (? & ? & ? & ? & ? & ?)
    | H : check_grid _ _ _ = Ok _ |- _ => apply check_grid_ok in H; destruct H as (? & ? & ? & ? & ? & ?)
    | H : check_genset _ _ = Ok _ |- _ => apply check_genset_ok in H; destruct H as (? & ? & ? & ? & ? & ? & ? & ?)
    end;
    (split; [|split]);
    first [ split; assumption | assumption | do 5 eexists; repeat (split; [eassumption|]); assumption
          | do 4 eexists; repeat (split; [eassumption|]); assumption ].
Qed.

Lemma limited_proper x l l' : l == l' -> limited x l == limited x l'.
Proof. intros E. unfold limited. rewrite E. reflexivity. Qed.

Lemma follows_unique g control o o' : follows g control o -> follows g control o' ->
  oc_charge o == oc_charge o' /\ oc_discharge o == oc_discharge o' /\ oc_import o == oc_import o'
  /\ oc_export o == oc_export o' /\ oc_genset o == oc_genset o'.
Proof.
  intros (F1 & F2 & F3) (F1' & F2' & F3').
  assert (B : oc_charge o == oc_charge o' /\ oc_discharge o == oc_discharge o').
  { destruct (has_battery (nm_arch g)).
    - destruct F1 as (x & y & soc & cc & cd & X & Y & (l & S) & (q1 & q2 & q3 & q4 & L1 & L2 & L3 & L4 & LE)
        & (r1 & r2 & r3 & r4 & M1 & M2 & M3 & M4 & ME) & E1 & E2).
      destruct F1' as (x' & y' & soc' & cc' & cd' & X' & Y' & (l' & S') & (q1' & q2' & q3' & q4' & L1' & L2' & L3' & L4' & LE')
        & (r1' & r2' & r3' & r4' & M1' & M2' & M3' & M4' & ME') & E1' & E2').
      unfold parameter in *. rewrite S in S'. injection S' as S'. apply app_inj_tail in S'. destruct S' as [_ S'].
      injection S' as <-. rewrite X in X'. injection X' as <-. rewrite Y in Y'. injection Y' as <-.
      rewrite L1 in L1'. rewrite L2 in L2'. rewrite L3 in L3'. rewrite L4 in L4'.
      rewrite M1 in M1'. rewrite M2 in M2'. rewrite M3 in M3'. rewrite M4 in M4'.
      injection L1' as <-. injection L2' as <-. injection L3' as <-. injection L4' as <-.
      injection M1' as <-. injection M2' as <-. injection M3' as <-. injection M4' as <-.
      assert (cc == cc') by (rewrite LE, LE'; reflexivity). assert (cd == cd') by (rewrite ME, ME'; reflexivity).
      rewrite E1, E1', E2, E2'. split; apply limited_proper; assumption.
    - destruct F1 as (-> & ->), F1' as (-> & ->). split; reflexivity. }
  assert (G : oc_import o == oc_import o' /\ oc_export o == oc_export o').
  { destruct (has_grid (nm_arch g)).
    - destruct F2 as (x & y & mi & me & X & Y & P1 & P2 & E1 & E2).
      destruct F2' as (x' & y' & mi' & me' & X' & Y' & P1' & P2' & E1' & E2').
      unfold parameter in *. rewrite X in X'. rewrite Y in Y'. rewrite P1 in P1'. rewrite P2 in P2'.
      injection X' as <-. injection Y' as <-. injection P1' as <-. injection P2' as <-.
      rewrite E1, E1', E2, E2'. split; reflexivity.
    - destruct F2 as (-> & ->), F2' as (-> & ->). split; reflexivity. }
  assert (S : oc_genset o == oc_genset o').
  { destruct (has_genset (nm_arch g)).
    - destruct F3 as (x & ra & pm & px & X & P1 & P2 & P3 & E1 & E2).
      destruct F3' as (x' & ra' & pm' & px' & X' & P1' & P2' & P3' & E1' & E2').
      unfold parameter in *. rewrite X in X'. rewrite P1 in P1'. rewrite P2 in P2'. rewrite P3 in P3'.
      injection X' as <-. injection P1' as <-. injection P2' as <-. injection P3' as <-.
      destruct (Qlt_le_dec 1 x) as [L|L].
      + rewrite E2, E2' by assumption. reflexivity.
      + rewrite E1, E1' by assumption. reflexivity.
    - rewrite F3, F3'. reflexivity. }
  tauto.
Qed.

Lemma balance_pv_total req av : (req == 0 /\ 1 # 1000 <= av) \/ exists x, balance_pv req av = Ok x.
Proof.
  unfold balance_pv. unum.
  destruct (Qltb (Qabs (req - av)) (nfrac 1 1000)) eqn:E1; [right; eauto|].
  destruct (Qltb av req) eqn:E2; [right; eauto|].
  destruct (Qltb 0 req && Qltb req av) eqn:E3; [right; eauto|].
  destruct (Qltb req 0) eqn:E4; [right; eauto|]. left.
  apply Qltb_ge in E2, E4.
  assert (E1' : 1 # 1000 <= Qabs (req - av)) by (apply Qltb_ge in E1; exact E1).
  assert (K : req - av <= 0) by lra. rewrite (Qabs_neg _ K) in E1'.
  apply andb_false_iff in E3. destruct E3 as [E3|E3]; apply Qltb_ge in E3; split; lra.
Qed.
Lemma balance_pv_stuck req av : req == 0 -> 1 # 1000 <= av -> raises AssertionError (balance_pv req av).
Proof.
  intros R P. unfold balance_pv. unum.
  assert (Qabs (req - av) == av) by (rewrite Qabs_neg by lra; lra).
  replace (Qltb (Qabs (req - av)) (nfrac 1 1000)) with false
    by (symmetry; apply Qltb_ge; change (nfrac 1 1000 : Q) with (1 # 1000); lra).
  replace (Qltb av req) with false by (symmetry; apply Qltb_ge; lra).
  replace (Qltb 0 req) with false by (symmetry; apply Qltb_ge; lra). simpl.
  replace (Qltb req 0) with false by (symmetry; apply Qltb_ge; lra).
  eexists. split; reflexivity.
Qed.
