(** * What runs make of the choices of the priority list *)

From Coq Require Import ZArith QArith Qabs Qminmax Bool String List Lia Lqa.
From Verif Require Import Num Py NonModular OldEnv Spec_Module Spec_NonModular Spec_OldEnv Proofs_Num Proofs_NonModular Proofs_NmRun
  Proofs_NmRbcRun Proofs_OldEnv.
Import ListNotations.
Local Open Scope string_scope.
Local Open Scope list_scope.
Local Open Scope Q_scope.

(** What the grid and the genset do *)
Lemma follows_import g c o a : follows g c o -> controls c a -> powers_ok g -> 0 <= am_import a ->
  0 <= oc_import o <= am_import a
  /\ (has_grid (nm_arch g) = true -> forall mi, parameter g "grid_power_import" mi -> am_import a <= mi -> oc_import o == am_import a).
Proof.
  intros (_ & F & _) (_ & _ & C & _) OK A. destruct (has_grid (nm_arch g)).
  - destruct F as (x & y & mi & me & X & _ & MI & _ & O & _). rewrite C in X. injection X as <-.
    assert (0 <= mi) by (apply (OK "grid_power_import"); [simpl; tauto|exact MI]).
    rewrite O. unfold limited. split; [mm; lra|]. intros _ mi' MI' L. rewrite (parameter_unique _ _ _ _ MI' MI) in L. rewrite O. unfold limited. mm; lra.
  - destruct F as (-> & _). split; [lra|discriminate].
Qed.
Lemma follows_export g c o a : follows g c o -> controls c a -> powers_ok g -> 0 <= am_export a ->
  0 <= oc_export o <= am_export a
  /\ (has_grid (nm_arch g) = true -> forall me, parameter g "grid_power_export" me -> am_export a <= me -> oc_export o == am_export a).
Proof.
  intros (_ & F & _) (_ & _ & _ & C & _) OK A. destruct (has_grid (nm_arch g)).
  - destruct F as (x & y & mi & me & _ & X & _ & MI & _ & O). rewrite C in X. injection X as <-.
    assert (0 <= me) by (apply (OK "grid_power_export"); [simpl; tauto|exact MI]).
    rewrite O. unfold limited. split; [mm; lra|]. intros _ mi' MI' L. rewrite (parameter_unique _ _ _ _ MI' MI) in L. rewrite O. unfold limited. mm; lra.
  - destruct F as (_ & ->). split; [lra|discriminate].
Qed.
Lemma follows_genset g c o a : follows g c o -> controls c a -> powers_ok g -> 0 <= am_genset a ->
  0 <= oc_genset o /\ (am_genset a == 0 -> oc_genset o == 0)
  /\ (has_genset (nm_arch g) = true -> forall rated pmax, parameter g "genset_rated_power" rated -> parameter g "genset_pmax" pmax ->
      am_genset a <= rated * pmax -> am_genset a <= oc_genset o).
Proof.
  intros (_ & _ & F) (_ & _ & _ & _ & C) OK A. destruct (has_genset (nm_arch g)).
  - destruct F as (x & rated & pmin & pmax & X & R & PI & PA & O1 & O2). rewrite C in X. injection X as <-.
    assert (0 <= rated) by (apply (OK "genset_rated_power"); [simpl; tauto|exact R]).
    assert (0 <= pmax) by (apply (OK "genset_pmax"); [simpl; tauto|exact PA]).
    assert (0 <= pmin) by (apply (OK "genset_pmin"); [simpl; tauto|exact PI]).
    assert (0 <= rated * pmax) by (apply Qmult_le_0_compat; assumption).
    assert (0 <= rated * pmin) by (apply Qmult_le_0_compat; assumption).
    set (u := rated * pmax) in *. set (w := rated * pmin) in *.
    assert (K : am_genset a <= u -> am_genset a <= oc_genset o).
    { intros L. destruct (Qlt_le_dec 1 (am_genset a)) as [G|G]; [rewrite (O2 G)|rewrite (O1 G)]; unfold limited; mm; lra. }
    split; [|split].
    + destruct (Qlt_le_dec 1 (am_genset a)) as [G|G]; [rewrite (O2 G)|rewrite (O1 G)]; unfold limited; mm; lra.
    + intros Z. rewrite O1 by lra. unfold limited. mm; lra.
    + intros _ r' p' R' P'. rewrite (parameter_unique _ _ _ _ R' R), (parameter_unique _ _ _ _ P' PA). exact K.
  - rewrite F. split; [lra|]. split; [reflexivity|discriminate].
Qed.

(** The amounts asked are not negative. *)
Lemma asks_pos g i x y a : asks g i x y a -> 0 <= x -> 0 <= y -> 0 <= now_status (nm_now g) ->
  0 <= am_import a /\ 0 <= am_export a /\ 0 <= am_genset a.
Proof.
  intros A X Y S0.
  assert (S : 0 <= (if has_grid (nm_arch g) || negb (has_genset (nm_arch g)) then line g else 0)).
  { unfold line. destruct (has_grid _), (has_genset _); simpl; lra. }
  unfold asks in A. set (s := if _ || _ then line g else 0) in *. clearbody s.
  set (m := missing g) in *. set (l := left_over g) in *.
  assert (M : 0 <= m) by apply Q.le_max_l. assert (L : 0 <= l) by apply Q.le_max_l.
  pose proof (Q.le_min_r x l). pose proof (Q.le_min_r y m).
  destruct i; destruct A as (A1 & A2 & A3 & A4 & A5); rewrite A3, A4, A5; (split; [|split]);
    try (apply Qmult_le_0_compat; [|exact S]); try apply Q.le_max_l; lra.
Qed.

Section Served.
Variables (g g' : nonmod Q) (k : Z) (c : dict Q) (v : dict (cell Q)) (i : intent) (a : amounts).
Hypotheses (AP : action_priority g k = Ok c) (ME : meaning (nm_arch g) k = Some i) (CA : controls c a)
  (SR : shows_room g) (OK : powers_ok g) (RN : nm_run c g = (g', Ok v))
  (PV : 0 <= now_pv (nm_now g)) (ST : 0 <= now_status (nm_now g) <= 1).

Lemma generates_genset : generates i = true -> has_genset (nm_arch g) = true.
Proof.
  revert ME. unfold meaning, nth_intent. destruct (k <? 0)%Z; [discriminate|]. destruct (has_genset (nm_arch g)); [reflexivity|].
  destruct (Z.to_nat k) as [|[|[|[|[|]]]]]; cbn; intros E; try (injection E as <-; discriminate). destruct n; discriminate E.
Qed.

Lemma choice_served : exists o, produced g g' o
  /\ oc_charge o == am_charge a /\ oc_discharge o == am_discharge a
  /\ (enough g i a -> oc_loss o == 0)
  /\ (i = ChargePv \/ i = Export -> oc_loss o == missing g \/ oc_loss o == 0 /\ missing g < 1 # 1000)
  /\ (i = ChargePv \/ i = Export -> taken g a -> oc_curtailed o == 0).
Proof.
  destruct (choice_followed g k c g' v i a AP ME CA SR OK RN) as (x & y & o & C & D & A & P & F & O1 & O2).
  destruct (run_balance c g g' v RN) as (o' & P' & B1 & B2 & B3 & B4 & B5).
  rewrite <- (produced_unique _ _ _ _ P P') in *. clear o' P'. specialize (B5 PV). destruct B5 as (B5 & B6 & B7 & B8).
  exists o. split; [exact P|]. split; [exact O1|]. split; [exact O2|].
  pose proof (can_pos _ _ C) as X0. pose proof (can_pos' _ _ D) as Y0.
  destruct (asks_pos g i x y a A X0 Y0 (proj1 ST)) as (I0 & E0 & G0).
  destruct (follows_import g c o a F CA OK I0) as (I1 & I2).
  destruct (follows_export g c o a F CA OK E0) as (E1 & E2).
  destruct (follows_genset g c o a F CA OK G0) as (G1 & G2 & G3).
  pose proof generates_genset as GG.
  assert (M : missing g - left_over g == now_load (nm_now g) - now_pv (nm_now g) /\ 0 <= missing g /\ 0 <= left_over g
              /\ (missing g == 0 \/ left_over g == 0)).
  { unfold missing, left_over. repeat apply conj; try apply Q.le_max_l; mm; first [lra|left; lra|right; lra]. }
  destruct M as (M1 & M2 & M3 & M4).
  assert (S0 : has_grid (nm_arch g) = true -> (if has_grid (nm_arch g) || negb (has_genset (nm_arch g)) then line g else 0) = line g).
  { intros ->. reflexivity. }
  assert (S1 : 0 <= (if has_grid (nm_arch g) || negb (has_genset (nm_arch g)) then line g else 0) <= 1).
  { unfold line. destruct (has_grid _), (has_genset _); simpl; lra. }
  unfold asks in A. set (s := if _ || _ then line g else 0) in *. clearbody s.
  unfold supply, demand in B1.
  set (m := missing g) in *. set (l := left_over g) in *.
  set (load := now_load (nm_now g)) in *. set (pv := now_pv (nm_now g)) in *.
  split; [|split].
  - intros N. destruct B1 as [B1|(_ & _ & B1 & _)]; [|exact B1]. destruct B4 as [B4|(B4 & B4')]; [exact B4|].
    destruct i; cbn [enough] in N; try contradiction;
      [destruct N as (N1 & N2 & mi & N3 & N4); pose proof (I2 N1 _ N3 N4) as I3; specialize (S0 N1); subst s
      |destruct N as (N1 & N2 & mi & N3 & N4); pose proof (I2 N1 _ N3 N4) as I3; specialize (S0 N1); subst s
      |destruct N as (ra & pm & N1 & N2 & N3); pose proof (G3 (GG eq_refl) _ _ N1 N2 N3) as I3
      |destruct N as (N1 & N2 & mi & N3 & N4); pose proof (I2 N1 _ N3 N4) as I3; specialize (S0 N1); subst s
      |destruct N as (ra & pm & N1 & N2 & N3); pose proof (G3 (GG eq_refl) _ _ N1 N2 N3) as I3];
      destruct A as (A1 & A2 & A3 & A4 & A5).
    + rewrite N2 in A3. lra.
    + rewrite N2 in A3. lra.
    + lra.
    + rewrite N2 in A3, A4. destruct (Qmax_cases 0 (load - pv + x)) as [(K & E)|(K & E)], (Qmax_cases 0 (- (load - pv) - 2 * x)) as [(K' & E')|(K' & E')];
        rewrite E in A3; rewrite E' in A4; lra.
    + lra.
  - intros [-> | ->]; destruct A as (A1 & A2 & A3 & A4 & A5).
    + assert (am_charge a <= l) by (rewrite A1; apply Q.le_min_r). assert (0 <= am_charge a) by (rewrite A1; apply Q.min_glb; lra).
      assert (am_export a <= l - am_charge a) by (rewrite A4; nra).
      specialize (G2 A5).
      destruct B1 as [B1|(B1 & B1' & B1'' & B1''')].
      * left. destruct M4 as [M4|M4]; destruct B4 as [B4|(B4 & B4')]; lra.
      * right. split; [exact B1''|]. apply Qabs_Qlt_condition in B1. destruct M4 as [M4|M4]; lra.
    + assert (am_export a <= l) by (rewrite A4; nra).
      specialize (G2 A5).
      destruct B1 as [B1|(B1 & B1' & B1'' & B1''')].
      * left. destruct M4 as [M4|M4]; destruct B4 as [B4|(B4 & B4')]; lra.
      * right. split; [exact B1''|]. apply Qabs_Qlt_condition in B1. destruct M4 as [M4|M4]; lra.
  - intros K (N1 & N2 & me & N3 & N4). pose proof (E2 N1 _ N3 N4) as E3. specialize (S0 N1). subst s.
    destruct K as [-> | ->]; destruct A as (A1 & A2 & A3 & A4 & A5); rewrite N2 in A4; specialize (G2 A5);
      (destruct B1 as [B1|(_ & B1 & _)]; [|lra]); destruct B4 as [B4|(B4 & B4')]; destruct M4; try lra.
Qed.

(** Without the genset a run never finds supply and demand equal before it looks at the PV. *)
Lemma choice_unbalanced : 0 < now_load (nm_now g) -> generates i = false -> ~ exactly_balanced g c.
Proof.
  intros LD GN (o & F & EQ & PV1).
  destruct (choice_asked g k c i a o AP ME CA SR OK F) as (x & y & C & D & A & O1 & O2).
  pose proof (can_pos _ _ C) as X0. pose proof (can_pos' _ _ D) as Y0.
  destruct (asks_pos g i x y a A X0 Y0 (proj1 ST)) as (I0 & E0 & G0).
  destruct (follows_import g c o a F CA OK I0) as (I1 & _).
  destruct (follows_export g c o a F CA OK E0) as (E1 & _).
  destruct (follows_genset g c o a F CA OK G0) as (_ & G2 & _).
  pose proof (asks_charge g i x y a A X0 Y0) as (K1 & K2).
  assert (M : missing g <= now_load (nm_now g) - (1 # 1000) \/ missing g == 0).
  { unfold missing. mm; [left|right]; lra. }
  assert (S1 : 0 <= (if has_grid (nm_arch g) || negb (has_genset (nm_arch g)) then line g else 0) <= 1).
  { unfold line. destruct (has_grid _), (has_genset _); simpl; lra. }
  unfold asks in A. set (s := if _ || _ then line g else 0) in *. clearbody s.
  assert (MP : 0 <= missing g) by apply Q.le_max_l. assert (LP : 0 <= left_over g) by apply Q.le_max_l.
  set (m := missing g) in *. set (l := left_over g) in *.
  set (load := now_load (nm_now g)) in *. set (pv := now_pv (nm_now g)) in *.
  destruct i; try discriminate GN; destruct A as (A1 & A2 & A3 & A4 & A5); specialize (G2 A5).
  - lra.
  - assert (am_discharge a <= m) by (rewrite A2; apply Q.le_min_r). assert (am_import a <= m - am_discharge a) by (rewrite A3; nra).
    destruct M; lra.
  - assert (am_import a <= m) by (rewrite A3; nra). destruct M; lra.
  - lra.
  - assert (am_import a <= Qmax 0 (load - pv + x)) by (rewrite A3; pose proof (Q.le_max_l 0 (load - pv + x)); nra).
    destruct (Qmax_cases 0 (load - pv + x)) as [(K & E)|(K & E)]; rewrite E in *; lra.
Qed.
End Served.
