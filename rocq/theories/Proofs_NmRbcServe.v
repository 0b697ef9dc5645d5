(** * When the rule-based control runs to the end, and what it serves *)

From Coq Require Import ZArith QArith Qabs Qminmax Bool String List Lia Lqa Permutation.
From Verif Require Import Num Py Spec_Module Proofs_Num Proofs_Run Proofs_Data NonModular Spec_NonModular Proofs_NonModular Proofs_NmRun
  Proofs_NmHistory Proofs_NmBattery Proofs_NmCost Proofs_NmClock Proofs_NmProgress Proofs_NmEpisode Proofs_NmTotal Proofs_NmRecord
  NmRbc Spec_NmRbc Spec_NmRbcRun Proofs_NmRbc Proofs_NmRbcRun.
Import ListNotations.
Local Open Scope string_scope.
Local Open Scope list_scope.
Local Open Scope Q_scope.

(** ** The state of charge *)

Definition column_within (smin smax : Q) (r : record Q) : Prop :=
  forall l, dget "battery_soc" r = Some l -> Forall (fun c => exists s, c = CNum s /\ smin <= s /\ s <= smax) l.

Lemma carried_within g c n x r r' o smin smax cap eff pc pd : has_battery (nm_arch g) = true ->
  parameter g "battery_soc_min" smin -> parameter g "battery_soc_max" smax ->
  parameter g "battery_capacity" cap -> parameter g "battery_efficiency" eff ->
  parameter g "battery_power_charge" pc -> parameter g "battery_power_discharge" pd ->
  0 < eff <= 1 -> 0 < cap -> 0 <= pc -> 0 <= pd ->
  carried g c n x r r' o -> column_within smin smax (cp_state r) -> column_within smin smax (cp_state r').
Proof.
  intros HB P1 P2 P3 P4 P5 P6 E C K1 K2 CA W l D.
  destruct (ca_soc _ _ _ _ _ _ _ CA HB) as (soc & soc' & eff' & cap' & LA & (l0 & D0 & D1) & Q1 & Q2 & SE).
  rewrite D1 in D. injection D as <-. apply Forall_app. split; [exact (W _ D0)|]. constructor; [|constructor].
  exists soc'. split; [reflexivity|]. destruct LA as (l1 & LA).
  pose proof (W _ LA) as FW. apply Forall_app in FW. destruct FW as (_ & FW). inversion FW as [|? ? (s & S0 & S1 & S2) _]; subst.
  injection S0 as ->. pose proof (ca_follows _ _ _ _ _ _ _ CA) as (F & _). cbn [at_row nm_arch set_records set_next set_now] in F.
  rewrite HB in F. destruct F as (a & b & s' & cc & cd & _ & _ & (l2 & L2) & CC & CD & O1 & O2).
  cbn [at_row nm_state set_records] in L2. rewrite LA in L2. injection L2 as L2. apply app_inj_tail in L2. destruct L2 as (_ & L2). injection L2 as <-.
  unfold parameter in *. rewrite P4 in Q1. injection Q1 as <-. rewrite P3 in Q2. injection Q2 as <-.
  pose proof (soc_step g s (oc_charge o) (oc_discharge o) cc cd (s + (oc_charge o * eff - oc_discharge o / eff) / cap) smin smax cap eff pc pd
    P1 P2 P3 P4 P5 P6 E C K1 K2 (conj S1 S2) CC CD (ex_intro _ a O1) (ex_intro _ b O2)) as X.
  rewrite SE. apply X. exists eff, cap. auto.
Qed.

(** ** What is recorded of a decision *)

Lemma limited_le x l : 0 <= x -> 0 <= l -> 0 <= limited x l <= x.
Proof.
  intros X L. unfold limited. rewrite (Q.max_r 0 x) by exact X. split; [apply Q.min_glb; assumption|apply Q.le_min_l].
Qed.
Lemma limited_eq x l : 0 <= x -> x <= l -> limited x l == x.
Proof. intros X L. unfold limited. rewrite (Q.max_r 0 x) by exact X. apply Q.min_l. exact L. Qed.
Lemma limited_0 x l : x == 0 -> 0 <= l -> limited x l == 0.
Proof. intros X L. unfold limited. rewrite X. rewrite Q.max_l by lra. apply Q.min_l. exact L. Qed.

(** The parts of an outcome, compared with the decision *)
Record within (g : nonmod Q) (soc room : Q) (d : dispatch Q) (o : outcome) : Prop := mkWithin {
  wn_charge : 0 <= oc_charge o <= di_charge d;
  wn_discharge : oc_discharge o == di_discharge d;
  wn_import : 0 <= oc_import o <= di_import d;
  wn_export : 0 <= oc_export o <= di_export d;
  wn_enough : has_grid (nm_arch g) = true -> forall mi, parameter g "grid_power_import" mi -> di_import d <= mi -> oc_import o == di_import d;
  wn_none : di_genset d == 0 -> oc_genset o == 0;
  wn_some : forall least, least_power g least -> least <= di_genset d -> has_genset (nm_arch g) = true ->
    0 <= oc_genset o <= di_genset d /\ least <= oc_genset o;
  wn_all : forall least, least_power g least -> least <= di_genset d -> has_genset (nm_arch g) = true ->
    forall rated pmax, parameter g "genset_rated_power" rated -> parameter g "genset_pmax" pmax -> di_genset d <= rated * pmax ->
    oc_genset o == di_genset d
}.

Lemma follows_within g h soc room load pv d o : has_battery (nm_arch g) = true -> nm_par h = nm_par g -> nm_arch h = nm_arch g ->
  latest (nm_state h) "battery_soc" (CNum soc) -> discharge_limit g soc room -> sensible_parameters g ->
  0 <= di_charge d -> 0 <= di_discharge d <= room -> 0 <= di_import d -> 0 <= di_export d ->
  (has_grid (nm_arch g) = false -> di_import d == 0 /\ di_export d == 0) ->
  follows h (decision_of load pv d) o -> within g soc room d o.
Proof.
  intros HB EP EA LA DL SP C0 D0 I0 X0 NG (F1 & F2 & F3). rewrite EA in *. rewrite HB in F1.
  destruct F1 as (a & b & s & cc & cd & A & B & L & CC & CD & O1 & O2). cbn in A, B. injection A as <-. injection B as <-.
  assert (s = soc) as ->.
  { destruct LA as (l1 & LA), L as (l2 & L). rewrite LA in L. injection L as L. apply app_inj_tail in L. destruct L as (_ & L). congruence. }
  unfold parameter in *.
  assert (CD' : cd == room).
  { destruct CD as (q1 & q2 & q3 & q4 & L1 & L2 & L3 & L4 & ->), DL as (r1 & r2 & r3 & r4 & M1 & M2 & M3 & M4 & ->).
    unfold parameter in *. rewrite EP in *. rewrite L1 in M1. rewrite L2 in M2. rewrite L3 in M3. rewrite L4 in M4.
    injection M1 as <-. injection M2 as <-. injection M3 as <-. injection M4 as <-. reflexivity. }
  assert (CC' : 0 <= cc).
  { destruct CC as (q1 & q2 & q3 & q4 & L1 & L2 & L3 & L4 & ->). destruct (sp_charge _ SP) as (pc & P & P0). unfold parameter in *.
    rewrite EP in *. rewrite P in L4. injection L4 as <-. apply Q.min_glb; [apply Q.le_max_l|exact P0]. }
  assert (GEN : has_genset (nm_arch g) = true -> exists rated pmin pmax, dget "genset_rated_power" (nm_par g) = Some rated
    /\ dget "genset_pmin" (nm_par g) = Some pmin /\ dget "genset_pmax" (nm_par g) = Some pmax
    /\ 0 <= rated * pmin <= rated * pmax
    /\ (di_genset d <= 1 -> oc_genset o == limited (di_genset d) (rated * pmax))
    /\ (1 < di_genset d -> oc_genset o == Qmin (Qmax (di_genset d) (rated * pmin)) (rated * pmax))).
  { intros HS. rewrite HS in F3. destruct F3 as (x & rated & pmin & pmax & X & Q1 & Q2 & Q3 & H1 & H2). cbn in X. injection X as <-.
    unfold parameter in *. rewrite EP in *.
    destruct (sp_genset _ SP HS) as (r & p & q & G1 & G2 & G3 & G4 & G5 & G6). unfold parameter in *.
    rewrite Q1 in G1. rewrite Q2 in G2. rewrite Q3 in G3. injection G1 as <-. injection G2 as <-. injection G3 as <-.
    exists rated, pmin, pmax. repeat (split; [assumption|]). split; [|split; assumption].
    split; [apply Qmult_le_0_compat; lra|]. setoid_replace (rated * pmin) with (pmin * rated) by ring. setoid_replace (rated * pmax) with (pmax * rated) by ring.
    apply Qmult_le_compat_r; lra. }
  assert (LEAST : forall least, least_power g least -> forall rated pmin, dget "genset_rated_power" (nm_par g) = Some rated ->
    dget "genset_pmin" (nm_par g) = Some pmin -> least == rated * pmin).
  { intros least (r & p & A1 & A2 & EL) rated pmin B1 B2. unfold parameter in *. rewrite A1 in B1. rewrite A2 in B2. injection B1 as <-. injection B2 as <-. exact EL. }
  constructor.
  - rewrite O1. apply limited_le; assumption.
  - rewrite O2. apply limited_eq; [lra|]. rewrite CD'. lra.
  - destruct (has_grid (nm_arch g)) eqn:HG.
    + destruct F2 as (x & y & mi & me & X & Y & Q1 & Q2 & H1 & H2). cbn in X, Y. injection X as <-. injection Y as <-.
      destruct (sp_grid _ SP HG) as (p & q & G1 & G2 & G3 & G4). unfold parameter in *. rewrite EP in *. rewrite G1 in Q1. injection Q1 as <-.
      rewrite H1. apply limited_le; assumption.
    + destruct F2 as (-> & _). lra.
  - destruct (has_grid (nm_arch g)) eqn:HG.
    + destruct F2 as (x & y & mi & me & X & Y & Q1 & Q2 & H1 & H2). cbn in X, Y. injection X as <-. injection Y as <-.
      destruct (sp_grid _ SP HG) as (p & q & G1 & G2 & G3 & G4). unfold parameter in *. rewrite EP in *. rewrite G2 in Q2. injection Q2 as <-.
      rewrite H2. apply limited_le; assumption.
    + destruct F2 as (_ & ->). lra.
  - intros HG mi P1 LE. rewrite HG in F2. destruct F2 as (x & y & mi' & me & X & Y & Q1 & Q2 & H1 & H2). cbn in X, Y. injection X as <-. injection Y as <-.
    unfold parameter in *. rewrite EP in *. rewrite P1 in Q1. injection Q1 as <-. rewrite H1. apply limited_eq; assumption.
  - intros Z. destruct (has_genset (nm_arch g)) eqn:HS; [|rewrite F3; reflexivity].
    destruct (GEN eq_refl) as (rated & pmin & pmax & G1 & G2 & G3 & G4 & G5 & G6). rewrite G5 by lra. apply limited_0; [exact Z|lra].
  - intros least LP LE HS. destruct (GEN HS) as (rated & pmin & pmax & G1 & G2 & G3 & G4 & G5 & G6).
    pose proof (LEAST _ LP _ _ G1 G2) as EQ. rewrite EQ in *.
    assert (X : oc_genset o == Qmin (di_genset d) (rated * pmax)).
    { destruct (Qlt_le_dec 1 (di_genset d)) as [B1|B1].
      - rewrite (G6 B1). rewrite Q.max_l by exact LE. reflexivity.
      - rewrite (G5 B1). unfold limited. rewrite Q.max_r by lra. reflexivity. }
    rewrite X. split; [split; [apply Q.min_glb; lra|apply Q.le_min_l]|apply Q.min_glb; lra].
  - intros least LP LE HS rated' pmax' R1 R2 MX. destruct (GEN HS) as (rated & pmin & pmax & G1 & G2 & G3 & G4 & G5 & G6).
    unfold parameter in *. rewrite G1 in R1. rewrite G3 in R2. injection R1 as <-. injection R2 as <-.
    pose proof (LEAST _ LP _ _ G1 G2) as EQ. rewrite EQ in *.
    destruct (Qlt_le_dec 1 (di_genset d)) as [B1|B1].
    + rewrite (G6 B1). rewrite Q.max_l by exact LE. apply Q.min_l. exact MX.
    + rewrite (G5 B1). apply limited_eq; lra.
Qed.

(** ** Decisions can be carried out *)

Lemma needed_dec (g : nonmod Q) load pv room on : genset_needed g load pv room on
  \/ (has_genset (nm_arch g) = false \/ on = true \/ load <= pv + room) /\ ~ genset_needed g load pv room on.
Proof.
  unfold genset_needed. destruct (has_genset (nm_arch g)), on; [right| |right|right]; try (split; [auto|intros (X & Y & _); discriminate]).
  destruct (Qlt_le_dec (pv + room) load) as [L|L]; [auto|]. right. split; [auto|]. intros (_ & _ & X). apply (Qlt_not_le _ _ X L).
Qed.

(** With PV what is supplied beside it never equals what is used. *)
Lemma never_exact g i load pv soc room take on d o : 0 < load -> 1 # 1000 <= pv -> 0 <= room ->
  sensible_parameters g -> within g soc room d o -> decided g i load pv room take on d ->
  ~ load + oc_charge o + oc_export o == oc_discharge o + oc_import o + oc_genset o.
Proof.
  intros L0 PV R0 SP W D X. destruct W as [W1 W2 W3 W4 _ W6 W7 _].
  destruct D as [first NN BF M|least NE LP LL M|least NE LP LL C D I EX P G LD].
  - assert (ND : has_genset (nm_arch g) = false \/ on = true \/ load <= pv + room).
    { destruct (needed_dec g load pv room on) as [N|(N & _)]; [contradiction|exact N]. }
    pose proof (W6 (me_no_genset _ _ _ _ _ _ _ _ _ M ND)) as G0. destruct (Qlt_le_dec load pv) as [LP|LP].
    + pose proof (me_surplus _ _ _ _ _ _ _ _ _ M ltac:(lra)). pose proof (me_discharge _ _ _ _ _ _ _ _ _ M). pose proof (me_import _ _ _ _ _ _ _ _ _ M). lra.
    + pose proof (me_whole _ _ _ _ _ _ _ _ _ M LP) as (A1 & A2).
      destruct on.
      * pose proof (me_sum _ _ _ _ _ _ _ _ _ M (or_introl eq_refl)). lra.
      * destruct (Qlt_le_dec (pv + room) load) as [Y|Y].
        -- destruct (me_all _ _ _ _ _ _ _ _ _ M Y eq_refl), (me_off _ _ _ _ _ _ _ _ _ M eq_refl). lra.
        -- pose proof (me_sum _ _ _ _ _ _ _ _ _ M (or_intror Y)). lra.
  - assert (HS : has_genset (nm_arch g) = true) by apply NE. destruct (me_off _ _ _ _ _ _ _ _ _ M eq_refl) as (I0 & X0).
    destruct (sp_genset _ SP HS) as (rated & pmin & pmax & G1 & G2 & G3 & G4 & G5 & G6).
    assert (LE : 0 <= least).
    { destruct LP as (r & p & A1 & A2 & EL). unfold parameter in *. rewrite A1 in G1. rewrite A2 in G2. injection G1 as <-. injection G2 as <-.
      rewrite EL. apply Qmult_le_0_compat; lra. }
    destruct (Qlt_le_dec (pv + room) (load - least)) as [Y|Y].
    + destruct (me_genset _ _ _ _ _ _ _ _ _ M eq_refl eq_refl Y) as (GE & _). destruct (me_all _ _ _ _ _ _ _ _ _ M Y eq_refl) as (A1 & A2).
      destruct (W7 least LP ltac:(lra) HS). lra.
    + pose proof (W6 (me_no_genset _ _ _ _ _ _ _ _ _ M (or_intror (or_intror Y)))) as G0. destruct (Qlt_le_dec (load - least) pv) as [Z|Z].
      * pose proof (me_surplus _ _ _ _ _ _ _ _ _ M ltac:(lra)). pose proof (me_discharge _ _ _ _ _ _ _ _ _ M). lra.
      * pose proof (me_whole _ _ _ _ _ _ _ _ _ M Z) as (A1 & A2). pose proof (me_sum _ _ _ _ _ _ _ _ _ M (or_intror Y)).
        pose proof (me_charge _ _ _ _ _ _ _ _ _ M). lra.
  - assert (HS : has_genset (nm_arch g) = true) by apply NE.
    destruct (W7 least LP ltac:(lra) HS) as (A & B). lra.
Qed.

Lemma noted_total h c p : equipped h -> (forall k, In k (control_names (nm_arch h)) -> present k c) ->
  record_production (nm_par h) (nm_arch h) (full_control c h) (nm_state h) (nm_production h) = (p, Ok tt) ->
  exists co o s prod, noted c h p co o s prod.
Proof.
  intros E PC RP. destruct (records_total h c p E PC RP) as (co & o & s' & prod & [R1 R2 (u3 & R3) (u4 & R4) R5]).
  destruct u3, u4.
  pose proof (record_production_ok _ _ _ _ _ _ _ RP) as (oc & BP & _ & _ & _ & CG).
  pose proof (columns_latest _ _ _ _ CG) as L.
  pose proof (record_production_grows _ _ _ _ _ _ _ RP) as GR.
  assert (KP : map fst p = map fst (nm_production h)) by (destruct GR as (K & _); congruence).
  assert (ND : NoDup (map fst p)).
  { rewrite KP. eapply Permutation_NoDup; [symmetry; exact (eq_production _ E)|apply production_columns_nodup]. }
  assert (FN : forall k, In k (production_columns (nm_arch h)) -> exists x, find_num prod k = Ok x).
  { intros k I. destruct (L k I) as (x & X). exists x. eapply find_last; eassumption. }
  destruct (update_status_total (nm_par h) (nm_arch h) (nm_t h) prod (nm_next h) (nm_state h)) as (s & RS).
  { exact (eq_state _ E). }
  { exact (eq_par _ E). }
  { intros HB. unfold battery_part in BP. rewrite HB in BP. destruct BP as (x & y & soc & X & Y & LS & _).
    split; [eauto|]. split; apply FN; unfold production_columns; rewrite HB, !in_app_iff; simpl; auto 20. }
  exists co, o, s, prod. constructor; auto.
Qed.

(** ** One step *)

Lemma soc_latest h : equipped h -> has_battery (nm_arch h) = true -> exists soc, latest (nm_state h) "battery_soc" (CNum soc).
Proof.
  intros E HB. destruct (eq_first _ E "battery_soc") as (x & l & D).
  { unfold status_columns. rewrite HB, !in_app_iff. simpl. auto 20. }
  destruct (latest_some (nm_state h) "battery_soc" (ex_intro _ x (ex_intro _ l D))) as (y & l' & D').
  pose proof (eq_soc _ E HB _ D') as F. apply Forall_app in F. destruct F as (_ & F). inversion F as [|? ? (s & ->) _]; subst.
  exists s, l'. exact D'.
Qed.

Definition works (g : nonmod Q) (n : now Q) : bool := has_grid (nm_arch g) && Qeq_bool (now_status n) 1.

Lemma row_situation g i r n x : has_pv (nm_arch g) = true -> has_battery (nm_arch g) = true -> rows g i n x -> equipped (at_row g r n x) ->
  sensible_parameters g -> 0 <= now_load n -> 0 <= now_pv n -> (has_grid (nm_arch g) = true -> now_status n == 0 \/ now_status n == 1) ->
  exists soc room, situation g i (cp_state r) (now_load n) (now_pv n) soc room (works g n).
Proof.
  intros HP HB R E SP L0 P0 ST. destruct (soc_latest _ E HB) as (soc & LS).
  assert (PN : forall k, In k (parameter_names (nm_arch g)) -> exists x, parameter g k x).
  { intros k I. destruct (eq_par _ E k I) as (y & Y). exists y. exact Y. }
  assert (PB : forall k, In k ["battery_soc_min"; "battery_capacity"; "battery_efficiency"; "battery_power_discharge"] -> exists x, parameter g k x).
  { intros k I. apply PN. unfold parameter_names. rewrite HB, !in_app_iff. simpl in *. intuition (subst; auto 20). }
  destruct (PB "battery_soc_min" ltac:(simpl; auto)) as (q1 & Q1). destruct (PB "battery_capacity" ltac:(simpl; auto)) as (q2 & Q2).
  destruct (PB "battery_efficiency" ltac:(simpl; auto)) as (q3 & Q3). destruct (PB "battery_power_discharge" ltac:(simpl; auto)) as (q4 & Q4).
  exists soc. eexists. constructor.
  - exact HP.
  - exact HB.
  - exact (ro_load _ _ _ _ R).
  - exact (ro_pv _ _ _ _ R).
  - exact L0.
  - exact P0.
  - exact LS.
  - exists q1, q2, q3, q4. split; [exact Q1|]. split; [exact Q2|]. split; [exact Q3|]. split; [exact Q4|reflexivity].
  - exact (sp_discharge _ SP).
  - intros HG. pose proof (ro_grid _ _ _ _ R) as G. rewrite HG in G. destruct G as (G1 & G2 & G3 & _).
    exists (now_status n), (now_import n), (now_export n). auto.
  - unfold works. pose proof (ro_grid _ _ _ _ R) as G. destruct (has_grid (nm_arch g)); simpl.
    + destruct G as (G1 & _). rewrite Qeq_bool_iff. split; [intros H; split; [reflexivity|eauto]|].
      intros (_ & s & S1 & S2). rewrite G1 in S1. injection S1 as <-. exact S2.
    + split; [discriminate|]. intros (X & _). discriminate.
Qed.

Lemma row_furnished g r n x : has_battery (nm_arch g) = true -> equipped (at_row g r n x) -> furnished g.
Proof.
  intros HB E.
  assert (PN : forall k, In k (parameter_names (nm_arch g)) -> exists x, parameter g k x).
  { intros k I. destruct (eq_par _ E k I) as (y & Y). exists y. exact Y. }
  constructor.
  - apply PN. unfold parameter_names. rewrite HB, !in_app_iff. simpl. auto 20.
  - apply PN. unfold parameter_names. rewrite HB, !in_app_iff. simpl. auto 20.
  - intros HS. destruct (PN "genset_rated_power") as (a & A); [unfold parameter_names; rewrite HS, !in_app_iff; simpl; auto 20|].
    destruct (PN "genset_pmin") as (b & B); [unfold parameter_names; rewrite HS, !in_app_iff; simpl; auto 20|]. eauto.
Qed.

(** What is decided stays within the limits of [within]. *)
Lemma decided_bounds g i load pv room take on d : 0 <= room -> 0 <= take -> (has_grid (nm_arch g) = false -> on = false) ->
  decided g i load pv room take on d ->
  0 <= di_charge d /\ 0 <= di_discharge d <= room /\ 0 <= di_import d /\ 0 <= di_export d
  /\ (has_grid (nm_arch g) = false -> di_import d == 0 /\ di_export d == 0).
Proof.
  intros R0 T0 ON D. destruct D as [first NN BF M|least NE LP LL M|least NE LP LL C D I EX P G LD].
  - pose proof (me_charge _ _ _ _ _ _ _ _ _ M). pose proof (me_discharge _ _ _ _ _ _ _ _ _ M).
    pose proof (me_import _ _ _ _ _ _ _ _ _ M). pose proof (me_export _ _ _ _ _ _ _ _ _ M).
    repeat (split; [lra|]). intros HG. apply (me_off _ _ _ _ _ _ _ _ _ M). auto.
  - pose proof (me_charge _ _ _ _ _ _ _ _ _ M). pose proof (me_discharge _ _ _ _ _ _ _ _ _ M).
    pose proof (me_import _ _ _ _ _ _ _ _ _ M). pose proof (me_export _ _ _ _ _ _ _ _ _ M).
    repeat (split; [lra|]). intros HG. apply (me_off _ _ _ _ _ _ _ _ _ M). auto.
  - intuition lra.
Qed.

Lemma decision_within g i r n x load pv soc room take on d o : situation g i (cp_state r) load pv soc room on ->
  sensible_parameters g -> takes g soc take -> decided g i load pv room take on d ->
  follows (at_row g r n x) (decision_of load pv d) o -> within g soc room d o.
Proof.
  intros SU SP TK D F.
  pose proof (room_nonneg g soc room (su_room _ _ _ _ _ _ _ _ SU) (su_power _ _ _ _ _ _ _ _ SU)) as R0.
  assert (T0 : 0 <= take) by (destruct TK as (? & ? & ? & ? & _ & _ & _ & _ & ->); apply Q.le_max_l).
  assert (ON : has_grid (nm_arch g) = false -> on = false).
  { intros HG. destruct on; [|reflexivity]. destruct (proj1 (su_on _ _ _ _ _ _ _ _ SU) eq_refl) as (X & _). congruence. }
  destruct (decided_bounds _ _ _ _ _ _ _ _ R0 T0 ON D) as (B1 & B2 & B3 & B4 & B5).
  eapply (follows_within g (at_row g r n x)); eauto.
  - exact (su_battery _ _ _ _ _ _ _ _ SU).
  - exact (su_soc _ _ _ _ _ _ _ _ SU).
  - exact (su_room _ _ _ _ _ _ _ _ SU).
Qed.

Theorem step_total to_int (g : nonmod Q) i r n x : converts to_int -> has_pv (nm_arch g) = true -> has_battery (nm_arch g) = true ->
  rows g i n x -> equipped (at_row g r n x) -> sensible_parameters g -> 0 < now_load n -> 0 <= now_pv n ->
  (has_grid (nm_arch g) = true -> now_status n == 0 \/ now_status n == 1) ->
  exists r', rb_step to_int g (Z.of_nat i) r = Ok r'.
Proof.
  intros CO HP HB R E SP L0 P0 ST.
  destruct (row_situation g i r n x HP HB R E SP ltac:(lra) P0 ST) as (soc & room & SU).
  destruct (rb_decides to_int g i _ _ _ _ _ _ CO SU (row_furnished _ _ _ _ HB E)) as (d & take & TK & C & D).
  pose proof (room_nonneg g soc room (su_room _ _ _ _ _ _ _ _ SU) (su_power _ _ _ _ _ _ _ _ SU)) as R0.
  set (c := decision_of (now_load n) (now_pv n) d) in *. set (h := at_row g r n x) in *.
  assert (PC : forall k, In k (control_names (nm_arch h)) -> present k c) by (intros k I; eapply shape_names; exact I).
  destruct (production_verdict h c E PC) as [((o & F & B & PV) & _)|(_ & p & RP)].
  - exfalso. pose proof (decision_within g i r n x _ _ _ _ _ _ _ _ SU SP TK D F) as W.
    eapply never_exact; eauto.
  - destruct (noted_total h c p E PC RP) as (co & o & s & prod & N). eexists. apply (rb_step_iff _ _ _ _ _ _ _ _ R C). do 5 eexists. split; [exact N|reflexivity].
Qed.

(** ** All steps *)

Theorem run_total to_int (g : nonmod Q) length : equipped g -> aligned g -> clock_ok g -> (0 <= nm_horizon g)%Z -> converts to_int ->
  has_pv (nm_arch g) = true -> has_battery (nm_arch g) = true -> sensible_parameters g -> sensible_rows g (rb_count g length) ->
  exists r, run_rule_based to_int g length = Ok r.
Proof.
  intros E A CK HZ CO HP HB SP SR. unfold run_rule_based. rewrite count_length.
  assert (X : forall m i r, (i + m = rb_count g length)%nat -> (forall n x, equipped (at_row g r n x)) ->
    exists r', rb_steps to_int g (Z.of_nat i) m r = Ok r').
  { induction m as [|m IH]; intros i r K EK; [eexists; reflexivity|]. cbn [rb_steps].
    destruct (rows_exist g i A) as (n & x & R). { apply (count_rows g length i CK HZ). lia. }
    destruct (SR i ltac:(lia)) as (S1 & S2 & S3).
    destruct (step_total to_int g i r n x CO HP HB R (EK n x) SP (S1 _ (ro_load _ _ _ _ R)) (S2 _ (ro_pv _ _ _ _ R))) as (r' & ST).
    { intros HG. apply (S3 HG). pose proof (ro_grid _ _ _ _ R) as G. rewrite HG in G. apply G. }
    rewrite ST. cbn [rbind]. replace (Z.of_nat i + 1)%Z with (Z.of_nat (S i)) by lia. apply IH; [lia|].
    destruct (rb_step_control _ _ _ _ _ ST) as (c & C). destruct (step_kept _ _ _ _ _ _ _ _ R (EK n x) C ST) as (E' & _).
    intros n' x'. eapply equipped_row. exact E'. }
  apply (X _ O); [lia|]. intros n x. apply equipped_start. exact E.
Qed.

(** ** What is served *)

(** [o] has no loss of load and produces nothing in vain. *)
Theorem usual_served g i r r' n x soc room take on d o c : situation g i (cp_state r) (now_load n) (now_pv n) soc room on ->
  sensible_parameters g -> takes g soc take -> decided g i (now_load n) (now_pv n) room take on d ->
  c = decision_of (now_load n) (now_pv n) d -> carried g c n x r r' o -> ~ genset_needed g (now_load n) (now_pv n) room on ->
  oc_over o == 0 /\ oc_genset o == 0
  /\ ((on = true /\ (exists mi, parameter g "grid_power_import" mi /\ now_load n - now_pv n <= mi) \/ on = false /\ now_load n <= now_pv n + room) ->
      oc_loss o == 0).
Proof.
  intros SU SP TK D -> CA NN. pose proof (decision_within _ _ _ _ _ _ _ _ _ _ _ _ _ SU SP TK D (ca_follows _ _ _ _ _ _ _ CA)) as W.
  pose proof (su_pv0 _ _ _ _ _ _ _ _ SU) as P0. pose proof (su_load0 _ _ _ _ _ _ _ _ SU) as L0.
  pose proof (ca_balance _ _ _ _ _ _ _ CA) as BAL. pose proof (ca_loss _ _ _ _ _ _ _ CA) as (O1 & O2 & O3).
  pose proof (ca_pv _ _ _ _ _ _ _ CA P0) as (V1 & V2 & V3 & V4). unfold supply, demand in BAL.
  destruct D as [first _ BF M|least NE _ _ _|least NE _ _ _ _ _ _ _ _ _]; [|contradiction|contradiction].
  assert (ND : has_genset (nm_arch g) = false \/ on = true \/ now_load n <= now_pv n + room).
  { destruct (needed_dec g (now_load n) (now_pv n) room on) as [N|(N & _)]; [contradiction|exact N]. }
  destruct W as [W1 W2 W3 W4 W5 W6 _ _]. pose proof (W6 (me_no_genset _ _ _ _ _ _ _ _ _ M ND)) as G0.
  pose proof (me_discharge _ _ _ _ _ _ _ _ _ M). pose proof (me_import _ _ _ _ _ _ _ _ _ M) as I0. pose proof (me_pv _ _ _ _ _ _ _ _ _ M).
  assert (LE : di_discharge d + di_import d <= now_load n).
  { destruct (Qlt_le_dec (now_load n) (now_pv n)) as [LP|LP].
    - pose proof (me_surplus _ _ _ _ _ _ _ _ _ M ltac:(lra)). lra.
    - pose proof (me_whole _ _ _ _ _ _ _ _ _ M LP) as (A1 & A2). destruct on.
      + pose proof (me_sum _ _ _ _ _ _ _ _ _ M (or_introl eq_refl)). lra.
      + destruct (Qlt_le_dec (now_pv n + room) (now_load n)) as [Y|Y].
        * destruct (me_all _ _ _ _ _ _ _ _ _ M Y eq_refl), (me_off _ _ _ _ _ _ _ _ _ M eq_refl). lra.
        * pose proof (me_sum _ _ _ _ _ _ _ _ _ M (or_intror Y)). lra. }
  split; [|split; [exact G0|]].
  - destruct BAL as [BAL|(_ & _ & _ & Z)]; [|exact Z]. destruct V4 as [V4|V4]; [exact V4|]. destruct O3 as [O3|(O3 & _)]; [lra|exact O3].
  - intros EN.
    assert (S : on = true \/ now_load n <= now_pv n + room) by (destruct EN as [(-> & _)|(_ & Y)]; auto).
    pose proof (me_sum _ _ _ _ _ _ _ _ _ M S) as SUM.
    assert (IM : oc_import o == di_import d).
    { destruct EN as [(ON & mi & MI & LI)|(OFF & _)].
      - assert (HG : has_grid (nm_arch g) = true) by (apply (su_on _ _ _ _ _ _ _ _ SU); exact ON).
        apply (W5 HG mi MI). destruct (sp_grid _ SP HG) as (a & b & A1 & A2 & A3 & A4). unfold parameter in *. rewrite MI in A1. injection A1 as <-.
        destruct (Qlt_le_dec (now_load n) (now_pv n)) as [LP|LP].
        + pose proof (me_surplus _ _ _ _ _ _ _ _ _ M ltac:(lra)). lra.
        + pose proof (me_whole _ _ _ _ _ _ _ _ _ M LP) as (B1 & B2). lra.
      - destruct (me_off _ _ _ _ _ _ _ _ _ M OFF). lra. }
    destruct BAL as [BAL|(_ & _ & Z & _)]; [|exact Z]. destruct O3 as [O3|(O3 & O4)]; [exact O3|lra].
Qed.

Theorem genset_served g i r r' n x soc room take on d o c least rated pmax : situation g i (cp_state r) (now_load n) (now_pv n) soc room on ->
  sensible_parameters g -> takes g soc take -> decided g i (now_load n) (now_pv n) room take on d ->
  c = decision_of (now_load n) (now_pv n) d -> carried g c n x r r' o -> genset_needed g (now_load n) (now_pv n) room on ->
  least_power g least -> parameter g "genset_rated_power" rated -> parameter g "genset_pmax" pmax ->
  least < now_load n - now_pv n - room <= rated * pmax ->
  oc_over o == 0 /\ oc_loss o == 0 /\ oc_genset o == now_load n - now_pv n - room.
Proof.
  intros SU SP TK D -> CA NE LP GR GM RG. pose proof (decision_within _ _ _ _ _ _ _ _ _ _ _ _ _ SU SP TK D (ca_follows _ _ _ _ _ _ _ CA)) as W.
  pose proof (su_pv0 _ _ _ _ _ _ _ _ SU) as P0. pose proof (su_load0 _ _ _ _ _ _ _ _ SU) as L0.
  pose proof (room_nonneg g soc room (su_room _ _ _ _ _ _ _ _ SU) (su_power _ _ _ _ _ _ _ _ SU)) as R0.
  pose proof (ca_balance _ _ _ _ _ _ _ CA) as BAL. pose proof (ca_loss _ _ _ _ _ _ _ CA) as (O1 & O2 & O3).
  pose proof (ca_pv _ _ _ _ _ _ _ CA P0) as (V1 & V2 & V3 & V4). unfold supply, demand in BAL.
  assert (HS : has_genset (nm_arch g) = true) by apply NE.
  assert (LU : forall l, least_power g l -> l == least).
  { intros l (a & b & A1 & A2 & A3). destruct LP as (a' & b' & B1 & B2 & B3). unfold parameter in *. rewrite A1 in B1. rewrite A2 in B2. injection B1 as <-. injection B2 as <-. rewrite A3, B3. reflexivity. }
  destruct D as [first NN _ _|l _ LP' LL M|l _ LP' LL _ _ _ _ _ _ _]; [contradiction| |specialize (LU _ LP'); exfalso; lra].
  pose proof (LU _ LP') as LQ. destruct W as [W1 W2 W3 W4 W5 W6 W7 W8].
  assert (Y : now_pv n + room < now_load n - l) by lra.
  destruct (me_genset _ _ _ _ _ _ _ _ _ M eq_refl eq_refl Y) as (GE & _). destruct (me_all _ _ _ _ _ _ _ _ _ M Y eq_refl) as (A1 & A2).
  destruct (me_off _ _ _ _ _ _ _ _ _ M eq_refl) as (I0 & X0). pose proof (me_charge _ _ _ _ _ _ _ _ _ M) as C0.
  assert (CE : di_charge d == 0) by (destruct (me_whole _ _ _ _ _ _ _ _ _ M ltac:(lra)); lra).
  pose proof (W8 l LP' ltac:(lra) HS rated pmax GR GM ltac:(lra)) as G8.
  split; [|split; [|lra]].
  - destruct BAL as [BAL|(_ & _ & _ & Z)]; [|exact Z]. destruct V4 as [V4|V4]; [exact V4|]. destruct O3 as [O3|(O3 & _)]; [lra|exact O3].
  - destruct BAL as [BAL|(_ & _ & Z & _)]; [|exact Z]. destruct O3 as [O3|(O3 & O4)]; [exact O3|lra].
Qed.
