(** * Proofs about MicrogridGenerator.py: what can be done with a generated microgrid *)

From Coq Require Import ZArith QArith Qminmax Lqa Lia Bool String List Permutation.
From Verif Require Import Num Py Module Microgrid NonModular Conversion Generator Proofs_Num Proofs_Ts Spec_NonModular Spec_Generator
  Proofs_NonModular Proofs_NmEpisode Proofs_NmTotal Spec_Conversion NmRbc Spec_NmRbc Spec_NmRbcRun Proofs_NmRbc Proofs_NmRbcRun Proofs_NmRbcServe
  Properties_NmRbcRun Proofs_Generator Proofs_Generator2 Proofs_Generator3 Proofs_Generator4.
Import ListNotations.
Local Open Scope string_scope.
Local Open Scope list_scope.
Local Open Scope Q_scope.
Opaque hours_per_year.

Section Use.
Variables (fs : folders Q) (d : draws Q) (g : nonmod Q).
Hypothesis US : usable fs.
Hypothesis DR : drawn fs d.
Hypothesis SZ : sized fs d g.
Hypothesis CN : has_grid (nm_arch g) = true -> connected fs d g.

Let L : Q := inject_Z (dr_load d).
Lemma load_positive : 0 < L.
Proof. unfold L. pose proof (wn_load _ _ DR). change 0 with (inject_Z 0). rewrite <- Zlt_Qlt. lia. Qed.

Lemma load_signs : Forall (Qle 0) (nm_load_ts g) /\ Forall (fun x => x <= L) (nm_load_ts g) /\ exists x, In x (nm_load_ts g) /\ 0 < x.
Proof.
  destruct (zd_load _ _ _ SZ) as (f & NF & SF & PK). destruct US as (UL & _). rewrite Forall_forall in UL.
  destruct (UL f (nth_error_In _ _ NF)) as (_ & NN & _). split; [exact (shaped_sign _ _ SF NN)|].
  destruct PK as ((x & I & E) & F). split; [exact F|]. exists x. split; [exact I|]. rewrite E. exact load_positive.
Qed.
Lemma pv_signs : Forall (Qle 0) (nm_pv_ts g).
Proof.
  destruct (zd_pv _ _ _ SZ) as (f & NF & SF & PK). destruct US as (_ & UP & _). rewrite Forall_forall in UP.
  destruct (UP f (nth_error_In _ _ NF)) as (_ & NN & _). exact (shaped_sign _ _ SF NN).
Qed.

Lemma battery_positive : exists cap power, parameter g "battery_capacity" cap /\ 0 < cap
  /\ parameter g "battery_power_charge" power /\ parameter g "battery_power_discharge" power /\ 0 < power.
Proof.
  destruct (zd_battery _ _ _ SZ) as (cap & m & PC & AV & C1 & C2 & pw & P1 & P2 & B1 & B2).
  destruct load_signs as (N1 & _ & X). pose proof (sum_positive _ N1 X) as SP. unfold average in AV.
  assert (LN : 0 < inject_Z (Z.of_nat (length (nm_load_ts g)))).
  { change 0 with (inject_Z 0). rewrite <- Zlt_Qlt. destruct X as (x & I & _). destruct (nm_load_ts g); [inversion I|]. simpl length. lia. }
  assert (M : 0 < m).
  { destruct (Qlt_le_dec 0 m) as [Y|Y]; [exact Y|]. exfalso. rewrite <- AV in SP.
    assert (0 <= - m * inject_Z (Z.of_nat (length (nm_load_ts g)))) by (apply Qmult_le_0_compat; lra). lra. }
  assert (H : 3 <= inject_Z (dr_hours d)) by (pose proof (wn_hours _ _ DR); change 3 with (inject_Z 3); rewrite <- Zle_Qle; lia).
  assert (HM : 0 < inject_Z (dr_hours d) * m) by (apply Qmult_lt_0_compat; lra).
  exists (inject_Z cap), (inject_Z pw). repeat split; try assumption; lra.
Qed.

Lemma generated_sensible : sensible_parameters g.
Proof.
  destruct battery_positive as (cap & pw & C1 & C2 & P1 & P2 & P3). constructor.
  - exists pw. split; [exact P1|lra].
  - exists pw. split; [exact P2|lra].
  - intros HG. destruct (zd_grid _ _ _ SZ HG) as (A & B & _). exists (inject_Z (2 * dr_load d)), (inject_Z (2 * dr_load d)).
    split; [exact A|]. split; [exact B|]. assert (0 <= inject_Z (2 * dr_load d)); [|auto].
    pose proof (wn_load _ _ DR). change 0 with (inject_Z 0). rewrite <- Zle_Qle. lia.
  - intros HG. destruct (zd_genset _ _ _ SZ HG) as (rated & pmin & pmax & fuel & co2 & A & B & C & _ & _ & E1 & E2 & _ & _ & R1 & _).
    exists (inject_Z rated), pmin, pmax. split; [exact A|]. split; [exact B|]. split; [exact C|].
    pose proof load_positive as LP. unfold L in LP. rewrite E2 in R1. split; [lra|]. split; lra.
Qed.

Lemma generated_plausible : length (nm_load_ts g) = (24 * 365)%nat -> length (nm_pv_ts g) = (24 * 365)%nat ->
  (has_grid (nm_arch g) = true -> length (nm_co2_ts g) = (24 * 365)%nat) -> plausible g.
Proof.
  intros LL LP LC. destruct load_signs as (N1 & _ & _). destruct (zd_costs _ _ _ SZ) as (l & o & c & K1 & K2 & K3 & K4 & K5 & K6).
  constructor.
  - rewrite LL. lia.
  - exact N1.
  - intros _. split; [congruence|exact pv_signs].
  - exists l, o. split; [exact K1|]. split; [exact K2|]. lra.
  - intros _. destruct battery_positive as (cap & pw & C1 & C2 & P1 & P2 & P3).
    destruct (zd_soc _ _ _ SZ) as (soc & smin & smax & eff & cost & S1 & S2 & S3 & S4 & S5 & S6 & S7 & S8 & S9 & S10 & S11 & S12 & S13 & _).
    exists cap, smin, pw, pw, eff, cost, soc. repeat (split; [assumption|]). lra.
  - intros HG. destruct (zd_genset _ _ _ SZ HG) as (rated & pmin & pmax & fuel & co2 & A & B & C & D1 & D2 & E1 & E2 & _ & _ & R1 & _).
    exists (inject_Z rated), pmin, pmax, fuel, co2, c. repeat (split; [assumption|]).
    pose proof load_positive as X. unfold L in X. rewrite E2 in R1. lra.
  - intros HG. destruct (zd_grid _ _ _ SZ HG) as (A & B & _). destruct (CN HG) as [R1 R2 R3 R4 R5].
    exists (inject_Z (2 * dr_load d)), (inject_Z (2 * dr_load d)), c.
    assert (NN : 0 <= inject_Z (2 * dr_load d)) by (pose proof (wn_load _ _ DR); change 0 with (inject_Z 0); rewrite <- Zle_Qle; lia).
    split; [exact A|]. split; [exact B|]. split; [exact K3|]. split; [exact NN|]. split; [exact NN|].
    assert (T01 : Forall (fun s => s = 0 \/ s = 1) (nm_status_ts g)).
    { apply Forall_forall. intros s I. apply In_nth_error in I. destruct I as (i & I). exact (proj1 (R2 i s I)). }
    split.
    + rewrite LL. rewrite Forall_forall in R1. destruct US as (_ & _ & UC). rewrite Forall_forall in UC. destruct (UC _ (nth_error_In _ _ R5)) as (_ & CP).
      apply Forall_cons; [split; [apply R1; cbn; tauto|]|].
      { apply Forall_forall. intros p I. apply In_nth_error in I. destruct I as (i & I). pose proof (R3 i p I) as T.
        destruct T as (T1 & T2). destruct (wn_tariff _ _ DR) as [E|E].
        - rewrite (T1 E). repeat match goal with |- context [if ?b then _ else _] => destruct b end; lra.
        - rewrite (T2 E). match goal with |- context [if ?b then _ else _] => destruct b end; lra. }
      apply Forall_cons; [split; [apply R1; cbn; tauto|eapply Forall_impl; [|exact R4]; intros x X; cbn beta in X; lra]|].
      apply Forall_cons; [split; [exact (LC HG)|exact CP]|].
      apply Forall_cons; [split; [apply R1; cbn; tauto|eapply Forall_impl; [|exact T01]; intros x [-> | ->]; discriminate]|]. apply Forall_nil.
    + eapply Forall_impl; [|exact T01]. intros x [-> | ->]; [left|right]; reflexivity.
Qed.

(** A row in which neither the grid nor the genset helps does not exist. *)
Lemma row_supply n x i : rows g i n x -> works g n = false -> has_genset (nm_arch g) = true.
Proof.
  intros R W. destruct (has_genset (nm_arch g)) eqn:HS; [reflexivity|]. exfalso.
  destruct (zd_arch _ _ _ SZ) as (_ & _ & W1 & W2 & W3). rewrite HS in *.
  destruct (Qlt_le_dec (dr_arch d) (33 # 100)) as [A|A]; [destruct (W1 A); discriminate|].
  destruct (Qlt_le_dec (dr_arch d) (66 # 100)) as [B|B]; [|destruct (W3 B); discriminate].
  destruct (W2 A B) as (HG & NW). unfold works in W. pose proof (ro_grid _ _ _ _ R) as RG. rewrite HG in RG, W. cbn [andb] in W.
  destruct RG as (RS & _). destruct (CN HG) as [_ R2 _ _ _]. destruct (R2 i _ RS) as ([S0|S1] & O).
  - apply O in S0. destruct S0 as (X & _). apply NW in X. discriminate X.
  - rewrite S1 in W. discriminate W.
Qed.

Theorem row_served to_int k n x r1 r2 c o soc room : converts to_int -> rows g k n x -> furnished g ->
  situation g k (cp_state r1) (now_load n) (now_pv n) soc room (works g n) ->
  rb_control to_int g (Z.of_nat k) (cp_state r1) = Ok c -> carried g c n x r1 r2 o ->
  oc_loss o == 0 /\ oc_over o == 0
  \/ works g n = false /\ has_genset (nm_arch g) = true
     /\ exists least, least_power g least /\ 0 < now_load n - now_pv n - room /\ now_load n - now_pv n - room <= least.
Proof.
  intros CO R FU SU C CA. pose proof generated_sensible as SP.
  destruct (C71_served to_int g k r1 r2 n x c o soc room (works g n) CO FU SP SU C CA) as (NO & YES).
  destruct load_signs as (_ & LM & _). rewrite Forall_forall in LM. pose proof (LM _ (nth_error_In _ _ (ro_load _ _ _ _ R))) as LL.
  pose proof (su_pv0 _ _ _ _ _ _ _ _ SU) as P0. pose proof load_positive as LP.
  destruct (works g n) eqn:W.
  - assert (NN : ~ genset_needed g (now_load n) (now_pv n) room true) by (intros (_ & X & _); discriminate X).
    destruct (NO NN) as (OV & _ & LO). left. split; [|exact OV]. apply LO. left. split; [reflexivity|].
    assert (HG : has_grid (nm_arch g) = true) by (unfold works in W; apply andb_true_iff in W; tauto).
    exists (inject_Z (2 * dr_load d)). split; [exact (proj1 (zd_grid _ _ _ SZ HG))|].
    rewrite inject_Z_mult. change (inject_Z 2) with 2. fold L. lra.
  - pose proof (row_supply n x k R W) as HS.
    assert (RN : 0 <= room) by exact (room_nonneg g soc room (su_room _ _ _ _ _ _ _ _ SU) (su_power _ _ _ _ _ _ _ _ SU)).
    destruct (Qlt_le_dec (now_pv n + room) (now_load n)) as [A|A].
    + assert (NE : genset_needed g (now_load n) (now_pv n) room false) by (split; [exact HS|split; [reflexivity|exact A]]).
      destruct (zd_genset _ _ _ SZ HS) as (rated & pmin & pmax & fuel & co2 & Q1 & Q2 & Q3 & _ & _ & E1 & E2 & _ & _ & R1 & _).
      assert (LE : least_power g (inject_Z rated * pmin)) by (exists (inject_Z rated), pmin; split; [exact Q1|split; [exact Q2|reflexivity]]).
      destruct (Qlt_le_dec (inject_Z rated * pmin) (now_load n - now_pv n - room)) as [B|B].
      * left. destruct (YES NE _ _ _ LE Q1 Q3) as (OV & LO & _); [split; [exact B|unfold L in LL; lra]|]. auto.
      * right. split; [reflexivity|]. split; [exact HS|]. exists (inject_Z rated * pmin). split; [exact LE|]. split; [lra|exact B].
    + assert (NN : ~ genset_needed g (now_load n) (now_pv n) room false) by (intros (_ & _ & X); lra).
      destruct (NO NN) as (OV & _ & LO). left. split; [|exact OV]. apply LO. right. split; [reflexivity|exact A].
Qed.
End Use.
