(** * Proofs about the battery module *)

From Coq Require Import ZArith QArith Qabs Bool String List Lia Lqa.
From Verif Require Import Num Py Space Logger Forecast Module
  Proofs_Num Proofs_Logger Spec_Module Proofs_Module Proofs_Space.
Import ListNotations.
Local Open Scope string_scope.
Local Open Scope list_scope.
Local Open Scope Q_scope.

(** ** One request on the battery record *)

Definition batt_wf (b : battery Q) : Prop :=
  0 < b_efficiency b /\ b_efficiency b <= 1 /\ ~ b_max_capacity b == 0 /\ b_model b = None.
Definition batt_in (b : battery Q) : Prop :=
  b_min_capacity b <= b_charge b /\ b_charge b <= b_max_capacity b
  /\ b_soc b == b_charge b / b_max_capacity b.

Lemma max_production_limit b : batt_wf b ->
  battery_max_production b / b_efficiency b <= b_max_discharge b
  /\ battery_max_production b / b_efficiency b <= b_charge b - b_min_capacity b.
Proof.
  intros (E & _). unfold battery_max_production. unum.
  destruct (Qmin_spec (b_max_discharge b) (b_charge b - b_min_capacity b)) as (A & B & _).
  assert (X : nmin (b_max_discharge b) (b_charge b - b_min_capacity b) * b_efficiency b
              / b_efficiency b == nmin (b_max_discharge b) (b_charge b - b_min_capacity b))
    by (field; lra).
  rewrite X. auto.
Qed.

Lemma max_consumption_limit b : batt_wf b ->
  battery_max_consumption b * b_efficiency b <= b_max_charge b
  /\ battery_max_consumption b * b_efficiency b <= b_max_capacity b - b_charge b.
Proof.
  intros (E & _). unfold battery_max_consumption. unum.
  destruct (Qmin_spec (b_max_charge b) (b_max_capacity b - b_charge b)) as (A & B & _).
  rewrite Qdiv_mult_cancel by lra. auto.
Qed.

(** Providing [x], not more than the maximum. *)
Lemma battery_update_source b x : batt_wf b -> batt_in b ->
  x <= battery_max_production b ->
  (0 <= x ->
   exists b' rw, battery_update x true b = (b', Ok (rw, false, [("provided_energy", x)]))
     /\ b' = set_charge b (b_charge b') (b_soc b')
     /\ b_charge b' == b_charge b - x / b_efficiency b
     /\ b_soc b' == b_charge b' / b_max_capacity b
     /\ rw == - (b_cost_cycle b * (x / b_efficiency b)))
  /\ (x < 0 -> exists e, battery_update x true b = (b, Err e)).
Proof.
  intros W I L. destruct W as (E0 & E1 & MC & NM). destruct I as (I1 & I2 & I3).
  assert (W : batt_wf b) by (repeat split; assumption).
  destruct (max_production_limit b W) as [P1 P2].
  unfold battery_update, mbind, mget, massert, model_transition, default_transition_model.
  rewrite NM.
  split; intros X.
  - set (internal := if nltb (nmul (nopp n1) x) n0 then ndiv (nmul (nopp n1) x) (b_efficiency b)
                     else nmul (nmul (nopp n1) x) (b_efficiency b)).
    assert (IE : internal == - (x / b_efficiency b)).
    { unfold internal. unum. destruct (Qltb (- (1) * x) 0) eqn:T; qprop.
      - field. lra.
      - assert (x == 0) by lra. rewrite H. field. lra. }
    assert (XE : 0 <= x / b_efficiency b) by (apply Qdiv_pos; lra).
    assert (XM : x / b_efficiency b <= battery_max_production b / b_efficiency b).
    { apply Qmult_le_compat_r; [assumption|]. apply Qinv_le_0_compat. lra. }
    assert (LE : nleb internal n0 = true) by (unum; apply Qleb_le; rewrite IE; lra).
    fold internal. rewrite LE.
    unfold battery_update_state.
    assert (NB : nltb (nadd (b_charge b) internal) (b_min_capacity b) = false)
      by (unum; apply Qltb_ge; rewrite IE; lra).
    rewrite NB. unfold mret.
    eexists; eexists; split; [reflexivity|]. split; [reflexivity|]. simpl.
    split; [unum; rewrite IE; lra|]. split; [unum; reflexivity|].
    unfold battery_cost. unum. rewrite IE. rewrite Qabs_opp, Qabs_nonneg by assumption. ring.
  - set (internal := if nltb (nmul (nopp n1) x) n0 then ndiv (nmul (nopp n1) x) (b_efficiency b)
                     else nmul (nmul (nopp n1) x) (b_efficiency b)).
    assert (IE : internal == (- x) * b_efficiency b).
    { unfold internal. unum. destruct (Qltb (- (1) * x) 0) eqn:T; qprop; [lra|ring]. }
    assert (0 < - x * b_efficiency b).
    { rewrite <- (Qmult_0_l (b_efficiency b)). apply Qmult_lt_compat_r; lra. }
    assert (LE : nleb internal n0 = false) by (unum; apply Qleb_gt; rewrite IE; assumption).
    fold internal. rewrite LE. eexists; reflexivity.
Qed.

(** Absorbing [x >= 0], not more than the maximum. *)
Lemma battery_update_sink b x : batt_wf b -> batt_in b ->
  x <= battery_max_consumption b -> 0 <= x ->
   exists b' rw, battery_update x false b = (b', Ok (rw, false, [("absorbed_energy", x)]))
     /\ b' = set_charge b (b_charge b') (b_soc b')
     /\ b_charge b' == b_charge b + x * b_efficiency b
     /\ b_soc b' == b_charge b' / b_max_capacity b
     /\ rw == - (b_cost_cycle b * (x * b_efficiency b)).
Proof.
  intros W I L X. destruct W as (E0 & E1 & MC & NM). destruct I as (I1 & I2 & I3).
  unfold battery_update, mbind, mget, massert, model_transition, default_transition_model.
  rewrite NM.
  set (internal := if nltb x n0 then ndiv x (b_efficiency b) else nmul x (b_efficiency b)).
  assert (IE : internal == x * b_efficiency b).
  { unfold internal. unum. destruct (Qltb x 0) eqn:T; qprop; [lra|reflexivity]. }
  assert (XE : 0 <= x * b_efficiency b) by (apply Qmult_le_0_compat; lra).
  assert (LE : nleb n0 internal = true) by (unum; apply Qleb_le; rewrite IE; lra).
  fold internal. rewrite LE.
  unfold battery_update_state.
  assert (NB : nltb (nadd (b_charge b) internal) (b_min_capacity b) = false)
    by (unum; apply Qltb_ge; rewrite IE; lra).
  rewrite NB. unfold mret.
  eexists; eexists; split; [reflexivity|]. split; [reflexivity|]. simpl.
  split; [unum; rewrite IE; lra|]. split; [unum; reflexivity|].
  unfold battery_cost. unum. rewrite IE. rewrite Qabs_nonneg by assumption. ring.
Qed.

(** What a successful request did to the battery. *)
Inductive moved (b b' : battery Q) (rw : Q) (i : info Q) : Prop :=
| Discharged x :
    0 <= x -> x <= battery_max_production b ->
    b' = set_charge b (b_charge b') (b_soc b') ->
    b_charge b' == b_charge b - x / b_efficiency b ->
    b_soc b' == b_charge b' / b_max_capacity b ->
    rw == - (b_cost_cycle b * (x / b_efficiency b)) ->
    i = [("provided_energy", x)] -> moved b b' rw i
| Charged x :
    0 <= x -> x <= battery_max_consumption b ->
    b' = set_charge b (b_charge b') (b_soc b') ->
    b_charge b' == b_charge b + x * b_efficiency b ->
    b_soc b' == b_charge b' / b_max_capacity b ->
    rw == - (b_cost_cycle b * (x * b_efficiency b)) ->
    i = [("absorbed_energy", x)] -> moved b b' rw i.

Lemma moved_wf b b' rw i : moved b b' rw i -> batt_wf b -> batt_wf b'.
Proof. intros [] W; rewrite H1; exact W. Qed.

Lemma moved_params b b' rw i : moved b b' rw i -> b' = set_charge b (b_charge b') (b_soc b').
Proof. intros []; assumption. Qed.

Lemma moved_in b b' rw i : moved b b' rw i -> batt_wf b -> batt_in b -> batt_in b'.
Proof.
  intros Mv W (I1 & I2 & I3). pose proof (moved_params _ _ _ _ Mv) as E.
  assert (A1 : b_min_capacity b' = b_min_capacity b) by (rewrite E; reflexivity).
  assert (A2 : b_max_capacity b' = b_max_capacity b) by (rewrite E; reflexivity).
  unfold batt_in. rewrite A1, A2. clear E A1 A2.
  destruct Mv as [x P1 P2 P3 P4 P5 P6 P7|x P1 P2 P3 P4 P5 P6 P7].
  - destruct (max_production_limit b W) as [_ L].
    assert (XE : 0 <= x / b_efficiency b) by (destruct W; apply Qdiv_pos; lra).
    assert (XM : x / b_efficiency b <= battery_max_production b / b_efficiency b).
    { apply Qmult_le_compat_r; [assumption|]. apply Qinv_le_0_compat. destruct W; lra. }
    repeat split; try lra.
  - destruct (max_consumption_limit b W) as [_ L].
    assert (XE : 0 <= x * b_efficiency b) by (destruct W; apply Qmult_le_0_compat; lra).
    assert (XM : x * b_efficiency b <= battery_max_consumption b * b_efficiency b).
    { apply Qmult_le_compat_r; [assumption|]. destruct W; lra. }
    repeat split; try lra.
Qed.

(** ** One step of the battery module *)

(** Invariant of battery modules built by the constructor with the default
    transition model. *)
Definition batt_ok (m : module Q) (b : battery Q) : Prop :=
  m_kind m = KBattery b /\ batt_wf b /\ batt_in b
  /\ length (sp_low (m_obs m)) = 2%nat /\ length (sp_high (m_obs m)) = 2%nat
  /\ m_prov m = Some "discharge_amount" /\ m_abs m = Some "charge_amount"
  /\ log_lists (m_log m).

Lemma set_kind_id (m : module Q) : set_kind m (m_kind m) = m.
Proof. destruct m; reflexivity. Qed.

Lemma request_battery (m : module Q) b a m1 r :
  m_kind m = KBattery b -> batt_wf b -> batt_in b ->
  unnormalized_step a m = (m1, r) ->
  (m1 = m /\ exists e, r = Err e)
  \/ exists b' rw i, m1 = set_kind m (KBattery b') /\ r = Ok (rw, false, i) /\ moved b b' rw i.
Proof.
  intros K W I E.
  assert (SRC : forall x m1 r, as_source x m = (m1, r) ->
    (m1 = m /\ exists e, r = Err e)
    \/ exists b' rw i, m1 = set_kind m (KBattery b') /\ r = Ok (rw, false, i) /\ moved b b' rw i).
  { clear E m1 r. intros x m1 r. unfold as_source, mbind, massert, mget, mlift.
    destruct (nleb n0 x) eqn:X; [|unfold raise; intros E; inversion E; subst; left; eauto].
    rewrite K. simpl is_source. simpl is_fixed. cbv iota.
    unfold max_production. rewrite K. cbv beta iota. unfold gt_bound.
    unum. qprop.
    assert (UPD : forall y, y <= battery_max_production b ->
      update (Some y) true m = (m1, r) ->
      (m1 = m /\ exists e, r = Err e)
    \/ exists b' rw i, m1 = set_kind m (KBattery b') /\ r = Ok (rw, false, i) /\ moved b b' rw i).
    { intros y Y. unfold update. rewrite K. unfold lift_kind.
      destruct (battery_update_source b y W I Y) as [P N].
      destruct (Qlt_le_dec y 0) as [NY|PY].
      - destruct (N NY) as [e ->]. intros E; inversion E; subst. left.
        rewrite <- K, set_kind_id. eauto.
      - destruct (P PY) as (b' & rw & -> & A1 & A2 & A3 & A4). intros E; inversion E; subst.
        right. exists b', rw, [("provided_energy", y)]. repeat split; auto.
        apply (Discharged _ _ _ _ y); auto. }
    destruct (Qltb (battery_max_production b) x) eqn:OV; qprop.
    - destruct (m_raise m).
      + unfold raise_error, mraise, raise; intros E; inversion E; subst; left; eauto.
      + apply UPD. lra.
    - unfold min_production. rewrite K. unum.
      destruct (Qltb x 0) eqn:NX; qprop; [lra|]. apply UPD. assumption. }
  assert (SNK : forall x m1 r, as_sink x m = (m1, r) ->
    (m1 = m /\ exists e, r = Err e)
    \/ exists b' rw i, m1 = set_kind m (KBattery b') /\ r = Ok (rw, false, i) /\ moved b b' rw i).
  { clear E m1 r. intros x m1 r. unfold as_sink, mbind, massert, mget, mlift.
    destruct (nleb n0 x) eqn:X; [|unfold raise; intros E; inversion E; subst; left; eauto].
    rewrite K. simpl is_fixed. cbv iota.
    unfold max_consumption. rewrite K. cbv beta iota. unfold gt_bound.
    unum. qprop.
    assert (UPD : forall y, y <= battery_max_consumption b -> 0 <= y ->
      update (Some y) false m = (m1, r) ->
      (m1 = m /\ exists e, r = Err e)
    \/ exists b' rw i, m1 = set_kind m (KBattery b') /\ r = Ok (rw, false, i) /\ moved b b' rw i).
    { intros y Y PY. unfold update. rewrite K. unfold lift_kind.
      destruct (battery_update_sink b y W I Y PY) as (b' & rw & -> & A1 & A2 & A3 & A4).
      intros E; inversion E; subst.
      right. exists b', rw, [("absorbed_energy", y)]. repeat split; auto.
      apply (Charged _ _ _ _ y); auto. }
    destruct (Qltb (battery_max_consumption b) x) eqn:OV; qprop.
    - destruct (m_raise m).
      + unfold raise_error, mraise, raise; intros E; inversion E; subst; left; eauto.
      + destruct (Qle_bool 0 (battery_max_consumption b)) eqn:P; qprop.
        * apply UPD; lra.
        * unfold raise_error, mraise, raise; intros E; inversion E; subst; left; eauto.
    - apply UPD; assumption. }
  unfold unnormalized_step in E.
  destruct (nltb n0 a); [exact (SRC _ _ _ E)|].
  destruct (nltb a n0); [exact (SNK _ _ _ E)|].
  unfold mbind, mget in E. rewrite K in E. simpl is_source in E. cbv iota in E.
  exact (SRC _ _ _ E).
Qed.

Lemma module_log_ok (sd : dict Q) rw i (m : module Q) np na :
  m_prov m = Some np -> m_abs m = Some na -> log_lists (m_log m) ->
  exists lg, module_log sd rw i m = (set_log m lg, Ok tt) /\ log_lists lg.
Proof.
  intros P A L. unfold module_log, mbind, mget. rewrite P, A.
  destruct (dget "provided_energy" i), (dget "absorbed_energy" i); unfold mret;
    match goal with |- context [logger_log ?x ?y] =>
      destruct (logger_log_lists x y L) as (lg & -> & L' & _); eauto end.
Qed.

Lemma norm_obs_two (m : module Q) b :
  m_kind m = KBattery b -> length (sp_low (m_obs m)) = 2%nat -> exists o, norm_obs m = Ok o.
Proof.
  intros K L. unfold norm_obs, state, state_dict. rewrite K. simpl.
  unfold normalize, shape_check. simpl. rewrite L. simpl. eauto.
Qed.

(** Every step of a battery module either fails and leaves the module as it
    was, or moves energy as described by [moved] and advances one step. *)
Lemma step_battery m b a n m' r :
  batt_ok m b -> step a n m = (m', r) ->
  (m' = m /\ exists e, r = Err e)
  \/ exists b' o rw i, r = Ok (o, rw, false, i) /\ moved b b' rw i /\ batt_ok m' b'
       /\ m_cur m' = (m_cur m + 1)%Z /\ m_act m' = m_act m /\ m_raise m' = m_raise m
       /\ m_init m' = m_init m.
Proof.
  intros (K & W & I & O1 & O2 & P & A & L) E.
  unfold step, mbind at 1, mget in E. rewrite K in E.
  unfold base_step in E. unfold mbind at 1, mget in E.
  apply mbind_inv in E. unfold mlift in E.
  destruct E as [(s & da & E1 & E)|(e & E1 & ->)]; [|inversion E1; subst; left; eauto].
  inversion E1; subst s. clear E1.
  apply mbind_inv in E.
  destruct E as [(s & en & E1 & E)|(e & E1 & ->)]; [|inversion E1; subst; left; eauto].
  inversion E1; subst s. clear E1.
  apply mbind_inv in E.
  destruct E as [(s & sd & E1 & E)|(e & E1 & ->)]; [|inversion E1; subst; left; eauto].
  inversion E1; subst s. clear E1.
  apply mbind_inv in E.
  destruct E as [(m1 & out & E1 & E)|(e & E1 & ->)].
  2:{ destruct (request_battery _ _ _ _ _ K W I E1) as [[-> _]|(b' & rw & i & _ & C & _)];
        [left; eauto|discriminate]. }
  destruct (request_battery _ _ _ _ _ K W I E1) as [[_ [e C]]|(b' & rw & i & -> & C & Mv)];
    [discriminate|]. inversion C; subst. clear C.
  apply mbind_inv in E.
  destruct (module_log_ok sd rw i (set_kind m (KBattery b')) _ _ P A L) as (lg & EL & LL).
  destruct E as [(m2 & u & E2 & E)|(e & E2 & ->)]; [|rewrite EL in E2; discriminate].
  rewrite EL in E2. inversion E2; subst. clear E2.
  apply mbind_inv in E.
  destruct E as [(m3 & u3 & E3 & E)|(e & E3 & ->)].
  2:{ apply update_step_any in E3. simpl in E3. destruct E3 as [_ C]; discriminate. }
  apply update_step_any in E3. simpl in E3. destruct E3 as [-> _].
  unfold mbind, mget in E.
  match type of E with context [norm_obs ?mm] =>
    destruct (norm_obs_two mm b' eq_refl O1) as [o EO]; rewrite EO in E end.
  unfold mret in E. inversion E; subst. right.
  exists b', o, rw, i. split; [reflexivity|]. split; [assumption|]. split.
  - repeat split; auto; try apply (moved_wf _ _ _ _ Mv W);
      apply (moved_in _ _ _ _ Mv W I).
  - repeat split.
Qed.

Lemma reset_battery m b : batt_ok m b ->
  batt_ok (fst (reset m)) b /\ m_act (fst (reset m)) = m_act m
  /\ m_raise (fst (reset m)) = m_raise m.
Proof.
  intros (K & W & I & O1 & O2 & P & A & L). unfold reset, mbind.
  destruct (update_step true m) as [m1 r1] eqn:E. apply update_step_any in E.
  rewrite K in E. simpl in E. destruct E as [-> ->].
  unfold mmodify, mget, mlift. simpl. repeat split; auto; try apply W; try apply I.
  apply log_lists_empty.
Qed.

Lemma call_battery m b c m' os :
  batt_ok m b -> do_call c m = (m', os) ->
  (os = [] /\ exists b', batt_ok m' b' /\ b' = b)
  \/ exists b' o rw i, os = [(o, rw, false, i)] /\ moved b b' rw i /\ batt_ok m' b'.
Proof.
  intros B E. destruct c as [a n|]; simpl in E.
  - destruct (step a n m) as [m1 [o|e]] eqn:S; inversion E; subst; clear E.
    + destruct (step_battery _ _ _ _ _ _ B S) as [[_ [e C]]|(b' & o' & rw & i & C & Mv & B' & _)];
        [discriminate|]. inversion C; subst. right. exists b', o', rw, i. auto.
    + destruct (step_battery _ _ _ _ _ _ B S) as [[-> _]|(b' & o' & rw & i & C & _)];
        [|discriminate]. left. eauto.
  - inversion E; subst. left. split; [reflexivity|]. exists b. split; [|reflexivity].
    apply reset_battery; assumption.
Qed.

(** ** Histories *)

Definition same_params (b b' : battery Q) : Prop := exists c s, b' = set_charge b c s.

Lemma moved_same b b' rw i : moved b b' rw i -> same_params b b'.
Proof. intros M. exists (b_charge b'), (b_soc b'). apply (moved_params _ _ _ _ M). Qed.

Lemma provided_one x : provided [("provided_energy", x)] = x.
Proof. reflexivity. Qed.
Lemma absorbed_one x : absorbed [("absorbed_energy", x)] = x.
Proof. reflexivity. Qed.

(** Per successful step: signs, limits, accounting and cost. *)
Lemma moved_accounting b b' rw i : batt_wf b -> moved b b' rw i ->
  0 <= provided i /\ 0 <= absorbed i
  /\ b_charge b' == b_charge b + b_efficiency b * absorbed i - provided i / b_efficiency b
  /\ rw == - (b_cost_cycle b * Qabs (b_charge b' - b_charge b))
  /\ (0 < provided i -> b_charge b' <= b_charge b)
  /\ (0 < absorbed i -> b_charge b <= b_charge b')
  /\ ~ (0 < provided i /\ 0 < absorbed i)
  /\ (0 <= b_max_discharge b -> 0 <= b_max_charge b ->
      - b_max_discharge b <= b_charge b' - b_charge b
      /\ b_charge b' - b_charge b <= b_max_charge b).
Proof.
  intros W Mv.
  destruct Mv as [x P1 P2 P3 P4 P5 P6 ->|x P1 P2 P3 P4 P5 P6 ->].
  - rewrite provided_one. change (absorbed [("provided_energy", x)]) with 0.
    assert (XE : 0 <= x / b_efficiency b) by (destruct W; apply Qdiv_pos; lra).
    assert (D : b_charge b' - b_charge b == - (x / b_efficiency b)) by (rewrite P4; ring).
    destruct (max_production_limit b W) as [L1 L2].
    assert (XM : x / b_efficiency b <= battery_max_production b / b_efficiency b).
    { apply Qmult_le_compat_r; [assumption|]. apply Qinv_le_0_compat. destruct W; lra. }
    repeat split; try lra.
    rewrite D, Qabs_opp, Qabs_nonneg by assumption. assumption.
  - rewrite absorbed_one. change (provided [("absorbed_energy", x)]) with 0.
    assert (XE : 0 <= x * b_efficiency b) by (destruct W; apply Qmult_le_0_compat; lra).
    assert (D : b_charge b' - b_charge b == x * b_efficiency b) by (rewrite P4; ring).
    destruct (max_consumption_limit b W) as [L1 L2].
    assert (XM : x * b_efficiency b <= battery_max_consumption b * b_efficiency b).
    { apply Qmult_le_compat_r; [assumption|]. destruct W; lra. }
    assert (Z : 0 / b_efficiency b == 0) by (field; destruct W; lra).
    repeat split; try lra.
    rewrite D, Qabs_nonneg by assumption. assumption.
Qed.

Lemma play_battery cs : forall m b m' os,
  batt_ok m b -> play cs m = (m', os) ->
  exists b', batt_ok m' b' /\ same_params b b'
    /\ Forall (fun o => done_of o = false) os
    /\ b_charge b' == b_charge b + b_efficiency b * total_absorbed os
                       - total_provided os / b_efficiency b
    /\ total_reward os == - (b_cost_cycle b * variation (map charge (trace cs m))).
Proof.
  induction cs as [|c cs IH]; simpl; intros m b m' os B E.
  - inversion E; subst. exists b. split; [assumption|]. split; [exists (b_charge b), (b_soc b); destruct b; reflexivity|].
    split; [constructor|]. unfold total_absorbed, total_provided, total_reward, total. simpl.
    destruct B as (_ & W & _). split; [|ring].
    assert (Z : 0 / b_efficiency b == 0) by (field; destruct W; lra). rewrite Z. ring.
  - destruct (do_call c m) as [m1 o1] eqn:C. destruct (play cs m1) as [m2 os2] eqn:P.
    inversion E; subst. clear E. simpl.
    assert (CH : charge m = b_charge b) by (destruct B as (K & _); unfold charge; rewrite K; reflexivity).
    assert (TR : exists rest, trace cs m1 = m1 :: rest) by (destruct cs; simpl; eauto).
    destruct TR as [rest TR].
    destruct (call_battery _ _ _ _ _ B C) as [(-> & b' & B' & ->)|(b' & o & rw & i & -> & Mv & B')].
    + destruct (IH _ _ _ _ B' P) as (b2 & B2 & S2 & D2 & A2 & R2). exists b2.
      repeat split; auto; try apply B2. simpl.
      rewrite R2. rewrite TR. simpl.
      assert (CH1 : charge m1 = b_charge b) by (destruct B' as (K & _); unfold charge; rewrite K; reflexivity).
      rewrite CH, CH1.
      assert (Z : Qabs (b_charge b - b_charge b) == 0) by (setoid_replace (b_charge b - b_charge b) with 0 by ring; reflexivity).
      rewrite Z. ring.
    + destruct (IH _ _ _ _ B' P) as (b2 & B2 & S2 & D2 & A2 & R2). exists b2.
      pose proof (moved_same _ _ _ _ Mv) as (c1 & s1 & PE).
      destruct B as (K & W & I & _).
      destruct (moved_accounting _ _ _ _ W Mv) as (N1 & N2 & N3 & N4 & _).
      split; [assumption|].
      split. { destruct S2 as (c2 & s2 & ->). exists c2, s2. rewrite PE. reflexivity. }
      split. { simpl. constructor; auto. }
      assert (EF : b_efficiency b' = b_efficiency b) by (rewrite PE; reflexivity).
      assert (CC : b_cost_cycle b' = b_cost_cycle b) by (rewrite PE; reflexivity).
      unfold total_absorbed, total_provided, total_reward in *. simpl.
      change (info_of (o, rw, false, i)) with i. change (reward_of (o, rw, false, i)) with rw.
      rewrite EF, CC in *. split.
      * rewrite A2, N3. field. destruct W; lra.
      * rewrite R2, N4, TR. simpl.
        assert (CH1 : charge m1 = b_charge b') by (destruct B' as (K1 & _); unfold charge; rewrite K1; reflexivity).
        rewrite CH, CH1. ring.
Qed.

Lemma new_battery_ok minc maxc maxch maxdis eff cost ic is init rs m :
  new_battery minc maxc maxch maxdis eff cost None ic is init rs = Ok m ->
  minc <= charge m -> charge m <= maxc ->
  exists b, batt_ok m b
    /\ b_min_capacity b = minc /\ b_max_capacity b = maxc /\ b_max_charge b = maxch
    /\ b_max_discharge b = maxdis /\ b_efficiency b = eff /\ b_cost_cycle b = cost
    /\ m_act m = Some (mkSpace [- maxdis / eff] [maxch * eff]) /\ m_raise m = rs
    /\ m_cur m = init /\ m_init m = init.
Proof.
  unfold new_battery. intros E L H.
  destruct (negb _) eqn:EF in E; [discriminate|].
  destruct (neqb maxc n0) eqn:MZ; [discriminate|].
  apply rbind_ok in E. destruct E as ([c s] & IB & E). inversion E; subst. clear E.
  unum. qprop. simpl in L, H.
  assert (S : s == c / maxc).
  { unfold init_battery in IB. unum. destruct ic as [c0|].
    - destruct (Qeq_bool maxc 0); [discriminate|]. inversion IB; subst. reflexivity.
    - destruct is as [s0|]; inversion IB; subst. field. assumption. }
  eexists. split.
  - repeat split; simpl; auto; try lra. apply log_lists_empty.
  - simpl. repeat split.
Qed.

Lemma denorm_battery_action lo hi (m : module Q) y :
  m_act m = Some (mkSpace [lo] [hi]) -> lo < hi ->
  exists x, denorm_action m (VS y) = Ok (VS x) /\ x == lo + (hi - lo) * y.
Proof.
  intros A L. unfold denorm_action. rewrite A. unfold denormalize. simpl.
  eexists. split; [reflexivity|]. unfold denorm1, spread1. unum.
  destruct (Qeq_bool (hi - lo) 0) eqn:E; qprop; [lra|reflexivity].
Qed.

(** Points of an interval reachable by normalized scalars. *)
Lemma reach_interval lo hi (m : module Q) x :
  m_act m = Some (mkSpace [lo] [hi]) -> lo < hi ->
  ((exists y x', 0 <= y /\ y <= 1 /\ denorm_action m (VS y) = Ok (VS x') /\ x' == x)
   <-> lo <= x /\ x <= hi).
Proof.
  intros A L. split.
  - intros (y & x' & Y0 & Y1 & E & X).
    destruct (denorm_battery_action lo hi m y A L) as (x2 & E2 & X2).
    rewrite E in E2. inversion E2; subst x2.
    assert (0 <= (hi - lo) * y) by (apply Qmult_le_0_compat; lra).
    assert (0 <= (hi - lo) * (1 - y)) by (apply Qmult_le_0_compat; lra).
    lra.
  - intros [X0 X1]. exists ((x - lo) / (hi - lo)).
    destruct (denorm_battery_action lo hi m ((x - lo) / (hi - lo)) A L) as (x2 & E2 & X2).
    exists x2. repeat split; auto.
    + apply Qdiv_pos; lra.
    + apply Qle_shift_div_r; lra.
    + rewrite X2. field. lra.
Qed.

(** ** Any arithmetic: the lower clamp *)
Section AnyArithmetic.
Context {T : Type} `{NumOps T}.
Hypothesis ltb_irrefl : forall x : T, nltb x x = false.

Definition above_min (m : module T) (minc : T) : Prop :=
  exists b, m_kind m = KBattery b /\ b_min_capacity b = minc /\ nltb (b_charge b) minc = false.

Lemma battery_update_above e src (b b' : battery T) o :
  battery_update e src b = (b', Ok o) ->
  b_min_capacity b' = b_min_capacity b /\ nltb (b_charge b') (b_min_capacity b) = false.
Proof.
  unfold battery_update. intros E.
  destruct src; minv;
    match goal with X : battery_update_state _ _ = _ |- _ => unfold battery_update_state in X;
      destruct (nltb (nadd (b_charge _) _) (b_min_capacity _)) eqn:?;
      [destruct (isclose _ _)|]; inversion X; subst end; simpl; auto.
Qed.

Lemma update_above e src (m m' : module T) o minc :
  above_min m minc -> update e src m = (m', Ok o) -> above_min m' minc.
Proof.
  intros (b & K & B1 & B2) E. unfold update in E. rewrite K in E.
  destruct e as [e|]; [|discriminate].
  unfold lift_kind in E. destruct (battery_update e src b) as [b' r] eqn:U.
  inversion E; subst. destruct (battery_update_above _ _ _ _ _ U) as [A1 A2].
  exists b'. simpl. rewrite A1. auto.
Qed.

Lemma as_source_above x (m m' : module T) o minc :
  above_min m minc -> as_source x m = (m', Ok o) -> above_min m' minc.
Proof.
  intros A E. unfold as_source, raise_error in E. mcrush; eauto using update_above.
Qed.

Lemma as_sink_above x (m m' : module T) o minc :
  above_min m minc -> as_sink x m = (m', Ok o) -> above_min m' minc.
Proof.
  intros A E. unfold as_sink, raise_error in E. mcrush; eauto using update_above.
Qed.

Lemma step_above a n (m m' : module T) o minc :
  above_min m minc -> step a n m = (m', Ok o) -> above_min m' minc.
Proof.
  intros A E. pose proof A as (b0 & K & _).
  unfold step, mbind at 1, mget in E. rewrite K in E.
  destruct o as [[[ob rw] d] i].
  apply base_step_ok in E. destruct E as (da & e & m1 & sd & m2 & _ & _ & _ & U & L & S & _).
  assert (A1 : above_min m1 minc).
  { unfold unnormalized_step in U. mcrush; eauto using as_source_above, as_sink_above. }
  destruct (module_log_any _ _ _ _ _ _ L) as [lg ->].
  apply update_step_any in S. destruct A1 as (b & K1 & B). simpl in S. rewrite K1 in S.
  simpl in S. destruct S as [-> _]. exists b. auto.
Qed.

Lemma reset_above (m m' : module T) o minc :
  above_min m minc -> reset m = (m', Ok o) -> above_min m' minc.
Proof.
  intros (b & K & B) E. unfold reset in E. mcrush.
  match goal with X : update_step _ _ = _ |- _ => apply update_step_any in X; rewrite K in X;
    simpl in X; destruct X as [-> _] end. exists b. auto.
Qed.

Lemma play_strict_above cs : forall (m m' : module T) minc,
  above_min m minc -> play_strict cs m = Some m' -> above_min m' minc.
Proof.
  induction cs as [|c cs IH]; simpl; intros m m' minc A E; [inversion E; subst; assumption|].
  destruct c as [a n|].
  - destruct (step a n m) as [m1 [o|e]] eqn:S; [|discriminate].
    eauto using step_above.
  - destruct (reset m) as [m1 [o|e]] eqn:S; [|discriminate].
    eauto using reset_above.
Qed.
End AnyArithmetic.

Lemma SFltb_irrefl (x : b64) : nltb x x = false.
Proof.
  simpl. unfold SpecFloat.SFltb, SpecFloat.SFcompare.
  destruct x as [s|s| |s m e]; try reflexivity; try (destruct s; reflexivity).
  rewrite Z.compare_refl. rewrite Pos.compare_cont_refl. destruct s; reflexivity.
Qed.

(** ** The property statements *)

Lemma charge_of m b : m_kind m = KBattery b -> charge m = b_charge b.
Proof. intros K. unfold charge. rewrite K. reflexivity. Qed.

Lemma C04_lemma minc maxc maxch maxdis eff cost ic is init rs m0 cs m os :
  new_battery minc maxc maxch maxdis eff cost None ic is init rs = Ok m0 ->
  minc <= charge m0 -> charge m0 <= maxc ->
  play cs m0 = (m, os) ->
  minc <= charge m /\ charge m <= maxc
  /\ exists b, m_kind m = KBattery b /\ b_soc b == charge m / maxc.
Proof.
  intros N L H P. destruct (new_battery_ok _ _ _ _ _ _ _ _ _ _ _ N L H) as (b0 & B0 & E1 & E2 & _).
  destruct (play_battery _ _ _ _ _ B0 P) as (b & (K & _ & (I1 & I2 & I3) & _) & (c & s & PE) & _).
  rewrite (charge_of _ _ K).
  assert (A1 : b_min_capacity b = minc) by (rewrite PE; exact E1).
  assert (A2 : b_max_capacity b = maxc) by (rewrite PE; exact E2).
  rewrite A1, A2 in *. repeat split; auto. exists b. auto.
Qed.

Lemma C05_lemma minc maxc maxch maxdis eff cost ic is init rs m0 cs m os :
  new_battery minc maxc maxch maxdis eff cost None ic is init rs = Ok m0 ->
  minc <= charge m0 -> charge m0 <= maxc ->
  play cs m0 = (m, os) ->
  charge m == charge m0 + eff * total_absorbed os - total_provided os / eff.
Proof.
  intros N L H P.
  destruct (new_battery_ok _ _ _ _ _ _ _ _ _ _ _ N L H) as (b0 & B0 & _ & _ & _ & _ & E5 & _).
  destruct (play_battery _ _ _ _ _ B0 P) as (b & (K & _) & _ & _ & A & _).
  destruct B0 as (K0 & _). rewrite (charge_of _ _ K), (charge_of _ _ K0), A, E5. reflexivity.
Qed.

Lemma C06_lemma minc maxc maxch maxdis eff cost ic is init rs m0 cs m os a n m' r :
  new_battery minc maxc maxch maxdis eff cost None ic is init rs = Ok m0 ->
  minc <= charge m0 -> charge m0 <= maxc -> 0 <= maxch -> 0 <= maxdis ->
  play cs m0 = (m, os) -> step a n m = (m', r) ->
  - maxdis <= charge m' - charge m /\ charge m' - charge m <= maxch
  /\ match r with
     | Err _ => charge m' = charge m
     | Ok o => (0 < provided (info_of o) -> charge m' <= charge m /\ absorbed (info_of o) == 0)
               /\ (0 < absorbed (info_of o) -> charge m <= charge m' /\ provided (info_of o) == 0)
     end.
Proof.
  intros N L H P1 P2 P S.
  destruct (new_battery_ok _ _ _ _ _ _ _ _ _ _ _ N L H) as (b0 & B0 & E1 & E2 & E3 & E4 & _).
  destruct (play_battery _ _ _ _ _ B0 P) as (b & B & (c & s & PE) & _).
  pose proof B as (K & W & _).
  destruct (step_battery _ _ _ _ _ _ B S) as [[-> [e ->]]|(b' & o & rw & i & -> & Mv & (K' & _) & _)].
  - repeat split; lra.
  - destruct (moved_accounting _ _ _ _ W Mv) as (N1 & N2 & N3 & N4 & N5 & N6 & N7 & N8).
    rewrite (charge_of _ _ K), (charge_of _ _ K').
    assert (A1 : b_max_discharge b = maxdis) by (rewrite PE; exact E4).
    assert (A2 : b_max_charge b = maxch) by (rewrite PE; exact E3).
    rewrite A1, A2 in N8. destruct (N8 P2 P1). unfold info_of; simpl. repeat split; auto.
    + destruct (Qlt_le_dec 0 (absorbed i)); [tauto|lra].
    + destruct (Qlt_le_dec 0 (provided i)); [tauto|lra].
Qed.

Lemma C07_lemma minc maxc maxch maxdis eff cost ic is init rs m0 cs m os :
  new_battery minc maxc maxch maxdis eff cost None ic is init rs = Ok m0 ->
  minc <= charge m0 -> charge m0 <= maxc ->
  play cs m0 = (m, os) ->
  (forall a n m' o, step a n m = (m', Ok o) ->
     reward_of o == - (cost * Qabs (charge m' - charge m)))
  /\ total_reward os == - (cost * variation (map charge (trace cs m0))).
Proof.
  intros N L H P.
  destruct (new_battery_ok _ _ _ _ _ _ _ _ _ _ _ N L H) as (b0 & B0 & E1 & E2 & E3 & E4 & E5 & E6 & _).
  destruct (play_battery _ _ _ _ _ B0 P) as (b & B & (c & s & PE) & _ & _ & R).
  rewrite E6 in R. split; [|assumption].
  intros a n m' o S. pose proof B as (K & W & _).
  destruct (step_battery _ _ _ _ _ _ B S) as [[_ [e C]]|(b' & ob & rw & i & E & Mv & (K' & _) & _)];
    [discriminate|].
  inversion E; subst. destruct (moved_accounting _ _ _ _ W Mv) as (_ & _ & _ & N4 & _).
  rewrite (charge_of _ _ K), (charge_of _ _ K').
  change (b_cost_cycle b0) with (b_cost_cycle (set_charge b0 c s)).
  exact N4.
Qed.

Lemma C08_lemma minc maxc maxch maxdis eff cost ic is init rs m0 cs m os :
  new_battery minc maxc maxch maxdis eff cost None ic is init rs = Ok m0 ->
  minc <= charge m0 -> charge m0 <= maxc ->
  play cs m0 = (m, os) ->
  total_provided os == eff * eff * total_absorbed os + eff * (charge m0 - charge m)
  /\ (charge m0 <= charge m -> total_provided os <= eff * eff * total_absorbed os)
  /\ (charge m0 <= charge m -> total_provided os <= total_absorbed os).
Proof.
  intros N L H P.
  pose proof (C05_lemma _ _ _ _ _ _ _ _ _ _ _ _ _ _ N L H P) as A.
  destruct (new_battery_ok _ _ _ _ _ _ _ _ _ _ _ N L H) as (b0 & B0 & E1 & E2 & E3 & E4 & E5 & E6 & _).
  destruct B0 as (_ & (F0 & F1 & _) & _). rewrite E5 in *.
  assert (X : total_provided os == eff * eff * total_absorbed os + eff * (charge m0 - charge m)).
  { rewrite A. field. lra. }
  assert (NA : 0 <= total_absorbed os).
  { clear - P N L H.
    destruct (new_battery_ok _ _ _ _ _ _ _ _ _ _ _ N L H) as (b0 & B0 & _).
    clear N L H. revert m0 b0 m os B0 P.
    induction cs as [|c cs IH]; simpl; intros m0 b0 m os B0 P.
    - inversion P; subst. unfold total_absorbed, total. simpl. lra.
    - destruct (do_call c m0) as [m1 o1] eqn:C. destruct (play cs m1) as [m2 os2] eqn:P2.
      inversion P; subst. clear P.
      destruct (call_battery _ _ _ _ _ B0 C) as [(-> & b' & B' & ->)|(b' & o & rw & i & -> & Mv & B')].
      + apply (IH _ _ _ _ B' P2).
      + pose proof (IH _ _ _ _ B' P2). destruct B0 as (_ & W & _).
        destruct (moved_accounting _ _ _ _ W Mv) as (_ & N2 & _).
        unfold total_absorbed, total, info_of in *. simpl. lra. }
  split; [exact X|].
  assert (Y : charge m0 <= charge m -> total_provided os <= eff * eff * total_absorbed os).
  { intros D. rewrite X. assert (0 <= eff * (charge m - charge m0)) by (apply Qmult_le_0_compat; lra). lra. }
  split; [exact Y|]. intros D. specialize (Y D).
  assert (0 <= (1 - eff * eff) * total_absorbed os).
  { apply Qmult_le_0_compat; [|assumption].
    assert (0 <= (1 - eff) * (1 + eff)) by (apply Qmult_le_0_compat; lra). lra. }
  lra.
Qed.

Lemma C09_lower_lemma (minc maxc maxch maxdis eff cost : b64) model ic is init rs m0 cs m :
  new_battery minc maxc maxch maxdis eff cost model ic is init rs = Ok m0 ->
  (forall b, m_kind m0 = KBattery b -> nltb (b_charge b) minc = false) ->
  play_strict cs m0 = Some m ->
  exists b, m_kind m = KBattery b /\ nltb (b_charge b) minc = false.
Proof.
  intros N L P.
  assert (A : above_min m0 minc).
  { unfold new_battery in N. destruct (negb _) in N; [discriminate|].
    destruct (neqb maxc n0) in N; [discriminate|]. apply rbind_ok in N.
    destruct N as (cs0 & _ & N). inversion N; subst. eexists. split; [reflexivity|].
    split; [reflexivity|]. apply (L _ eq_refl). }
  destruct (play_strict_above SFltb_irrefl _ _ _ _ A P) as (b & K & _ & B). eauto.
Qed.

Lemma C10_lemma minc maxc maxch maxdis eff cost model ic is init rs m0 :
  new_battery minc maxc maxch maxdis eff cost model ic is init rs = Ok m0 ->
  0 <= maxch -> 0 <= maxdis -> 0 < maxch + maxdis ->
  ((forall x, 0 <= x -> x <= maxdis * eff ->
      exists y x', 0 <= y /\ y <= 1 /\ denorm_action m0 (VS y) = Ok (VS x') /\ x' == x)
   <-> maxdis <= maxch)
  /\ ((forall x, 0 <= x -> x <= maxch / eff ->
      exists y x', 0 <= y /\ y <= 1 /\ denorm_action m0 (VS y) = Ok (VS x') /\ x' == - x)
   <-> maxch <= maxdis).
Proof.
  intros N P1 P2 P3. unfold new_battery in N.
  destruct (negb _) eqn:EF in N; [discriminate|].
  destruct (neqb maxc n0) in N; [discriminate|]. apply rbind_ok in N.
  destruct N as (cs0 & _ & N). inversion N as [E]. clear N. unum. qprop.
  assert (A : m_act m0 = Some (mkSpace [- maxdis / eff] [maxch * eff])) by (subst; reflexivity).
  rewrite E. clear E.
  assert (F : - maxdis / eff == - (maxdis / eff)) by (field; lra).
  assert (D0 : 0 <= maxdis / eff) by (apply Qdiv_pos; lra).
  assert (C0 : 0 <= maxch * eff) by (apply Qmult_le_0_compat; lra).
  assert (LT : - maxdis / eff < maxch * eff).
  { destruct (Qlt_le_dec 0 maxch).
    - assert (0 < maxch * eff) by (rewrite <- (Qmult_0_l eff); apply Qmult_lt_compat_r; lra). lra.
    - assert (0 < maxdis / eff) by (apply Qlt_shift_div_l; lra). lra. }
  assert (RI : forall x, (exists y x', 0 <= y /\ y <= 1 /\ denorm_action m0 (VS y) = Ok (VS x') /\ x' == x)
                <-> - maxdis / eff <= x /\ x <= maxch * eff)
    by (intros; apply reach_interval; assumption).
  split; split.
  - intros R. destruct (Qlt_le_dec maxch maxdis) as [C|]; [exfalso|assumption].
    assert (0 <= maxdis * eff) by (apply Qmult_le_0_compat; lra).
    destruct (proj1 (RI _) (R (maxdis * eff) H1 (Qle_refl _))) as [_ X].
    assert (maxch * eff < maxdis * eff) by (apply Qmult_lt_compat_r; lra). lra.
  - intros C x X0 X1. apply RI. split; [lra|].
    assert (maxdis * eff <= maxch * eff) by (apply Qmult_le_compat_r; lra). lra.
  - intros R. destruct (Qlt_le_dec maxdis maxch) as [C|]; [exfalso|assumption].
    assert (0 <= maxch / eff) by (apply Qdiv_pos; lra).
    destruct (proj1 (RI _) (R (maxch / eff) H1 (Qle_refl _))) as [X _].
    assert (maxdis / eff < maxch / eff).
    { apply Qmult_lt_compat_r; [apply Qinv_lt_0_compat; lra|assumption]. } lra.
  - intros C x X0 X1. apply RI. split; [|lra].
    assert (maxch / eff <= maxdis / eff).
    { apply Qmult_le_compat_r; [assumption|]. apply Qlt_le_weak, Qinv_lt_0_compat; lra. } lra.
Qed.
