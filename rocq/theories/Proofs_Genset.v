(** * Proofs about the genset module *)

From Coq Require Import ZArith QArith Qabs Bool String List Lia Lqa.
From Verif Require Import Num Py Space Logger Forecast Module
  Proofs_Num Proofs_Logger Spec_Module Spec_Genset Proofs_Module.
Import ListNotations.
Local Open Scope string_scope.
Local Open Scope list_scope.
Local Open Scope Q_scope.

(** Phases that can occur. *)
Definition phase_ok (su wd : Z) (abort : bool) (p : phase) : Prop :=
  match p with
  | Off | On => True
  | StartingUp k => (0 <= k < su)%Z /\ abort = true
  | WindingDown k => (0 <= k < wd)%Z /\ abort = true
  end.

Definition gen_in (g : genset Q) (p : phase) : Prop :=
  (0 <= g_start_up g)%Z /\ (0 <= g_wind_down g)%Z
  /\ shows (g_start_up g) (g_wind_down g) p g
  /\ phase_ok (g_start_up g) (g_wind_down g) (g_allow_abortion g) p.

(** The fields that never change. *)
Definition same_gen (g g' : genset Q) : Prop :=
  g' = set_genset g (g_status g') (g_goal g') (g_until_up g') (g_until_down g').

Lemma Zeqb_reflect a b : (a =? b)%Z = true \/ (a =? b)%Z = false.
Proof. destruct (a =? b)%Z; auto. Qed.

(** The status update is the phase machine, and the prediction is right. *)
Lemma update_status_refines g p x :
  gen_in g p -> 0 <= x -> x <= 1 ->
  exists g', update_status x g = (g', Ok tt)
    /\ same_gen g g'
    /\ gen_in g' (phase_next (g_start_up g) (g_wind_down g) (g_allow_abortion g) p (round01 x))
    /\ g_status g' = next_status g (round01 x).
Proof.
  intros (S0 & W0 & Sh & Ok) X0 X1.
  assert (R : nleb n0 x && nleb x n1 = true).
  { apply andb_true_iff. split; apply Qleb_le; assumption. }
  destruct g as [mn mx co cp cc su wd ab is st gl up dn].
  unfold gen_in, shows, phase_ok, same_gen in *. simpl in S0, W0, Sh, Ok.
  unfold update_status. generalize (round01 x). intros w.
  unfold mbind, mget, massert. rewrite R. simpl.
  destruct w;
  destruct p as [|k| |k]; simpl in *;
    destruct Sh as (-> & -> & -> & ->).
  all: cbn -[Z.sub Z.add Z.leb Z.ltb Z.eqb].
  all: destruct ab; try (destruct Ok; discriminate).
  all: unfold next_status, finish_in_progress_change, non_instantaneous_update, set_goal,
    reset_up_down_times, update_up_down_times, massert, mbind, mget, mmodify, mret in *;
    simpl.
  all: repeat match goal with
    | |- context [(?a <=? ?b)%Z] => destruct (Z.leb_spec a b); try lia; simpl
    | |- context [(?a =? ?b)%Z] => destruct (Z.eqb_spec a b); try lia; simpl
    | |- context [(?a <? ?b)%Z] => destruct (Z.ltb_spec a b); try lia; simpl
    end.
  all: try (eexists; split; [reflexivity|]; simpl; repeat split; try lia; try reflexivity).
Qed.

(** ** One step of the module *)

Lemma update_genset e src (m m1 : module Q) g r :
  m_kind m = KGenset g -> update e src m = (m1, r) -> m1 = m.
Proof.
  intros K E. unfold update in E. rewrite K in E. destruct e as [e|].
  - unfold lift_kind, genset_update, massert, mbind, mget, mret in E.
    destruct src; inversion E; subst; rewrite <- K; destruct m; reflexivity.
  - inversion E; reflexivity.
Qed.

Lemma request_genset e (m m1 : module Q) g r :
  m_kind m = KGenset g -> unnormalized_step e m = (m1, r) -> m1 = m.
Proof.
  intros K E.
  assert (SRC : forall x m1 r, as_source x m = (m1, r) -> m1 = m).
  { clear E. intros x m2 r2. unfold as_source, mbind, massert, mget, mlift.
    destruct (nleb n0 x); [|intros E; inversion E; reflexivity].
    rewrite K. simpl is_source. simpl is_fixed. cbv iota.
    unfold max_production, min_production. rewrite K. unfold gt_bound.
    unfold raise_error, mraise.
    repeat (match goal with |- context [if ?b then _ else _] => destruct b end);
      try (intros E; inversion E; reflexivity); intros E; apply (update_genset _ _ _ _ _ _ K E). }
  assert (SNK : forall x m1 r, as_sink x m = (m1, r) -> m1 = m).
  { clear E. intros x m2 r2. unfold as_sink, mbind, massert, mget, mlift.
    destruct (nleb n0 x); [|intros E; inversion E; reflexivity].
    rewrite K. simpl is_fixed. cbv iota.
    unfold max_consumption. rewrite K. unfold gt_bound.
    intros E; inversion E; reflexivity. }
  unfold unnormalized_step in E.
  destruct (nltb n0 e); [exact (SRC _ _ _ E)|].
  destruct (nltb e n0); [exact (SNK _ _ _ E)|].
  unfold mbind, mget in E. rewrite K in E. simpl is_source in E. cbv iota in E. exact (SRC _ _ _ E).
Qed.

Lemma base_step_genset a n (m m' : module Q) g r :
  m_kind m = KGenset g -> base_step a n m = (m', r) -> m_kind m' = KGenset g.
Proof.
  intros K E. apply base_step_any in E.
  destruct E as [[-> _]|(e & m1 & r1 & U & _ & D)]; [assumption|].
  apply (request_genset _ _ _ _ _ K) in U. subst m1.
  destruct D as [[-> _]|(lg & [[-> _]| ->])]; try assumption.
  destruct (update_step false (set_log m lg)) as [m2 r2] eqn:U. apply update_step_any in U.
  simpl in U. rewrite K in U. simpl in U. destruct U as [-> _]. exact K.
Qed.

(** Every step either leaves the genset alone (and fails) or makes the status
    update to the requested goal. *)
Lemma step_genset a n m m' r g p :
  m_kind m = KGenset g -> gen_in g p -> step a n m = (m', r) ->
  (m' = m /\ (forall x rest, a = VA (x :: rest) -> ~ (0 <= x /\ x <= 1))
     /\ exists e, r = Err e /\ ex_class e <> ValueError)
  \/ exists x rest g', a = VA (x :: rest) /\ 0 <= x /\ x <= 1
       /\ update_status x g = (g', Ok tt) /\ m_kind m' = KGenset g' /\ same_gen g g'
       /\ gen_in g' (phase_next (g_start_up g) (g_wind_down g) (g_allow_abortion g) p (round01 x))
       /\ base_step a n (set_kind m (KGenset g')) = (m', r).
Proof.
  intros K G E. unfold step, mbind at 1, mget in E. rewrite K in E.
  destruct a as [x|[|x rest]].
  - unfold mbind, mraise, raise in E. inversion E; subst. left. split; [reflexivity|].
    split; [discriminate|]. eexists; split; [reflexivity|discriminate].
  - unfold mbind, mraise, raise in E. inversion E; subst. left. split; [reflexivity|].
    split; [discriminate|]. eexists; split; [reflexivity|discriminate].
  - unfold mret, massert, mbind in E.
    destruct (nleb n0 x && nleb x n1) eqn:B.
    + assert (0 <= x /\ x <= 1) as [X0 X1] by (unum; qprop; auto).
      destruct (update_status_refines g p x G X0 X1) as (g' & U & S & G' & _).
      unfold lift_kind in E. rewrite U in E. right. exists x, rest, g'.
      repeat split; auto.
      apply (base_step_genset (VA (x :: rest)) n (set_kind m (KGenset g')) m' g' r eq_refl E).
      all: apply G'.
    + unfold raise in E. inversion E; subst. left. split; [reflexivity|]. split.
      * intros y rest' EQ [Y0 Y1]. inversion EQ; subst. unum.
        apply andb_false_iff in B. destruct B as [B|B]; apply Qleb_gt in B; lra.
      * eexists; split; [reflexivity|discriminate].
Qed.

Lemma reset_genset (m : module Q) g : m_kind m = KGenset g -> m_kind (fst (reset m)) = KGenset g.
Proof.
  intros K. unfold reset, mbind. destruct (update_step true m) as [m1 r1] eqn:E.
  apply update_step_any in E. rewrite K in E. simpl in E. destruct E as [-> ->].
  unfold mmodify, mget, mlift. simpl. assumption.
Qed.

Lemma gen_same_in g g' : same_gen g g' ->
  g_start_up g' = g_start_up g /\ g_wind_down g' = g_wind_down g
  /\ g_allow_abortion g' = g_allow_abortion g /\ g_min_prod g' = g_min_prod g
  /\ g_max_prod g' = g_max_prod g /\ g_cost g' = g_cost g
  /\ g_co2_per_unit g' = g_co2_per_unit g /\ g_cost_co2 g' = g_cost_co2 g.
Proof. unfold same_gen. intros E. rewrite E. simpl. repeat split. Qed.

Lemma same_gen_refl g : same_gen g g.
Proof. unfold same_gen. destruct g; reflexivity. Qed.
Lemma same_gen_trans g1 g2 g3 : same_gen g1 g2 -> same_gen g2 g3 -> same_gen g1 g3.
Proof.
  unfold same_gen. intros A B. rewrite B, A. destruct g1, g2, g3; simpl; reflexivity.
Qed.

Lemma do_call_genset (c : call Q) m g p :
  m_kind m = KGenset g -> gen_in g p ->
  exists g', m_kind (fst (do_call c m)) = KGenset g' /\ same_gen g g'
    /\ ((g' = g /\ ~ asks_on c /\ ~ asks_off c)
        \/ (asks_on c /\ gen_in g' (phase_next (g_start_up g) (g_wind_down g) (g_allow_abortion g) p true))
        \/ (asks_off c /\ gen_in g' (phase_next (g_start_up g) (g_wind_down g) (g_allow_abortion g) p false))).
Proof.
  intros K G. destruct c as [a n|].
  - simpl do_call. destruct (step a n m) as [m' r] eqn:E.
    assert (F : fst (match r with Ok o => (m', [o]) | Err _ => (m', []) end) = m') by (destruct r; reflexivity).
    rewrite F. clear F.
    destruct (step_genset _ _ _ _ _ _ _ K G E)
      as [(-> & N & _)|(x & rest & g' & -> & X0 & X1 & _ & K' & S & G' & _)].
    + exists g. split; [assumption|]. split; [apply same_gen_refl|]. left. split; [reflexivity|].
      simpl. destruct a as [y|[|y ys]]; try tauto.
      specialize (N y ys eq_refl). split; intros [A B]; apply N; lra.
    + exists g'. split; [assumption|]. split; [assumption|]. right.
      simpl asks_on. simpl asks_off. unfold round01 in G'. unum.
      destruct (Qltb (nfrac 1 2) x) eqn:R; [left|right]; qprop;
        change (nfrac 1 2) with (1#2) in R; (split; [lra|assumption]).
  - simpl. exists g. rewrite (reset_genset _ _ K). split; [reflexivity|].
    split; [apply same_gen_refl|]. left. auto.
Qed.

Lemma phase_next_ok su wd ab p w :
  (0 <= su)%Z -> (0 <= wd)%Z -> phase_ok su wd ab p -> phase_ok su wd ab (phase_next su wd ab p w).
Proof.
  intros S W P. destruct p, w; simpl in *; auto;
    repeat match goal with |- context [(?a =? ?b)%Z] => destruct (Z.eqb_spec a b) end;
    destruct ab; simpl; auto; try lia; intuition lia.
Qed.

Lemma play_genset cs : forall m g p,
  m_kind m = KGenset g -> gen_in g p ->
  exists g' p', m_kind (fst (play cs m)) = KGenset g' /\ same_gen g g' /\ gen_in g' p'.
Proof.
  induction cs as [|c cs IH]; intros m g p K G; simpl.
  - exists g, p. auto using same_gen_refl.
  - destruct (do_call_genset c m g p K G) as (g1 & K1 & S1 & D).
    destruct (do_call c m) as [m1 o1] eqn:C. simpl in K1.
    assert (exists p1, gen_in g1 p1) as [p1 G1].
    { destruct D as [(-> & _)|[[_ D]|[_ D]]]; eauto. }
    destruct (IH m1 g1 p1 K1 G1) as (g' & p' & K' & S' & G').
    destruct (play cs m1) as [m2 os]. simpl in *. exists g', p'.
    eauto using same_gen_trans.
Qed.

Lemma new_genset_ok mn mx co cp cc su wd ab up init rs prov m :
  (0 <= su)%Z -> (0 <= wd)%Z ->
  new_genset mn mx co cp cc su wd ab up init rs prov = Ok m ->
  exists g, m_kind m = KGenset g /\ gen_in g (if up then On else Off) /\ mn <= mx
    /\ g_min_prod g = mn /\ g_max_prod g = mx /\ g_cost g = co /\ g_co2_per_unit g = cp
    /\ g_cost_co2 g = cc /\ g_start_up g = su /\ g_wind_down g = wd /\ g_allow_abortion g = ab.
Proof.
  intros S W E. unfold new_genset in E. unum.
  destruct (Qltb mx mn) eqn:L; [discriminate|]. qprop. inversion E; subst. clear E.
  eexists. split; [reflexivity|]. split; [|simpl; repeat split; assumption].
  repeat split; simpl; auto; destruct up; simpl; auto.
Qed.

(** What a successful request does. *)
Lemma request_genset_ok e (m m1 : module Q) g rw d i :
  m_kind m = KGenset g -> unnormalized_step e m = (m1, Ok (rw, d, i)) -> g_min_prod g <= g_max_prod g ->
  let lo := genset_min_production g in
  let hi := genset_max_production g in
  exists p, 0 <= e /\ i = [("provided_energy", p); ("co2_production", genset_co2 g p)]
    /\ rw = nmul (nopp n1) (genset_get_cost g p)
    /\ p = clip lo hi e /\ (m_raise m = true -> lo <= e /\ e <= hi).
Proof.
  intros K E LE lo hi.
  assert (LH : lo <= hi).
  { unfold lo, hi, genset_min_production, genset_max_production, times_status. unum.
    destruct (g_status g); lra. }
  assert (UPD : forall y m2, update (Some y) true m = (m2, Ok (rw, d, i)) ->
    i = [("provided_energy", y); ("co2_production", genset_co2 g y)]
    /\ rw = nmul (nopp n1) (genset_get_cost g y)).
  { intros y m2 U. unfold update in U. rewrite K in U.
    unfold lift_kind, genset_update, massert, mbind, mget, mret in U. inversion U; subst. auto. }
  assert (SRC : forall m2, as_source e m = (m2, Ok (rw, d, i)) ->
    exists p, 0 <= e /\ i = [("provided_energy", p); ("co2_production", genset_co2 g p)]
    /\ rw = nmul (nopp n1) (genset_get_cost g p)
    /\ p = clip lo hi e /\ (m_raise m = true -> lo <= e /\ e <= hi)).
  { intros m2. unfold as_source, mbind, massert, mget, mlift.
    destruct (nleb n0 e) eqn:B; [|discriminate].
    rewrite K. simpl is_source. simpl is_fixed. cbv iota.
    unfold max_production, min_production. rewrite K. unfold gt_bound.
    fold lo hi. unum. qprop. unfold clip.
    destruct (Qltb hi e) eqn:O; qprop.
    - destruct (m_raise m); [discriminate|]. intros U. destruct (UPD _ _ U) as [-> ->].
      exists hi. destruct (Qlt_le_dec hi e); [|lra]. repeat split; auto; discriminate.
    - destruct (Qltb e lo) eqn:O2; qprop.
      + destruct (m_raise m); [discriminate|]. intros U. destruct (UPD _ _ U) as [-> ->].
        exists lo. destruct (Qlt_le_dec hi e); [lra|]. destruct (Qlt_le_dec e lo); [|lra].
        repeat split; auto; discriminate.
      + intros U. destruct (UPD _ _ U) as [-> ->]. exists e.
        destruct (Qlt_le_dec hi e); [lra|]. destruct (Qlt_le_dec e lo); [lra|].
        repeat split; auto. }
  unfold unnormalized_step in E.
  destruct (nltb n0 e); [exact (SRC _ E)|].
  destruct (nltb e n0).
  - unfold as_sink, mbind, massert, mget, mlift in E.
    destruct (nleb n0 _); [|discriminate]. rewrite K in E. simpl is_fixed in E. cbv iota in E.
    unfold max_consumption in E. rewrite K in E. discriminate.
  - unfold mbind, mget in E. rewrite K in E. simpl is_source in E. cbv iota in E. exact (SRC _ E).
Qed.

Lemma step_genset_ok a n m m' o g p :
  m_kind m = KGenset g -> gen_in g p -> g_min_prod g <= g_max_prod g ->
  step a n m = (m', Ok o) ->
  exists g' e pr, m_kind m' = KGenset g' /\ same_gen g g'
    /\ pick_energy 1 (if n then match denorm_action m a with Ok da => da | Err _ => a end else a) = Ok e
    /\ info_of o = [("provided_energy", pr); ("co2_production", genset_co2 g pr)]
    /\ reward_of o = nmul (nopp n1) (genset_get_cost g pr)
    /\ pr = clip (genset_min_production g') (genset_max_production g') e
    /\ (m_raise m = true -> genset_min_production g' <= e /\ e <= genset_max_production g')
    /\ m_cur m' = (m_cur m + 1)%Z.
Proof.
  intros K G LE E.
  destruct (step_genset _ _ _ _ _ _ _ K G E)
    as [(_ & _ & e & C & _)|(x & rest & g' & -> & X0 & X1 & _ & K' & S & G' & B)]; [discriminate|].
  destruct o as [[[ob rw] d] i]. apply base_step_ok in B.
  destruct B as (da & e & m1 & sd & m2 & D & P & SD & U & L & UP & NO).
  pose proof (gen_same_in _ _ S) as (Q1 & Q2 & Q3 & Q4 & Q5 & Q6 & Q7 & Q8).
  assert (LE' : g_min_prod g' <= g_max_prod g') by (rewrite Q4, Q5; assumption).
  destruct (request_genset_ok e (set_kind m (KGenset g')) m1 g' rw d i eq_refl U LE')
    as (pr & E0 & -> & -> & -> & RR).
  exists g', e. eexists. split; [assumption|]. split; [assumption|]. split.
  { simpl in P. change (denorm_action (set_kind m (KGenset g')) (VA (x :: rest)))
      with (denorm_action m (VA (x :: rest))) in D.
    destruct n; [rewrite D; exact P|]. inversion D; subst. exact P. }
  unfold info_of, reward_of; simpl.
  split. { unfold genset_co2. rewrite Q7. reflexivity. }
  split. { unfold genset_get_cost, genset_fuel_cost, genset_co2_cost, genset_co2. rewrite Q6, Q7, Q8. reflexivity. }
  split; [reflexivity|]. split; [exact RR|].
  pose proof (request_genset e (set_kind m (KGenset g')) m1 g' _ eq_refl U). subst m1.
  destruct (module_log_any _ _ _ _ _ _ L) as [lg ->].
  apply update_step_any in UP. simpl in UP. destruct UP as [-> _]. reflexivity.
Qed.

Lemma running_of m g : m_kind m = KGenset g -> running m = g_status g.
Proof. intros K. unfold running. rewrite K. reflexivity. Qed.
Lemma goal_of m g : m_kind m = KGenset g -> goal_on m = g_goal g.
Proof. intros K. unfold goal_on. rewrite K. reflexivity. Qed.

Lemma reach_genset mn mx co cp cc su wd ab up init rs prov m0 cs m os :
  (0 <= su)%Z -> (0 <= wd)%Z ->
  new_genset mn mx co cp cc su wd ab up init rs prov = Ok m0 ->
  play cs m0 = (m, os) ->
  exists g p, m_kind m = KGenset g /\ gen_in g p /\ mn <= mx
    /\ g_min_prod g = mn /\ g_max_prod g = mx /\ g_cost g = co /\ g_co2_per_unit g = cp
    /\ g_cost_co2 g = cc /\ g_start_up g = su /\ g_wind_down g = wd /\ g_allow_abortion g = ab.
Proof.
  intros S W N P.
  destruct (new_genset_ok _ _ _ _ _ _ _ _ _ _ _ _ _ S W N)
    as (g0 & K0 & G0 & LE & E1 & E2 & E3 & E4 & E5 & E6 & E7 & E8).
  destruct (play_genset cs m0 g0 _ K0 G0) as (g & p & K & SG & G).
  rewrite P in K. simpl in K. pose proof (gen_same_in _ _ SG) as (Q1 & Q2 & Q3 & Q4 & Q5 & Q6 & Q7 & Q8).
  exists g, p. repeat split; try congruence; try apply G; try assumption.
Qed.

Lemma round01_on x : round01 x = true <-> 1#2 < x.
Proof. unfold round01. unum. rewrite Qltb_lt. reflexivity. Qed.

Lemma C11_lemma mn mx co cp cc su wd ab up init rs prov m0 cs m os :
  (0 <= su)%Z -> (0 <= wd)%Z ->
  new_genset mn mx co cp cc su wd ab up init rs prov = Ok m0 ->
  play cs m0 = (m, os) ->
  exists g, m_kind m = KGenset g
    /\ (0 <= g_until_up g <= su)%Z /\ (0 <= g_until_down g <= wd)%Z
    /\ forall x rest n (on : bool), 0 <= x -> x <= 1 -> (on = true <-> 1#2 < x) ->
         (exists g', update_status x g = (g', Ok tt)
           /\ g_status g' = next_status g on
           /\ genset_max_production g' = next_max_production g on
           /\ genset_min_production g' = next_min_production g on)
         /\ running (fst (step (VA (x :: rest)) n m)) = next_status g on.
Proof.
  intros S W N P.
  destruct (reach_genset _ _ _ _ _ _ _ _ _ _ _ _ _ _ _ _ S W N P)
    as (g & p & K & G & LE & E1 & E2 & E3 & E4 & E5 & E6 & E7 & E8).
  exists g. split; [assumption|].
  assert (B : (0 <= g_until_up g <= su)%Z /\ (0 <= g_until_down g <= wd)%Z).
  { destruct G as (_ & _ & Sh & Pk). rewrite E6, E7 in *. unfold shows, phase_ok in *.
    destruct p; destruct Sh as (_ & _ & -> & ->); lia. }
  split; [apply B|]. split; [apply B|].
  intros x rest n on X0 X1 ON.
  assert (R : round01 x = on).
  { destruct (round01 x) eqn:R; destruct on; auto.
    - apply round01_on in R. apply ON in R. discriminate.
    - destruct ON as [ON _]. specialize (ON eq_refl). apply round01_on in ON. congruence. }
  destruct (update_status_refines g p x G X0 X1) as (g' & U & SG & G' & ST). rewrite R in *.
  pose proof (gen_same_in _ _ SG) as (Q1 & Q2 & Q3 & Q4 & Q5 & _).
  split.
  - exists g'. split; [assumption|]. split; [assumption|].
    unfold genset_max_production, genset_min_production, next_max_production, next_min_production.
    rewrite ST, Q4, Q5. auto.
  - destruct (step (VA (x :: rest)) n m) as [m' r] eqn:E. simpl.
    destruct (step_genset _ _ _ _ _ _ _ K G E)
      as [(_ & C & _)|(y & rest' & g2 & EQ & _ & _ & U2 & K2 & _)].
    + exfalso. apply (C x rest eq_refl). auto.
    + inversion EQ; subst y rest'. rewrite U in U2. inversion U2; subst g2.
      rewrite (running_of _ _ K2). assumption.
Qed.

(** Repeated requests. *)
Lemma play_requests (w : bool) cs : forall m g p,
  m_kind m = KGenset g -> gen_in g p ->
  Forall (if w then asks_on else asks_off) cs ->
  exists g', m_kind (fst (play cs m)) = KGenset g' /\ same_gen g g'
    /\ gen_in g' (Nat.iter (length cs)
         (fun p => phase_next (g_start_up g) (g_wind_down g) (g_allow_abortion g) p w) p).
Proof.
  induction cs as [|c cs IH]; intros m g p K G F; simpl.
  - exists g. auto using same_gen_refl.
  - inversion F as [|? ? Fc Fcs]; subst.
    destruct (do_call_genset c m g p K G) as (g1 & K1 & S1 & D).
    assert (G1 : gen_in g1 (phase_next (g_start_up g) (g_wind_down g) (g_allow_abortion g) p w)).
    { assert (NB : ~ (asks_on c /\ asks_off c)).
      { destruct c as [[x|[|x xs]] n|]; simpl; try tauto. intros [[A B] [C D']]. lra. }
      destruct w; destruct D as [(_ & D1 & D2)|[[D1 D2]|[D1 D2]]]; tauto. }
    destruct (do_call c m) as [m1 o1]. simpl in K1.
    destruct (IH m1 g1 _ K1 G1 Fcs) as (g' & K' & S' & G').
    destruct (play cs m1) as [m2 os]. simpl in *.
    pose proof (gen_same_in _ _ S1) as (Q1 & Q2 & Q3 & _). rewrite Q1, Q2, Q3 in G'.
    exists g'. split; [assumption|]. split; [eauto using same_gen_trans|].
    clear - G'. revert G'. generalize (length cs). intros n.
    assert (forall q, Nat.iter n (fun p => phase_next (g_start_up g) (g_wind_down g) (g_allow_abortion g) p w)
              (phase_next (g_start_up g) (g_wind_down g) (g_allow_abortion g) q w)
            = phase_next (g_start_up g) (g_wind_down g) (g_allow_abortion g)
                (Nat.iter n (fun p => phase_next (g_start_up g) (g_wind_down g) (g_allow_abortion g) p w) q) w).
    { induction n; intros q; simpl; [reflexivity|]. rewrite IHn. reflexivity. }
    rewrite H. auto.
Qed.

Lemma iter_on su wd n : (0 <= su)%Z -> forall ab, (ab = true \/ su = 0%Z) ->
  Nat.iter n (fun p => phase_next su wd ab p true) Off
  = if (Z.of_nat n =? 0)%Z then Off
    else if (su <? Z.of_nat n)%Z then On else StartingUp (su - Z.of_nat n).
Proof.
  intros S ab AB. induction n as [|n IH]; [reflexivity|].
  cbn [Nat.iter nat_rect]. unfold Nat.iter in IH. rewrite IH.
  destruct (Z.eqb_spec (Z.of_nat (Datatypes.S n)) 0); [lia|].
  destruct (Z.eqb_spec (Z.of_nat n) 0).
  - cbn [phase_next]. destruct (Z.eqb_spec su 0).
    + destruct (Z.ltb_spec su (Z.of_nat (Datatypes.S n))); [reflexivity|lia].
    + destruct AB as [->|]; [|lia].
      destruct (Z.ltb_spec su (Z.of_nat (Datatypes.S n))); [lia|]. f_equal. lia.
  - destruct (Z.ltb_spec su (Z.of_nat n)).
    + cbn [phase_next]. destruct (Z.ltb_spec su (Z.of_nat (Datatypes.S n))); [reflexivity|lia].
    + cbn [phase_next]. destruct (Z.eqb_spec (su - Z.of_nat n) 0).
      * destruct (Z.ltb_spec su (Z.of_nat (Datatypes.S n))); [reflexivity|lia].
      * destruct (Z.ltb_spec su (Z.of_nat (Datatypes.S n))); [lia|]. f_equal. lia.
Qed.

Lemma iter_off su wd n : (0 <= wd)%Z -> forall ab, (ab = true \/ wd = 0%Z) ->
  Nat.iter n (fun p => phase_next su wd ab p false) On
  = if (Z.of_nat n =? 0)%Z then On
    else if (wd <? Z.of_nat n)%Z then Off else WindingDown (wd - Z.of_nat n).
Proof.
  intros S ab AB. induction n as [|n IH]; [reflexivity|].
  cbn [Nat.iter nat_rect]. unfold Nat.iter in IH. rewrite IH.
  destruct (Z.eqb_spec (Z.of_nat (Datatypes.S n)) 0); [lia|].
  destruct (Z.eqb_spec (Z.of_nat n) 0).
  - cbn [phase_next]. destruct (Z.eqb_spec wd 0).
    + destruct (Z.ltb_spec wd (Z.of_nat (Datatypes.S n))); [reflexivity|lia].
    + destruct AB as [->|]; [|lia].
      destruct (Z.ltb_spec wd (Z.of_nat (Datatypes.S n))); [lia|]. f_equal. lia.
  - destruct (Z.ltb_spec wd (Z.of_nat n)).
    + cbn [phase_next]. destruct (Z.ltb_spec wd (Z.of_nat (Datatypes.S n))); [reflexivity|lia].
    + cbn [phase_next]. destruct (Z.eqb_spec (wd - Z.of_nat n) 0).
      * destruct (Z.ltb_spec wd (Z.of_nat (Datatypes.S n))); [reflexivity|lia].
      * destruct (Z.ltb_spec wd (Z.of_nat (Datatypes.S n))); [lia|]. f_equal. lia.
Qed.

Lemma settled_off g p : gen_in g p -> g_status g = false -> g_goal g = false -> p = Off.
Proof. intros (_ & _ & Sh & _) A B. destruct p; simpl in Sh; intuition congruence. Qed.
Lemma settled_on g p : gen_in g p -> g_status g = true -> g_goal g = true -> p = On.
Proof. intros (_ & _ & Sh & _) A B. destruct p; simpl in Sh; intuition congruence. Qed.

Lemma C12_up_lemma mn mx co cp cc su wd ab up init rs prov m0 cs m os ks :
  (0 <= su)%Z -> (0 <= wd)%Z ->
  new_genset mn mx co cp cc su wd ab up init rs prov = Ok m0 ->
  play cs m0 = (m, os) -> (ab = true \/ su = 0%Z) ->
  running m = false -> goal_on m = false -> Forall asks_on ks ->
  (running (fst (play ks m)) = true <-> (su < Z.of_nat (length ks))%Z).
Proof.
  intros S W N P AB RF GF F.
  destruct (reach_genset _ _ _ _ _ _ _ _ _ _ _ _ _ _ _ _ S W N P)
    as (g & p & K & G & LE & E1 & E2 & E3 & E4 & E5 & E6 & E7 & E8).
  rewrite (running_of _ _ K) in RF. rewrite (goal_of _ _ K) in GF.
  rewrite (settled_off _ _ G RF GF) in G.
  destruct (play_requests true ks m g Off K G F) as (g' & K' & S' & G').
  rewrite E6, E7, E8, (iter_on su wd (length ks) S ab AB) in G'.
  rewrite (running_of _ _ K').
  destruct G' as (_ & _ & Sh & _).
  destruct (Z.eqb_spec (Z.of_nat (length ks)) 0); [simpl in Sh; split; [intuition congruence|lia]|].
  destruct (Z.ltb_spec su (Z.of_nat (length ks))); simpl in Sh; split; try lia; intuition congruence.
Qed.

Lemma C12_down_lemma mn mx co cp cc su wd ab up init rs prov m0 cs m os ks :
  (0 <= su)%Z -> (0 <= wd)%Z ->
  new_genset mn mx co cp cc su wd ab up init rs prov = Ok m0 ->
  play cs m0 = (m, os) -> (ab = true \/ wd = 0%Z) ->
  running m = true -> goal_on m = true -> Forall asks_off ks ->
  (running (fst (play ks m)) = false <-> (wd < Z.of_nat (length ks))%Z).
Proof.
  intros S W N P AB RF GF F.
  destruct (reach_genset _ _ _ _ _ _ _ _ _ _ _ _ _ _ _ _ S W N P)
    as (g & p & K & G & LE & E1 & E2 & E3 & E4 & E5 & E6 & E7 & E8).
  rewrite (running_of _ _ K) in RF. rewrite (goal_of _ _ K) in GF.
  rewrite (settled_on _ _ G RF GF) in G.
  destruct (play_requests false ks m g On K G F) as (g' & K' & S' & G').
  rewrite E6, E7, E8, (iter_off su wd (length ks) W ab AB) in G'.
  rewrite (running_of _ _ K').
  destruct G' as (_ & _ & Sh & _).
  destruct (Z.eqb_spec (Z.of_nat (length ks)) 0); [simpl in Sh; split; [intuition congruence|lia]|].
  destruct (Z.ltb_spec wd (Z.of_nat (length ks))); simpl in Sh; split; try lia; intuition congruence.
Qed.

Lemma C13_abort_lemma mn mx co cp cc su wd ab up init rs prov m0 cs m os c :
  (0 <= su)%Z -> (0 <= wd)%Z ->
  new_genset mn mx co cp cc su wd ab up init rs prov = Ok m0 ->
  play cs m0 = (m, os) -> running m <> goal_on m ->
  (if running m then asks_on c else asks_off c) ->
  let m' := fst (do_call c m) in
  running m' = running m /\ goal_on m' = running m
  /\ (if running m then steps_until_down m' = wd else steps_until_up m' = su).
Proof.
  intros S W N P NE A m'.
  destruct (reach_genset _ _ _ _ _ _ _ _ _ _ _ _ _ _ _ _ S W N P)
    as (g & p & K & G & LE & E1 & E2 & E3 & E4 & E5 & E6 & E7 & E8).
  destruct (do_call_genset c m g p K G) as (g1 & K1 & S1 & D). fold m' in K1.
  rewrite (running_of _ _ K), (goal_of _ _ K) in *. rewrite (running_of _ _ K1), (goal_of _ _ K1).
  unfold steps_until_down, steps_until_up. rewrite K1.
  assert (NB : ~ (asks_on c /\ asks_off c)).
  { destruct c as [[x|[|x xs]] n|]; simpl; try tauto. intros [[X B] [C D']]. lra. }
  pose proof (gen_same_in _ _ S1) as (Q1 & Q2 & _).
  destruct G as (_ & _ & Sh & _).
  destruct p; simpl in Sh; destruct Sh as (Sh1 & Sh2 & _); rewrite Sh1, Sh2 in *; try congruence;
    destruct D as [(_ & D1 & D2)|[[D1 D2]|[D1 D2]]]; try tauto;
    destruct D2 as (_ & _ & Sh' & _); rewrite Q1, Q2, E6, E7 in Sh'; simpl in Sh'; tauto.
Qed.

Lemma C13_stuck_lemma mn mx co cp cc su wd up init rs prov m0 cs m os ks :
  (0 <= su)%Z -> (0 <= wd)%Z ->
  new_genset mn mx co cp cc su wd false up init rs prov = Ok m0 ->
  play cs m0 = (m, os) ->
  ((0 < su)%Z -> running m = false -> running (fst (play ks m)) = false)
  /\ ((0 < wd)%Z -> running m = true -> running (fst (play ks m)) = true).
Proof.
  intros S W N P.
  destruct (reach_genset _ _ _ _ _ _ _ _ _ _ _ _ _ _ _ _ S W N P)
    as (g & p & K & G & LE & E1 & E2 & E3 & E4 & E5 & E6 & E7 & E8).
  rewrite (running_of _ _ K). clear N P. revert m g p K G LE E1 E2 E3 E4 E5 E6 E7 E8.
  induction ks as [|c ks IH]; intros m g p K G LE E1 E2 E3 E4 E5 E6 E7 E8.
  - simpl. rewrite (running_of _ _ K). auto.
  - simpl. destruct (do_call_genset c m g p K G) as (g1 & K1 & S1 & D).
    pose proof (gen_same_in _ _ S1) as (Q1 & Q2 & Q3 & Q4 & Q5 & Q6 & Q7 & Q8).
    assert (D' : exists p1, gen_in g1 p1 /\ ((0 < su)%Z -> g_status g = false -> g_status g1 = false)
                 /\ ((0 < wd)%Z -> g_status g = true -> g_status g1 = true)).
    { destruct D as [(-> & _)|[[_ D]|[_ D]]]; [eauto| |];
        (eexists; split; [exact D|]); rewrite E6, E7, E8 in *;
        destruct G as (_ & _ & Sh & Pk); destruct D as (_ & _ & Sh' & _);
        rewrite E6, E7, E8 in *;
        destruct p; simpl in *; try (destruct Pk; discriminate);
        repeat match goal with X : context [(?a =? ?b)%Z] |- _ => destruct (Z.eqb_spec a b) end;
        simpl in *; split; intros; try lia; intuition congruence. }
    destruct D' as (p1 & G1 & D1 & D2).
    destruct (do_call c m) as [m1 o1]. simpl in K1.
    destruct (IH m1 g1 p1 K1 G1) as [I1 I2]; try congruence.
    destruct (play ks m1) as [m2 os2]. simpl in *. auto.
Qed.

Lemma C14_lemma mn mx co cp cc su wd ab up init rs prov m0 cs m os a n m' o :
  (0 <= su)%Z -> (0 <= wd)%Z ->
  new_genset mn mx co cp cc su wd ab up init rs prov = Ok m0 ->
  play cs m0 = (m, os) -> step a n m = (m', Ok o) ->
  absorbed (info_of o) = 0
  /\ (running m' = false -> provided (info_of o) == 0)
  /\ (running m' = true -> mn <= provided (info_of o) /\ provided (info_of o) <= mx)
  /\ (forall x e rest, a = VA (x :: e :: rest) -> n = false -> running m' = true ->
        provided (info_of o) == clip mn mx e).
Proof.
  intros S W N P E.
  destruct (reach_genset _ _ _ _ _ _ _ _ _ _ _ _ _ _ _ _ S W N P)
    as (g & p & K & G & LE & E1 & E2 & E3 & E4 & E5 & E6 & E7 & E8).
  assert (LE' : g_min_prod g <= g_max_prod g) by (rewrite E1, E2; assumption).
  destruct (step_genset_ok _ _ _ _ _ _ _ K G LE' E) as (g' & e & pr & K' & SG & PE & IE & _ & PR & _).
  rewrite IE, (running_of _ _ K').
  change (absorbed [("provided_energy", pr); ("co2_production", genset_co2 g pr)]) with 0.
  change (provided [("provided_energy", pr); ("co2_production", genset_co2 g pr)]) with pr.
  pose proof (gen_same_in _ _ SG) as (_ & _ & _ & Q4 & Q5 & _).
  unfold genset_min_production, genset_max_production, times_status in PR. rewrite Q4, Q5, E1, E2 in PR.
  unum. split; [reflexivity|]. split; [|split].
  - intros R. rewrite R in PR. rewrite PR. unfold clip.
    destruct (Qlt_le_dec (0 * mx) e); [lra|]. destruct (Qlt_le_dec e (0 * mn)); lra.
  - intros R. rewrite R in PR. rewrite PR. unfold clip.
    destruct (Qlt_le_dec (1 * mx) e); [lra|]. destruct (Qlt_le_dec e (1 * mn)); lra.
  - intros x e' rest -> -> R. simpl in PE. inversion PE; subst e'.
    rewrite R in PR. rewrite PR. unfold clip.
    destruct (Qlt_le_dec (1 * mx) e), (Qlt_le_dec mx e), (Qlt_le_dec e (1 * mn)), (Qlt_le_dec e mn); lra.
Qed.

Lemma C15_lemma mn mx co cp cc su wd ab up init rs prov m0 cs m os a n m' o :
  (0 <= su)%Z -> (0 <= wd)%Z ->
  new_genset mn mx co cp cc su wd ab up init rs prov = Ok m0 ->
  play cs m0 = (m, os) -> step a n m = (m', Ok o) ->
  let e := provided (info_of o) in
  let fuel := match co with FuelLin c => c * e | FuelFn f => f e end in
  reward_of o == - (fuel + cc * (cp * e))
  /\ exists c, dget "co2_production" (info_of o) = Some c /\ c == cp * e.
Proof.
  intros S W N P E e fuel.
  destruct (reach_genset _ _ _ _ _ _ _ _ _ _ _ _ _ _ _ _ S W N P)
    as (g & p & K & G & LE & E1 & E2 & E3 & E4 & E5 & E6 & E7 & E8).
  assert (LE' : g_min_prod g <= g_max_prod g) by (rewrite E1, E2; assumption).
  destruct (step_genset_ok _ _ _ _ _ _ _ K G LE' E) as (g' & x & pr & K' & SG & PE & IE & RE & PR & _).
  unfold fuel, e. rewrite IE, RE.
  change (provided [("provided_energy", pr); ("co2_production", genset_co2 g pr)]) with pr.
  unfold genset_get_cost, genset_fuel_cost, genset_co2_cost, genset_co2. rewrite E3, E4, E5. unum.
  split; [destruct co; ring|]. eexists. split; reflexivity.
Qed.

Lemma C49_lemma mn mx co cp cc su wd ab up init rs prov m0 cs m os :
  (0 <= su)%Z -> (0 <= wd)%Z ->
  new_genset mn mx co cp cc su wd ab up init rs prov = Ok m0 ->
  play cs m0 = (m, os) ->
  exists g p, m_kind m = KGenset g /\ shows su wd p g
    /\ forall c, exists g', m_kind (fst (do_call c m)) = KGenset g'
         /\ (asks_on c -> shows su wd (phase_next su wd ab p true) g')
         /\ (asks_off c -> shows su wd (phase_next su wd ab p false) g')
         /\ (~ asks_on c -> ~ asks_off c -> g' = g).
Proof.
  intros S W N P.
  destruct (reach_genset _ _ _ _ _ _ _ _ _ _ _ _ _ _ _ _ S W N P)
    as (g & p & K & G & LE & E1 & E2 & E3 & E4 & E5 & E6 & E7 & E8).
  exists g, p. split; [assumption|]. split. { destruct G as (_ & _ & Sh & _). rewrite E6, E7 in Sh. exact Sh. }
  intros c. destruct (do_call_genset c m g p K G) as (g1 & K1 & S1 & D).
  exists g1. split; [assumption|].
  pose proof (gen_same_in _ _ S1) as (Q1 & Q2 & Q3 & _).
  assert (NB : ~ (asks_on c /\ asks_off c)).
  { destruct c as [[x|[|x xs]] n|]; simpl; try tauto. intros [[X B] [C D']]. lra. }
  rewrite E6, E7, E8 in D.
  destruct D as [(-> & D1 & D2)|[[D1 (_ & _ & D2 & _)]|[D1 (_ & _ & D2 & _)]]]; try tauto;
    rewrite Q1, Q2, E6, E7 in D2; tauto.
Qed.
