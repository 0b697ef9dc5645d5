(** * The battery along the choices of the priority list *)

From Coq Require Import ZArith QArith Qabs Qminmax Bool String List Lia Lqa.
From Verif Require Import Num Py NonModular OldEnv Spec_Module Spec_NonModular Spec_OldEnv Proofs_Num Proofs_NonModular Proofs_NmRun
  Proofs_NmBattery Proofs_NmRecord Proofs_NmClock Proofs_NmRbcRun Proofs_OldEnv Proofs_OldEnv2.
Import ListNotations.
Local Open Scope string_scope.
Local Open Scope list_scope.
Local Open Scope Q_scope.

Lemma gained_latest (r r' : record Q) k x : gained r r' k x -> latest r' k x.
Proof. intros (l & _ & E). exists l. exact E. Qed.
Lemma latest_cell (r : record Q) k x y : latest r k x -> latest r k y -> x = y.
Proof.
  intros (l & E) (l' & E'). rewrite E in E'. injection E' as E'. apply app_inj_tail in E'. apply E'.
Qed.

Lemma room_after control (g : nonmod Q) g' v l m : nm_run control g = (g', Ok v) -> has_battery (nm_arch g) = true ->
  dget "capa_to_charge" (nm_state g) = Some l -> dget "capa_to_discharge" (nm_state g) = Some m ->
  ended g = false -> shows_room g'.
Proof.
  intros H HB L M EN. pose proof (run_room control g g' v l m H HB L M) as (soc' & r & r' & G1 & G2 & R1 & G3 & R2).
  pose proof (run_kept control g g' v H) as (KP & KA).
  apply nm_run_ok in H. destruct H as (p & c & o & s & prod & R & H & _). cbv zeta in H. rewrite EN in H.
  apply update_variables_ok in H. destruct H as (n & x & b & -> & S). 
  destruct S as [_ _ _ _ _ SB].
  cbn in SB. rewrite HB in SB. destruct SB as (SB1 & SB2 & SB3). unfold vars in *. cbn in G1, G2, G3.
  exists soc', r, r, r', r'. unfold charge_room, discharge_room, parameter. rewrite KP. cbn.
  split; [apply (gained_latest _ _ _ _ G1)|].
  split; [apply (latest_cell _ _ _ _ SB2 (gained_latest _ _ _ _ G2))|]. split; [exact R1|]. split; [apply Qle_refl|].
  split; [apply (latest_cell _ _ _ _ SB3 (gained_latest _ _ _ _ G3))|]. split; [exact R2|]. apply Qle_refl.
Qed.

Lemma choice_soc g k c g' v smin smax cap eff : action_priority g k = Ok c -> shows_room g -> powers_ok g ->
  nm_run c g = (g', Ok v) ->
  parameter g "battery_soc_min" smin -> parameter g "battery_soc_max" smax ->
  parameter g "battery_capacity" cap -> parameter g "battery_efficiency" eff -> 0 < eff <= 1 -> 0 < cap ->
  soc_within smin smax g -> soc_within smin smax g'.
Proof.
  intros AP SR OK H P1 P2 P3 P4 E C I.
  destruct (priority_asks g k c AP) as (i & _ & _ & a & ME & _ & _ & CA & _).
  destruct (choice_followed g k c g' v i a AP ME CA SR OK H) as (x & y & o & CC & CD & A & P & F & O1 & O2).
  assert (HB : has_battery (nm_arch g) = true).
  { unfold action_priority in AP. apply rbind_ok in AP. destruct AP as ((((? & ?) & ?) & ?) & EE & _). apply rooms_ok in EE. apply EE. }
  destruct (run_soc c g g' v H HB) as (o' & soc & ch & d & soc' & P' & LS & CH & SA & G).
  rewrite <- (produced_unique _ _ _ _ P P') in *. clear o' P'.
  assert (K : ch == oc_charge o /\ d == oc_discharge o).
  { destruct (has_grid (nm_arch g)); [destruct CH as (-> & ->); split; reflexivity|].
    destruct CH as (X & Y), CA as (X' & Y' & _). rewrite X' in X. rewrite Y' in Y. injection X as <-. injection Y as <-.
    rewrite O1, O2. split; reflexivity. }
  destruct K as (K1 & K2). destruct F as (F & _). rewrite HB in F.
  destruct F as (x1 & y1 & soc1 & lc & ld & _ & _ & LS1 & LC & LD & F1 & F2).
  rewrite (latest_num _ _ _ _ LS1 LS) in *. destruct LS as (l & LS). pose proof (I _ LS) as FI.
  assert (B : smin <= soc <= smax).
  { apply Forall_app in FI. destruct FI as (_ & FI). inversion FI as [|? ? (s & S1 & S2) _]; subst. injection S1 as ->. exact S2. }
  assert (PC := LC). assert (PD := LD). destruct PC as (? & ? & ? & pc & _ & _ & _ & PC & _), PD as (? & ? & ? & pd & _ & _ & _ & PD & _).
  assert (smin <= soc' <= smax) as B'.
  { eapply soc_step with (pc := pc) (pd := pd) (cc := lc) (cd := ld) (soc := soc); try eassumption.
    - apply (OK "battery_power_charge"); [simpl; tauto|exact PC].
    - apply (OK "battery_power_discharge"); [simpl; tauto|exact PD].
    - exists x1. rewrite K1. exact F1.
    - exists y1. rewrite K2. exact F2. }
  intros l' E'. destruct G as (l2 & G1 & G2). rewrite LS in G1. injection G1 as <-. rewrite G2 in E'. injection E' as <-.
  apply Forall_app. split; [exact FI|]. constructor; [|constructor]. exists soc'. split; [reflexivity|exact B'].
Qed.

(** ** Steps and resets of an environment *)
Section Env.
Context {A : Type}.
Variables (turn_sin turn_cos root : Q -> Q).
Variable control_of : nonmod Q -> A -> res (dict Q).

Lemma step_ok a (e : old_env Q) e' o : env_step turn_sin turn_cos root control_of a e = (e', Ok o) ->
  (oe_done e = true /\ e' = e /\ o = (oe_state e, oe_reward e, true))
  \/ (oe_done e = false /\ exists c g' v s r,
        control_of (oe_grid e) a = Ok c /\ nm_run c (oe_grid e) = (g', Ok v)
        /\ transition turn_sin turn_cos (oe_norm e) g' = Ok s /\ get_reward root (oe_train e) (oe_smoothing e) g' = Ok r
        /\ e' = set_result s r (nm_done g') (oe_round e + 1) (set_grid g' e) /\ o = (s, r, nm_done g')).
Proof.
  unfold env_step. unfold mbind at 1, mget at 1. destruct (oe_done e) eqn:D.
  - intros H. injection H as <- <-. left. auto.
  - intros H. right. split; [reflexivity|].
    unfold mbind, mlift, on_env_grid, mget, mmodify, mret in H.
    destruct (control_of (oe_grid e) a) as [c|] eqn:C; [|discriminate H].
    destruct (nm_run c (oe_grid e)) as [g' [v|x]] eqn:R; [|discriminate H].
    cbn [oe_norm oe_grid set_grid oe_train oe_smoothing] in H.
    destruct (transition turn_sin turn_cos (oe_norm e) g') as [s|] eqn:T; [|discriminate H].
    destruct (get_reward root (oe_train e) (oe_smoothing e) g') as [r|] eqn:W; [|discriminate H].
    injection H as <- <-. exists c, g', v, s, r. repeat split; assumption.
Qed.

(** Whatever a step does, returned or not *)
Lemma step_kept a (e : old_env Q) : let e' := fst (env_step turn_sin turn_cos root control_of a e) in
  oe_train e' = oe_train e /\ oe_norm e' = oe_norm e /\ oe_smoothing e' = oe_smoothing e /\ oe_resample e' = oe_resample e
  /\ oe_testing e' = oe_testing e.
Proof.
  unfold env_step, mbind, mget, mlift, on_env_grid, mmodify, mret. destruct (oe_done e); [cbn; auto|].
  destruct (control_of (oe_grid e) a) as [c|]; [|cbn; auto].
  destruct (nm_run c (oe_grid e)) as [g' [v|x]]; [|cbn; auto].
  cbn [oe_norm oe_grid set_grid oe_train oe_smoothing].
  destruct (transition turn_sin turn_cos (oe_norm e) g'); [|cbn; auto].
  destruct (get_reward root (oe_train e) (oe_smoothing e) g'); cbn; auto.
Qed.

Lemma reset_kept testing (e : old_env Q) : let e' := fst (env_reset turn_sin turn_cos testing e) in
  (oe_train e = false -> oe_train e' = false) /\ oe_norm e' = oe_norm e /\ oe_smoothing e' = oe_smoothing e
  /\ oe_resample e' = oe_resample e /\ oe_testing e' = oe_testing e.
Proof.
  unfold env_reset, mbind, mget, mlift, on_env_grid, mmodify, mret, mraise, set_result, raise.
  set (t := match oe_testing e with Some b => b | None => testing end).
  cbn [oe_grid]. destruct (nm_reset t (oe_grid e)) as [g' [v|x]]; [|cbn; auto].
  destruct t; [|destruct (oe_resample e)]; cbn [oe_grid oe_norm set_grid set_train];
    try (cbn; auto; fail); destruct (transition turn_sin turn_cos (oe_norm e) g'); cbn; auto.
Qed.

Lemma reset_ok testing (e : old_env Q) e' s : env_reset turn_sin turn_cos testing e = (e', Ok s) ->
  let t := match oe_testing e with Some b => b | None => testing end in
  exists g', nm_reset t (oe_grid e) = (g', Ok tt) /\ transition turn_sin turn_cos (oe_norm e) g' = Ok s
    /\ (t = true \/ oe_resample e = false)
    /\ e' = set_result s (Reward 0) false 1 (set_train (if t then false else oe_train e) (set_grid g' e)).
Proof.
  unfold env_reset, mbind, mget, mlift, on_env_grid, mmodify, mret, mraise, raise.
  set (t := match oe_testing e with Some b => b | None => testing end).
  intros H. cbn [oe_grid set_result] in H. destruct (nm_reset t (oe_grid e)) as [g' [[]|x]]; [|discriminate H]. exists g'. split; [reflexivity|].
  destruct t; [|destruct (oe_resample e); [discriminate H|]]; cbn [oe_grid oe_norm set_grid set_train set_result] in H;
    (destruct (transition turn_sin turn_cos (oe_norm e) g') as [s'|]; [|discriminate H]); injection H as <- <-;
    (split; [reflexivity|]); (split; [auto|]); destruct e; reflexivity.
Qed.

(** After the end nothing happens. *)
Lemma step_over a (e : old_env Q) : oe_done e = true ->
  env_step turn_sin turn_cos root control_of a e = (e, Ok (oe_state e, oe_reward e, true)).
Proof. unfold env_step, mbind, mget, mret. intros ->. reflexivity. Qed.

Lemma plays_over l (e : old_env Q) os e' : oe_done e = true ->
  env_plays turn_sin turn_cos root control_of e l os e' -> e' = e /\ Forall (fun o => o = (oe_state e, oe_reward e, true)) os.
Proof.
  intros D H. induction H as [e|e a e1 o l os e2 S H IH]; [auto|].
  rewrite (step_over a e D) in S. injection S as <- <-. destruct (IH D) as (-> & F). auto.
Qed.

(** A testing reset *)
Lemma testing_sticks cs (e : old_env Q) : oe_train e = false ->
  oe_train (env_after turn_sin turn_cos root control_of cs e) = false.
Proof.
  unfold env_after. revert e. induction cs as [|c cs IH]; intros e H; [exact H|]. cbn. apply IH.
  destruct c as [a|t]; cbn [env_do].
  - rewrite (proj1 (step_kept a e)). exact H.
  - exact (proj1 (reset_kept t e) H).
Qed.
End Env.

(** ** The battery in an episode *)
Section Within.
Variables (turn_sin turn_cos root : Q -> Q) (smin smax cap eff : Q).
Hypotheses (E : 0 < eff <= 1) (C : 0 < cap).

Record sound (g : nonmod Q) : Prop := mkSound {
  so_min : parameter g "battery_soc_min" smin; so_max : parameter g "battery_soc_max" smax;
  so_cap : parameter g "battery_capacity" cap; so_eff : parameter g "battery_efficiency" eff;
  so_pow : powers_ok g; so_bat : has_battery (nm_arch g) = true;
  so_ch : exists l, dget "capa_to_charge" (nm_state g) = Some l;
  so_dis : exists l, dget "capa_to_discharge" (nm_state g) = Some l;
  so_soc : soc_within smin smax g
}.

Lemma sound_run g k c g' v : sound g -> action_priority g k = Ok c -> nm_run c g = (g', Ok v) -> shows_room g ->
  sound g' /\ (nm_done g' = true \/ shows_room g').
Proof.
  intros [S1 S2 S3 S4 S5 S6 (l & S7) (m & S8) S9] AP R SR.
  pose proof (run_kept c g g' v R) as (KP & KA).
  pose proof (choice_soc g k c g' v smin smax cap eff AP SR S5 R S1 S2 S3 S4 E C S9) as I.
  pose proof (run_room c g g' v l m R S6 S7 S8) as (soc' & r & r' & _ & (? & _ & G2) & _ & (? & _ & G3) & _).
  split.
  - constructor; unfold powers_ok, parameter in *; rewrite ?KP, ?KA; eauto.
  - destruct (ended g) eqn:EN.
    + left. apply nm_run_ok in R. destruct R as (? & ? & ? & ? & ? & _ & R & _). cbv zeta in R. rewrite EN in R. rewrite R. reflexivity.
    + right. eapply room_after; eassumption.
Qed.

Lemma plays_within e ks os e' : env_plays turn_sin turn_cos root action_priority e ks os e' ->
  sound (oe_grid e) -> (oe_done e = true \/ shows_room (oe_grid e)) -> sound (oe_grid e').
Proof.
  intros H. induction H as [e|e k e1 o l os e2 S H IH]; [auto|]. intros SO D.
  apply step_ok in S. destruct S as [(D1 & -> & _)|(D1 & c & g' & v & s & r & CO & R & _ & _ & -> & _)]; [auto|].
  destruct D as [D|D]; [congruence|]. destruct (sound_run _ _ _ _ _ SO CO R D) as (SO' & D').
  apply IH; [exact SO'|]. destruct D' as [D'|D']; [left; exact D'|right; exact D'].
Qed.
End Within.
