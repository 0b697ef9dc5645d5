(** * Values and constraints of the environments with continuous actions *)

From Coq Require Import ZArith QArith Bool String List Lia Lqa.
From Verif Require Import Num Py NonModular NmMpc OldEnv GymEnv Spec_Module Spec_NonModular Spec_GymEnv Proofs_Num Proofs_NonModular
  Proofs_NmTotal Proofs_OldEnv Proofs_GymEnv.
Import ListNotations.
Local Open Scope string_scope.
Local Open Scope list_scope.
Local Open Scope Q_scope.

(** What the values are taken from, after an action *)
Definition known (e : gym Q) (a : list Q) : res (list Q * list (cell Q)) :=
  match gy_stds e with
  | Some s => rbind (backward (map CNum a) (st_mean s) (st_std s)) (fun a =>
      rbind (current_obs e) (fun o => rbind (backward o (st_obs_mean s) (st_obs_std s)) (fun o => Ok (a, map CNum o))))
  | None => rbind (current_obs e) (fun o => Ok (a, o))
  end.
Definition one_value (e : gym Q) (ao : list Q * list (cell Q)) (k : string) : res (cell Q) :=
  match dget k (known_values e (fst ao) (snd ao)) with
  | Some x => Ok x
  | None => raise ValueError "Value not recognized with current architecture"
  end.
Lemma get_values_some (e : gym Q) a names : gy_action e = Some a ->
  get_values names e = (e, rbind (known e a) (fun ao => rmapM (one_value e ao) names)).
Proof. intros A. unfold get_values, mbind, mget, mlift, mret, known. rewrite A. destruct (gy_stds e); reflexivity. Qed.

Lemma get_values_one (e : gym Q) a names e' l : gy_action e = Some a -> get_values names e = (e', Ok l) ->
  e' = e /\ exists ao, known e a = Ok ao /\ Forall2 (fun k x => one_value e ao k = Ok x) names l.
Proof.
  intros A H. rewrite (get_values_some e a names A) in H. injection H as <- H. split; [reflexivity|].
  apply rbind_ok in H. destruct H as (ao & K & H). exists ao. split; [exact K|].
  clear - H. revert l H. induction names as [|k names IH]; intros l H; cbn in H; [injection H as <-; constructor|].
  apply rbind_ok in H. destruct H as (x & X & H). apply rbind_ok in H. destruct H as (l' & L & H). injection H as <-.
  constructor; [exact X|]. apply IH. exact L.
Qed.
Lemma one_shows (e : gym Q) a ao k x : gy_action e = Some a -> known e a = Ok ao -> one_value e ao k = Ok (CNum x) -> shows_value e k x.
Proof. intros A K X. unfold shows_value. rewrite (get_values_some e a [k] A), K. cbn [rbind rmapM]. rewrite X. reflexivity. Qed.

Lemma get_numbers_ok (e : gym Q) a names e' l : gy_action e = Some a -> get_numbers names e = (e', Ok l) ->
  e' = e /\ Forall2 (shows_value e) names l.
Proof.
  intros A H. unfold get_numbers in H. apply mbind_ok in H. destruct H as (e1 & v & E & H). unfold mlift in H. injection H as <- H.
  apply (get_values_one e a _ _ _ A) in E. destruct E as (-> & ao & K & F). split; [reflexivity|].
  revert l H. induction F as [|k x names v X F IH]; intros l H; cbn in H; [injection H as <-; constructor|].
  apply rbind_ok in H. destruct H as (y & Y & H). apply rbind_ok in H. destruct H as (l' & L & H). injection H as <-.
  constructor; [|apply IH; exact L]. destruct x as [z| |]; try discriminate Y. injection Y as ->.
  apply (one_shows e a ao k y A K X).
Qed.
Lemma shows_unique (e : gym Q) k x y : shows_value e k x -> shows_value e k y -> x = y.
Proof. unfold shows_value. intros H K. rewrite H in K. congruence. Qed.

Lemma dfind_parameter (g : nonmod Q) k x : dfind (nm_par g) k = Ok x -> parameter g k x.
Proof. intros H. apply dfind_ok in H. exact H. Qed.
Lemma attr_parameter (g : nonmod Q) k x : par_attr g k = Ok x -> parameter g k x.
Proof. unfold par_attr, parameter. destruct (dget k (nm_par g)); intros H; inversion H; reflexivity. Qed.
Lemma parameter_unique (g : nonmod Q) k x y : parameter g k x -> parameter g k y -> x = y.
Proof. unfold parameter. congruence. Qed.

(** Scaling by a positive number keeps the sign. *)
Lemma scaled_sign scale x s : (scale = true -> 0 < s) -> (scaled_by scale x s <= 0 <-> x <= 0).
Proof.
  intros P. unfold scaled_by. destruct scale; [|reflexivity]. specialize (P eq_refl). cbn [ndiv Q_ops].
  split; intros H.
  - assert (X : x == x / s * s) by (field; lra). rewrite X. apply Qle_trans with (0 * s); [|lra].
    apply Qmult_le_compat_r; lra.
  - apply Qle_shift_div_r; [exact P|]. lra.
Qed.

Ltac invF2 H := inversion H; subst; clear H.

(** The constraints *)
Definition genset_values (scale : bool) (tolerance p rated pmin pmax : Q) : list Q :=
  if nltb p n1
  then [scaled_by scale (nsub p n1) (nmul rated pmax); scaled_by scale (nsub (nopp p) tolerance) (nmul rated pmax)]
  else [scaled_by scale (nsub p (nmul rated pmax)) (nmul rated pmax); scaled_by scale (nsub (nmul rated pmin) p) (nmul rated pmin)].

Lemma inequality_ok scale tolerance (e : gym Q) a e' l : gy_action e = Some a ->
  inequality_constraints scale tolerance e = (e', Ok l) ->
  let g := gy_grid e in
  e' = e /\ exists cap charge discharge room room' import export status soc mi me smin smax gen,
    (scale = true -> parameter g "battery_capacity" cap)
    /\ shows_value e "battery_charge" charge /\ shows_value e "battery_discharge" discharge
    /\ shows_value e "capa_to_charge" room /\ shows_value e "capa_to_discharge" room'
    /\ shows_value e "grid_import" import /\ shows_value e "grid_export" export /\ shows_value e "grid_status" status
    /\ shows_value e "battery_soc" soc
    /\ parameter g "grid_power_import" mi /\ parameter g "grid_power_export" me
    /\ parameter g "battery_soc_min" smin /\ parameter g "battery_soc_max" smax
    /\ (if has_genset (nm_arch g) then
          exists p rated pmin pmax, shows_value e "genset" p /\ parameter g "genset_rated_power" rated
            /\ parameter g "genset_pmin" pmin /\ parameter g "genset_pmax" pmax
            /\ gen = genset_values scale tolerance p rated pmin pmax
        else gen = [])
    /\ l = [scaled_by scale (charge - room) cap; scaled_by scale (discharge - room') cap;
            scaled_by scale (import - mi * status) mi; scaled_by scale (export - me * status) me;
            scaled_by scale (soc - smax) smax; scaled_by scale (smin - soc) smin] ++ gen.
Proof.
  intros A H g. unfold inequality_constraints in H.
  apply mbind_ok in H. destruct H as (e1 & x & E & H). unfold mget in E. injection E as <- <-. fold g in H.
  apply mbind_ok in H. destruct H as (e1 & l1 & E & H). apply (get_numbers_ok e a _ _ _ A) in E. destruct E as (-> & F1).
  apply mbind_ok in H. destruct H as (e1 & cap & E & H). unfold mlift in E. injection E as <- EC.
  apply mbind_ok in H. destruct H as (e1 & mi & E & H). unfold mlift in E. injection E as <- EI.
  apply mbind_ok in H. destruct H as (e1 & me & E & H). unfold mlift in E. injection E as <- EE.
  apply mbind_ok in H. destruct H as (e1 & l2 & E & H). apply (get_numbers_ok e a _ _ _ A) in E. destruct E as (-> & F2).
  apply mbind_ok in H. destruct H as (e1 & smax & E & H). unfold mlift in E. injection E as <- EX.
  apply mbind_ok in H. destruct H as (e1 & smin & E & H). unfold mlift in E. injection E as <- EN.
  apply mbind_ok in H. destruct H as (e1 & l3 & E & H). apply (get_numbers_ok e a _ _ _ A) in E. destruct E as (-> & F3).
  apply mbind_ok in H. destruct H as (e1 & gen & EG & H). unfold mret in H. injection H as <- <-.
  inversion F1 as [|? charge ? l1a C1 F1a]; subst. inversion F1a as [|? discharge ? l1b C2 F1b]; subst.
  inversion F1b as [|? room ? l1c C3 F1c]; subst. inversion F1c as [|? room' ? l1d C4 F1d]; subst. inversion F1d; subst.
  inversion F2 as [|? import ? l2a C5 F2a]; subst. inversion F2a as [|? export ? l2b C6 F2b]; subst.
  inversion F2b as [|? status ? l2c C7 F2c]; subst. inversion F2c; subst.
  inversion F3 as [|? soc ? l3a C8 F3a]; subst. inversion F3a; subst.
  assert (G : e1 = e /\ if has_genset (nm_arch g) then
          exists p rated pmin pmax, shows_value e "genset" p /\ parameter g "genset_rated_power" rated
            /\ parameter g "genset_pmin" pmin /\ parameter g "genset_pmax" pmax
            /\ gen = genset_values scale tolerance p rated pmin pmax
        else gen = []).
  { destruct (has_genset (nm_arch g)).
    - apply mbind_ok in EG. destruct EG as (e2 & rated & E & EG). unfold mlift in E. injection E as <- P1.
      apply mbind_ok in EG. destruct EG as (e2 & pmax & E & EG). unfold mlift in E. injection E as <- P2.
      apply mbind_ok in EG. destruct EG as (e2 & pmin & E & EG). unfold mlift in E. injection E as <- P3.
      apply mbind_ok in EG. destruct EG as (e2 & l4 & E & EG). apply (get_numbers_ok e a _ _ _ A) in E. destruct E as (-> & F4).
      inversion F4 as [|? p ? l4a C9 F4a]; subst. inversion F4a; subst. unfold mret in EG. injection EG as <- <-.
      split; [reflexivity|]. exists p, rated, pmin, pmax. split; [exact C9|].
      split; [apply dfind_parameter; exact P1|]. split; [apply dfind_parameter; exact P3|]. split; [apply dfind_parameter; exact P2|].
      reflexivity.
    - unfold mret in EG. injection EG as <- <-. auto. }
  destruct G as (-> & G). split; [reflexivity|].
  exists cap, charge, discharge, room, room', import, export, status, soc, mi, me, smin, smax, gen.
  split; [intros S'; subst scale; apply attr_parameter; exact EC|].
  repeat (split; [assumption|]). repeat (split; [apply dfind_parameter; assumption|]). split; [exact G|]. reflexivity.
Qed.

Lemma inequality_count scale tolerance (e : gym Q) a e' l : gy_action e = Some a ->
  inequality_constraints scale tolerance e = (e', Ok l) ->
  length l = if has_genset (nm_arch (gy_grid e)) then 8%nat else 6%nat.
Proof.
  intros A H. apply (inequality_ok _ _ _ _ _ _ A) in H. cbv zeta in H.
  destruct H as (_ & cap & ? & ? & ? & ? & ? & ? & ? & ? & ? & ? & ? & ? & gen & _ & _ & _ & _ & _ & _ & _ & _ & _ & _ & _ & _ & _ & G & ->).
  rewrite app_length. destruct (has_genset (nm_arch (gy_grid e))).
  - destruct G as (p & rated & pmin & pmax & _ & _ & _ & _ & ->). unfold genset_values. destruct (nltb p n1); reflexivity.
  - subst gen. reflexivity.
Qed.

Lemma inequality_meaning scale tolerance (e : gym Q) a e' l : gy_action e = Some a ->
  inequality_constraints scale tolerance e = (e', Ok l) -> (scale = true -> scales_ok (gy_grid e)) ->
  (Forall (fun x => x <= 0) l <-> satisfied e tolerance).
Proof.
  intros A H SC. apply (inequality_ok _ _ _ _ _ _ A) in H. cbv zeta in H.
  destruct H as (_ & cap & charge & discharge & room & room' & import & export & status & soc & mi & me & smin & smax & gen
    & PC & V1 & V2 & V3 & V4 & V5 & V6 & V7 & V8 & P1 & P2 & P3 & P4 & G & ->).
  assert (KC : scale = true -> 0 < cap) by (intros S'; apply (SC S' "battery_capacity"); [simpl; tauto|auto]).
  assert (K1 : scale = true -> 0 < mi) by (intros S'; apply (SC S' "grid_power_import"); [simpl; tauto|auto]).
  assert (K2 : scale = true -> 0 < me) by (intros S'; apply (SC S' "grid_power_export"); [simpl; tauto|auto]).
  assert (K3 : scale = true -> 0 < smin) by (intros S'; apply (SC S' "battery_soc_min"); [simpl; tauto|auto]).
  assert (K4 : scale = true -> 0 < smax) by (intros S'; apply (SC S' "battery_soc_max"); [simpl; tauto|auto]).
  rewrite Forall_app. rewrite !Forall_cons_iff.
  rewrite !(scaled_sign scale _ cap KC), (scaled_sign scale _ mi K1), (scaled_sign scale _ me K2),
    (scaled_sign scale _ smax K4), (scaled_sign scale _ smin K3).
  assert (GG : Forall (fun x => x <= 0) gen <-> (has_genset (nm_arch (gy_grid e)) = true ->
        exists p rated pmin pmax, shows_value e "genset" p /\ parameter (gy_grid e) "genset_rated_power" rated
          /\ parameter (gy_grid e) "genset_pmin" pmin /\ parameter (gy_grid e) "genset_pmax" pmax
          /\ ((p < 1 /\ - p <= tolerance) \/ (1 <= p /\ rated * pmin <= p <= rated * pmax)))).
  { destruct (has_genset (nm_arch (gy_grid e))); [|subst gen; split; [intros _ X; discriminate X|constructor]].
    destruct G as (p & rated & pmin & pmax & W & Q1 & Q2 & Q3 & ->).
    assert (L1 : scale = true -> 0 < rated) by (intros S'; apply (SC S' "genset_rated_power"); [simpl; tauto|auto]).
    assert (L2 : scale = true -> 0 < pmin) by (intros S'; apply (SC S' "genset_pmin"); [simpl; tauto|auto]).
    assert (L3 : scale = true -> 0 < pmax) by (intros S'; apply (SC S' "genset_pmax"); [simpl; tauto|auto]).
    assert (L4 : scale = true -> 0 < rated * pmin) by (intros S'; apply Qmult_lt_0_compat; auto).
    assert (L5 : scale = true -> 0 < rated * pmax) by (intros S'; apply Qmult_lt_0_compat; auto).
    assert (X : Forall (fun x => x <= 0) (genset_values scale tolerance p rated pmin pmax)
      <-> ((p < 1 /\ - p <= tolerance) \/ (1 <= p /\ rated * pmin <= p <= rated * pmax))).
    { unfold genset_values. destruct (nltb p n1) eqn:LT; unum; qprop; rewrite !Forall_cons_iff.
      - rewrite !(scaled_sign scale _ (rated * pmax) L5). split.
        + intros (_ & X & _). left. split; lra.
        + intros [(X & Y)|(X & _)]; [|exfalso; lra]. split; [lra|]. split; [lra|constructor].
      - rewrite (scaled_sign scale _ (rated * pmax) L5), (scaled_sign scale _ (rated * pmin) L4). split.
        + intros (X & Y & _). right. split; [lra|split; lra].
        + intros [(X & Y)|(_ & X & Y)]; [exfalso; lra|]. split; [lra|]. split; [lra|constructor]. }
    rewrite X. split.
    - intros Y _. exists p, rated, pmin, pmax. auto.
    - intros Y. destruct (Y eq_refl) as (p' & rated' & pmin' & pmax' & W' & Q1' & Q2' & Q3' & Z).
      rewrite (shows_unique _ _ _ _ W W'), (parameter_unique _ _ _ _ Q1 Q1'), (parameter_unique _ _ _ _ Q2 Q2'),
        (parameter_unique _ _ _ _ Q3 Q3'). exact Z. }
  rewrite GG. clear GG G. split.
  - intros ((X1 & X2 & X3 & X4 & X5 & X6 & _) & X7). unfold satisfied. cbv zeta.
    exists charge, discharge, room, room', import, export, status, soc, mi, me, smin, smax.
    repeat (split; [assumption|]). split; [lra|]. split; [lra|]. split; [lra|]. split; [lra|]. split; [split; lra|exact X7].
  - unfold satisfied. cbv zeta.
    intros (charge2 & discharge2 & room2 & room'2 & import2 & export2 & status2 & soc2 & mi2 & me2 & smin2 & smax2
      & W1 & W2 & W3 & W4 & W5 & W6 & W7 & W8 & R1 & R2 & R3 & R4 & Y1 & Y2 & Y3 & Y4 & Y5 & Y6).
    assert (charge2 = charge) by (eapply shows_unique; eassumption). assert (discharge2 = discharge) by (eapply shows_unique; eassumption).
    assert (room2 = room) by (eapply shows_unique; eassumption). assert (room'2 = room') by (eapply shows_unique; eassumption).
    assert (import2 = import) by (eapply shows_unique; eassumption). assert (export2 = export) by (eapply shows_unique; eassumption).
    assert (status2 = status) by (eapply shows_unique; eassumption). assert (soc2 = soc) by (eapply shows_unique; eassumption).
    assert (mi2 = mi) by (eapply parameter_unique; eassumption). assert (me2 = me) by (eapply parameter_unique; eassumption).
    assert (smin2 = smin) by (eapply parameter_unique; eassumption). assert (smax2 = smax) by (eapply parameter_unique; eassumption).
    subst. split; [|exact Y6]. repeat (split; [lra|]). constructor.
Qed.

Lemma energy_balance_ok scale (e : gym Q) a e' x : gy_action e = Some a -> energy_balance scale e = (e', Ok x) ->
  e' = e /\ exists y, imbalance e y
    /\ (if scale then exists cap, parameter (gy_grid e) "battery_capacity" cap /\ x == y / cap else x == y).
Proof.
  intros A H. unfold energy_balance in H.
  apply mbind_ok in H. destruct H as (e1 & z & E & H). unfold mget in E. injection E as <- <-.
  apply mbind_ok in H. destruct H as (e1 & l & E & H). apply (get_numbers_ok e a _ _ _ A) in E. destruct E as (-> & F).
  inversion F as [|? v0 ? la C0 Fa]; subst. inversion Fa as [|? v1 ? lb C1 Fb]; subst.
  inversion Fb as [|? v2 ? lc C2 Fc]; subst. inversion Fc as [|? v3 ? ld C3 Fd]; subst. clear F Fa Fb Fc.
  assert (X : exists gen load pv pvc, (if has_genset (nm_arch (gy_grid e)) then shows_value e "genset" gen else gen = 0)
      /\ shows_value e "load" load /\ shows_value e "pv_consummed" pvc
      /\ ld = (if has_genset (nm_arch (gy_grid e)) then [gen] else []) ++ [load; pv; pvc]).
  { destruct (has_genset (nm_arch (gy_grid e))); cbn in Fd.
    - inversion Fd as [|? v4 ? le C4 Fe]; subst. inversion Fe as [|? v5 ? lf C5 Ff]; subst.
      inversion Ff as [|? v6 ? lg C6 Fg]; subst. inversion Fg as [|? v7 ? lh C7 Fh]; subst. inversion Fh; subst.
      exists v4, v5, v6, v7. auto.
    - inversion Fd as [|? v5 ? lf C5 Ff]; subst.
      inversion Ff as [|? v6 ? lg C6 Fg]; subst. inversion Fg as [|? v7 ? lh C7 Fh]; subst. inversion Fh; subst.
      exists 0, v5, v6, v7. auto. }
  destruct X as (gen & load & pv & pvc & X1 & X2 & X3 & ->). clear Fd.
  assert (Y : exists y, imbalance e y /\ (if scale then exists cap, par_attr (gy_grid e) "battery_capacity" = Ok cap /\ x = y / cap else x = y) /\ e' = e).
  { unfold imbalance.
    destruct (has_genset (nm_arch (gy_grid e))); cbn in H; (destruct scale;
      [apply mbind_ok in H; destruct H as (e1 & cap & E & H); unfold mlift in E; injection E as <- EC; unfold mret in H; injection H as <- <-
      |unfold mret in H; injection H as <- <-]).
    all: eexists; (split; [exists v0, v1, v2, v3, gen, load, pvc; repeat (split; [eassumption|])|]).
    2,4,6,8: (split; [|reflexivity]); try (exists cap; split; [exact EC|reflexivity]); reflexivity.
    all: try (cbn in X1; subst gen); ring. }
  destruct Y as (y & Y1 & Y2 & ->). split; [reflexivity|]. exists y. split; [exact Y1|].
  destruct scale; [|subst x; reflexivity]. destruct Y2 as (cap & C & ->). exists cap. split; [apply attr_parameter; exact C|reflexivity].
Qed.

Lemma constraint_values_ok only scale tolerance (e : gym Q) a e' l : gy_action e = Some a ->
  constraint_values only scale tolerance e = (e', Ok l) ->
  e' = e /\ exists m b, inequality_constraints scale tolerance e = (e, Ok m) /\ energy_balance scale e = (e, Ok b)
    /\ l = if only then m else m ++ [b].
Proof.
  intros A H. unfold constraint_values in H. apply mbind_ok in H. destruct H as (e1 & m & E1 & H).
  pose proof (inequality_ok _ _ _ _ _ _ A E1) as (K & _). subst e1.
  apply mbind_ok in H. destruct H as (e1 & b & E2 & H). pose proof (energy_balance_ok _ _ _ _ _ A E2) as (K & _). subst e1.
  unfold mret in H. injection H as <- <-. split; [reflexivity|]. exists m, b. auto.
Qed.
