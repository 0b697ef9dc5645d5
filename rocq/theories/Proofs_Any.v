(** * Invariants common to all module classes *)

From Coq Require Import ZArith QArith Qabs Bool String List Lia Lqa.
From Verif Require Import Num Py Space Logger Forecast Module
  Proofs_Num Proofs_Logger Spec_Module Proofs_Module Proofs_Space Proofs_Battery Proofs_Genset Proofs_Ts.
Import ListNotations.
Local Open Scope string_scope.
Local Open Scope list_scope.
Local Open Scope Q_scope.

(** ** What stays the same under steps and resets *)
Definition kind_same (k k' : kind Q) : Prop :=
  match k, k' with
  | KBattery b, KBattery b' => same_params b b'
  | KGenset g, KGenset g' => same_gen g g'
  | KGrid g t, KGrid g' t' => g' = g /\ ts_same t t'
  | KLoad t, KLoad t' | KRenewable t, KRenewable t' => ts_same t t'
  | KUnbalanced u, KUnbalanced u' => u' = u
  | _, _ => False
  end.

Record mod_same (m m' : module Q) : Prop := mkModSame {
  sm_kind : kind_same (m_kind m) (m_kind m');
  sm_raise : m_raise m' = m_raise m;
  sm_init : m_init m' = m_init m;
  sm_act : m_act m' = m_act m;
  sm_obs : m_obs m' = m_obs m;
  sm_prov : m_prov m' = m_prov m;
  sm_abs : m_abs m' = m_abs m;
  sm_name : m_name m' = m_name m
}.

Lemma same_params_refl b : same_params b b.
Proof. exists (b_charge b), (b_soc b). destruct b; reflexivity. Qed.
Lemma same_params_trans b1 b2 b3 : same_params b1 b2 -> same_params b2 b3 -> same_params b1 b3.
Proof. intros (c & s & ->) (c' & s' & ->). exists c', s'. reflexivity. Qed.

Lemma kind_same_refl k : kind_same k k.
Proof.
  destruct k; simpl; auto using same_params_refl, same_gen_refl, ts_same_refl.
Qed.
Lemma kind_same_trans k1 k2 k3 : kind_same k1 k2 -> kind_same k2 k3 -> kind_same k1 k3.
Proof.
  destruct k1, k2; simpl; try tauto; destruct k3; simpl; try tauto;
    try (intros [-> A] [-> B]; split; [reflexivity|]); eauto using same_params_trans, same_gen_trans, ts_same_trans.
  intros -> ->. reflexivity.
Qed.
Lemma mod_same_refl m : mod_same m m.
Proof. constructor; auto using kind_same_refl. Qed.
Lemma mod_same_trans m1 m2 m3 : mod_same m1 m2 -> mod_same m2 m3 -> mod_same m1 m3.
Proof. intros [] []. constructor; try congruence. eauto using kind_same_trans. Qed.

Lemma kind_same_roles k k' : kind_same k k' ->
  is_source k' = is_source k /\ is_sink k' = is_sink k /\ module_type k' = module_type k
  /\ default_name k' = default_name k /\ energy_pos k' = energy_pos k.
Proof.
  destruct k, k'; simpl; try tauto; try (intros [-> _]); auto.
Qed.

(** ** The invariant *)
Definition one_dim (s : option (space Q)) : Prop :=
  match s with
  | Some sp => length (sp_low sp) = 1%nat /\ length (sp_high sp) = 1%nat
  | None => False
  end.

Definition ts_mod (m : module Q) (t : tsdata Q) : Prop :=
  ts_ok t /\ cur_ok t /\ m_obs m = ts_obs_space t.

Definition kind_ok (m : module Q) : Prop :=
  match m_kind m with
  | KBattery b =>
      m_prov m <> None /\ m_abs m <> None /\ one_dim (m_act m)
      /\ length (sp_low (m_obs m)) = 2%nat /\ length (sp_high (m_obs m)) = 2%nat
  | KGenset g =>
      m_prov m <> None /\ m_abs m = None
      /\ (exists x y, m_act m = Some (mkSpace [0; 0] [x; y]))
      /\ length (sp_low (m_obs m)) = 4%nat /\ length (sp_high (m_obs m)) = 4%nat
  | KGrid g t =>
      m_prov m <> None /\ m_abs m <> None /\ one_dim (m_act m) /\ ts_mod m t
      /\ ts_comps t = grid_comps
      /\ 0 <= gr_max_import g /\ 0 <= gr_max_export g
      /\ Forall (fun r => Forall (fun x => 0 <= x) r
                          /\ exists s, nth_error r 3 = Some s /\ (s == 0 \/ s == 1)) (ts_rows t)
  | KLoad t =>
      m_prov m = None /\ m_abs m <> None /\ m_act m = Some (mkSpace [] []) /\ ts_mod m t
      /\ ts_comps t = ["load"] /\ Forall (Forall (fun x => x <= 0)) (ts_rows t)
  | KRenewable t =>
      m_prov m <> None /\ m_abs m = None /\ one_dim (m_act m) /\ ts_mod m t
      /\ ts_comps t = ["renewable"] /\ Forall (Forall (fun x => 0 <= x)) (ts_rows t)
  | KUnbalanced u =>
      m_prov m <> None /\ m_abs m <> None /\ m_act m = None
      /\ sp_low (m_obs m) = [] /\ sp_high (m_obs m) = []
  end.

(** The columns a module can log. *)
Definition state_keys (k : kind Q) : list string :=
  match k with
  | KBattery _ => ["soc"; "current_charge"]
  | KGenset _ => ["current_status"; "goal_status"; "steps_until_up"; "steps_until_down"]
  | KGrid _ t | KLoad t | KRenewable t =>
      keys_current (ts_comps t) ++ keys_forecast (ts_comps t) (ts_horizon t)
  | KUnbalanced _ => []
  end.
Definition extra_keys (k : kind Q) : list string :=
  match k with
  | KGenset _ | KGrid _ _ => ["co2_production"]
  | KRenewable _ => ["curtailment"]
  | _ => []
  end.
Definition opt_list {A} (o : option A) : list A := match o with Some x => [x] | None => [] end.
Definition log_keys (m : module Q) : list string :=
  "reward" :: extra_keys (m_kind m) ++ opt_list (m_prov m) ++ opt_list (m_abs m)
  ++ state_keys (m_kind m).

Record mod_ok (m : module Q) : Prop := mkModOk {
  mo_kind : kind_ok m;
  mo_rect : log_rect (m_log m);
  mo_keys : incl (map fst (lg_data (m_log m))) (log_keys m)
}.

Lemma kind_same_keys k k' : kind_same k k' ->
  state_keys k' = state_keys k /\ extra_keys k' = extra_keys k.
Proof.
  destruct k, k'; simpl; try tauto; intros S; auto; [destruct S as [_ S]| |];
    rewrite (same_comps _ _ S), (same_horizon _ _ S); auto.
Qed.

Lemma mod_same_keys m m' : mod_same m m' -> log_keys m' = log_keys m.
Proof.
  intros []. unfold log_keys. destruct (kind_same_keys _ _ sm_kind0) as [-> ->].
  rewrite sm_prov0, sm_abs0. reflexivity.
Qed.

(** The stored forecast of a time-series module fits. *)
Definition cur_of (m : module Q) : Prop :=
  match kind_ts (m_kind m) with Some t => cur_ok t | None => True end.

Ltac conj := repeat match goal with |- _ /\ _ => split end.

Lemma ts_mod_same (m m' : module Q) t t' : m_obs m' = m_obs m -> ts_same t t' -> cur_ok t' ->
  ts_mod m t -> ts_mod m' t'.
Proof.
  intros O S C (T1 & T2 & T3). unfold ts_mod. conj; auto.
  - exact (ts_same_ok _ _ S T1).
  - rewrite O, T3. unfold ts_obs_space.
    rewrite (same_min _ _ S), (same_max _ _ S), (same_horizon _ _ S). reflexivity.
Qed.

Lemma kind_ok_same m m' : mod_same m m' -> cur_of m' -> kind_ok m -> kind_ok m'.
Proof.
  intros [KS _ _ A O P B _] C K. unfold kind_ok, cur_of in *.
  destruct (m_kind m) as [b|g|g t|t|t|u], (m_kind m') as [b'|g'|g' t'|t'|t'|u']; simpl in KS, C; try tauto;
    rewrite ?A, ?P, ?B; try (rewrite ?O; assumption).
  - destruct KS as [-> S]. rewrite (same_comps _ _ S), (same_rows _ _ S).
    destruct K as (K1 & K2 & K3 & T & K5). conj; try tauto.
    exact (ts_mod_same _ _ _ _ O S C T).
  - rewrite (same_comps _ _ KS), (same_rows _ _ KS).
    destruct K as (K1 & K2 & K3 & T & K5). conj; try tauto.
    exact (ts_mod_same _ _ _ _ O KS C T).
  - rewrite (same_comps _ _ KS), (same_rows _ _ KS).
    destruct K as (K1 & K2 & K3 & T & K5). conj; try tauto.
    exact (ts_mod_same _ _ _ _ O KS C T).
Qed.

Lemma kind_ok_ts m t : kind_ok m -> kind_ts (m_kind m) = Some t ->
  ts_mod m t /\ known_comps (ts_comps t).
Proof.
  unfold kind_ok, known_comps. destruct (m_kind m); simpl; intros K E; inversion E; subst;
    intuition.
Qed.

(** ** The state dictionary exists *)
Lemma state_dict_ok m : kind_ok m -> exists sd, state_dict m = Ok sd
  /\ map fst sd = state_keys (m_kind m) /\ length sd = length (sp_low (m_obs m)).
Proof.
  intros K. unfold state_dict.
  assert (TS : forall t, kind_ts (m_kind m) = Some t -> exists sd, ts_state_dict t (m_cur m) = Ok sd
    /\ map fst sd = keys_current (ts_comps t) ++ keys_forecast (ts_comps t) (ts_horizon t)
    /\ length sd = length (sp_low (m_obs m))).
  { intros t E. destruct (kind_ok_ts _ _ K E) as ((T1 & T2 & T3) & KC).
    destruct (ts_state_dict_ok t (m_cur m) T1 T2 KC) as (r & _ & _ & _ & _ & -> & L).
    destruct (keys_lengths (ts_comps t) (ts_horizon t)) as [A B].
    eexists. split; [reflexivity|]. split.
    - apply map_fst_combine. rewrite app_length, A, B, L. simpl. lia.
    - rewrite combine_length, app_length, A, B, L, T3. destruct (obs_length t T1) as [-> _]. simpl. lia. }
  unfold kind_ok in K. destruct (m_kind m) as [b|g|g t|t|t|u]; simpl in *; auto.
  - destruct K as (_ & _ & _ & -> & _). eauto.
  - destruct K as (_ & _ & _ & -> & _). eauto.
  - destruct K as (_ & _ & _ & -> & _). eauto.
Qed.

Lemma norm_obs_ok m : kind_ok m -> exists o, norm_obs m = Ok o.
Proof.
  intros K. destruct (state_dict_ok m K) as (sd & E & _ & L).
  unfold norm_obs, state. rewrite E. simpl. unfold normalize, shape_check, dvalues.
  rewrite map_length, L, Nat.eqb_refl. simpl. eauto.
Qed.

(** ** Logging a row *)

(** The shape of the info dictionary of each class. *)
Definition info_shape (k : kind Q) (i : info Q) : Prop :=
  match k with
  | KBattery _ | KUnbalanced _ =>
      exists e, i = [("provided_energy", e)] \/ i = [("absorbed_energy", e)]
  | KGenset _ => exists e c, i = [("provided_energy", e); ("co2_production", c)]
  | KGrid _ _ => exists e c, i = [("provided_energy", e); ("co2_production", c)]
                             \/ i = [("absorbed_energy", e); ("co2_production", c)]
  | KLoad _ => exists e, i = [("absorbed_energy", e)]
  | KRenewable _ => exists e c, i = [("provided_energy", e); ("curtailment", c)]
  end.

Lemma In_dset {A} k k0 (v : A) d : In k (map fst (dset k0 v d)) <-> k = k0 \/ In k (map fst d).
Proof.
  rewrite map_fst_dset. destruct (str_in k0 (map fst d)) eqn:E.
  - apply str_in_iff in E. intuition congruence.
  - rewrite in_app_iff. simpl. intuition congruence.
Qed.

Lemma In_dupdate {A} k (kvs : list (string * A)) : forall d,
  In k (map fst (dupdate d kvs)) <-> In k (map fst kvs) \/ In k (map fst d).
Proof.
  induction kvs as [|[k0 v] kvs IH]; simpl; intros d; [tauto|].
  change (dupdate d ((k0, v) :: kvs)) with (dupdate (dset k0 v d) kvs).
  rewrite IH, In_dset. simpl. intuition congruence.
Qed.

Lemma module_log_rect sd rw i m : mod_ok m -> info_shape (m_kind m) i ->
  map fst sd = state_keys (m_kind m) ->
  exists lg, module_log sd rw i m = (set_log m lg, Ok tt) /\ mod_ok (set_log m lg)
    /\ lg_len lg = S (lg_len (m_log m))
    /\ (forall k, In k (map fst (lg_data lg)) <-> In k (log_keys m)).
Proof.
  intros [K R KS] IS SD.
  assert (G : exists row, module_log sd rw i m
              = (let '(lg, r) := logger_log row (m_log m) in (set_log m lg, r))
              /\ NoDup (map fst row) /\ forall k, In k (map fst row) <-> In k (log_keys m)).
  { unfold module_log, mbind, mget. unfold kind_ok in K. unfold log_keys.
    destruct (m_kind m) as [b|g|g t|t|t|u]; simpl in IS, SD |- *;
      repeat match goal with
      | H : exists _, _ |- _ => destruct H
      | H : _ /\ _ |- _ => destruct H
      | H : _ \/ _ |- _ => destruct H
      end; subst i; cbn [dget String.eqb Ascii.eqb Bool.eqb filter negb fst snd andb];
      repeat match goal with
      | H : m_prov m <> None |- _ => destruct (m_prov m) as [np|]; [clear H|exfalso; apply H; reflexivity]
      | H : m_abs m <> None |- _ => destruct (m_abs m) as [na|]; [clear H|exfalso; apply H; reflexivity]
      | H : m_prov m = None |- _ => rewrite H; clear H
      | H : m_abs m = None |- _ => rewrite H; clear H
      end; unfold mret;
      (eexists; split; [reflexivity|]; split;
       [apply NoDup_dupdate; repeat (apply NoDup_dset || apply NoDup_dupdate); repeat constructor; simpl; tauto
       |intros k; rewrite In_dupdate, SD; repeat (rewrite In_dset || rewrite In_dupdate); simpl;
        rewrite ?in_app_iff; simpl; intuition congruence]). }
  destruct G as (row & -> & ND & KE).
  destruct (logger_log_rect row (m_log m) R ND) as (lg & -> & R' & L & KL).
  { intros k I. apply KE. apply KS. assumption. }
  exists lg. split; [reflexivity|]. split; [|split; [assumption|]].
  - constructor; [exact K|exact R'|]. intros k I. change (In k (log_keys m)). apply KE, KL. exact I.
  - intros k. rewrite KL. apply KE.
Qed.

(** ** A request, on any class *)
Definition upd_rel (m m1 : module Q) (r : res (Q * bool * info Q)) : Prop :=
  exists k1, m1 = set_kind m k1 /\ kind_same (m_kind m) k1 /\ kind_ts k1 = kind_ts (m_kind m)
    /\ match r with Ok (_, _, i) => info_shape (m_kind m) i | Err _ => True end.

Lemma upd_rel_err m e : upd_rel m m (Err e).
Proof. exists (m_kind m). rewrite set_kind_id. auto using kind_same_refl. Qed.

Lemma battery_update_state_any x (b b' : battery Q) r :
  battery_update_state x b = (b', r) -> same_params b b'.
Proof.
  unfold battery_update_state. destruct (nltb _ _); [destruct (isclose _ _)|];
    intros E; inversion E; subst; eexists; eexists; reflexivity.
Qed.

Lemma update_any e src (m m1 : module Q) r : update e src m = (m1, r) -> upd_rel m m1 r.
Proof.
  unfold update. intros E.
  destruct (m_kind m) as [b|g|g t|t|t|u] eqn:K; destruct e as [e|];
    try (inversion E; subst; apply upd_rel_err).
  - unfold lift_kind in E. destruct (battery_update e src b) as [b' r'] eqn:U. inversion E; subst; clear E.
    exists (KBattery b'). rewrite K. split; [reflexivity|]. simpl.
    unfold battery_update in U. destruct src; unfold mbind, mget, massert, mret in U;
      (destruct (nleb _ _); [|inversion U; subst; auto using same_params_refl]);
      match type of U with context [battery_update_state ?x ?y] =>
        destruct (battery_update_state x y) as [b2 r2] eqn:S end;
      apply battery_update_state_any in S;
      destruct r2; inversion U; subst; split; auto; split; auto; eexists; auto.
  - unfold lift_kind, genset_update, massert, mbind, mget, mret in E.
    exists (KGenset g). rewrite K. simpl.
    destruct src; inversion E; subst; auto using same_gen_refl.
    repeat split; auto using same_gen_refl. eauto.
  - apply pair_equal_spec in E; destruct E as [<- <-]. exists (m_kind m). rewrite set_kind_id, K. split; [reflexivity|].
    split; [apply kind_same_refl|]. split; [reflexivity|].
    destruct (grid_update g t (m_cur m) (Some e) src) as [[[rw d] i]|] eqn:U; [|exact I].
    unfold grid_update in U. minv. inversion U; subst. simpl. destruct src; eauto 6.
  - apply pair_equal_spec in E; destruct E as [<- <-]. exists (m_kind m). rewrite set_kind_id, K. split; [reflexivity|].
    split; [apply kind_same_refl|]. split; [reflexivity|].
    destruct (load_update t (m_cur m) src) as [[[rw d] i]|] eqn:U; [|exact I].
    unfold load_update in U. destruct src; [discriminate|]. minv. inversion U; subst. simpl. eauto.
  - apply pair_equal_spec in E; destruct E as [<- <-]. exists (m_kind m). rewrite set_kind_id, K. split; [reflexivity|].
    split; [apply kind_same_refl|]. split; [reflexivity|].
    destruct (load_update t (m_cur m) src) as [[[rw d] i]|] eqn:U; [|exact I].
    unfold load_update in U. destruct src; [discriminate|]. minv. inversion U; subst. simpl. eauto.
  - apply pair_equal_spec in E; destruct E as [<- <-]. exists (m_kind m). rewrite set_kind_id, K. split; [reflexivity|].
    split; [apply kind_same_refl|]. split; [reflexivity|].
    destruct (renewable_update t (m_cur m) e src) as [[[rw d] i]|] eqn:U; [|exact I].
    unfold renewable_update in U. destruct src; [|discriminate]. minv.
    destruct (nleb _ _); [|discriminate]. inversion U; subst. simpl. eauto.
  - apply pair_equal_spec in E; destruct E as [<- <-]. exists (m_kind m). rewrite set_kind_id, K. split; [reflexivity|].
    split; [apply kind_same_refl|]. split; [reflexivity|].
    destruct (unbalanced_update u e src) as [[[rw d] i]|] eqn:U; [|exact I].
    unfold unbalanced_update in U.
    destruct (nleb _ _); [|discriminate]. inversion U; subst. simpl. destruct src; eauto.
Qed.

Lemma as_source_any x (m m1 : module Q) r : as_source x m = (m1, r) -> upd_rel m m1 r.
Proof.
  unfold as_source, mbind, massert, mget, mlift, raise_error, mraise, raise.
  destruct (nleb n0 x); [|intros E; inversion E; apply upd_rel_err].
  destruct (is_source (m_kind m)); [|intros E; inversion E; apply upd_rel_err].
  destruct (is_fixed _); [apply update_any|].
  destruct (max_production m) as [mx|]; [|intros E; inversion E; apply upd_rel_err].
  destruct (gt_bound x mx) as [[|]|]; [| |intros E; inversion E; apply upd_rel_err].
  - destruct (m_raise m); [intros E; inversion E; apply upd_rel_err|].
    destruct mx; try (intros E; inversion E; apply upd_rel_err). apply update_any.
  - destruct (nltb x (min_production m)); [|apply update_any].
    destruct (m_raise m); [intros E; inversion E; apply upd_rel_err|]. apply update_any.
Qed.

Lemma as_sink_any x (m m1 : module Q) r : as_sink x m = (m1, r) -> upd_rel m m1 r.
Proof.
  unfold as_sink, mbind, massert, mget, mlift, raise_error, mraise, raise.
  destruct (nleb n0 x); [|intros E; inversion E; apply upd_rel_err].
  destruct (is_fixed _); [apply update_any|].
  destruct (max_consumption m) as [mx|]; [|intros E; inversion E; apply upd_rel_err].
  destruct (gt_bound x mx) as [[|]|]; [| |intros E; inversion E; apply upd_rel_err].
  - destruct (m_raise m); [intros E; inversion E; apply upd_rel_err|].
    destruct mx; try (intros E; inversion E; apply upd_rel_err).
    destruct (nleb n0 _); [apply update_any|intros E; inversion E; apply upd_rel_err].
  - apply update_any.
Qed.

Lemma request_any x (m m1 : module Q) r : unnormalized_step x m = (m1, r) -> upd_rel m m1 r.
Proof.
  unfold unnormalized_step. destruct (nltb n0 x); [apply as_source_any|].
  destruct (nltb x n0); [apply as_sink_any|].
  unfold mbind, mget, massert. destruct (is_source (m_kind m)); [apply as_source_any|].
  destruct (is_sink (m_kind m)); [apply as_sink_any|intros E; inversion E; apply upd_rel_err].
Qed.

Lemma upd_rel_same m m1 r : upd_rel m m1 r -> mod_same m m1 /\ (mod_ok m -> mod_ok m1)
  /\ m_cur m1 = m_cur m /\ m_log m1 = m_log m.
Proof.
  intros (k1 & -> & KS & KT & _).
  assert (S : mod_same m (set_kind m k1)) by (constructor; auto).
  split; [exact S|]. split; [|auto]. intros [K R L]. constructor.
  - apply (kind_ok_same _ _ S); [|exact K]. unfold cur_of. simpl. rewrite KT.
    destruct (kind_ts (m_kind m)) as [t|] eqn:E; [|exact I].
    destruct (kind_ok_ts _ _ K E) as [(_ & C & _) _]. exact C.
  - exact R.
  - rewrite (mod_same_keys _ _ S). exact L.
Qed.

(** ** One call, on any class *)
Lemma update_step_ok_any rs (m m' : module Q) r :
  mod_ok m -> update_step rs m = (m', r) ->
  mod_same m m' /\ mod_ok m' /\ m_log m' = m_log m
  /\ m_cur m' = (if rs then m_init m else m_cur m + 1)%Z
  /\ (r = Ok tt \/ exists t vec f, kind_ts (m_kind m) = Some t /\ fc_kind (ts_fc t) = FcUser vec f).
Proof.
  intros [K R L] E. apply update_step_any in E.
  destruct (kind_ts (m_kind m)) as [t|] eqn:KT.
  - destruct E as (t' & RF & ->).
    destruct (kind_ok_ts _ _ K KT) as [(T1 & T2 & T3) KC].
    destruct (ts_refresh_ok t T1 _ _ _ RF) as (SM & P).
    assert (S : mod_same m (set_kind (set_cur m (if rs then m_init m else m_cur m + 1)%Z)
                              (kind_set_ts (m_kind m) t'))).
    { constructor; auto. simpl. destruct (m_kind m); simpl in *; inversion KT; subst; auto. }
    assert (C : cur_ok t').
    { destruct r as [u|e]; [exact P|]. destruct P as [_ P]. unfold cur_ok in *. rewrite P.
      destruct (ts_cur_fc t); [exact (ts_same_fits _ _ _ SM T2)|].
      rewrite (same_horizon _ _ SM). exact T2. }
    split; [exact S|]. split.
    + constructor; [|exact R|rewrite (mod_same_keys _ _ S); exact L].
      apply (kind_ok_same _ _ S); [|exact K]. unfold cur_of. simpl.
      destruct (m_kind m); simpl in *; inversion KT; subst; exact C.
    + simpl. split; [reflexivity|]. split; [reflexivity|].
      destruct r as [[]|e]; [auto|]. right. destruct P as [(vec & f & P) _]. eauto 6.
  - destruct E as [-> ->].
    assert (S : mod_same m (set_cur m (if rs then m_init m else m_cur m + 1)%Z)).
    { constructor; auto. apply kind_same_refl. }
    split; [exact S|]. split; [|auto]. constructor; [|exact R|exact L].
    apply (kind_ok_same _ _ S); [|exact K]. unfold cur_of. simpl. rewrite KT. exact I.
Qed.

Lemma base_step_cases a n (m m' : module Q) x :
  base_step a n m = (m', x) ->
  (m' = m /\ exists e, x = Err e
     /\ ((if n then denorm_action m a else Ok a) = Err e
         \/ (exists da, (if n then denorm_action m a else Ok a) = Ok da
              /\ pick_energy (energy_pos (m_kind m)) da = Err e)
         \/ state_dict m = Err e))
  \/ exists da e sd,
     (if n then denorm_action m a else Ok a) = Ok da
     /\ pick_energy (energy_pos (m_kind m)) da = Ok e
     /\ state_dict m = Ok sd
     /\ ((exists ex, unnormalized_step e m = (m', Err ex) /\ x = Err ex)
         \/ exists m1 rw d i, unnormalized_step e m = (m1, Ok (rw, d, i))
            /\ ((exists ex, module_log sd rw i m1 = (m', Err ex) /\ x = Err ex)
                \/ exists m2, module_log sd rw i m1 = (m2, Ok tt)
                   /\ ((exists ex, update_step false m2 = (m', Err ex) /\ x = Err ex)
                       \/ (update_step false m2 = (m', Ok tt)
                           /\ x = match norm_obs m' with
                                  | Ok o => Ok (o, rw, d, i)
                                  | Err e => Err e
                                  end)))).
Proof.
  unfold base_step. intros E.
  unfold mbind at 1, mget in E.
  apply mbind_inv in E. unfold mlift in E.
  destruct E as [(s & da & E1 & E)|(e & E1 & ->)]; inversion E1; subst; clear E1.
  2:{ left. split; [reflexivity|]. eauto. }
  apply mbind_inv in E.
  destruct E as [(s' & en & E1 & E)|(e & E1 & ->)]; inversion E1; subst; clear E1.
  2:{ left. split; [reflexivity|]. exists e. split; [reflexivity|]. right. left. eauto. }
  apply mbind_inv in E.
  destruct E as [(s & sd & E1 & E)|(e & E1 & ->)]; inversion E1; subst; clear E1.
  2:{ left. split; [reflexivity|]. exists e. auto. }
  right. exists da, en, sd. split; [assumption|]. split; [assumption|]. split; [assumption|].
  apply mbind_inv in E. destruct E as [(m1 & out & E1 & E)|(e & E1 & ->)]; [|left; eauto].
  right. destruct out as [[rw d] i]. exists m1, rw, d, i. split; [exact E1|].
  apply mbind_inv in E. destruct E as [(m2 & [] & E2 & E)|(e & E2 & ->)]; [|left; eauto].
  right. exists m2. split; [exact E2|].
  apply mbind_inv in E. destruct E as [(m3 & [] & E3 & E)|(e & E3 & ->)]; [|left; eauto].
  right. unfold mbind, mget, mret in E.
  destruct (norm_obs m3) eqn:NO; inversion E; subst; rewrite NO; auto.
Qed.

(** Has a user-defined forecaster. *)
Definition user_fc (m : module Q) : Prop :=
  exists t vec f, kind_ts (m_kind m) = Some t /\ fc_kind (ts_fc t) = FcUser vec f.

(** A base step of a good module: refused without touching log and clock, or
    served, logged and advanced (and then it can fail only in a user-defined
    forecaster). *)
Lemma base_step_good a n (m m' : module Q) x :
  mod_ok m -> base_step a n m = (m', x) ->
  mod_same m m' /\ mod_ok m'
  /\ ((m_cur m' = m_cur m /\ m_log m' = m_log m /\ exists e, x = Err e)
      \/ exists da e m1 rw d i,
           (if n then denorm_action m a else Ok a) = Ok da
           /\ pick_energy (energy_pos (m_kind m)) da = Ok e
           /\ unnormalized_step e m = (m1, Ok (rw, d, i))
           /\ m_cur m' = (m_cur m + 1)%Z
           /\ lg_len (m_log m') = S (lg_len (m_log m))
           /\ (forall k, In k (map fst (lg_data (m_log m'))) <-> In k (log_keys m))
           /\ ((exists o, x = Ok (o, rw, d, i) /\ norm_obs m' = Ok o)
               \/ (exists e', x = Err e') /\ user_fc m)).
Proof.
  intros OK E. apply base_step_cases in E.
  destruct E as [(-> & e & -> & _)|(da & e & sd & E1 & E2 & E3 & D)].
  { split; [apply mod_same_refl|]. split; [exact OK|]. left. eauto. }
  destruct D as [(ex & U & ->)|(m1 & rw & d & i & U & D)].
  { apply request_any in U. destruct (upd_rel_same _ _ _ U) as (S & P & C & L).
    split; [exact S|]. split; [auto|]. left. eauto. }
  pose proof (request_any _ _ _ _ U) as UR.
  destruct (upd_rel_same _ _ _ UR) as (S & P & C & L).
  pose proof (P OK) as OK1.
  destruct UR as (k1 & M1 & KS & KT & IS).
  destruct (state_dict_ok m (mo_kind _ OK)) as (sd' & E3' & SK & _).
  rewrite E3' in E3. inversion E3; subst sd'. clear E3.
  assert (IS1 : info_shape (m_kind m1) i).
  { rewrite M1. simpl. destruct (m_kind m), k1; simpl in KS, IS |- *; try tauto. }
  assert (SK1 : map fst sd = state_keys (m_kind m1)).
  { destruct (kind_same_keys _ _ (sm_kind _ _ S)) as [-> _]. exact SK. }
  destruct (module_log_rect sd rw i m1 OK1 IS1 SK1) as (lg & ML & OK2 & LL & LK).
  rewrite ML in D. destruct D as [(ex & D & _)|(m2 & D & D2)]; [discriminate|].
  inversion D; subst m2. clear D.
  assert (S2 : mod_same m (set_log m1 lg)).
  { apply (mod_same_trans _ _ _ S). constructor; auto. apply kind_same_refl. }
  assert (G : forall r, update_step false (set_log m1 lg) = (m', r) ->
     mod_same m m' /\ mod_ok m' /\ m_cur m' = (m_cur m + 1)%Z
     /\ lg_len (m_log m') = Datatypes.S (lg_len (m_log m))
     /\ (forall k, In k (map fst (lg_data (m_log m'))) <-> In k (log_keys m))
     /\ (r = Ok tt \/ user_fc m)).
  { intros r US. destruct (update_step_ok_any false _ _ _ OK2 US) as (S3 & OK3 & L3 & C3 & R3).
    split; [exact (mod_same_trans _ _ _ S2 S3)|]. split; [exact OK3|].
    split; [rewrite C3; simpl; rewrite C; reflexivity|].
    rewrite L3. simpl. rewrite LL, L. split; [reflexivity|]. split.
    - intros k. rewrite LK, (mod_same_keys _ _ S). reflexivity.
    - destruct R3 as [R3|(t & vec & f & R3 & R4)]; [auto|]. right. exists t, vec, f.
      rewrite <- KT. split; [|exact R4]. rewrite M1 in R3. exact R3. }
  destruct D2 as [(ex & US & ->)|(US & ->)].
  - destruct (G _ US) as (G1 & G2 & G3 & G4 & G5 & G6). split; [exact G1|]. split; [exact G2|].
    right. exists da, e, m1, rw, d, i. conj; auto.
    right. split; [eauto|]. destruct G6; [discriminate|assumption].
  - destruct (G _ US) as (G1 & G2 & G3 & G4 & G5 & G6). split; [exact G1|]. split; [exact G2|].
    right. exists da, e, m1, rw, d, i. conj; auto.
    left. destruct (norm_obs_ok m' (mo_kind _ G2)) as [o NO]. rewrite NO. eauto.
Qed.

(** The genset's status update touches only status, goal and counters. *)
Definition keeps {A} (f : M (genset Q) A) : Prop :=
  forall g g' r, f g = (g', r) -> same_gen g g'.
Lemma keeps_bind {A B} (x : M (genset Q) A) (f : A -> M (genset Q) B) :
  keeps x -> (forall a, keeps (f a)) -> keeps (mbind x f).
Proof.
  intros X F g g' r E. apply mbind_inv in E. destruct E as [(s & a & E1 & E2)|(e & E1 & _)].
  - exact (same_gen_trans _ _ _ (X _ _ _ E1) (F _ _ _ _ E2)).
  - exact (X _ _ _ E1).
Qed.
Lemma keeps_id {A} (f : M (genset Q) A) : (forall g, fst (f g) = g) -> keeps f.
Proof. intros F g g' r E. specialize (F g). rewrite E in F. simpl in F. subst. apply same_gen_refl. Qed.
Lemma keeps_set (f : genset Q -> genset Q) :
  (forall g, same_gen g (f g)) -> keeps (mmodify f).
Proof. intros F g g' r E. inversion E; subst. apply F. Qed.

Lemma update_status_keeps x : keeps (update_status x).
Proof.
  assert (RT : keeps reset_up_down_times).
  { intros g g' r E. unfold reset_up_down_times in E.
    destruct (negb _); [|destruct (g_status g)]; inversion E; subst; try apply same_gen_refl;
      unfold same_gen; destruct g; reflexivity. }
  assert (UT : keeps update_up_down_times).
  { intros g g' r E. unfold update_up_down_times in E.
    destruct (negb _); inversion E; subst; unfold same_gen; destruct g; reflexivity. }
  assert (SG : forall b, keeps (set_goal b)).
  { intros b. apply keeps_set. intros g. unfold same_gen. destruct g; reflexivity. }
  assert (RET : forall A (a : A), keeps (mret a)) by (intros; apply keeps_id; reflexivity).
  assert (RAI : forall A c s, keeps (@mraise (genset Q) A c s)) by (intros; apply keeps_id; reflexivity).
  assert (AST : forall b s, keeps (massert b s)) by (intros [|] s; apply keeps_id; reflexivity).
  assert (GET : keeps mget) by (apply keeps_id; reflexivity).
  assert (FI : keeps finish_in_progress_change).
  { intros g g' r E. unfold finish_in_progress_change in E.
    destruct (_ && _); [|destruct (_ && _)]; [| |inversion E; apply same_gen_refl].
    - revert E. apply keeps_bind.
      + apply keeps_set. intros g0. unfold same_gen. destruct g0; reflexivity.
      + intros _. apply keeps_bind; auto.
    - revert E. apply keeps_bind.
      + apply keeps_set. intros g0. unfold same_gen. destruct g0; reflexivity.
      + intros _. apply keeps_bind; auto. }
  assert (NI : forall b, keeps (non_instantaneous_update b)).
  { intros b. unfold non_instantaneous_update. apply keeps_bind; [auto|]. intros g.
    apply keeps_bind.
    - destruct (_ && _ && _); [|destruct (_ && _)]; auto; apply keeps_bind; auto.
    - intros _. apply keeps_bind; [auto|]. intros g'. destruct (negb _); [|auto].
      apply keeps_bind; [|auto]. destruct (g_goal g'); auto. }
  unfold update_status. apply keeps_bind; [auto|]. intros g. apply keeps_bind; [auto|]. intros _.
  destruct (negb _); [auto|]. cbv zeta.
  destruct (_ && _); [auto|].
  apply keeps_bind; [destruct (_ && _); auto|]. intros _.
  apply keeps_bind; [auto|]. intros f. apply keeps_bind; [destruct f; auto|]. intros _.
  apply keeps_bind; [auto|]. intros g'. destruct (Bool.eqb _ _); auto.
Qed.

(** ** step, reset and histories *)
Lemma step_good a n (m m' : module Q) x :
  mod_ok m -> step a n m = (m', x) ->
  mod_same m m' /\ mod_ok m'
  /\ ((m_cur m' = m_cur m /\ m_log m' = m_log m /\ exists e, x = Err e)
      \/ exists m0 da e m1 rw d i,
           mod_same m m0 /\ mod_ok m0 /\ m_cur m0 = m_cur m /\ m_log m0 = m_log m
           /\ (is_sink (m_kind m) = true \/ is_source (m_kind m) = false \/ energy_pos (m_kind m) = 0%nat -> m0 = m)
           /\ (if n then denorm_action m a else Ok a) = Ok da
           /\ pick_energy (energy_pos (m_kind m)) da = Ok e
           /\ unnormalized_step e m0 = (m1, Ok (rw, d, i))
           /\ m_cur m' = (m_cur m + 1)%Z
           /\ lg_len (m_log m') = S (lg_len (m_log m))
           /\ (forall k, In k (map fst (lg_data (m_log m'))) <-> In k (log_keys m))
           /\ ((exists o, x = Ok (o, rw, d, i) /\ norm_obs m' = Ok o)
               \/ (exists e', x = Err e') /\ user_fc m)).
Proof.
  intros OK E. unfold step, mbind at 1, mget in E.
  assert (NG : base_step a n m = (m', x) -> mod_same m m' /\ mod_ok m'
  /\ ((m_cur m' = m_cur m /\ m_log m' = m_log m /\ exists e, x = Err e)
      \/ exists m0 da e m1 rw d i,
           mod_same m m0 /\ mod_ok m0 /\ m_cur m0 = m_cur m /\ m_log m0 = m_log m
           /\ (is_sink (m_kind m) = true \/ is_source (m_kind m) = false \/ energy_pos (m_kind m) = 0%nat -> m0 = m)
           /\ (if n then denorm_action m a else Ok a) = Ok da
           /\ pick_energy (energy_pos (m_kind m)) da = Ok e
           /\ unnormalized_step e m0 = (m1, Ok (rw, d, i))
           /\ m_cur m' = (m_cur m + 1)%Z
           /\ lg_len (m_log m') = S (lg_len (m_log m))
           /\ (forall k, In k (map fst (lg_data (m_log m'))) <-> In k (log_keys m))
           /\ ((exists o, x = Ok (o, rw, d, i) /\ norm_obs m' = Ok o)
               \/ (exists e', x = Err e') /\ user_fc m))).
  { intros B. destruct (base_step_good _ _ _ _ _ OK B) as (S & OK' & D).
    split; [exact S|]. split; [exact OK'|]. destruct D as [D|(da & e & m1 & rw & d & i & D)]; [auto|].
    right. exists m, da, e, m1, rw, d, i. split; [apply mod_same_refl|]. split; [exact OK|].
    tauto. }
  destruct (m_kind m) as [b|g|g t|t|t|u] eqn:K; try exact (NG E). clear NG.
  apply mbind_inv in E. destruct E as [(s & goal & E1 & E)|(e & E1 & ->)].
  2:{ assert (m' = m) by (destruct a as [y|[|y ys]]; inversion E1; reflexivity). subst.
      split; [apply mod_same_refl|]. split; [exact OK|]. left; eauto. }
  assert (s = m) by (destruct a as [y|[|y ys]]; inversion E1; reflexivity). subst s. clear E1.
  apply mbind_inv in E. destruct E as [(s & [] & E1 & E)|(e & E1 & ->)].
  2:{ assert (m' = m) by (unfold massert in E1; destruct (_ && _); inversion E1; reflexivity). subst.
      split; [apply mod_same_refl|]. split; [exact OK|]. left; eauto. }
  assert (s = m) by (unfold massert in E1; destruct (_ && _); inversion E1; reflexivity). subst s. clear E1.
  assert (GS : forall g', same_gen g g' -> mod_same m (set_kind m (KGenset g')) /\ mod_ok (set_kind m (KGenset g'))).
  { intros g' SG. assert (S : mod_same m (set_kind m (KGenset g'))).
    { constructor; auto. rewrite K. exact SG. }
    split; [exact S|]. destruct OK as [O1 O2 O3]. constructor.
    - apply (kind_ok_same _ _ S); [exact I|exact O1].
    - exact O2.
    - rewrite (mod_same_keys _ _ S). exact O3. }
  apply mbind_inv in E. unfold lift_kind in E.
  destruct (update_status goal g) as [g' r'] eqn:US.
  pose proof (update_status_keeps goal _ _ _ US) as SG.
  destruct (GS g' SG) as [S0 OK0].
  destruct E as [(s & [] & E1 & E)|(e & E1 & ->)]; inversion E1; subst; clear E1.
  2:{ split; [exact S0|]. split; [exact OK0|]. left. simpl. eauto. }
  destruct (base_step_good _ _ _ _ _ OK0 E) as (S & OK' & D).
  split; [exact (mod_same_trans _ _ _ S0 S)|]. split; [exact OK'|].
  destruct D as [D|(da & e & m1 & rw & d & i & D1 & D2 & D3 & D4 & D5 & D6 & D7)]; [left; exact D|].
  right. exists (set_kind m (KGenset g')), da, e, m1, rw, d, i.
  simpl in D1, D2, D3, D4, D5. conj; auto.
  - simpl. intros [C|[C|C]]; discriminate.
  - intros k. rewrite D6, (mod_same_keys _ _ S0). reflexivity.
  - destruct D7 as [D7|[D7 (t & vec & f & D8 & _)]]; [auto|]. discriminate D8.
Qed.

Lemma reset_good (m m' : module Q) x :
  mod_ok m -> reset m = (m', x) ->
  mod_same m m' /\ mod_ok m' /\ m_cur m' = m_init m
  /\ (((exists o, x = Ok o /\ norm_obs m' = Ok o) /\ m_log m' = logger_empty)
      \/ (exists e, x = Err e) /\ user_fc m).
Proof.
  intros OK E. unfold reset in E.
  apply mbind_inv in E. destruct E as [(m1 & [] & E1 & E)|(e & E1 & ->)].
  - destruct (update_step_ok_any true _ _ _ OK E1) as (S & OK1 & L & C & _).
    unfold mbind, mmodify, mget, mlift in E. inversion E; subst. clear E.
    assert (S2 : mod_same m1 (set_log m1 (fst (logger_flush (m_log m1))))).
    { constructor; auto. apply kind_same_refl. }
    assert (OK2 : mod_ok (set_log m1 (fst (logger_flush (m_log m1))))).
    { constructor; [exact (mo_kind _ OK1)|apply log_rect_empty|]. intros k []. }
    split; [exact (mod_same_trans _ _ _ S S2)|]. split; [exact OK2|]. split; [exact C|].
    left. split; [|reflexivity]. destruct (norm_obs_ok _ (mo_kind _ OK2)) as [o NO]. eauto.
  - destruct (update_step_ok_any true _ _ _ OK E1) as (S & OK1 & L & C & D).
    split; [exact S|]. split; [exact OK1|]. split; [exact C|]. right. split; [eauto|].
    destruct D as [D|D]; [discriminate|exact D].
Qed.

Lemma do_call_good (c : call Q) m : mod_ok m ->
  mod_same m (fst (do_call c m)) /\ mod_ok (fst (do_call c m)).
Proof.
  intros OK. destruct c as [a n|]; simpl.
  - destruct (step a n m) as [m' [o|e]] eqn:E; destruct (step_good _ _ _ _ _ OK E) as (S & O & _); auto.
  - destruct (reset m) as [m' r] eqn:E. destruct (reset_good _ _ _ OK E) as (S & O & _). auto.
Qed.

Lemma play_good cs : forall m, mod_ok m -> mod_same m (fst (play cs m)) /\ mod_ok (fst (play cs m)).
Proof.
  induction cs as [|c cs IH]; simpl; intros m OK; [auto using mod_same_refl|].
  destruct (do_call_good c m OK) as [S1 O1].
  destruct (do_call c m) as [m1 o1]. simpl in *. destruct (IH m1 O1) as [S2 O2].
  destruct (play cs m1) as [m2 o2]. simpl in *. split; [exact (mod_same_trans _ _ _ S1 S2)|exact O2].
Qed.

(** ** Constructors establish the invariant *)
Lemma fresh_ok k re init act obs prov abs :
  kind_ok (mkModule k re init init act obs prov abs (@logger_empty Q) (None, None)) ->
  mod_ok (mkModule k re init init act obs prov abs logger_empty (None, None)).
Proof. intros K. constructor; [exact K|apply log_rect_empty|intros x []]. Qed.

Lemma new_battery_good minc maxc maxch maxdis eff cost model ic is init rs (m : module Q) :
  new_battery minc maxc maxch maxdis eff cost model ic is init rs = Ok m -> mod_ok m.
Proof.
  unfold new_battery. destruct (negb _); [discriminate|]. destruct (neqb _ _); [discriminate|].
  intros E. apply rbind_ok in E. destruct E as (cs & _ & E). inversion E; subst.
  apply fresh_ok. unfold kind_ok. simpl. repeat split; discriminate.
Qed.

Lemma new_genset_good mn mx co cp cc su wd ab up init rs prov (m : module Q) :
  new_genset mn mx co cp cc su wd ab up init rs prov = Ok m -> mod_ok m.
Proof.
  unfold new_genset. destruct (nltb _ _); [discriminate|]. intros E. inversion E; subst.
  apply fresh_ok. unfold kind_ok. simpl. conj; try discriminate; try reflexivity. do 2 eexists. reflexivity.
Qed.

Lemma new_unbalanced_good re init l o : mod_ok (@new_unbalanced Q re init l o).
Proof. apply fresh_ok. unfold kind_ok. simpl. repeat split; discriminate. Qed.

Lemma sign_nonpos (rows : list (list Q)) :
  Forall (Forall (fun x => x <= 0)) (map (map (fun x => nopp (nabs x))) rows).
Proof.
  apply Forall_forall. intros r I. apply in_map_iff in I. destruct I as (r0 & <- & _).
  apply Forall_forall. intros x I. apply in_map_iff in I. destruct I as (y & <- & _).
  unum. pose proof (Qabs.Qabs_nonneg y). lra.
Qed.
Lemma sign_nonneg (rows : list (list Q)) :
  Forall (Forall (fun x => 0 <= x)) (map (map nabs) rows).
Proof.
  apply Forall_forall. intros r I. apply in_map_iff in I. destruct I as (r0 & <- & _).
  apply Forall_forall. intros x I. apply in_map_iff in I. destruct I as (y & <- & _).
  unum. apply Qabs.Qabs_nonneg.
Qed.

Lemma widths_map {A B} (f : A -> B) (rows : list (list A)) w :
  Forall (fun r => length r = w) rows -> Forall (fun r => length r = w) (map (map f) rows).
Proof.
  intros F. apply Forall_forall. intros r I. apply in_map_iff in I. destruct I as (r0 & <- & I).
  rewrite map_length. rewrite Forall_forall in F. auto.
Qed.

(** One value per step. *)
Definition one_column (rows : list (list Q)) : Prop := Forall (fun r => length r = 1%nat) rows.

Lemma new_load_ok rows fp h inc initial final re rnd (m : module Q) :
  one_column rows ->
  new_load rows fp h inc initial final re rnd = Ok m ->
  exists t, m = mkModule (KLoad t) re initial initial (Some (mkSpace [] [])) (ts_obs_space t)
             None (Some "load_met") logger_empty (None, None)
    /\ mod_ok m /\ rectangular rows = true
    /\ ts_rows t = map (map (fun x => - Qabs x)) rows
    /\ ts_final t = (if (final <=? 0)%Z then Z.of_nat (length rows) else final)
    /\ ts_horizon t = (if fparam_given fp then h else 0%nat)
    /\ fc_for fp (fc_kind (ts_fc t))
    /\ (forallb (forallb (fun x => Qle_bool x 0)) rows = true
        \/ forallb (forallb (fun x => Qle_bool 0 x)) rows = true).
Proof.
  intros W E. unfold new_load in E. apply new_ts_ok in E; [|simpl; lia|].
  2:{ intros ts bds ST BD. apply bounds1_ok; [|exact BD].
      apply set_time_series_rows in ST. destruct ST as [_ [(C & _)|(_ & _ & ->)]]; [discriminate|].
      apply widths_map. exact W. }
  destruct E as (t & ts & bds & ST & BD & -> & OK & CU & R & C & Mn & Mx & F & H & FF).
  apply set_time_series_rows in ST. destruct ST as [RE [(X & _)|(_ & SG & ->)]]; [discriminate|].
  exists t. split; [reflexivity|]. split.
  - apply fresh_ok. unfold kind_ok. simpl. rewrite R. unfold ts_mod. conj; auto; try discriminate.
    apply sign_nonpos.
  - conj; auto.
Qed.

Lemma new_renewable_ok rows fp h inc initial final re prov rnd (m : module Q) :
  one_column rows ->
  new_renewable rows fp h inc initial final re prov rnd = Ok m ->
  exists t lo hi, m = mkModule (KRenewable t) re initial initial (Some (mkSpace [lo] [hi])) (ts_obs_space t)
             (Some prov) None logger_empty (None, None)
    /\ mod_ok m /\ rectangular rows = true
    /\ ts_rows t = map (map Qabs) rows
    /\ ts_final t = (if (final <=? 0)%Z then Z.of_nat (length rows) else final)
    /\ ts_horizon t = (if fparam_given fp then h else 0%nat)
    /\ fc_for fp (fc_kind (ts_fc t))
    /\ (forallb (forallb (fun x => Qle_bool x 0)) rows = true
        \/ forallb (forallb (fun x => Qle_bool 0 x)) rows = true).
Proof.
  intros W E. unfold new_renewable in E. apply new_ts_ok in E; [|simpl; lia|].
  2:{ intros ts bds ST BD. apply bounds1_ok; [|exact BD].
      apply set_time_series_rows in ST. destruct ST as [_ [(_ & C & _)|(_ & _ & ->)]]; [discriminate|].
      apply widths_map. exact W. }
  destruct E as (t & ts & bds & ST & BD & -> & OK & CU & R & C & Mn & Mx & F & H & FF).
  apply set_time_series_rows in ST. destruct ST as [RE [(_ & X & _)|(_ & SG & ->)]]; [discriminate|].
  unfold bounds1 in BD. apply rmap_ok in BD. destruct BD as ([lo hi] & _ & ->).
  exists t, lo, hi. split; [reflexivity|]. split.
  - apply fresh_ok. unfold kind_ok. simpl. rewrite R. unfold ts_mod. conj; auto; try discriminate.
    apply sign_nonneg.
  - conj; auto.
Qed.

(** The rows a grid keeps: a missing fourth column means "always available". *)
Definition with_status (rows : list (list Q)) : list (list Q) :=
  map (fun r => if Nat.eqb (length r) 3 then r ++ [1] else r) rows.

Lemma grid_check_ok mi me (rows rows' : list (list Q)) :
  grid_check mi me rows = Ok rows' ->
  0 <= mi /\ 0 <= me /\ rows' = with_status rows
  /\ Forall (fun r => length r = 4%nat) rows'
  /\ Forall (fun r => Forall (fun x => 0 <= x) r
                      /\ exists s, nth_error r 3 = Some s /\ (s == 0 \/ s == 1)) rows'.
Proof.
  unfold grid_check. unum.
  destruct (Qltb mi 0) eqn:A; [discriminate|]. destruct (Qltb me 0) eqn:B; [discriminate|]. qprop.
  set (cols := match rows with [] => 4%nat | r :: _ => length r end).
  destruct (negb (Nat.eqb cols 3 || Nat.eqb cols 4)) eqn:C; [discriminate|].
  apply negb_false_iff in C. apply orb_true_iff in C.
  destruct (negb (rectangular rows)) eqn:R; [discriminate|]. apply negb_false_iff in R.
  destruct (Nat.eqb cols 4 && _) eqn:D; [discriminate|].
  destruct (existsb _ _) eqn:X; [discriminate|]. intros E.
  apply (f_equal (fun x => match x with Ok y => y | Err _ => [] end)) in E. subst rows'.
  split; [assumption|]. split; [assumption|].
  assert (W : forall r, In r rows -> length r = cols).
  { intros r I. unfold cols. destruct rows as [|r0 rows0]; [destruct I|].
    apply (rectangular_widths _ R _ I). left; reflexivity. }
  assert (RS : (if Nat.eqb cols 4 then rows else map (fun r => r ++ [1]) rows) = with_status rows).
  { unfold with_status. destruct (Nat.eqb cols 4) eqn:C4.
    - apply Nat.eqb_eq in C4. rewrite <- (map_id rows) at 1. apply map_ext_in.
      intros r I. rewrite (W _ I), C4. reflexivity.
    - destruct C as [C|C]; [|discriminate]. apply Nat.eqb_eq in C. apply map_ext_in.
      intros r I. rewrite (W _ I), C. reflexivity. }
  split; [exact RS|].
  assert (NN : forall r x, In r (if Nat.eqb cols 4 then rows else map (fun r => r ++ [1]) rows) -> In x r -> 0 <= x).
  { intros r x I J. destruct (Qlt_le_dec x 0) as [L|]; [|assumption]. exfalso.
    assert (T : existsb (existsb (fun x => Qltb x 0))
       (if Nat.eqb cols 4 then rows else map (fun r => r ++ [1]) rows) = true).
    { apply existsb_exists. exists r. split; [exact I|]. apply existsb_exists.
      exists x. split; [exact J|]. apply Qltb_lt. exact L. }
    unfold Qltb in *. congruence. }
  split; apply Forall_forall; intros r I.
  - destruct (Nat.eqb cols 4) eqn:C4.
    + apply Nat.eqb_eq in C4. rewrite (W _ I). exact C4.
    + apply in_map_iff in I. destruct I as (r0 & <- & I). rewrite app_length, (W _ I). simpl.
      destruct C as [C|C]; [|discriminate]. apply Nat.eqb_eq in C. lia.
  - split; [apply Forall_forall; intros x J; exact (NN _ _ I J)|].
    destruct (Nat.eqb cols 4) eqn:C4.
    + rewrite andb_true_l in D. apply negb_false_iff in D. rewrite forallb_forall in D.
      specialize (D _ I). destruct (nth_error r 3) as [s|]; [|discriminate].
      exists s. split; [reflexivity|]. qprop. destruct D; qprop; auto.
    + apply in_map_iff in I. destruct I as (r0 & <- & I). exists 1.
      destruct C as [C|C]; [|discriminate]. apply Nat.eqb_eq in C.
      rewrite nth_error_app2 by (rewrite (W _ I); lia). rewrite (W _ I), C. simpl.
      split; [reflexivity|]. right. reflexivity.
Qed.

Lemma new_grid_ok mi me rows fp h inc initial final cc re gt rnd (m : module Q) :
  new_grid mi me rows fp h inc initial final cc re gt rnd = Ok m ->
  exists t, m = mkModule (KGrid (mkGrid mi me cc gt) t) re initial initial
             (Some (mkSpace [nmul (nopp n1) me] [mi])) (ts_obs_space t)
             (Some "grid_import") (Some "grid_export") logger_empty (None, None)
    /\ mod_ok m /\ ts_rows t = with_status rows
    /\ ts_final t = (if (final <=? 0)%Z then Z.of_nat (length rows) else final)
    /\ ts_horizon t = (if fparam_given fp then h else 0%nat)
    /\ fc_for fp (fc_kind (ts_fc t)).
Proof.
  intros E. unfold new_grid in E. apply rbind_ok in E. destruct E as (rows' & GC & E).
  destruct (grid_check_ok _ _ _ _ GC) as (M1 & M2 & RW & W & NN).
  apply new_ts_ok in E; [|simpl; lia|].
  2:{ intros ts bds ST BD. apply grid_bounds_ok; [repeat constructor| |exact BD].
      apply set_time_series_rows in ST. destruct ST as [_ [(_ & _ & ->)|([C|C] & _)]]; try discriminate.
      exact W. }
  destruct E as (t & ts & bds & ST & BD & -> & OK & CU & R & C & Mn & Mx & F & H & FF).
  apply set_time_series_rows in ST. destruct ST as [RE [(_ & _ & ->)|([X|X] & _)]]; try discriminate.
  exists t. split; [reflexivity|]. split.
  - apply fresh_ok. unfold kind_ok. simpl. rewrite R. unfold ts_mod. conj; auto; discriminate.
  - rewrite R, RW. unfold with_status in *. rewrite RW in F. rewrite map_length in F. conj; auto.
Qed.
