(** * What each class does with a request *)

From Coq Require Import ZArith QArith Qabs Bool String List Lia Lqa.
From Verif Require Import Num Py Space Logger Forecast Module
  Proofs_Num Proofs_Logger Spec_Module Spec_Reach Proofs_Module Proofs_Space Proofs_Battery
  Proofs_Genset Proofs_Ts Proofs_Any Proofs_Request Proofs_Data.
Import ListNotations.
Local Open Scope string_scope.
Local Open Scope list_scope.
Local Open Scope Q_scope.

(** ** A served request makes a successful step *)
Lemma base_step_served (a : pyval Q) (n : bool) (m m1 : module Q) da e rw d i :
  mod_ok m -> ~ user_forecaster m ->
  (if n then denorm_action m a else Ok a) = Ok da ->
  pick_energy (energy_pos (m_kind m)) da = Ok e ->
  unnormalized_step e m = (m1, Ok (rw, d, i)) ->
  exists m' o, base_step a n m = (m', Ok (o, rw, d, i)).
Proof.
  intros OK NU D P U.
  destruct (base_step a n m) as [m' x] eqn:B. exists m'.
  destruct (base_step_cases _ _ _ _ _ B) as [(_ & ex & _ & [C|[(da' & D' & P')|C]])|H].
  - congruence.
  - congruence.
  - destruct (state_dict_ok m (mo_kind _ OK)) as (sd & E & _). congruence.
  - destruct H as (da' & e' & sd & D' & P' & SD & H).
    assert (da' = da) by congruence. subst da'. assert (e' = e) by congruence. subst e'.
    rewrite U in H. destruct H as [(ex & C & _)|(m1' & rw' & d' & i' & E & H)]; [congruence|].
    inversion E; subst m1' rw' d' i'; clear E.
    pose proof (request_any _ _ _ _ U) as R. destruct (upd_rel_same _ _ _ R) as (S1 & OK1 & C1 & L1).
    specialize (OK1 OK). destruct R as (k1 & M1 & KS & KT & IS).
    assert (IS1 : info_shape (m_kind m1) i).
    { subst m1. simpl. destruct (m_kind m), k1; simpl in *; try contradiction; exact IS. }
    assert (SK : map fst sd = state_keys (m_kind m1)).
    { destruct (state_dict_ok m (mo_kind _ OK)) as (sd' & E & K & _).
      assert (sd' = sd) by congruence. subst. rewrite K.
      destruct (kind_same_keys _ _ KS) as [K1 _]. simpl. rewrite K1. reflexivity. }
    destruct (module_log_rect sd rw i m1 OK1 IS1 SK) as (lg & ML & OK2 & _).
    rewrite ML in H. destruct H as [(ex & C & _)|(m2 & E & H)]; [congruence|].
    inversion E; subst m2; clear E.
    destruct (update_step false (set_log m1 lg)) as [m3 r3] eqn:US.
    destruct (update_step_ok_any _ _ _ _ OK2 US) as (S3 & OK3 & _ & _ & R3).
    assert (R3' : r3 = Ok tt).
    { destruct R3 as [->|(t & vec & f & T & F)]; [reflexivity|]. exfalso. apply NU.
      exists t, vec, f. split; [|exact F]. rewrite <- KT. subst m1. exact T. }
    subst r3. destruct H as [(ex & C & _)|(E & X)]; [congruence|]. inversion E; subst m3.
    destruct (norm_obs_ok m' (mo_kind _ OK3)) as (o & NO). rewrite NO in X. subst x. exists o. reflexivity.
Qed.

Lemma step_served (a : pyval Q) (n : bool) (m m1 : module Q) da e rw d i :
  mod_ok m -> ~ user_forecaster m -> is_genset (m_kind m) = false ->
  (if n then denorm_action m a else Ok a) = Ok da ->
  pick_energy (energy_pos (m_kind m)) da = Ok e ->
  unnormalized_step e m = (m1, Ok (rw, d, i)) ->
  exists m' o, step a n m = (m', Ok (o, rw, d, i)).
Proof.
  intros OK NU NG D P U. rewrite (step_not_genset _ _ _ NG). eapply base_step_served; eauto.
Qed.

Lemma scalar_served e (m m1 : module Q) rw d i :
  mod_ok m -> ~ user_forecaster m -> is_genset (m_kind m) = false ->
  unnormalized_step e m = (m1, Ok (rw, d, i)) ->
  exists m' o, step (VS e) false m = (m', Ok (o, rw, d, i)).
Proof. intros OK NU NG U. eapply step_served; eauto; reflexivity. Qed.
Lemma empty_served (m m1 : module Q) n rw d i :
  mod_ok m -> ~ user_forecaster m -> is_genset (m_kind m) = false ->
  (n = false \/ m_act m = Some (mkSpace [] [])) ->
  unnormalized_step 0 m = (m1, Ok (rw, d, i)) ->
  exists m' o, step (VA []) n m = (m', Ok (o, rw, d, i)).
Proof.
  intros OK NU NG N U. apply (step_served (VA []) n m m1 (VA []) 0); auto.
  destruct n; [|reflexivity]. destruct N as [N|N]; [discriminate|].
  unfold denorm_action. rewrite N. reflexivity.
Qed.

(** And conversely, for classes other than the genset. *)
Lemma step_asked (a : pyval Q) (n : bool) (m m' : module Q) o :
  mod_ok m -> is_genset (m_kind m) = false -> step a n m = (m', Ok o) ->
  exists da e m1, (if n then denorm_action m a else Ok a) = Ok da
    /\ pick_energy 0 da = Ok e
    /\ unnormalized_step e m = (m1, Ok (reward_of o, done_of o, info_of o)).
Proof.
  intros OK NG E. rewrite (step_not_genset _ _ _ NG) in E.
  destruct (base_step_good _ _ _ _ _ OK E) as (_ & _ & [(_ & _ & (e & C))|H]); [discriminate|].
  destruct H as (da & e & m1 & rw & d & i & D & P & U & _ & _ & _ & [(ob & X & _)|((e' & C) & _)]);
    [|discriminate].
  inversion X; subst o. exists da, e, m1. split; [exact D|]. split; [|exact U].
  destruct (m_kind m); simpl in *; try discriminate; exact P.
Qed.

(** ** Load *)
Lemma mul_m1 x : - (1) * x == - x. Proof. ring. Qed.

Lemma request_load (m : module Q) t x e :
  m_kind m = KLoad t -> ts_row t (m_cur m) = Some [x] ->
  (e <= 0 -> unnormalized_step e m
             = (m, Ok (0, ts_done t (m_cur m), [("absorbed_energy", - (1) * x)])))
  /\ (0 < e -> exists ex, unnormalized_step e m = (m, Err ex) /\ ex_class ex = AssertionError).
Proof.
  intros K R. unfold unnormalized_step. unum. split; intros E.
  - assert (AS : as_sink (- (1) * e) m = (m, Ok (0, ts_done t (m_cur m), [("absorbed_energy", - (1) * x)]))).
    { unfold as_sink, mbind, massert, mget. unum.
      assert (L : Qle_bool 0 (- (1) * e) = true) by (apply Qleb_le; lra).
      rewrite L. cbv beta iota. rewrite K. cbn [is_fixed module_type]. unfold update. cbv beta. rewrite K.
      unfold load_update, current_load, ts_item. rewrite R. reflexivity. }
    destruct (Qltb 0 e) eqn:P; [qprop; lra|]. destruct (Qltb e 0); [exact AS|].
    unfold mbind, mget, massert. rewrite K. simpl is_source. simpl is_sink. cbv iota. exact AS.
  - destruct (Qltb 0 e) eqn:P; [|qprop; lra].
    unfold as_source, mbind, massert, mget. unum. destruct (Qle_bool 0 e) eqn:L; [|qprop; lra].
    rewrite K. simpl. eexists. split; reflexivity.
Qed.

(** ** Renewable *)
Lemma request_renewable (m : module Q) t x e :
  m_kind m = KRenewable t -> ts_row t (m_cur m) = Some [x] -> 0 <= x ->
  (0 <= e -> (m_raise m = true -> e <= x) ->
     exists p, unnormalized_step e m
       = (m, Ok (0, ts_done t (m_cur m), [("provided_energy", p); ("curtailment", x - p)]))
       /\ p = clip 0 x e /\ 0 <= p /\ p <= x)
  /\ (x < e -> m_raise m = true ->
       exists ex, unnormalized_step e m = (m, Err ex) /\ ex_class ex = ValueError)
  /\ (e < 0 -> exists ex, unnormalized_step e m = (m, Err ex) /\ ex_class ex = TypeError).
Proof.
  intros K R X.
  assert (MP : max_production m = Ok (BFin x)).
  { unfold max_production, current_renewable, ts_item. rewrite K, R. reflexivity. }
  assert (MN : min_production m = 0) by (unfold min_production; rewrite K; reflexivity).
  assert (UP : forall p, p <= x -> update (Some p) true m
     = (m, Ok (0, ts_done t (m_cur m), [("provided_energy", p); ("curtailment", x - p)]))).
  { intros p L. unfold update. rewrite K. unfold renewable_update, current_renewable, ts_item.
    rewrite R. cbn [rbind]. unum. destruct (Qle_bool p x) eqn:Q; [reflexivity|qprop; lra]. }
  split; [|split].
  - intros E RE. rewrite (request_pos _ _ ltac:(rewrite K; reflexivity) E).
    unfold as_source, mbind, massert, mget, mlift. unum.
    destruct (Qle_bool 0 e) eqn:L; [|qprop; lra]. rewrite MP, K. cbn -[update Qltb min_production clip].
    unfold gt_bound. unum. destruct (Qltb x e) eqn:O; qprop.
    + destruct (m_raise m); [specialize (RE eq_refl); lra|]. exists x. rewrite (UP x) by lra.
      split; [reflexivity|]. rewrite (clip_over _ _ _ O). split; [reflexivity|lra].
    + rewrite MN. destruct (Qltb e 0) eqn:N; [qprop; lra|]. exists e. rewrite (UP e O).
      split; [reflexivity|]. rewrite (clip_id _ _ _ E O). split; [reflexivity|lra].
  - intros E RE. rewrite (request_pos _ _ ltac:(rewrite K; reflexivity)) by lra.
    unfold as_source, mbind, massert, mget, mlift. unum.
    destruct (Qle_bool 0 e) eqn:L; [|qprop; lra]. rewrite MP, K. cbn -[update Qltb min_production].
    unfold gt_bound. unum. destruct (Qltb x e) eqn:O; [|qprop; lra]. rewrite RE.
    eexists. split; reflexivity.
  - intros E. rewrite (request_neg _ _ E). unfold as_sink, mbind, massert, mget, mlift. unum.
    destruct (Qle_bool 0 (- (1) * e)) eqn:L; [|qprop; lra].
    unfold max_consumption. rewrite K. simpl. eexists. split; reflexivity.
Qed.

(** ** Unbalanced energy *)
Lemma request_unbalanced (m : module Q) u e :
  m_kind m = KUnbalanced u ->
  (0 <= e ->
     (0 <= u_loss_load_cost u * e -> unnormalized_step e m
        = (m, Ok (- (1) * (u_loss_load_cost u * e), false, [("provided_energy", e)])))
     /\ (u_loss_load_cost u * e < 0 -> exists ex, unnormalized_step e m = (m, Err ex)
                                          /\ ex_class ex = AssertionError))
  /\ (e < 0 ->
     (0 <= u_overgeneration_cost u * - e -> unnormalized_step e m
        = (m, Ok (- (1) * (u_overgeneration_cost u * (- (1) * e)), false,
                  [("absorbed_energy", - (1) * e)])))
     /\ (u_overgeneration_cost u * - e < 0 -> exists ex, unnormalized_step e m = (m, Err ex)
                                          /\ ex_class ex = AssertionError)).
Proof.
  intros K. split; intros E.
  - assert (A : unnormalized_step e m = (m, unbalanced_update u e true)).
    { rewrite (request_pos _ _ ltac:(rewrite K; reflexivity) E).
      unfold as_source, mbind, massert, mget, mlift. unum.
      destruct (Qle_bool 0 e) eqn:L; [|qprop; lra]. unfold max_production. rewrite K.
      cbn -[update Qltb min_production]. unfold min_production. rewrite K. unum.
      destruct (Qltb e 0) eqn:N; [qprop; lra|]. unfold update. rewrite K. reflexivity. }
    rewrite A. unfold unbalanced_update. unum. split; intros C.
    + destruct (Qle_bool (- (1) * (u_loss_load_cost u * e)) 0) eqn:L; [reflexivity|qprop; lra].
    + destruct (Qle_bool (- (1) * (u_loss_load_cost u * e)) 0) eqn:L; [qprop; lra|].
      eexists. split; reflexivity.
  - assert (A : unnormalized_step e m = (m, unbalanced_update u (- (1) * e) false)).
    { rewrite (request_neg _ _ E). unfold as_sink, mbind, massert, mget, mlift. unum.
      destruct (Qle_bool 0 (- (1) * e)) eqn:L; [|qprop; lra]. unfold max_consumption. rewrite K.
      cbn -[update Qltb]. unfold update. rewrite K. reflexivity. }
    rewrite A. unfold unbalanced_update. unum. split; intros C.
    + destruct (Qle_bool (- (1) * (u_overgeneration_cost u * (- (1) * e))) 0) eqn:L; [reflexivity|qprop; lra].
    + destruct (Qle_bool (- (1) * (u_overgeneration_cost u * (- (1) * e))) 0) eqn:L; [qprop; lra|].
      eexists. split; reflexivity.
Qed.

(** ** Grid *)
Lemma grid_limits (m : module Q) g t p q c s :
  mod_ok m -> m_kind m = KGrid g t -> ts_row t (m_cur m) = Some [p; q; c; s] ->
  (s == 0 \/ s == 1) /\ 0 <= p /\ 0 <= q /\ 0 <= c /\ 0 <= gr_max_import g /\ 0 <= gr_max_export g
  /\ max_production m = Ok (BFin (gr_max_import g * s))
  /\ max_consumption m = Ok (BFin (gr_max_export g * s)).
Proof.
  intros OK K R.
  assert (T : kind_ts (m_kind m) = Some t) by (rewrite K; reflexivity).
  destruct (ts_state m t OK T) as (r & ST & _ & D & _). rewrite (D _ R) in ST.
  assert (GS : grid_current_status m = Ok s).
  { unfold grid_current_status. rewrite ST. reflexivity. }
  pose proof (mo_kind _ OK) as KO. unfold kind_ok in KO. rewrite K in KO.
  destruct KO as (_ & _ & _ & _ & _ & MI & ME & F).
  rewrite Forall_forall in F. destruct (F _ (py_nth_In _ _ _ R)) as (NN & s' & E & S01).
  simpl in E. inversion E; subst s'.
  inversion NN as [|? ? P1 N1]; subst. inversion N1 as [|? ? P2 N2]; subst.
  inversion N2 as [|? ? P3 N3]; subst.
  conj; auto; unfold max_production, max_consumption; rewrite K, GS; reflexivity.
Qed.

Lemma grid_update_ok (m : module Q) g t p q c s e src :
  m_kind m = KGrid g t -> ts_row t (m_cur m) = Some [p; q; c; s] ->
  exists rw co, update (Some e) src m
    = (m, Ok (rw, ts_done t (m_cur m),
              [(if src then "provided_energy" else "absorbed_energy", e); ("co2_production", co)]))
    /\ (if src then rw == - (p * e + gr_cost_co2 g * (c * e)) /\ co == c * e
        else rw == q * e /\ co == 0).
Proof.
  intros K R. unfold update. rewrite K. unfold grid_update, grid_cost, grid_co2_cost, grid_co2, grid_cell.
  rewrite R. destruct src; simpl nth_error; cbn [rbind rmap]; unum.
  - do 2 eexists. split; [reflexivity|]. split; ring.
  - do 2 eexists. split; [reflexivity|]. split; ring.
Qed.

Lemma request_grid (m : module Q) g t p q c s e :
  mod_ok m -> m_kind m = KGrid g t -> gr_type g <> Fixed ->
  ts_row t (m_cur m) = Some [p; q; c; s] ->
  (0 <= e -> (m_raise m = true -> e <= gr_max_import g * s) ->
     exists rw co x, unnormalized_step e m
       = (m, Ok (rw, ts_done t (m_cur m), [("provided_energy", x); ("co2_production", co)]))
       /\ x = clip 0 (gr_max_import g * s) e
       /\ rw == - (p * x + gr_cost_co2 g * (c * x)) /\ co == c * x)
  /\ (e < 0 -> (m_raise m = true -> - e <= gr_max_export g * s) ->
     exists rw co x, unnormalized_step e m
       = (m, Ok (rw, ts_done t (m_cur m), [("absorbed_energy", x); ("co2_production", co)]))
       /\ x == clip 0 (gr_max_export g * s) (- e)
       /\ rw == q * x /\ co == 0)
  /\ (m_raise m = true -> gr_max_import g * s < e \/ gr_max_export g * s < - e ->
       exists ex, unnormalized_step e m = (m, Err ex) /\ ex_class ex = ValueError).
Proof.
  intros OK K NF R. destruct (grid_limits _ _ _ _ _ _ _ OK K R)
    as (S01 & P0 & Q0 & C0 & MI & ME & MP & MC).
  assert (SI : 0 <= gr_max_import g * s) by (destruct S01 as [Z|Z]; rewrite Z; lra).
  assert (SE : 0 <= gr_max_export g * s) by (destruct S01 as [Z|Z]; rewrite Z; lra).
  assert (IF : is_fixed (module_type (m_kind m)) = false).
  { rewrite K. simpl. destruct (gr_type g); [congruence|reflexivity|reflexivity]. }
  assert (MN : min_production m = 0) by (unfold min_production; rewrite K; reflexivity).
  split; [|split].
  - intros E RE. rewrite (request_pos _ _ ltac:(rewrite K; reflexivity) E).
    destruct (as_source e m) as [m1 r1] eqn:A.
    destruct (as_source_cases _ _ _ _ IF A)
      as [(_ & C & _)|[(_ & _ & C & _)|(_ & _ & [(_ & ex & C & _)|[(_ & C & _)|(hi & MP' & _ & H)]])]].
    + lra. + rewrite K in C. discriminate. + congruence. + congruence.
    + assert (hi = BFin (gr_max_import g * s)) by congruence. subst hi. rewrite MN in H.
      destruct H as [(RA & NW & _)|(_ & U)].
      * exfalso. apply NW. split; [exact E|]. exact (RE RA).
      * destruct (grid_update_ok m g t p q c s (clip_to 0 (BFin (gr_max_import g * s)) e) true K R)
          as (rw & co & U' & X & Y).
        rewrite U in U'. inversion U'; subst m1 r1. do 3 eexists. split; [reflexivity|].
        split; [reflexivity|]. split; [exact X|exact Y].
  - intros E RE. rewrite (request_neg _ _ E).
    destruct (as_sink (- (1) * e) m) as [m1 r1] eqn:A.
    destruct (as_sink_cases _ _ _ _ IF A)
      as [(_ & C & _)|(_ & [(_ & ex & C & _)|[(_ & C & _)|(hi & MP' & _ & H)]])].
    + lra. + congruence. + congruence.
    + assert (hi = BFin (gr_max_export g * s)) by congruence. subst hi.
      destruct H as [(RA & NW & _)|[(_ & (h & Z & L) & _)|(_ & U)]].
      * exfalso. apply NW. split; [lra|]. specialize (RE RA). lra.
      * inversion Z; subst h. lra.
      * destruct (grid_update_ok m g t p q c s (clip_to 0 (BFin (gr_max_export g * s)) (- (1) * e)) false K R)
          as (rw & co & U' & X & Y).
        rewrite U in U'. inversion U'; subst m1 r1. do 3 eexists. split; [reflexivity|].
        split; [apply clip_proper; ring|]. split; [exact X|exact Y].
  - intros RA O. destruct (Qlt_le_dec e 0) as [N|N].
    + rewrite (request_neg _ _ N).
      destruct (as_sink (- (1) * e) m) as [m1 r1] eqn:A.
      destruct (as_sink_cases _ _ _ _ IF A)
        as [(_ & C & _)|(_ & [(_ & ex & C & _)|[(_ & C & _)|(hi & MP' & _ & H)]])].
      * lra. * congruence. * congruence.
      * assert (hi = BFin (gr_max_export g * s)) by congruence. subst hi.
        destruct H as [(_ & _ & -> & (ex & -> & X))|[(F & _)|(W & _)]].
        -- exists ex. auto.
        -- congruence.
        -- destruct (W RA) as [_ W']. destruct O; lra.
    + rewrite (request_pos _ _ ltac:(rewrite K; reflexivity) N).
      destruct (as_source e m) as [m1 r1] eqn:A.
      destruct (as_source_cases _ _ _ _ IF A)
        as [(_ & C & _)|[(_ & _ & C & _)|(_ & _ & [(_ & ex & C & _)|[(_ & C & _)|(hi & MP' & _ & H)]])]].
      * lra. * rewrite K in C. discriminate. * congruence. * congruence.
      * assert (hi = BFin (gr_max_import g * s)) by congruence. subst hi. rewrite MN in H.
        destruct H as [(_ & _ & -> & (ex & -> & X))|(W & _)].
        -- exists ex. auto.
        -- destruct (W RA) as [_ W']. destruct O; lra.
Qed.

Lemma clip_between hi e : 0 <= hi -> 0 <= clip_to 0 (BFin hi) e /\ clip_to 0 (BFin hi) e <= hi.
Proof.
  intros H. simpl. unfold clip. destruct (Qlt_le_dec hi e); [lra|]. destruct (Qlt_le_dec e 0); lra.
Qed.

(** ** Battery *)
Lemma request_battery_ok (m : module Q) b e :
  m_kind m = KBattery b -> batt_wf b -> batt_in b ->
  0 <= b_max_charge b -> 0 <= b_max_discharge b ->
  (m_raise m = true -> - battery_max_consumption b <= e /\ e <= battery_max_production b) ->
  exists b' rw i, unnormalized_step e m = (set_kind m (KBattery b'), Ok (rw, false, i))
    /\ moved b b' rw i.
Proof.
  intros K WF BI MC MD RA.
  assert (MP : 0 <= battery_max_production b).
  { destruct WF as (E0 & _). destruct BI as (L & _). unfold battery_max_production. unum.
    destruct (Qmin_spec (b_max_discharge b) (b_charge b - b_min_capacity b)) as (_ & _ & [->| ->]);
      apply Qmult_le_0_compat; lra. }
  assert (MX : 0 <= battery_max_consumption b).
  { destruct WF as (E0 & _). destruct BI as (_ & L & _). unfold battery_max_consumption. unum.
    destruct (Qmin_spec (b_max_charge b) (b_max_capacity b - b_charge b)) as (_ & _ & [->| ->]);
      apply Qdiv_pos; lra. }
  assert (IF : is_fixed (module_type (m_kind m)) = false) by (rewrite K; reflexivity).
  assert (PR : max_production m = Ok (BFin (battery_max_production b)))
    by (unfold max_production; rewrite K; reflexivity).
  assert (CO : max_consumption m = Ok (BFin (battery_max_consumption b)))
    by (unfold max_consumption; rewrite K; reflexivity).
  assert (MN : min_production m = 0) by (unfold min_production; rewrite K; reflexivity).
  destruct (Qlt_le_dec e 0) as [N|N].
  - rewrite (request_neg _ _ N).
    destruct (as_sink (- (1) * e) m) as [m1 r1] eqn:A.
    destruct (as_sink_cases _ _ _ _ IF A)
      as [(_ & C & _)|(_ & [(_ & ex & C & _)|[(_ & C & _)|(hi & MP' & _ & H)]])].
    + lra. + congruence. + congruence.
    + assert (hi = BFin (battery_max_consumption b)) by congruence. subst hi.
      destruct H as [(R & NW & _)|[(_ & (h & Z & L) & _)|(_ & U)]].
      * exfalso. apply NW. specialize (RA R). split; lra.
      * assert (EZ : battery_max_consumption b = h) by congruence. rewrite <- EZ in L. lra.
      * set (x := clip_to 0 (BFin (battery_max_consumption b)) (- (1) * e)) in *.
        assert (X : 0 <= x /\ x <= battery_max_consumption b).
        { apply clip_between; lra. }
        destruct X as [X0 X1].
        destruct (battery_update_sink b x WF BI X1 X0) as (b' & rw & E & P1 & P2 & P3 & P4).
        unfold update in U. rewrite K in U. unfold lift_kind in U. rewrite E in U.
        inversion U; subst m1 r1. exists b', rw, [("absorbed_energy", x)]. split; [reflexivity|].
        eapply Charged; eauto.
  - rewrite (request_pos _ _ ltac:(rewrite K; reflexivity) N).
    destruct (as_source e m) as [m1 r1] eqn:A.
    destruct (as_source_cases _ _ _ _ IF A)
      as [(_ & C & _)|[(_ & _ & C & _)|(_ & _ & [(_ & ex & C & _)|[(_ & C & _)|(hi & MP' & _ & H)]])]].
    + lra. + rewrite K in C. discriminate. + congruence. + congruence.
    + assert (hi = BFin (battery_max_production b)) by congruence. subst hi. rewrite MN in H.
      destruct H as [(R & NW & _)|(_ & U)].
      * exfalso. apply NW. specialize (RA R). split; lra.
      * set (x := clip_to 0 (BFin (battery_max_production b)) e) in *.
        assert (X : 0 <= x /\ x <= battery_max_production b).
        { apply clip_between; lra. }
        destruct X as [X0 X1].
        destruct (battery_update_source b x WF BI X1) as (Y & _).
        destruct (Y X0) as (b' & rw & E & P1 & P2 & P3 & P4).
        unfold update in U. rewrite K in U. unfold lift_kind in U. rewrite E in U.
        inversion U; subst m1 r1. exists b', rw, [("provided_energy", x)]. split; [reflexivity|].
        eapply Discharged; eauto.
Qed.

(** ** Genset *)
Lemma request_genset_full (m : module Q) g e :
  m_kind m = KGenset g ->
  let lo := genset_min_production g in
  let hi := genset_max_production g in
  (0 <= e -> (m_raise m = true -> lo <= e /\ e <= hi) ->
     unnormalized_step e m
     = (m, Ok (nmul (nopp n1) (genset_get_cost g (clip lo hi e)), false,
               [("provided_energy", clip lo hi e); ("co2_production", genset_co2 g (clip lo hi e))])))
  /\ (0 <= e -> m_raise m = true -> e < lo \/ hi < e ->
       exists ex, unnormalized_step e m = (m, Err ex) /\ ex_class ex = ValueError)
  /\ (e < 0 -> exists ex, unnormalized_step e m = (m, Err ex) /\ ex_class ex = TypeError).
Proof.
  intros K lo hi.
  assert (IF : is_fixed (module_type (m_kind m)) = false) by (rewrite K; reflexivity).
  assert (PR : max_production m = Ok (BFin hi)) by (unfold max_production; rewrite K; reflexivity).
  assert (MN : min_production m = lo) by (unfold min_production; rewrite K; reflexivity).
  assert (U : forall x, update (Some x) true m
     = (m, Ok (nmul (nopp n1) (genset_get_cost g x), false,
               [("provided_energy", x); ("co2_production", genset_co2 g x)]))).
  { intros x. unfold update. rewrite K. unfold lift_kind, genset_update, mbind, massert, mget, mret. simpl.
    rewrite <- K, set_kind_id. reflexivity. }
  split; [|split].
  - intros E RA. rewrite (request_pos _ _ ltac:(rewrite K; reflexivity) E).
    destruct (as_source e m) as [m1 r1] eqn:A.
    destruct (as_source_cases _ _ _ _ IF A)
      as [(_ & C & _)|[(_ & _ & C & _)|(_ & _ & [(_ & ex & C & _)|[(_ & C & _)|(hi' & MP' & _ & H)]])]].
    + lra. + rewrite K in C. discriminate. + congruence. + congruence.
    + assert (hi' = BFin hi) by congruence. subst hi'. rewrite MN in H.
      destruct H as [(R & NW & _)|(_ & V)].
      * exfalso. apply NW. specialize (RA R). split; tauto.
      * rewrite U in V. simpl clip_to in V. congruence.
  - intros E RA O. rewrite (request_pos _ _ ltac:(rewrite K; reflexivity) E).
    destruct (as_source e m) as [m1 r1] eqn:A.
    destruct (as_source_cases _ _ _ _ IF A)
      as [(_ & C & _)|[(_ & _ & C & _)|(_ & _ & [(_ & ex & C & _)|[(_ & C & _)|(hi' & MP' & _ & H)]])]].
    + lra. + rewrite K in C. discriminate. + congruence. + congruence.
    + assert (hi' = BFin hi) by congruence. subst hi'. rewrite MN in H.
      destruct H as [(_ & _ & -> & (ex & -> & X))|(W & _)]; [exists ex; auto|].
      destruct (W RA) as [W1 W2]. simpl in W2. destruct O; lra.
  - intros E. rewrite (request_neg _ _ E). unfold as_sink, mbind, massert, mget, mlift. unum.
    destruct (Qle_bool 0 (- (1) * e)) eqn:L; [|qprop; lra].
    unfold max_consumption. rewrite K. simpl. eexists. split; reflexivity.
Qed.
