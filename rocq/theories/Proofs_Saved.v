(** * Saving and loading: what is kept, what is lost *)

From Coq Require Import ZArith QArith Qabs Bool String List Lia Lqa.
From Verif Require Import Num Py Space Logger Forecast Module Container Microgrid Env Serialize
  Proofs_Num Proofs_Logger Spec_Module Spec_Reach Proofs_Module Proofs_Space Proofs_Battery
  Proofs_Genset Proofs_Ts Proofs_Any Proofs_Request Proofs_Data Proofs_Setters Proofs_Run Proofs_Mgrid
  Spec_Serialize Proofs_Serialize.
Import ListNotations.
Local Open Scope string_scope.
Local Open Scope list_scope.
Local Open Scope Q_scope.

(** ** The log of a module that was never loaded *)
Definition log_clean (m : module Q) : Prop :=
  match lg_len (m_log m) with
  | O => m_log m = logger_empty
  | S _ => forall k, In k (map fst (lg_data (m_log m))) <-> In k (log_keys m)
  end.

Record savable (m : module Q) : Prop := mkSavable {
  sb_ok : mod_ok m;
  sb_static : mod_static m;
  sb_plain : no_functions m;
  sb_log : log_clean m
}.

Lemma functions_same m m' : mod_same m m' -> (has_functions m' <-> has_functions m).
Proof.
  intros SM. pose proof (sm_kind _ _ SM) as K. unfold has_functions in *.
  destruct (m_kind m) as [b|g|g t|t|t|u], (m_kind m') as [b'|g'|g' t'|t'|t'|u']; simpl in K; try contradiction.
  - destruct K as (c & s & ->). reflexivity.
  - unfold same_gen in K. rewrite K. destruct g, g'. reflexivity.
  - destruct K as [_ K]. rewrite (same_fparam _ _ K). reflexivity.
  - rewrite (same_fparam _ _ K). reflexivity.
  - rewrite (same_fparam _ _ K). reflexivity.
  - reflexivity.
Qed.
Lemma no_functions_same m m' : mod_same m m' -> no_functions m -> no_functions m'.
Proof. intros SM NF F. apply NF. apply (functions_same _ _ SM). exact F. Qed.

Lemma no_functions_user m : mod_static m -> no_functions m -> ~ user_fc m.
Proof.
  intros ST NF (t & vec & f & KT & FK). apply NF. unfold has_functions, mod_static in *.
  destruct (m_kind m) as [b|g|g t0|t0|t0|u]; simpl in KT; inversion KT; subst t0.
  - destruct ST as (_ & TS & _). pose proof (st_for _ _ _ _ TS) as F. rewrite FK in F.
    destruct (ts_fparam t); simpl in F; try discriminate; [destruct F as (? & ? & ? & F); discriminate|]. eexists; reflexivity.
  - destruct ST as (TS & _). pose proof (st_for _ _ _ _ TS) as F. rewrite FK in F.
    destruct (ts_fparam t); simpl in F; try discriminate; [destruct F as (? & ? & ? & F); discriminate|]. eexists; reflexivity.
  - destruct ST as (TS & _). pose proof (st_for _ _ _ _ TS) as F. rewrite FK in F.
    destruct (ts_fparam t); simpl in F; try discriminate; [destruct F as (? & ? & ? & F); discriminate|]. eexists; reflexivity.
Qed.

Lemma log_clean_same m m' : m_log m' = m_log m -> mod_same m m' -> log_clean m -> log_clean m'.
Proof.
  intros L SM C. unfold log_clean in *. rewrite L. rewrite (mod_same_keys _ _ SM). exact C.
Qed.

Lemma savable_step a n m m' r : step a n m = (m', r) -> savable m -> savable m'.
Proof.
  intros E [O ST NF LC]. destruct (step_good _ _ _ _ _ O E) as (SM & O' & D). constructor.
  - exact O'.
  - exact (mod_static_same _ _ SM ST).
  - exact (no_functions_same _ _ SM NF).
  - destruct D as [(_ & L & _)|(m0 & da & e & m1 & rw & d & i & _ & _ & _ & _ & _ & _ & _ & _ & _ & L & K & _)].
    + exact (log_clean_same _ _ L SM LC).
    + unfold log_clean. rewrite L, (mod_same_keys _ _ SM). exact K.
Qed.
Lemma savable_reset m m' r : reset m = (m', r) -> savable m -> savable m'.
Proof.
  intros E [O ST NF LC]. destruct (reset_good _ _ _ O E) as (SM & O' & _ & D). constructor.
  - exact O'.
  - exact (mod_static_same _ _ SM ST).
  - exact (no_functions_same _ _ SM NF).
  - destruct D as [[_ L]|[_ U]].
    + unfold log_clean. rewrite L. reflexivity.
    + exfalso. exact (no_functions_user m ST NF U).
Qed.
Lemma savable_set_init m v : savable m -> savable (set_init m v).
Proof.
  intros [O ST NF LC]. constructor.
  - destruct O as [O1 O2 O3]. constructor; [exact O1|exact O2|exact O3].
  - eapply mod_static_fields; [..|exact ST]; reflexivity.
  - exact NF.
  - exact LC.
Qed.
Lemma savable_set_name m v : savable m -> savable (set_name m v).
Proof.
  intros [O ST NF LC]. constructor.
  - destruct O as [O1 O2 O3]. constructor; [exact O1|exact O2|exact O3].
  - eapply mod_static_fields; [..|exact ST]; reflexivity.
  - exact NF.
  - exact LC.
Qed.
Lemma savable_set_final v m m' r : module_set_final v m = (m', r) -> savable m -> savable m'.
Proof.
  intros E [O ST NF LC]. destruct (set_final_likes _ _ _ _ E O) as (O' & LI & _).
  unfold module_set_final in E. destruct (kind_ts (m_kind m)) as [t|] eqn:KT.
  2:{ injection E as <- _. constructor; assumption. }
  unfold set_final_step in E. injection E as E _.
  assert (RN : ts_rows t <> []).
  { unfold mod_static in ST. destruct (m_kind m); simpl in KT; inversion KT; subst;
      [destruct ST as (_ & TS & _)|destruct ST as (TS & _)|destruct ST as (TS & _)]; exact (st_rows _ _ _ _ TS). }
  constructor; [exact O'| | |].
  - rewrite <- E. apply mod_static_set_final; [exact KT| |exact ST].
    destruct (v <=? 0)%Z eqn:V; [|apply Z.leb_gt in V; exact V].
    destruct (ts_rows t); [contradiction|]. simpl. lia.
  - rewrite <- E. unfold no_functions, has_functions in *. simpl.
    destruct (m_kind m); simpl in *; inversion KT; subst; exact NF.
  - rewrite <- E.
    assert (K : forall f, log_keys (set_kind m (kind_set_ts (m_kind m) (ts_set_final t f))) = log_keys m).
    { intros f. unfold log_keys. simpl. destruct (m_kind m); simpl in *; inversion KT; subst; reflexivity. }
    unfold log_clean in *. set (f := if (v <=? 0)%Z then _ else _).
    change (match lg_len (m_log m) with
            | O => m_log m = logger_empty
            | S _ => forall k, In k (map fst (lg_data (m_log m)))
                <-> In k (log_keys (set_kind m (kind_set_ts (m_kind m) (ts_set_final t f))))
            end).
    rewrite K. exact LC.
Qed.

Lemma built_log m : built m -> m_log m = logger_empty.
Proof.
  intros [].
  - unfold new_battery in H. destruct (negb _); [discriminate|]. destruct (neqb _ _); [discriminate|].
    apply rbind_ok in H. destruct H as (cs & _ & H). injection H as <-. reflexivity.
  - unfold new_genset in H. destruct (nltb _ _); [discriminate|]. injection H as <-. reflexivity.
  - destruct (new_load_ok _ _ _ _ _ _ _ _ _ H H0) as (t & -> & _). reflexivity.
  - destruct (new_renewable_ok _ _ _ _ _ _ _ _ _ _ H H0) as (t & lo & hi & -> & _). reflexivity.
  - destruct (new_grid_ok _ _ _ _ _ _ _ _ _ _ _ _ _ H) as (t & -> & _). reflexivity.
  - reflexivity.
Qed.

Lemma savable_play cs : forall m, savable m -> savable (fst (play cs m)).
Proof.
  induction cs as [|c cs IH]; simpl; intros m SV; [exact SV|].
  assert (S1 : savable (fst (do_call c m))).
  { destruct c as [a n|]; simpl.
    - destruct (step a n m) as [m' [o|e]] eqn:E; exact (savable_step _ _ _ _ _ E SV).
    - destruct (reset m) as [m' r] eqn:E. exact (savable_reset _ _ _ E SV). }
  destruct (do_call c m) as [m1 o1]. simpl in S1. specialize (IH m1 S1).
  destruct (play cs m1) as [m2 o2]. exact IH.
Qed.
Lemma built_savable m : built m -> ~ has_functions m -> savable m.
Proof.
  intros B NF. constructor; [exact (built_ok _ B)|exact (built_static _ B)|exact NF|].
  unfold log_clean. rewrite (built_log _ B). reflexivity.
Qed.
Lemma reachable_savable m : reachable m -> ~ has_functions m -> savable m.
Proof.
  intros (m0 & cs & B & ->) NF. apply savable_play. apply built_savable; [exact B|].
  intros F. apply NF. destruct (play_good cs m0 (built_ok _ B)) as [SM _]. apply (functions_same _ _ SM). exact F.
Qed.

(** ** What the loaded module keeps *)
Lemma view_rect lg : @log_rect Q lg -> forall k c, In (k, c) (log_view lg) -> length c = lg_len lg.
Proof.
  intros [ND R] k c I. unfold log_view in I. apply in_map_iff in I. destruct I as ((k0 & c0) & E & I).
  injection E as -> <-. destruct (R k c0) as (l & -> & L); [|exact L].
  apply Proofs_Num.In_dget; assumption.
Qed.

Lemma loaded_log m df : mod_ok m -> log_clean m -> logger_serialize (m_log m) = Ok df ->
  log_view (logger_from_raw df) = log_view (m_log m) /\ lg_len (logger_from_raw df) = lg_len (m_log m).
Proof.
  intros O LC E. destruct (serialize_log _ (mo_rect _ O)) as (df' & E' & Z & NZ).
  rewrite E in E'. injection E' as <-. unfold log_clean in LC.
  destruct (lg_len (m_log m)) as [|n] eqn:L.
  - rewrite (Z eq_refl), LC. split; reflexivity.
  - rewrite (NZ ltac:(discriminate)). unfold logger_from_raw. simpl. split.
    + unfold log_view at 1. simpl. rewrite map_map. simpl.
      transitivity (map (fun x => x) (log_view (m_log m))); [|apply map_id].
      apply map_ext. intros [k c]. reflexivity.
    + rewrite <- L. apply fold_max_const; [lia| |].
      * exact (view_rect _ (mo_rect _ O)).
      * intros C. specialize (LC "reward"). destruct LC as [_ LC].
        unfold log_view in C. destruct (lg_data (m_log m)); [|discriminate]. apply LC. left. reflexivity.
Qed.

Lemma restored_ts_kept rnd init t : ts_ok t -> ~ (exists vec f, fc_kind (ts_fc t) = FcUser vec f) ->
  ts_kept t (restored_ts rnd init t).
Proof.
  intros TO NU. unfold restored_ts.
  destruct (ts_refresh init (reload_ts rnd t)) as [t' r] eqn:RF. simpl.
  destruct (ts_refresh_ok _ (reload_ok rnd t TO) _ _ _ RF) as (SM & _).
  destruct SM as [S1 S2 S3 S4 S5 S6 S7 S8 (k & SK & S9)]. red. conj; auto.
  rewrite S9. simpl in *. unfold fresh_kind in SK.
  destruct (fc_kind (ts_fc t)) as [| |s d c|vec f] eqn:K; simpl in SK.
  - subst k. constructor.
  - subst k. constructor.
  - destruct SK as (c' & ->). constructor.
  - exfalso. apply NU. eauto.
Qed.

Theorem restored_kept gt rnd m df : savable m -> logger_serialize (m_log m) = Ok df ->
  kept m (restored_module gt rnd m df).
Proof.
  intros [O ST NF LC] E. constructor; try reflexivity.
  - simpl. pose proof (no_functions_user m ST NF) as NU. unfold restored_kind.
    pose proof (mo_kind _ O) as K.
    destruct (m_kind m) as [b|g|g t|t|t|u] eqn:KK; simpl; auto.
    + destruct b; simpl. repeat split; reflexivity.
    + conj; auto. destruct (kind_ok_ts m t K ltac:(rewrite KK; reflexivity)) as [(TO & _) _].
      apply restored_ts_kept; [exact TO|]. intros (vec & f & X). apply NU. exists t, vec, f. rewrite KK. auto.
    + destruct (kind_ok_ts m t K ltac:(rewrite KK; reflexivity)) as [(TO & _) _].
      apply restored_ts_kept; [exact TO|]. intros (vec & f & X). apply NU. exists t, vec, f. rewrite KK. auto.
    + destruct (kind_ok_ts m t K ltac:(rewrite KK; reflexivity)) as [(TO & _) _].
      apply restored_ts_kept; [exact TO|]. intros (vec & f & X). apply NU. exists t, vec, f. rewrite KK. auto.
  - exact (loaded_log m df O LC E).
Qed.

(** ** The forecast after loading *)
Lemma forecast_same_data t t' c : ts_rows t' = ts_rows t -> ts_comps t' = ts_comps t ->
  ts_horizon t' = ts_horizon t -> ts_fc t' = ts_fc t ->
  snd (@ts_forecast Q _ c t') = snd (ts_forecast c t).
Proof.
  intros R C Hz F. unfold ts_forecast, ts_row, ts_future. rewrite R, C, Hz, F.
  destruct (py_nth (ts_rows t) c); [|reflexivity].
  destruct (fc_call _ _ _ _) as [k [[[? ?]|]|]]; reflexivity.
Qed.
Lemma forecast_quiet t c t' r : ts_ok t -> ~ (exists s d n, fc_kind (ts_fc t) = FcGauss s d n) ->
  ts_forecast c t = (t', r) -> t' = t.
Proof.
  intros TO NG E. destruct (ts_forecast_ok t TO _ _ _ E) as (SM & CF & _).
  destruct SM as [S1 S2 S3 S4 S5 S6 S7 [S8 S8'] (k & SK & S9)].
  assert (k = fc_kind (ts_fc t)).
  { destruct (fc_kind (ts_fc t)) eqn:K; simpl in SK; auto. exfalso. apply NG. eauto. }
  subst k. rewrite fc_with_kind_same in S9.
  destruct t, t'; simpl in *; subst; reflexivity.
Qed.
Lemma refresh_quiet t c t' : ts_ok t -> ~ (exists s d n, fc_kind (ts_fc t) = FcGauss s d n) ->
  ts_refresh c t = (t', Ok tt) -> exists f, ts_forecast c t = (t, Ok f) /\ t' = ts_set_cur_fc t f.
Proof.
  intros TO NG E. unfold ts_refresh in E. destruct (ts_forecast c t) as [t1 [f|e]] eqn:F.
  - pose proof (forecast_quiet _ _ _ _ TO NG F) as ->. unfold mbind in E. rewrite F in E.
    unfold mmodify in E. injection E as <-. eauto.
  - unfold mbind in E. rewrite F in E. discriminate.
Qed.
Lemma restored_ts_fresh rnd t t' init : ts_ok t -> ~ (exists s d n, fc_kind (ts_fc t) = FcGauss s d n) ->
  ts_refresh init t = (t', Ok tt) -> restored_ts rnd init t = t' /\ restored_ts rnd init t' = t'.
Proof.
  intros TO NG RF. destruct (refresh_quiet _ _ _ TO NG RF) as (f & F & ->).
  assert (R0 : forall t0, ts_set_cur_fc t0 None = ts_set_cur_fc t None -> restored_ts rnd init t0 = ts_set_cur_fc t f).
  { intros t0 E0. unfold restored_ts.
    assert (RL : reload_ts rnd t0 = ts_set_cur_fc t None).
    { rewrite <- E0. unfold reload_ts, ts_set_cur_fc.
      assert (fresh_kind rnd (fc_kind (ts_fc t0)) = fc_kind (ts_fc t0)) as ->.
      { assert (ts_fc t0 = ts_fc t) as -> by exact (f_equal (@ts_fc Q) E0).
        unfold fresh_kind. destruct (fc_kind (ts_fc t)) eqn:K; auto. exfalso. apply NG. eauto. }
      rewrite fc_with_kind_same. reflexivity. }
    rewrite RL. unfold ts_refresh, mbind.
    destruct (ts_forecast init (ts_set_cur_fc t None)) as [t1 x] eqn:F1.
    assert (TO1 : ts_ok (ts_set_cur_fc t None)) by (destruct TO; constructor; auto).
    pose proof (forecast_quiet _ _ _ _ TO1 NG F1) as ->.
    pose proof (forecast_same_data t (ts_set_cur_fc t None) init eq_refl eq_refl eq_refl eq_refl) as SF.
    rewrite F, F1 in SF. simpl in SF. subst x. reflexivity. }
  split; apply R0; reflexivity.
Qed.

Lemma quiet_ts m t : kind_ts (m_kind m) = Some t -> ~ noisy m -> ~ (exists s d n, fc_kind (ts_fc t) = FcGauss s d n).
Proof. intros KT N (s & d & n & X). apply N. exists t, s, d, n. auto. Qed.

(** What the reset of a module without functions is. *)
Lemma reset_savable m : savable m -> exists o,
  snd (reset m) = Ok o
  /\ fst (reset m) = set_log (set_kind (set_cur m (m_init m))
        (match kind_ts (m_kind m) with
         | Some t => kind_set_ts (m_kind m) (fst (ts_refresh (m_init m) t))
         | None => m_kind m
         end)) logger_empty
  /\ (forall t, kind_ts (m_kind m) = Some t -> snd (ts_refresh (m_init m) t) = Ok tt).
Proof.
  intros [O ST NF LC]. destruct (reset m) as [m' x] eqn:R.
  destruct (reset_good _ _ _ O R) as (_ & _ & _ & [[(o & -> & _) _]|[_ U]]).
  2:{ exfalso. exact (no_functions_user m ST NF U). }
  exists o. split; [reflexivity|]. simpl. unfold reset in R. apply mbind_inv in R.
  destruct R as [(m1 & [] & E1 & E)|(e & E1 & C)]; [|discriminate].
  unfold mbind, mmodify, mget, mlift in E. injection E as <- _.
  apply update_step_any in E1. destruct (kind_ts (m_kind m)) as [t|] eqn:KT.
  - destruct E1 as (t' & RF & ->). rewrite RF. split; [reflexivity|]. intros t0 X. injection X as <-. rewrite RF. reflexivity.
  - destruct E1 as [-> _]. split; [destruct m; reflexivity|]. discriminate.
Qed.

Lemma shown_restored gt rnd m df : savable m -> ~ noisy m ->
  shown_forecast (restored_module gt rnd m df) = shown_forecast (fst (reset m)).
Proof.
  intros SV NN. destruct (reset_savable m SV) as (o & _ & RE & RF).
  destruct (kind_ts (m_kind m)) as [t|] eqn:KT.
  - specialize (RF t eq_refl). destruct (ts_refresh (m_init m) t) as [t' x] eqn:E. simpl in RF, RE. subst x.
    destruct (kind_ok_ts m t (mo_kind _ (sb_ok _ SV)) KT) as [(TO & _) _].
    destruct (restored_ts_fresh rnd t t' (m_init m) TO (quiet_ts _ _ KT NN) E) as [R1 _].
    unfold shown_forecast. rewrite RE. simpl. unfold restored_kind.
    rewrite <- R1. clear R1 E RE. destruct (m_kind m); simpl in KT; inversion KT; subst; reflexivity.
  - unfold shown_forecast. rewrite RE. simpl. unfold restored_kind. destruct (m_kind m); simpl in *; try discriminate; reflexivity.
Qed.


Lemma noisy_same m m' : mod_same m m' -> (noisy m' -> noisy m).
Proof.
  intros SM (t' & s & d & c & KT & FK). pose proof (kind_same_ts _ _ (sm_kind _ _ SM)) as K. rewrite KT in K.
  destruct (kind_ts (m_kind m)) as [t|] eqn:KT0; [|tauto].
  destruct (same_fc _ _ K) as (k & SK & FC). rewrite FC in FK. simpl in FK. subst k.
  exists t. destruct (fc_kind (ts_fc t)) eqn:E; simpl in SK; try discriminate.
  destruct SK as (c' & X). injection X as -> -> _. do 3 eexists. split; [exact KT0|reflexivity].
Qed.

Lemma reset_started m : savable m -> started (fst (reset m)) /\ m_cur (fst (reset m)) = m_init (fst (reset m))
  /\ m_log (fst (reset m)) = logger_empty.
Proof.
  intros SV. destruct (reset_savable m SV) as (o & _ & -> & RF). split; [|split; reflexivity].
  intros t KT. simpl in KT. destruct (kind_ts (m_kind m)) as [t0|] eqn:K.
  - specialize (RF t0 eq_refl). exists t0.
    destruct (kind_ok_ts m t0 (mo_kind _ (sb_ok _ SV)) K) as [(TO & _) _]. split; [exact TO|].
    rewrite (kind_set_ts_series m t0 _ K) in KT. injection KT as <-.
    simpl. destruct (ts_refresh (m_init m) t0) as [t1 x]. simpl in RF. subst x. reflexivity.
  - rewrite K in KT. discriminate.
Qed.

Lemma started_fix rnd m t : started m -> ~ noisy m -> kind_ts (m_kind m) = Some t ->
  restored_ts rnd (m_init m) t = t.
Proof.
  intros ST NN KT. destruct (ST t KT) as (t0 & TO & RF).
  assert (NG : ~ (exists s d n, fc_kind (ts_fc t0) = FcGauss s d n)).
  { intros (s & d & n & X). destruct (ts_refresh_ok t0 TO _ _ _ RF) as (SM & _).
    destruct (same_fc _ _ SM) as (k & SK & FC). rewrite X in SK. destruct SK as (c & ->).
    apply NN. exists t, s, d, c. split; [exact KT|]. rewrite FC. reflexivity. }
  apply (restored_ts_fresh rnd t0 t (m_init m) TO NG RF).
Qed.
Lemma restored_start gt rnd m : started m -> ~ noisy m -> m_log m = logger_empty ->
  restored_module gt rnd m None = as_loaded gt m.
Proof.
  intros ST NN L. unfold restored_module, as_loaded, set_kind. rewrite L. cbn [logger_from_raw].
  f_equal. unfold restored_kind, loaded_kind.
  destruct (m_kind m) as [b|g|g t|t|t|u] eqn:K; try reflexivity;
    (rewrite (started_fix rnd m t ST NN); [reflexivity|rewrite K; reflexivity]).
Qed.

(** ** A loaded log cannot be appended to *)
Lemma log_items_series len k l kvs : forall (d : dict (column Q)),
  dget k d = Some (ColSeries l) -> In k (map fst kvs) ->
  exists d', log_items len kvs d = (d', raise AttributeError "Series has no append").
Proof.
  induction kvs as [|[k0 v] kvs IH]; simpl; intros d G I; [tauto|].
  destruct (string_dec k0 k) as [->|N].
  - rewrite G. eauto.
  - destruct I as [I|I]; [congruence|].
    assert (O : forall c, dget k (dset k0 c d) = Some (ColSeries l)).
    { intros c. rewrite dget_dset_other by congruence. exact G. }
    destruct (dget k0 d) as [[c|c]|]; [apply IH; auto|eauto|apply IH; auto].
Qed.
Lemma module_log_series sd rw i (m : module Q) l :
  dget "reward" (lg_data (m_log m)) = Some (ColSeries l) ->
  forall m2, module_log sd rw i m <> (m2, Ok tt).
Proof.
  intros G m2 E. unfold module_log in E. unfold mbind at 1, mget in E.
  apply mbind_inv in E. destruct E as [(s1 & d1 & E1 & E)|(e & _ & C)]; [|discriminate].
  apply mbind_inv in E. destruct E as [(s2 & d2 & E2 & E)|(e & _ & C)]; [|discriminate].
  set (d0 := dupdate _ _) in E1.
  assert (I0 : In "reward" (map fst d0)) by (unfold d0; apply In_dupdate; right; simpl; auto).
  assert (I1 : s1 = m /\ In "reward" (map fst d1)).
  { destruct (m_prov m), (dget "provided_energy" i); inversion E1; subst; auto;
      split; auto; apply In_dset; auto. }
  destruct I1 as [-> I1].
  assert (I2 : s2 = m /\ In "reward" (map fst d2)).
  { destruct (m_abs m), (dget "absorbed_energy" i); inversion E2; subst; auto;
      split; auto; apply In_dset; auto. }
  destruct I2 as [-> I2].
  assert (I3 : In "reward" (map fst (dupdate d2 sd))) by (apply In_dupdate; auto).
  unfold logger_log in E.
  destruct (log_items_series (lg_len (m_log m)) "reward" l _ _ G I3) as (d' & X). rewrite X in E. discriminate.
Qed.
Lemma base_step_series a n (m : module Q) l :
  dget "reward" (lg_data (m_log m)) = Some (ColSeries l) -> forall m' o, base_step a n m <> (m', Ok o).
Proof.
  intros G m' o E. apply base_step_cases in E.
  destruct E as [(_ & e & C & _)|(da & e & sd & _ & _ & _ & [(ex & _ & C)|(m1 & rw & d & i & U & D)])]; try discriminate.
  apply request_any in U. destruct (upd_rel_same _ _ _ U) as (_ & _ & _ & L).
  destruct D as [(ex & _ & C)|(m2 & ML & _)]; [discriminate|].
  rewrite <- L in G. exact (module_log_series _ _ _ _ _ G _ ML).
Qed.
Lemma step_series a n (m : module Q) l :
  dget "reward" (lg_data (m_log m)) = Some (ColSeries l) -> forall m' o, step a n m <> (m', Ok o).
Proof.
  intros G m' o E. unfold step, mbind at 1, mget in E.
  destruct (m_kind m) as [b|g|g t|t|t|u] eqn:K; try exact (base_step_series _ _ _ _ G _ _ E).
  apply mbind_inv in E. destruct E as [(s & goal & E1 & E)|(e & _ & C)]; [|discriminate].
  assert (s = m) by (destruct a as [y|[|y ys]]; inversion E1; reflexivity). subst s.
  apply mbind_inv in E. destruct E as [(s & [] & E2 & E)|(e & _ & C)]; [|discriminate].
  assert (s = m) by (unfold massert in E2; destruct (_ && _); inversion E2; reflexivity). subst s.
  apply mbind_inv in E. unfold lift_kind in E. destruct (update_status goal g) as [g' r'].
  destruct E as [(s & [] & E3 & E)|(e & _ & C)]; [|discriminate]. injection E3 as <- _.
  exact (base_step_series a n (set_kind m (KGenset g')) l G _ _ E).
Qed.
Lemma dget_series k (d : dict (column Q)) : In k (map fst d) ->
  exists l, dget k (map (fun x => (fst x, ColSeries (col_cells (snd x)))) d) = Some (ColSeries l).
Proof.
  induction d as [|[k0 c] d IH]; simpl; [tauto|]. intros I.
  destruct (String.eqb k k0) eqn:Q; [eauto|]. apply String.eqb_neq in Q.
  destruct I as [C|I]; [congruence|]. exact (IH I).
Qed.
Lemma restored_no_step gt rnd m df a n : savable m -> logger_serialize (m_log m) = Ok df ->
  lg_len (m_log m) <> 0%nat -> forall m' o, step a n (restored_module gt rnd m df) <> (m', Ok o).
Proof.
  intros [O ST NF LC] E NZ. destruct (serialize_log _ (mo_rect _ O)) as (df' & E' & _ & D).
  rewrite E in E'. injection E' as <-. specialize (D NZ). subst df.
  unfold log_clean in LC. destruct (lg_len (m_log m)) as [|k]; [congruence|].
  destruct (LC "reward") as [_ I]. specialize (I (or_introl eq_refl)).
  assert (G : exists l, dget "reward" (lg_data (m_log (restored_module gt rnd m (Some (log_view (m_log m)))))) = Some (ColSeries l)).
  { simpl. unfold log_view. rewrite map_map. simpl. exact (dget_series _ _ I). }
  destruct G as (l & G). exact (step_series a n _ l G).
Qed.

(** ** Reset after loading *)
Lemma reset_restored gt rnd m df : savable m -> ~ noisy m ->
  fst (reset (restored_module gt rnd m df)) = as_loaded gt (fst (reset m)).
Proof.
  unfold as_loaded. intros SV NN. destruct (reset_savable m SV) as (o & _ & RE & RF). rewrite RE. clear RE.
  unfold reset. unfold mbind at 1. unfold update_step. unfold mbind at 1, mmodify at 1. cbn [set_cur m_kind restored_module m_init m_cur].
  unfold restored_module, restored_kind. pose proof (mo_kind _ (sb_ok _ SV)) as KO.
  destruct (m_kind m) as [b|g|g t|t|t|u] eqn:K; try (cbn; unfold mbind, mmodify, mget, mlift; cbn; reflexivity).
  all: specialize (RF t eq_refl); destruct (ts_refresh (m_init m) t) as [t' x] eqn:E; simpl in RF; subst x;
    assert (KT : kind_ts (m_kind m) = Some t) by (rewrite K; reflexivity);
    destruct (kind_ok_ts m t KO KT) as [(TO & _) _];
    assert (NG := quiet_ts _ _ KT NN);
    destruct (restored_ts_fresh rnd t t' (m_init m) TO NG E) as [R1 _]; rewrite R1;
    assert (E2 : ts_refresh (m_init m) t' = (t', Ok tt));
    [ destruct (refresh_quiet _ _ _ TO NG E) as (f & F & ->);
      unfold ts_refresh, mbind;
      pose proof (forecast_same_data t (ts_set_cur_fc t f) (m_init m) eq_refl eq_refl eq_refl eq_refl) as SF;
      rewrite F in SF; simpl in SF;
      destruct (ts_forecast (m_init m) (ts_set_cur_fc t f)) as [t1 x1] eqn:F1;
      assert (TO1 : ts_ok (ts_set_cur_fc t f)) by (destruct TO; constructor; auto);
      pose proof (forecast_quiet _ _ _ _ TO1 NG F1) as ->; simpl in SF; subst x1; reflexivity
    | ];
    cbn [kind_ts mget mbind]; unfold mbind, mget; cbn [kind_ts m_kind set_cur m_cur]; rewrite E2; cbn; rewrite ?E; cbn; reflexivity.
Qed.
