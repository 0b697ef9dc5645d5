(** * Saving and loading a module *)
From Coq Require Import ZArith QArith Qabs Bool String List Lia Lqa.
From Verif Require Import Num Py Space Logger Forecast Module Container Microgrid Env Serialize
  Proofs_Num Proofs_Logger Spec_Module Spec_Reach Proofs_Module Proofs_Space Proofs_Battery
  Proofs_Genset Proofs_Ts Proofs_Any Proofs_Request Proofs_Data Proofs_Setters Spec_Serialize.
Import ListNotations.
Local Open Scope string_scope.
Local Open Scope list_scope.
Local Open Scope Q_scope.

(** ** Static facts of time-series data *)

Lemma mk_forecaster_kind k sp h c (fc : forecaster Q) : mk_forecaster k sp h c = Ok fc -> fc_kind fc = k.
Proof.
  intros G. unfold mk_forecaster in G. apply rbind_ok in G. destruct G as (x & _ & G).
  apply rbind_ok in G. destruct G as (y & _ & G). injection G as <-. reflexivity.
Qed.
Lemma mk_forecaster_other k k' sp h c (fc : forecaster Q) : mk_forecaster k sp h c = Ok fc ->
  mk_forecaster k' sp h c = Ok (fc_with_kind fc k').
Proof.
  intros G. unfold mk_forecaster in *. destruct (shaped_bounds (sp_low sp) h c); [|discriminate].
  cbn [rbind] in *. destruct (shaped_bounds (sp_high sp) h c); [|discriminate].
  cbn [rbind] in *. injection G as <-. reflexivity.
Qed.

Record ts_static (src snk : bool) (bounds : list (list Q) -> res (list Q * list Q)) (t : tsdata Q) : Prop := mkTsStatic {
  st_fix : set_time_series src snk (ts_rows t) = Ok (ts_rows t);
  st_bounds : bounds (ts_rows t) = Ok (ts_minobs t, ts_maxobs t);
  st_horizon : (if fparam_given (ts_fparam t) then ts_horizon t else 0%nat) = ts_horizon t;
  st_for : fc_for (ts_fparam t) (fc_kind (ts_fc t));
  st_mk : mk_forecaster (fc_kind (ts_fc t)) (ts_obs_space t) (ts_horizon t) (length (ts_comps t)) = Ok (ts_fc t);
  st_final : (0 < ts_final t)%Z;
  st_rows : ts_rows t <> []
}.

Lemma ts_static_same src snk bounds t t' : ts_same t t' -> ts_static src snk bounds t -> ts_static src snk bounds t'.
Proof.
  intros S [A B C D E F G]. destruct (same_fc _ _ S) as (k & SK & FC).
  assert (OB : ts_obs_space t' = ts_obs_space t)
    by (unfold ts_obs_space; rewrite (same_min _ _ S), (same_max _ _ S), (same_horizon _ _ S); reflexivity).
  constructor.
  - rewrite (same_rows _ _ S). exact A.
  - rewrite (same_rows _ _ S), (same_min _ _ S), (same_max _ _ S). exact B.
  - rewrite (same_fparam _ _ S), (same_horizon _ _ S). exact C.
  - rewrite (same_fparam _ _ S), FC. cbn [fc_with_kind fc_kind]. eapply fc_for_same; eauto.
  - rewrite OB, (same_horizon _ _ S), (same_comps _ _ S), FC. cbn [fc_with_kind fc_kind].
    eapply mk_forecaster_other. exact E.
  - rewrite (same_final _ _ S). exact F.
  - rewrite (same_rows _ _ S). exact G.
Qed.
Lemma ts_static_final src snk bounds t f : (0 < f)%Z -> ts_static src snk bounds t ->
  ts_static src snk bounds (ts_set_final t f).
Proof. intros P [A B C D E F G]. constructor; try assumption. Qed.

(** ** What construction gives *)
Lemma set_series_fix src snk (rows ts : list (list Q)) :
  set_time_series src snk rows = Ok ts -> (src && snk = false -> one_column rows) ->
  set_time_series src snk ts = Ok ts.
Proof.
  intros E OC. destruct (set_time_series_rows _ _ _ _ E) as (R & [(-> & -> & ->)|(NB & SG & ->)]); [exact E|].
  assert (NB' : src && snk = false) by (destruct NB as [->| ->]; [reflexivity|apply andb_false_r]).
  specialize (OC NB').
  unfold set_time_series, sign_check. rewrite NB'.
  assert (W : forall f : Q -> Q, rectangular (map (map f) rows) = true).
  { intros f. unfold rectangular. destruct rows as [|r rows]; [reflexivity|]. simpl map.
    apply forallb_forall. intros r' I. apply Nat.eqb_eq.
    pose proof (widths_map f _ _ OC) as WD. rewrite Forall_forall in WD.
    change (map f r :: map (map f) rows) with (map (map f) (r :: rows)) in I.
    rewrite (WD _ I). rewrite map_length. inversion OC; subst. symmetry. assumption. }
  destruct src.
  - rewrite W.
    assert (P : forallb (forallb (fun x : Q => nleb n0 x)) (map (map nabs) rows) = true).
    { apply forallb_forall. intros r I. apply forallb_forall. intros x J.
      pose proof (sign_nonneg rows) as SN. rewrite Forall_forall in SN. specialize (SN _ I).
      rewrite Forall_forall in SN. apply Qle_bool_iff. apply SN, J. }
    rewrite P, orb_true_r. cbn [negb]. f_equal. rewrite map_map. apply map_ext. intros r.
    rewrite map_map. apply map_ext. intros [n d]. unfold nabs, Q_ops. cbn. unfold Qabs.
    f_equal. lia.
  - rewrite W.
    assert (P : forallb (forallb (fun x : Q => nleb x n0)) (map (map (fun x => nopp (nabs x))) rows) = true).
    { apply forallb_forall. intros r I. apply forallb_forall. intros x J.
      pose proof (sign_nonpos rows) as SN. rewrite Forall_forall in SN. specialize (SN _ I).
      rewrite Forall_forall in SN. apply Qle_bool_iff. apply SN, J. }
    rewrite P. cbn [negb orb]. f_equal. rewrite map_map. apply map_ext. intros r.
    rewrite map_map. apply map_ext. intros [n d]. cbn. unfold Qopp, Qabs. cbn. f_equal. lia.
Qed.

Definition fresh_kind (rnd : frand Q) (k : fkind Q) : fkind Q :=
  match k with FcGauss s _ _ => FcGauss s (fr_noise rnd) 0 | _ => k end.
(** The data a constructor starts from when given the saved values. *)
Definition reload_ts (rnd : frand Q) (t : tsdata Q) : tsdata Q :=
  mkTs (ts_rows t) (ts_comps t) (ts_minobs t) (ts_maxobs t) (ts_final t) (ts_fparam t)
       (ts_horizon t) (fc_with_kind (ts_fc t) (fresh_kind rnd (fc_kind (ts_fc t))))
       (ts_keys_cur t) (ts_keys_fc t) None.

Lemma reload_ok rnd t : ts_ok t -> ts_ok (reload_ts rnd t).
Proof.
  intros [A B C D E F G H I J K]. constructor; try assumption.
  unfold reload_ts, fresh_kind, fc_with_kind. simpl. destruct (fc_kind (ts_fc t)) as [| |[[r c]|] ? ?|]; auto.
Qed.
Lemma reload_kind rnd t : ~ (exists vec f, fc_kind (ts_fc t) = FcUser vec f) ->
  ~ (exists vec f, fc_kind (ts_fc (reload_ts rnd t)) = FcUser vec f).
Proof.
  intros N (v & f & E). apply N. unfold reload_ts, fresh_kind, fc_with_kind in E. simpl in E.
  destruct (fc_kind (ts_fc t)); try discriminate. eauto.
Qed.
Definition restored_ts (rnd : frand Q) (init : Z) (t : tsdata Q) : tsdata Q :=
  fst (ts_refresh init (reload_ts rnd t)).

Lemma new_ts_again mk src snk bounds act re init prov abs rnd t :
  ts_static src snk bounds t -> ts_ok t -> ~ asks_user (ts_fparam t) ->
  new_ts mk src snk (ts_comps t) bounds act (ts_rows t) (ts_fparam t) (ts_horizon t)
    (increase_view (fc_kind (ts_fc t))) init (ts_final t) re prov abs rnd
  = Ok (mkModule (mk (restored_ts rnd init t)) re init init (Some (act (ts_minobs t, ts_maxobs t)))
          (ts_obs_space t) prov abs logger_empty (None, None)).
Proof.
  intros [A B C D E F G] OK NU. unfold new_ts. rewrite A. cbn [rbind]. rewrite B. cbn [rbind].
  rewrite C. replace (ts_final t <=? 0)%Z with false by (symmetry; apply Z.leb_gt; lia).
  cbn [fst snd].
  assert (GF : get_forecaster (ts_fparam t) (ts_obs_space t) (ts_horizon t) (length (ts_comps t))
            (py_slice (ts_rows t) init (ts_final t)) (increase_view (fc_kind (ts_fc t))) rnd
          = Ok (fc_with_kind (ts_fc t) (fresh_kind rnd (fc_kind (ts_fc t))))).
  { unfold get_forecaster. pose proof (ok_shape _ OK) as SH. unfold fc_for in D.
    destruct (ts_fparam t) as [| |std|f] eqn:FP.
    - rewrite D in *. rewrite E. simpl. rewrite <- D. rewrite fc_with_kind_same. reflexivity.
    - rewrite D in *. rewrite E. simpl. rewrite <- D. rewrite fc_with_kind_same. reflexivity.
    - destruct D as (s & d & c & D). rewrite D in *. simpl fresh_kind.
      replace (if increase_view (FcGauss s d c) then Some (ts_horizon t, length (ts_comps t)) else None)
        with s.
      + eapply mk_forecaster_other. exact E.
      + simpl. destruct s as [[r c']|]; [|reflexivity]. destruct SH as [-> ->]. reflexivity.
    - exfalso. apply NU. exists f. reflexivity. }
  unfold ts_obs_space in GF at 1. rewrite GF. cbn [rbind].
  destruct (ok_keys _ OK) as [K1 K2].
  match goal with |- context [ts_refresh init ?x] => replace x with (reload_ts rnd t) end.
  2:{ unfold reload_ts. rewrite K1, K2. reflexivity. }
  unfold restored_ts. destruct (ts_refresh init (reload_ts rnd t)) as [t' r] eqn:RF. simpl fst.
  destruct (ts_refresh_ok _ (reload_ok rnd t OK) _ _ _ RF) as (SM & P).
  destruct r as [u|e].
  - unfold set_kind, base_init. cbn. reflexivity.
  - destruct P as [U _]. exfalso. revert U. apply reload_kind. intros (v & f & K).
    apply NU. unfold fc_for in D. destruct (ts_fparam t).
    + congruence.
    + congruence.
    + destruct D as (? & ? & ? & D). congruence.
    + destruct D as (? & D). eexists. reflexivity.
Qed.

Lemma new_ts_static mk src snk comps bounds act rows fp horizon inc initial final re prov abs rnd (m : module Q) t :
  (0 < length comps)%nat ->
  (forall ts bds, set_time_series src snk rows = Ok ts -> bounds ts = Ok bds ->
     length (fst bds) = length comps /\ Forall2 Qle (fst bds) (snd bds)
     /\ Forall (row_in (fst bds) (snd bds)) ts) ->
  (src && snk = false -> one_column rows) -> (forall b, bounds [] <> Ok b) ->
  new_ts mk src snk comps bounds act rows fp horizon inc initial final re prov abs rnd = Ok m ->
  (forall x y, mk x = mk y -> x = y) -> m_kind m = mk t ->
  ts_static src snk bounds t /\ m_act m = Some (act (ts_minobs t, ts_maxobs t)) /\ ts_fparam t = fp
  /\ exists t0, ts_ok t0 /\ ts_refresh initial t0 = (t, Ok tt).
Proof.
  intros CP HB OC BN E MK MT. pose proof E as E0.
  destruct (new_ts_ok _ _ _ _ _ _ _ _ _ _ _ _ _ _ _ _ _ CP HB E0)
    as (t1 & ts & bds & S1 & S2 & -> & OK & CU & R & CO & MI & MA & FI & HO & FF).
  simpl in MT. apply MK in MT. subst t1.
  unfold new_ts in E. rewrite S1 in E. cbn [rbind] in E. rewrite S2 in E. cbn [rbind] in E.
  apply rbind_ok in E. destruct E as (fc & E3 & E).
  match type of E with context [ts_refresh initial ?t0] => set (t0' := t0) in * end.
  assert (MF : mk_forecaster (fc_kind fc) (ts_obs_space t0') (ts_horizon t0') (length comps) = Ok fc).
  { unfold get_forecaster in E3.
    assert (G : forall k, mk_forecaster k (ts_obs_space t0') (ts_horizon t0') (length comps) = Ok fc ->
      mk_forecaster (fc_kind fc) (ts_obs_space t0') (ts_horizon t0') (length comps) = Ok fc).
    { intros k G. rewrite (mk_forecaster_kind _ _ _ _ _ G). exact G. }
    destruct fp; try (exact (G _ E3)). apply rbind_ok in E3. destruct E3 as (vec & _ & E3). exact (G _ E3). }
  assert (NE : ts <> []) by (intros ->; exact (BN _ S2)).
  destruct (ts_refresh initial t0') as [t' r] eqn:RF.
  assert (OK0 : ts_ok t0').
  { destruct (HB _ _ S1 S2) as (L & O & RI).
    assert (LH : length (snd bds) = length comps) by (rewrite <- (Forall2_length _ _ _ O); exact L).
    assert (FG : fparam_given fp = true \/ (if fparam_given fp then horizon else 0%nat) = 0%nat)
      by (destruct fp; auto).
    destruct (get_forecaster_ok _ _ _ _ _ _ _ _ _ CP L LH FG E3)
      as (F1 & F2 & F3 & F4 & F5 & F6 & F7).
    constructor; simpl; auto. }
  destruct (ts_refresh_ok t0' OK0 _ _ _ RF) as (SM & P).
  destruct r as [u|]; [|discriminate].
  apply (f_equal (fun x => match x with Ok y => m_kind y | Err _ => mk t end)) in E. simpl in E.
  apply MK in E. subst t'.
  assert (LL : length ts = length rows).
  { apply set_time_series_rows in S1. destruct S1 as [_ [(_ & _ & ->)|(_ & _ & ->)]]; [reflexivity|].
    destruct src; apply map_length. }
  split; [|split; [|split]].
  - apply (ts_static_same _ _ _ _ _ SM). constructor; simpl.
    + eapply set_series_fix; eauto.
    + rewrite S2. destruct bds; reflexivity.
    + destruct (fparam_given fp); reflexivity.
    + destruct (same_fc _ _ SM) as (k & SK & FC). rewrite FC in FF. simpl in FF.
      assert (same_fk k (fc_kind fc)).
      { destruct fc as [k0 ? ? ? ? ? ?]. simpl in *. destruct k0; simpl in SK |- *; subst; simpl; auto.
        destruct SK as [c ->]. simpl. eauto. }
      eapply fc_for_same; eauto.
    + exact MF.
    + destruct (final <=? 0)%Z eqn:L; [|apply Z.leb_gt in L; exact L].
      destruct ts; [congruence|]. simpl. lia.
    + exact NE.
  - rewrite MI, MA. simpl. destruct bds; reflexivity.
  - rewrite (same_fparam _ _ SM). reflexivity.
  - exists t0'. destruct u. auto.
Qed.

(** ** Static facts of modules *)
Definition fresh_module (m : module Q) (k : kind Q) (init : Z) : module Q :=
  mkModule k (m_raise m) init init (m_act m) (m_obs m) (m_prov m) (m_abs m) logger_empty (None, None).

Definition mod_static (m : module Q) : Prop :=
  match m_kind m with
  | KBattery b =>
      b_model b = None -> forall init, exists c s,
        new_battery (b_min_capacity b) (b_max_capacity b) (b_max_charge b) (b_max_discharge b)
          (b_efficiency b) (b_cost_cycle b) None (b_init_charge b) (b_init_soc b) init (m_raise m)
        = Ok (fresh_module m (KBattery (set_charge b c s)) init)
  | KGenset g =>
      exists p, m_prov m = Some p /\ forall c init, g_cost g = FuelLin c ->
        exists st go u d,
        new_genset (g_min_prod g) (g_max_prod g) (FuelLin c) (g_co2_per_unit g) (g_cost_co2 g)
          (g_start_up g) (g_wind_down g) (g_allow_abortion g) (g_init_start_up g) init (m_raise m) p
        = Ok (fresh_module m (KGenset (set_genset g st go u d)) init)
  | KLoad t =>
      ts_static false true bounds1 t /\ ts_comps t = ["load"] /\ m_act m = Some (mkSpace [] [])
      /\ m_obs m = ts_obs_space t /\ m_prov m = None /\ m_abs m = Some "load_met"
  | KRenewable t =>
      ts_static true false bounds1 t /\ ts_comps t = ["renewable"]
      /\ m_act m = Some (mkSpace (ts_minobs t) (ts_maxobs t))
      /\ m_obs m = ts_obs_space t /\ (exists p, m_prov m = Some p) /\ m_abs m = None
  | KGrid g t =>
      grid_check (gr_max_import g) (gr_max_export g) (ts_rows t) = Ok (ts_rows t)
      /\ ts_static true true (grid_bounds 4) t /\ ts_comps t = grid_comps
      /\ m_act m = Some (mkSpace [nmul (nopp n1) (gr_max_export g)] [gr_max_import g])
      /\ m_obs m = ts_obs_space t
      /\ m_prov m = Some "grid_import" /\ m_abs m = Some "grid_export"
  | KUnbalanced u =>
      m_act m = None /\ m_obs m = mkSpace [] []
      /\ m_prov m = Some "loss_load" /\ m_abs m = Some "overgeneration"
  end.

Lemma ts_same_obs t t' : ts_same t t' -> ts_obs_space t' = ts_obs_space t.
Proof.
  intros S. unfold ts_obs_space. rewrite (same_min _ _ S), (same_max _ _ S), (same_horizon _ _ S). reflexivity.
Qed.

Lemma mod_static_same m m' : mod_same m m' -> mod_static m -> mod_static m'.
Proof.
  intros [K R I A O P B N] S. unfold mod_static, fresh_module in *. rewrite R, A, O, P, B.
  destruct (m_kind m) as [b|g|g t|t|t|u] eqn:KM, (m_kind m') as [b'|g'|g' t'|t'|t'|u']; try contradiction; simpl in K.
  - destruct K as (c & s & ->). exact S.
  - unfold same_gen in K. rewrite K. exact S.
  - destruct K as [-> K]. destruct S as (S1 & S2 & S3 & S4 & S5 & S6 & S7).
    rewrite (same_rows _ _ K), (same_comps _ _ K), (ts_same_obs _ _ K). conj; auto.
    eapply ts_static_same; eauto.
  - destruct S as (S1 & S2 & S3 & S4 & S5 & S6).
    rewrite (same_comps _ _ K), (ts_same_obs _ _ K). conj; auto. eapply ts_static_same; eauto.
  - destruct S as (S1 & S2 & S3 & S4 & S5 & S6).
    rewrite (same_comps _ _ K), (ts_same_obs _ _ K), (same_min _ _ K), (same_max _ _ K). conj; auto.
    eapply ts_static_same; eauto.
  - exact S.
Qed.
Lemma mod_static_fields m m' : m_kind m' = m_kind m -> m_raise m' = m_raise m -> m_act m' = m_act m ->
  m_obs m' = m_obs m -> m_prov m' = m_prov m -> m_abs m' = m_abs m -> mod_static m -> mod_static m'.
Proof.
  intros K R A O P B S. unfold mod_static, fresh_module in *. rewrite K, R, A, O, P, B. exact S.
Qed.
Lemma mod_static_set_final m t f : kind_ts (m_kind m) = Some t -> (0 < f)%Z -> mod_static m ->
  mod_static (set_kind m (kind_set_ts (m_kind m) (ts_set_final t f))).
Proof.
  intros K F S. unfold mod_static, fresh_module in *. destruct (m_kind m) as [b|g|g t'|t'|t'|u] eqn:KM;
    try discriminate; injection K as ->; simpl in *; change (ts_obs_space (ts_set_final t f)) with (ts_obs_space t).
  - destruct S as (S1 & S2 & S3 & S4 & S5 & S6 & S7). conj; auto. apply ts_static_final; auto.
  - destruct S as (S2 & S3 & S4 & S5 & S6 & S7). conj; auto. apply ts_static_final; auto.
  - destruct S as (S2 & S3 & S4 & S5 & S6 & S7). conj; auto. apply ts_static_final; auto.
Qed.

Lemma bounds1_nil b : @bounds1 Q _ [] <> Ok b.
Proof. unfold bounds1, get_bounds1. simpl. discriminate. Qed.
Lemma grid_bounds_nil b : @grid_bounds Q _ 4 [] <> Ok b.
Proof. unfold grid_bounds. simpl. discriminate. Qed.

Lemma with_status_id rows : Forall (fun r : list Q => length r = 4%nat) rows -> with_status rows = rows.
Proof.
  intros F. unfold with_status. rewrite <- (map_id rows) at 2. apply map_ext_in. intros r I.
  rewrite Forall_forall in F. rewrite (F _ I). reflexivity.
Qed.

Lemma grid_check_again mi me (rows rows' : list (list Q)) :
  grid_check mi me rows = Ok rows' -> grid_check mi me rows' = Ok rows'.
Proof.
  intros E. destruct (grid_check_ok _ _ _ _ E) as (M1 & M2 & _ & W & NN).
  unfold grid_check. unum. rewrite (proj2 (Qltb_ge mi 0) M1), (proj2 (Qltb_ge me 0) M2).
  assert (RC : rectangular rows' = true).
  { unfold rectangular. destruct rows' as [|r rs]; [reflexivity|]. apply forallb_forall. intros r' I.
    rewrite Forall_forall in W. rewrite (W _ I), (W r (or_introl eq_refl)). reflexivity. }
  assert (CO : match rows' with [] => 4%nat | r :: _ => length r end = 4%nat).
  { destruct rows' as [|r rs]; [reflexivity|]. inversion W; assumption. }
  rewrite CO, RC. cbn [Nat.eqb orb negb andb].
  rewrite (proj2 (forallb_forall _ _)).
  2:{ intros r I. rewrite Forall_forall in NN. destruct (NN _ I) as [_ (s & -> & Z)].
      apply orb_true_iff. destruct Z as [Z|Z]; [left|right]; apply Qeq_bool_iff; exact Z. }
  cbn [negb].
  destruct (existsb _ rows') eqn:X; [|reflexivity]. exfalso.
  apply existsb_exists in X. destruct X as (r & I & X). apply existsb_exists in X. destruct X as (x & J & X).
  rewrite Forall_forall in NN. destruct (NN _ I) as [P _]. rewrite Forall_forall in P. specialize (P _ J).
  apply Qltb_lt in X. lra.
Qed.

(** The stored forecast is the one made at the initial step. *)
Definition started (m : module Q) : Prop :=
  forall t, kind_ts (m_kind m) = Some t -> exists t0, ts_ok t0 /\ ts_refresh (m_init m) t0 = (t, Ok tt).

Lemma built_started m : built m -> mod_static m /\ started m.
Proof.
  intros B. destruct B as [? ? ? ? ? ? ? ? ? ? ? ? E|? ? ? ? ? ? ? ? ? ? ? ? ? E|? ? ? ? ? ? ? ? ? W E
    |? ? ? ? ? ? ? ? ? ? W E|? ? ? ? ? ? ? ? ? ? ? ? ? E|? ? ? ?].
  - pose proof E as E0. unfold new_battery in E0.
    destruct (negb _) eqn:A; [discriminate|]. destruct (neqb maxc n0) eqn:Z; [discriminate|].
    apply rbind_ok in E0. destruct E0 as (cs & IB & E0). injection E0 as <-. split; [|discriminate].
    unfold mod_static, fresh_module. simpl. intros -> init'. exists (fst cs), (snd cs).
    unfold new_battery. rewrite A, Z, IB. reflexivity.
  - pose proof E as E0. unfold new_genset in E0. destruct (nltb mx mn) eqn:L; [discriminate|].
    injection E0 as <-. split; [|discriminate]. unfold mod_static, fresh_module. simpl. exists prov. split; [reflexivity|].
    intros c init' ->. do 4 eexists. unfold new_genset. rewrite L. reflexivity.
  - destruct (new_load_ok _ _ _ _ _ _ _ _ _ W E) as (t & -> & OK & _).
    unfold new_load in E. eapply (new_ts_static _ _ _ _ _ _ _ _ _ _ _ _ _ _ _ _ _ t) in E.
    2:{ simpl; lia. }
    2:{ intros ts bds ST BD. apply bounds1_ok; [|exact BD].
        apply set_time_series_rows in ST. destruct ST as [_ [(C & _)|(_ & _ & ->)]]; [discriminate|].
        apply widths_map. exact W. }
    2:{ intros _. exact W. }
    2:{ apply bounds1_nil. }
    2:{ intros x y Q. injection Q as ->. reflexivity. }
    2:{ reflexivity. }
    destruct E as (S1 & _ & _ & S4). destruct OK as [OK _ _]. unfold kind_ok in OK. simpl in OK.
    split; [|intros t' X; injection X as <-; exact S4].
    unfold mod_static. simpl. conj; auto. apply OK.
  - destruct (new_renewable_ok _ _ _ _ _ _ _ _ _ _ W E) as (t & lo & hi & -> & OK & _).
    unfold new_renewable in E. eapply (new_ts_static _ _ _ _ _ _ _ _ _ _ _ _ _ _ _ _ _ t) in E.
    2:{ simpl; lia. }
    2:{ intros ts bds ST BD. apply bounds1_ok; [|exact BD].
        apply set_time_series_rows in ST. destruct ST as [_ [(_ & C & _)|(_ & _ & ->)]]; [discriminate|].
        apply widths_map. exact W. }
    2:{ intros _. exact W. }
    2:{ apply bounds1_nil. }
    2:{ intros x y Q. injection Q as ->. reflexivity. }
    2:{ reflexivity. }
    destruct E as (S1 & S2 & _ & S4). destruct OK as [OK _ _]. unfold kind_ok in OK. simpl in OK.
    split; [|intros t' X; injection X as <-; exact S4].
    unfold mod_static. simpl in *. conj; auto. { apply OK. } eexists; reflexivity.
  - destruct (new_grid_ok _ _ _ _ _ _ _ _ _ _ _ _ _ E) as (t & -> & OK & RW & _).
    unfold new_grid in E. apply rbind_ok in E. destruct E as (rows' & GC & E).
    destruct (grid_check_ok _ _ _ _ GC) as (M1 & M2 & RW' & W & NN).
    eapply (new_ts_static _ _ _ _ _ _ _ _ _ _ _ _ _ _ _ _ _ t) in E.
    2:{ simpl; lia. }
    2:{ intros ts bds ST BD. apply grid_bounds_ok; [repeat constructor| |exact BD].
        apply set_time_series_rows in ST. destruct ST as [_ [(_ & _ & ->)|([C|C] & _)]]; try discriminate.
        exact W. }
    2:{ discriminate. }
    2:{ apply grid_bounds_nil. }
    2:{ intros x y Q. injection Q as ->. reflexivity. }
    2:{ reflexivity. }
    destruct E as (S1 & S2 & _ & S4). destruct OK as [OK _ _]. unfold kind_ok in OK. simpl in OK.
    split; [|intros t' X; injection X as <-; exact S4].
    unfold mod_static. simpl in *. conj; auto.
    + rewrite RW, <- RW'. eapply grid_check_again. exact GC.
    + apply OK.
  - split; [|discriminate]. unfold mod_static. simpl. conj; reflexivity.
Qed.
Lemma built_static m : built m -> mod_static m.
Proof. apply built_started. Qed.

Lemma reachable_static m : reachable m -> mod_ok m /\ mod_static m.
Proof.
  intros R. split; [apply reachable_ok, R|]. destruct R as (m0 & cs & B & ->).
  eapply mod_static_same; [|apply built_static, B]. apply play_good. apply reachable_ok.
  exists m0, []. split; [exact B|reflexivity].
Qed.

(** ** Dumping and loading one module *)
Definition restored_kind (gt : mtype) (rnd : frand Q) (m : module Q) : kind Q :=
  match m_kind m with
  | KBattery b => KBattery (set_charge b (b_charge b) (b_charge b / b_max_capacity b))
  | KGrid g t => KGrid (mkGrid (gr_max_import g) (gr_max_export g) (gr_cost_co2 g) gt)
                       (restored_ts rnd (m_init m) t)
  | KLoad t => KLoad (restored_ts rnd (m_init m) t)
  | KRenewable t => KRenewable (restored_ts rnd (m_init m) t)
  | k => k
  end.
Definition restored_module (gt : mtype) (rnd : frand Q) (m : module Q) (df : option (frame Q)) : module Q :=
  mkModule (restored_kind gt rnd m) (m_raise m) (m_init m) (m_cur m) (m_act m) (m_obs m)
           (m_prov m) (m_abs m) (logger_from_raw df) (m_name m).

Lemma serialize_log lg : @log_rect Q lg -> exists df, logger_serialize lg = Ok df
  /\ (lg_len lg = 0%nat -> df = None)
  /\ (lg_len lg <> 0%nat -> df = Some (log_view lg)).
Proof.
  intros R. unfold logger_serialize. destruct (lg_len lg) as [|n] eqn:L.
  - exists None. conj; auto. congruence.
  - exists (Some (log_view lg)). conj; auto; [|discriminate].
    destruct (log_rect_frame lg R) as (df & E & _). rewrite E.
    unfold logger_to_frame in E. unfold log_view. destruct (lg_data lg) as [|[k c] d] eqn:D.
    + injection E as <-. reflexivity.
    + destruct (cols_len_ok _ _); [|discriminate]. injection E as <-. reflexivity.
Qed.
Lemma fold_max_const (d : list (string * list (option Q))) n : forall a, (a <= n)%nat ->
  (forall k c, In (k, c) d -> length c = n) -> d <> [] ->
  fold_left Nat.max (map (fun kc => length (snd kc)) d) a = n.
Proof.
  induction d as [|[k c] d IH]; intros a A F N; [congruence|]. simpl.
  rewrite (F k c (or_introl eq_refl)). destruct d as [|p d].
  - simpl. lia.
  - apply IH; [lia| |discriminate]. intros k' c' I. apply (F k' c'). right. exact I.
Qed.

(** Files a dumped module needs when it is loaded. *)
Definition series_path (tag : string) : string := ("data/cls_params/" ++ tag ++ "/time_series.csv.gz")%string.
Definition log_path (tag key : string) : string := ("data/" ++ tag ++ "/" ++ key ++ ".csv.gz")%string.
Definition on_disk (file : bool) (st : store Q) (m : module Q) (df : option (frame Q)) : Prop :=
  file = true ->
  (forall t, kind_ts (m_kind m) = Some t ->
     dget (series_path (yaml_tag (m_kind m))) (st_series st) = Some (ts_rows t))
  /\ (forall d, df = Some d -> dget (log_path (yaml_tag (m_kind m)) "log") (st_logs st) = Some d).
Definition after_dump (file : bool) (m : module Q) (df : option (frame Q)) (st : store Q) : store Q :=
  if file then
    mkStore (match kind_ts (m_kind m) with
             | Some t => dset (series_path (yaml_tag (m_kind m))) (ts_rows t) (st_series st)
             | None => st_series st
             end)
            (match df with
             | Some d => dset (log_path (yaml_tag (m_kind m)) "log") d (st_logs st)
             | None => st_logs st
             end)
  else st.

Lemma dget_dset_same {A} k (v : A) d : dget k (dset k v d) = Some v.
Proof.
  induction d as [|[k' v'] d IH]; simpl; [rewrite String.eqb_refl; reflexivity|].
  destruct (String.eqb k k') eqn:E; simpl; rewrite E; auto.
Qed.
Lemma after_dump_disk file m df st : on_disk file (after_dump file m df st) m df.
Proof.
  intros ->. unfold after_dump. split.
  - intros t K. rewrite K. apply dget_dset_same.
  - intros d ->. apply dget_dset_same.
Qed.

Definition no_functions (m : module Q) : Prop := ~ has_functions m.

Lemma store_eta (st : store Q) : mkStore (st_series st) (st_logs st) = st.
Proof. destruct st; reflexivity. Qed.

Theorem dump_load m : mod_ok m -> mod_static m -> no_functions m ->
  exists df, logger_serialize (m_log m) = Ok df
  /\ forall file, exists s,
     (forall st, dump_module file m st = (after_dump file m df st, Ok s))
     /\ (forall st gt rnd, on_disk file st m df ->
           load_module st gt rnd s = Ok (restored_module gt rnd m df)).
Proof.
  intros OK ST NF. destruct (serialize_log _ (mo_rect _ OK)) as (df & SL & _ & _).
  exists df. split; [exact SL|]. intros file.
  (* the log part *)
  assert (PL : exists lgp, (forall st, put_opt_log file (yaml_tag (m_kind m)) "log" df st
            = (mkStore (st_series st) (st_logs (after_dump file m df st)), Ok lgp))
         /\ forall st, on_disk file st m df -> get_log st lgp = Ok df).
  { unfold put_opt_log, put_log, after_dump. destruct df as [d|].
    - destruct file.
      + exists (Some (AtPath (log_path (yaml_tag (m_kind m)) "log"))). split.
        * intros st. reflexivity.
        * intros st O. simpl. destruct (O eq_refl) as [_ L]. rewrite (L _ eq_refl). reflexivity.
      + exists (Some (Inline d)). split; [|reflexivity]. intros st. cbn. rewrite store_eta. reflexivity.
    - exists None. split; [|reflexivity]. intros st. cbn. destruct file; cbn; rewrite store_eta; reflexivity. }
  destruct PL as (lgp & PL & GL).
  (* the parameters *)
  assert (PP : exists ps, (forall st, dump_params file m st
            = (mkStore (st_series (after_dump file m df st)) (st_logs st), Ok ps))
         /\ forall st gt rnd, on_disk file st m df ->
              match deserialize (dump_state m)
                 (set_name (set_log (match construct st gt rnd ps with Ok x => x | Err _ => m end)
                    (logger_from_raw df)) (m_name m)) with
              | (m2, Ok _) => m2 = restored_module gt rnd m df
              | _ => False
              end /\ exists x, construct st gt rnd ps = Ok x).
  { destruct OK as [OK _ _]. unfold kind_ok in OK.
    unfold mod_static, no_functions, has_functions, dump_params, after_dump, on_disk, dump_state,
      restored_module, restored_kind in *.
    destruct (m_kind m) as [b|g|g t|t|t|u] eqn:K; cbn [kind_ts].
    - destruct (b_model b) as [f|] eqn:MD; [exfalso; apply NF; discriminate|].
      cbn [dump_model]. eexists. split.
      + intros st. unfold mbind, mlift, mret. destruct file; cbn; rewrite store_eta; reflexivity.
      + intros st gt rnd _. destruct (ST eq_refl (m_init m)) as (c & s & E).
        unfold construct. rewrite E. split; [|eauto]. cbn. reflexivity.
    - destruct (g_cost g) as [c|f] eqn:C; [|exfalso; apply NF; eauto]. cbn [dump_cost].
      destruct ST as (p & MP & ST). eexists. split.
      + intros st. unfold mbind, mlift, mret. destruct file; cbn; rewrite store_eta; reflexivity.
      + intros st gt rnd _. rewrite MP in *. destruct (ST _ (m_init m) eq_refl) as (s1 & s2 & s3 & s4 & E).
        unfold construct. rewrite E. split; [|eauto]. unfold fresh_module, set_kind, set_cur, set_name, set_log. cbn. rewrite ?MP.
        destruct g; reflexivity.
    - destruct ST as (GC & TS & CO & AC & OB & PR & AB). destruct OK as (_ & _ & _ & (TO & _) & _).
      destruct (ts_fparam t) as [| |std|f] eqn:FP; [| | |exfalso; apply NF; eexists; reflexivity];
      ( destruct file;
        [ exists (SPGrid (gr_max_import g) (gr_max_export g) (AtPath (series_path "GridModule")) (ts_fparam t)
                    (ts_horizon t) (increase_view (fc_kind (ts_fc t))) (m_init m) (ts_final t)
                    (gr_cost_co2 g) (m_raise m))
        | exists (SPGrid (gr_max_import g) (gr_max_export g) (Inline (ts_rows t)) (ts_fparam t)
                    (ts_horizon t) (increase_view (fc_kind (ts_fc t))) (m_init m) (ts_final t)
                    (gr_cost_co2 g) (m_raise m))];
        (split; [intros st; rewrite FP; cbn; try rewrite store_eta; reflexivity|]);
        intros st gt rnd D; unfold construct;
        (match goal with |- context [get_arr _ (AtPath _)] =>
           destruct (D eq_refl) as [D1 _]; specialize (D1 _ eq_refl); cbn [get_arr]; cbn [yaml_tag] in D1; rewrite D1
         | _ => idtac end); cbn [rbind get_arr];
        unfold new_grid; rewrite GC; cbn [rbind]; rewrite <- CO;
        (rewrite new_ts_again; [|exact TS|exact TO|rewrite FP; intros (? & W); discriminate W]);
        (split; [|eauto]); cbn; rewrite AC, OB, PR, AB; reflexivity ).
    - destruct ST as (TS & CO & AC & OB & PR & AB). destruct OK as (_ & _ & _ & (TO & _) & _).
      destruct (ts_fparam t) as [| |std|f] eqn:FP; [| | |exfalso; apply NF; eexists; reflexivity];
      ( destruct file;
        [ exists (SPLoad (AtPath (series_path "LoadModule")) (ts_fparam t)
                    (ts_horizon t) (increase_view (fc_kind (ts_fc t))) (m_init m) (ts_final t) (m_raise m))
        | exists (SPLoad (Inline (ts_rows t)) (ts_fparam t)
                    (ts_horizon t) (increase_view (fc_kind (ts_fc t))) (m_init m) (ts_final t) (m_raise m))];
        (split; [intros st; rewrite FP; cbn; try rewrite store_eta; reflexivity|]);
        intros st gt rnd D; unfold construct;
        (match goal with |- context [get_arr _ (AtPath _)] =>
           destruct (D eq_refl) as [D1 _]; specialize (D1 _ eq_refl); cbn [get_arr]; cbn [yaml_tag] in D1; rewrite D1
         | _ => idtac end); cbn [rbind get_arr];
        unfold new_load; rewrite <- CO;
        (rewrite new_ts_again; [|exact TS|exact TO|rewrite FP; intros (? & W); discriminate W]);
        (split; [|eauto]); cbn; rewrite AC, OB, PR, AB; reflexivity ).
    - destruct ST as (TS & CO & AC & OB & (p & PR) & AB). destruct OK as (_ & _ & _ & (TO & _) & _).
      destruct (ts_fparam t) as [| |std|f] eqn:FP; [| | |exfalso; apply NF; eexists; reflexivity];
      ( destruct file;
        [ exists (SPRenewable (AtPath (series_path "RenewableModule")) (ts_fparam t)
                    (ts_horizon t) (increase_view (fc_kind (ts_fc t))) (m_init m) (ts_final t) (m_raise m) p)
        | exists (SPRenewable (Inline (ts_rows t)) (ts_fparam t)
                    (ts_horizon t) (increase_view (fc_kind (ts_fc t))) (m_init m) (ts_final t) (m_raise m) p)];
        (split; [intros st; rewrite FP, PR; cbn; try rewrite store_eta; reflexivity|]);
        intros st gt rnd D; unfold construct;
        (match goal with |- context [get_arr _ (AtPath _)] =>
           destruct (D eq_refl) as [D1 _]; specialize (D1 _ eq_refl); cbn [get_arr]; cbn [yaml_tag] in D1; rewrite D1
         | _ => idtac end); cbn [rbind get_arr];
        unfold new_renewable; rewrite <- CO;
        (rewrite new_ts_again; [|exact TS|exact TO|rewrite FP; intros (? & W); discriminate W]);
        (split; [|eauto]); cbn; rewrite AC, OB, PR, AB; reflexivity ).
    - destruct ST as (AC & OB & PR & AB). eexists. split.
      + intros st. unfold mret. destruct file; cbn; rewrite store_eta; reflexivity.
      + intros st gt rnd _. split; [|eexists; reflexivity]. cbn. rewrite AC, OB, PR, AB.
        destruct u; reflexivity. }
  destruct PP as (ps & PP & CN).
  exists (mkSaved (m_name m) ps (dump_state m) lgp). split.
  - intros st. unfold dump_module, mbind, mlift. rewrite SL. rewrite PP, PL. unfold mret.
    f_equal. cbn [st_series st_logs]. unfold after_dump. destruct file; cbn; [reflexivity|apply store_eta].
  - intros st gt rnd D. unfold load_module. cbn [sv_log sv_params sv_name sv_state]. rewrite (GL _ D). cbn [rbind].
    destruct (CN st gt rnd D) as [C (x & E)]. rewrite E in *. cbn [rbind].
    destruct (deserialize _ _) as [m2 [[]|e]]; [|contradiction]. rewrite C. reflexivity.
Qed.
