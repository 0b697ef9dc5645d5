(** * Replacing the series or the forecaster of a module *)

From Coq Require Import ZArith QArith Qabs Bool String List Lia Lqa.
From Verif Require Import Num Py Space Logger Forecast Module
  Proofs_Num Proofs_Logger Spec_Module Spec_Reach Proofs_Module Proofs_Space Proofs_Battery
  Proofs_Genset Proofs_Ts Proofs_Any Proofs_Request Proofs_Data.
Import ListNotations.
Local Open Scope string_scope.
Local Open Scope list_scope.
Local Open Scope Q_scope.

(** ** C21: forecasting after the series was replaced *)
Lemma clip1_clip x lo hi : clip1 x lo hi = clip lo hi x.
Proof.
  unfold clip1, clip. unum. destruct (Qltb hi x) eqn:A; qprop.
  - destruct (Qlt_le_dec hi x); [reflexivity|lra].
  - destruct (Qlt_le_dec hi x); [lra|]. destruct (Qltb x lo) eqn:B; qprop;
      destruct (Qlt_le_dec x lo); try reflexivity; lra.
Qed.
Lemma clip_row_each r : forall lo hi, clip_row r lo hi = clip_each lo hi r.
Proof.
  induction r as [|x r IH]; intros [|l lo] [|h hi]; simpl; try reflexivity.
  rewrite IH, clip1_clip. reflexivity.
Qed.
Lemma clip_rows_repeat lo hi fut : 
  clip_rows fut (repeat lo (length fut)) (repeat hi (length fut)) = map (clip_each lo hi) fut.
Proof. induction fut; simpl; [reflexivity|]. rewrite clip_row_each, IHfut. reflexivity. Qed.

Lemma write_back_nth {A} (rows : list (list A)) a new j : (a + length new <= length rows)%nat ->
  nth_error (write_back rows a new) j
  = if (a <=? j)%nat && (j <? a + length new)%nat then nth_error new (j - a) else nth_error rows j.
Proof.
  intros L. unfold write_back. assert (LA : length (firstn a rows) = a) by (rewrite firstn_length; lia).
  destruct (Nat.leb_spec a j) as [G|G].
  - rewrite nth_error_app2 by lia. rewrite LA. destruct (Nat.ltb_spec j (a + length new)) as [G2|G2]; simpl.
    + apply nth_error_app1. lia.
    + rewrite nth_error_app2 by lia. rewrite nth_error_skipn'. f_equal. lia.
  - simpl. rewrite nth_error_app1 by lia. apply nth_error_firstn'. lia.
Qed.

Lemma set_series_ts rows (m m1 : module Q) t : kind_ts (m_kind m) = Some t ->
  set_series rows m = (m1, Ok tt) ->
  exists ts lo hi act,
    set_time_series (is_source (m_kind m)) (is_sink (m_kind m)) rows = Ok ts
    /\ m1 = set_spaces (set_kind m (kind_set_ts (m_kind m) (ts_set_bounds (ts_set_rows t ts) lo hi)))
              act (ts_obs_space (ts_set_bounds (ts_set_rows t ts) lo hi)).
Proof.
  intros T E. unfold set_series in E. rewrite T in E.
  destruct (set_time_series _ _ rows) as [ts|e] eqn:ST; [|discriminate].
  match type of E with context [match ?x with Ok _ => _ | Err _ => _ end] =>
    destruct x as [bds|e]; [|discriminate] end.
  apply pair_equal_spec in E. destruct E as [<- _].
  exists ts, (fst bds), (snd bds). eexists. split; reflexivity.
Qed.

Lemma C21_overwrites h m0 cs m rows m1 k :
  built_ts FPOracle h m0 -> m = fst (play cs m0) ->
  set_series rows m = (m1, Ok tt) -> Forall (fun r => length r = columns m) rows ->
  m_cur m = Z.of_nat k -> (0 < h)%nat -> (k + h < length rows)%nat ->
  exists m2 f, module_forecast m1 = (m2, Ok (Some f))
    /\ forall j, nth_error (series m2) j
         = option_map (fun r => if (k <? j)%nat && (j <=? k + h)%nat
                                then clip_each (low_row m) (high_row m) r else r)
                      (nth_error (series m1) j).
Proof.
  intros B E S W C HP KL. destruct (play_ts_data _ _ _ _ _ B E) as (OK & _ & t & T & FK & HZ).
  destruct (kind_ok_ts _ _ (mo_kind _ OK) T) as ((TO & CU & OB) & KC).
  destruct (low_high_row _ _ (mo_kind _ OK) T) as [LR HR].
  pose proof (kind_ok_cols _ _ (mo_kind _ OK) T) as CO.
  simpl in FK, HZ.
  destruct (set_series_ts _ _ _ _ T S) as (ts & lo & hi & act & ST & M1).
  assert (WT : Forall (fun r => length r = columns m) ts /\ length ts = length rows).
  { apply set_time_series_rows in ST. destruct ST as [_ [(_ & _ & ->)|(_ & _ & ->)]]; [auto|].
    destruct (is_source (m_kind m)); split; try (apply widths_map; exact W); apply map_length. }
  destruct WT as [WT LT].
  set (t1 := ts_set_bounds (ts_set_rows t ts) lo hi) in *.
  assert (T1 : kind_ts (m_kind m1) = Some t1).
  { rewrite M1. simpl. apply (kind_set_ts_series m t). exact T. }
  assert (C1 : m_cur m1 = Z.of_nat k) by (rewrite M1; exact C).
  unfold module_forecast. rewrite T1, C1. unfold ts_forecast, ts_row. rewrite py_nth_nat.
  change (ts_rows t1) with ts.
  destruct (nth_error ts k) as [vc|] eqn:NV; [|apply nth_error_None in NV; lia].
  unfold ts_future. change (ts_rows t1) with ts. change (ts_horizon t1) with (ts_horizon t).
  change (ts_fc t1) with (ts_fc t).
  replace (1 + Z.of_nat k)%Z with (Z.of_nat (k + 1)) by lia.
  replace (Z.of_nat (k + 1) + Z.of_nat (ts_horizon t))%Z with (Z.of_nat (k + 1 + ts_horizon t)) by lia.
  rewrite py_slice_nat by lia.
  replace (k + 1 + ts_horizon t - (k + 1))%nat with (ts_horizon t) by lia.
  set (fut := firstn (ts_horizon t) (skipn (k + 1) ts)).
  assert (LF : length fut = ts_horizon t).
  { unfold fut. rewrite firstn_length, skipn_length. lia. }
  unfold fc_call. rewrite (ok_frows t TO), LF, Nat.ltb_irrefl.
  unfold fc_forecast. rewrite FK. unfold fc_pad. rewrite LF, Nat.eqb_refl. cbn [rbind].
  unfold fc_clip. rewrite (ok_flow t TO), (ok_fhigh t TO), LF.
  rewrite !py_last_repeat by lia. rewrite repeat_length, Nat.eqb_refl.
  assert (FW : forallb (fun r => Nat.eqb (length r) (fc_cols (ts_fc t))) fut = true).
  { apply forallb_forall. intros r I. apply Nat.eqb_eq. rewrite (ok_fcols t TO), <- CO.
    rewrite Forall_forall in WT. apply WT. unfold fut in I.
    apply In_firstn' in I. apply In_skipn' in I. exact I. }
  rewrite FW. cbn [andb rbind].
  pose proof (clip_rows_repeat (ts_minobs t) (ts_maxobs t) fut) as CR. rewrite LF in CR. rewrite CR.
  rewrite map_length, LF, Nat.eqb_refl.
  do 2 eexists. split; [reflexivity|]. intros j.
  unfold series. cbn [m_kind set_kind]. rewrite (kind_set_ts_series _ _ _ T1), T1.
  cbn [ts_rows ts_set_rows ts_set_fc]. change (ts_rows t1) with ts.
  replace (Z.to_nat (py_clamp (Z.of_nat (length ts)) (Z.of_nat (k + 1)))) with (k + 1)%nat.
  2:{ unfold py_clamp. replace (Z.of_nat (k + 1) <? 0)%Z with false by (symmetry; apply Z.ltb_ge; lia).
      rewrite Z.min_l by lia. lia. }
  rewrite write_back_nth by (rewrite map_length, LF; lia).
  rewrite map_length, LF, LR, HR, <- HZ.
  replace (k <? j)%nat with (k + 1 <=? j)%nat
    by (destruct (Nat.leb_spec (k + 1) j), (Nat.ltb_spec k j); try reflexivity; lia).
  replace (j <=? k + ts_horizon t)%nat with (j <? k + 1 + ts_horizon t)%nat
    by (destruct (Nat.leb_spec j (k + ts_horizon t)), (Nat.ltb_spec j (k + 1 + ts_horizon t));
        try reflexivity; lia).
  destruct (Nat.leb_spec (k + 1) j) as [G|G]; simpl.
  - destruct (Nat.ltb_spec j (k + 1 + ts_horizon t)) as [G2|G2].
    + rewrite nth_error_map. unfold fut. rewrite nth_error_firstn' by lia. rewrite nth_error_skipn'.
      replace (k + 1 + (j - (k + 1)))%nat with j by lia. reflexivity.
    + destruct (nth_error ts j); reflexivity.
  - destruct (nth_error ts j); reflexivity.
Qed.

(** ** C22: replacing the forecaster *)
Lemma get_forecaster_ok fp lo hi h c ts inc rnd fc :
  (0 < c)%nat -> length lo = c -> length hi = c -> (fparam_given fp = true \/ h = 0%nat) ->
  get_forecaster fp (mkSpace (concat (repeat lo (S h))) (concat (repeat hi (S h)))) h c ts inc rnd = Ok fc ->
  fc_rows fc = h /\ fc_cols fc = c /\ fc_low fc = repeat lo h /\ fc_high fc = repeat hi h
  /\ fc_fill fc = concat (repeat (midrow lo hi) (S h))
  /\ match fc_kind fc with
     | FcGauss (Some (r, c')) _ _ => r = h /\ c' = c
     | FcNone => h = 0%nat
     | _ => True
     end
  /\ fc_for fp (fc_kind fc).
Proof.
  intros CP LL LH GV E.
  assert (G : forall k, mk_forecaster k
      (mkSpace (concat (repeat lo (S h))) (concat (repeat hi (S h)))) h c = Ok fc ->
      fc_rows fc = h /\ fc_cols fc = c /\ fc_low fc = repeat lo h /\ fc_high fc = repeat hi h
      /\ fc_fill fc = concat (repeat (midrow lo hi) (S h)) /\ fc_kind fc = k).
  { intros k0 G. unfold mk_forecaster in G. cbn [sp_low sp_high] in G.
    rewrite <- LL in G. rewrite shaped_bounds_repeat in G by lia. cbn [rbind] in G.
    rewrite LL, <- LH in G. rewrite shaped_bounds_repeat in G by lia. cbn [rbind] in G.
    apply (f_equal (fun x => match x with Ok y => y | Err _ => fc end)) in G. rewrite <- G.
    cbn [fc_rows fc_cols fc_low fc_high fc_fill fc_kind]. repeat split; try congruence.
    unfold fill_arr. cbn [sp_low sp_high]. apply map2_concat_repeat. congruence. }
  unfold get_forecaster in E. destruct fp; simpl.
  - destruct (G _ E) as (A & B & C & D & F & K). rewrite K. conj; auto.
    destruct GV as [GV|GV]; [discriminate|exact GV].
  - destruct (G _ E) as (A & B & C & D & F & K). rewrite K. conj; auto.
  - destruct (G _ E) as (A & B & C & D & F & K). rewrite K. conj; eauto.
    destruct inc; auto.
  - apply rbind_ok in E. destruct E as (vec & _ & E).
    destruct (G _ E) as (A & B & C & D & F & K). rewrite K. conj; eauto.
Qed.

Lemma set_horizon_ts h (m m1 : module Q) t r : kind_ts (m_kind m) = Some t ->
  set_forecast_horizon h m = (m1, r) ->
  exists fc, m1 = set_spaces (set_kind m (kind_set_ts (m_kind m)
                     (ts_set_fc (ts_set_horizon t h (keys_forecast (ts_comps t) h)) fc)))
                    (m_act m) (ts_obs_space (ts_set_horizon t h (keys_forecast (ts_comps t) h))).
Proof.
  intros T E. unfold set_forecast_horizon in E. rewrite T in E. cbv zeta in E.
  set (t1 := ts_set_horizon t h (keys_forecast (ts_comps t) h)) in *.
  assert (KK : forall k t', kind_set_ts (kind_set_ts k t1) t' = @kind_set_ts Q k t')
    by (intros [] t'; reflexivity).
  match type of E with context [match ?x with Ok _ => _ | Err _ => _ end] => destruct x as [fc|e] end.
  - destruct (fc_set_obs fc (ts_obs_space t1)) as [fc'|e];
      apply pair_equal_spec in E; destruct E as [<- _]; eexists; reflexivity.
  - apply pair_equal_spec in E. destruct E as [<- _]. exists (ts_fc t1).
    replace (ts_set_fc t1 (ts_fc t1)) with t1 by (unfold t1; destruct t; reflexivity). reflexivity.
Qed.

Lemma set_forecaster_ts fp h inc rnd (m m1 : module Q) t : kind_ts (m_kind m) = Some t ->
  set_forecaster fp h inc rnd m = (m1, Ok tt) ->
  let h1 := if fparam_given fp then h else 0%nat in
  let t1 := ts_set_horizon t h1 (keys_forecast (ts_comps t) h1) in
  exists fc, m1 = set_spaces (set_kind m (kind_set_ts (m_kind m) (ts_set_fc t1 fc)))
                    (m_act m) (ts_obs_space t1)
    /\ get_forecaster fp (ts_obs_space t1) h1 (length (ts_comps t))
         (py_slice (ts_rows t) (m_init m) (ts_final t)) inc rnd = Ok fc.
Proof.
  intros T E h1 t1. unfold set_forecaster in E. unfold mbind at 1, mget in E.
  apply mbind_inv in E. destruct E as [(m2 & [] & E1 & E)|(e & _ & C)]; [|discriminate].
  destruct (set_horizon_ts _ _ _ _ _ T E1) as (fc0 & M2).
  unfold mbind, mget in E.
  assert (T2 : kind_ts (m_kind m2) = Some (ts_set_fc t1 fc0)).
  { rewrite M2. simpl. apply (kind_set_ts_series m t). exact T. }
  rewrite T2 in E.
  assert (O2 : m_obs m2 = ts_obs_space t1) by (rewrite M2; reflexivity).
  assert (I2 : m_init m2 = m_init m) by (rewrite M2; reflexivity).
  rewrite O2, I2 in E.
  change (ts_horizon (ts_set_fc t1 fc0)) with h1 in E.
  change (ts_comps (ts_set_fc t1 fc0)) with (ts_comps t) in E.
  change (ts_rows (ts_set_fc t1 fc0)) with (ts_rows t) in E.
  change (ts_final (ts_set_fc t1 fc0)) with (ts_final t) in E.
  destruct (get_forecaster fp (ts_obs_space t1) h1 (length (ts_comps t))
      (py_slice (ts_rows t) (m_init m) (ts_final t)) inc rnd) as [fc|e] eqn:GF; [|discriminate].
  exists fc. split; [|reflexivity]. unfold mput in E.
  apply pair_equal_spec in E. destruct E as [<- _]. rewrite M2.
  cbn [m_kind set_spaces set_kind]. destruct (m_kind m); try discriminate; reflexivity.
Qed.

(** The module after [set_forecaster]: sound except for the stored forecast. *)
Lemma set_forecaster_good fp h inc rnd (m m1 : module Q) t :
  mod_ok m -> kind_ts (m_kind m) = Some t ->
  set_forecaster fp h inc rnd m = (m1, Ok tt) ->
  let h1 := if fparam_given fp then h else 0%nat in
  exists t1, kind_ts (m_kind m1) = Some t1 /\ m_kind m1 = kind_set_ts (m_kind m) t1
    /\ ts_ok t1 /\ m_obs m1 = ts_obs_space t1
    /\ ts_horizon t1 = h1 /\ ts_rows t1 = ts_rows t /\ ts_comps t1 = ts_comps t
    /\ ts_minobs t1 = ts_minobs t /\ ts_maxobs t1 = ts_maxobs t /\ ts_final t1 = ts_final t
    /\ ts_cur_fc t1 = ts_cur_fc t /\ fc_for fp (fc_kind (ts_fc t1))
    /\ m_cur m1 = m_cur m /\ m_log m1 = m_log m /\ m_init m1 = m_init m /\ m_raise m1 = m_raise m
    /\ m_act m1 = m_act m /\ m_prov m1 = m_prov m /\ m_abs m1 = m_abs m /\ m_name m1 = m_name m.
Proof.
  intros OK T E h1. destruct (kind_ok_ts _ _ (mo_kind _ OK) T) as ((TO & CU & OB) & KC).
  destruct (set_forecaster_ts _ _ _ _ _ _ _ T E) as (fc & -> & GF). fold h1 in GF |- *.
  set (t0 := ts_set_horizon t h1 (keys_forecast (ts_comps t) h1)) in *.
  exists (ts_set_fc t0 fc). unfold ts_obs_space in GF. cbn [ts_minobs ts_maxobs ts_horizon] in GF.
  apply get_forecaster_ok in GF.
  - change (ts_minobs t0) with (ts_minobs t) in GF. change (ts_maxobs t0) with (ts_maxobs t) in GF.
    change (ts_horizon t0) with h1 in GF.
    destruct GF as (A & B & C & D & F & K & FF).
    split; [apply (kind_set_ts_series m t); exact T|]. split; [reflexivity|]. split.
    + constructor; try (cbn; assumption).
      * exact (ok_cols t TO).
      * exact (ok_min t TO).
      * exact (ok_ord t TO).
      * exact (ok_rows t TO).
      * cbn. split; [apply (ok_keys t TO)|reflexivity].
    + conj; auto.
  - exact (ok_cols t TO).
  - exact (ok_min t TO).
  - exact (ok_max t TO).
  - unfold h1. destruct (fparam_given fp); auto.
Qed.

Lemma combine_app_full {A B} (k1 k2 : list A) (v1 v2 : list B) : length k1 = length v1 ->
  combine (k1 ++ k2) (v1 ++ v2) = combine k1 v1 ++ combine k2 v2.
Proof. revert v1. induction k1; intros [|v v1] L; simpl in *; try discriminate; [reflexivity|]. f_equal. auto. Qed.

Lemma In_combine_fst {A B} (ks : list A) : forall (vs : list B), incl (map fst (combine ks vs)) ks.
Proof.
  induction ks as [|k ks IH]; intros [|v vs]; simpl; try (intros x []).
  - left; assumption.
  - right. exact (IH vs x H).
Qed.
Lemma NoDup_combine_fst {A B} (ks : list A) : forall (vs : list B), NoDup ks -> NoDup (map fst (combine ks vs)).
Proof.
  induction ks as [|k ks IH]; intros [|v vs] N; simpl; try constructor; inversion N; subst.
  - intros I. apply In_combine_fst in I. contradiction.
  - auto.
Qed.

Lemma NoDup_app_l {A} (l1 l2 : list A) : NoDup (l1 ++ l2) -> NoDup l1.
Proof.
  induction l1 as [|x l1 IH]; simpl; intros N; [constructor|]. inversion N; subst. constructor; auto.
  intros I. apply H1. apply in_or_app. auto.
Qed.
Lemma NoDup_app_incl {A} (l1 l2 l3 : list A) :
  NoDup (l1 ++ l2) -> incl l3 l2 -> NoDup l3 -> NoDup (l1 ++ l3).
Proof.
  induction l1 as [|x l1 IH]; simpl; intros N I N3; [exact N3|]. inversion N; subst. constructor; auto.
  intros J. apply H1. apply in_app_or in J. apply in_or_app. destruct J; auto.
Qed.

(** The state dictionary with a stored forecast of any length. *)
Lemma stale_state_dict t cur : ts_ok t -> known_comps (ts_comps t) ->
  exists r, row_in (ts_minobs t) (ts_maxobs t) r
  /\ (forall d, ts_row t cur = Some d -> r = d)
  /\ ts_state_dict t cur
     = Ok (combine (keys_current (ts_comps t)) r
           ++ combine (keys_forecast (ts_comps t) (ts_horizon t)) (concat (fc_view t))).
Proof.
  intros OK K. destruct (cur_row_ok t OK cur) as (r & E & RI & D).
  exists r. split; [exact RI|]. split; [exact D|].
  assert (LR : length r = length (ts_comps t)).
  { destruct (row_in_length _ _ _ RI) as [L _]. rewrite L. apply (ok_min t OK). }
  destruct (keys_lengths (ts_comps t) (ts_horizon t)) as [KC KF].
  unfold ts_state_dict. rewrite E. cbn [rbind]. destruct (ok_keys t OK) as [-> ->].
  pose proof (keys_nodup (ts_comps t) (ts_horizon t) K) as ND.
  assert (N1 : NoDup (map fst (combine (keys_current (ts_comps t)) r))).
  { apply NoDup_combine_fst. exact (NoDup_app_l _ _ ND). }
  rewrite (dict_of_NoDup _ N1). f_equal. unfold fc_view. destruct (ts_cur_fc t) as [f|].
  - apply dupdate_fresh. rewrite map_app. rewrite map_fst_combine by congruence.
    apply (NoDup_app_incl _ _ _ ND); [apply In_combine_fst|].
    apply NoDup_combine_fst. clear - ND. induction (keys_current (ts_comps t)); [exact ND|].
    inversion ND; auto.
  - simpl. rewrite combine_nil, app_nil_r. reflexivity.
Qed.

Lemma C22_lemma fp h inc rnd (m m1 : module Q) :
  reachable m -> is_ts m -> set_forecaster fp h inc rnd m = (m1, Ok tt) ->
  let h1 := if fparam_given fp then h else 0%nat in
  horizon m1 = h1 /\ columns m1 = columns m /\ series m1 = series m
  /\ length (sp_low (m_obs m1)) = ((1 + h1) * columns m)%nat
  /\ (exists s, state m1 = Ok s /\ length s = ((1 + Nat.min h1 (horizon m)) * columns m)%nat)
  /\ ((horizon m < h1)%nat -> raises TypeError (norm_obs m1))
  /\ ((h1 <= horizon m)%nat -> exists o, norm_obs m1 = Ok o)
  /\ (forall m2 o, reset m1 = (m2, Ok o) ->
        exists s, state m2 = Ok s /\ length s = ((1 + h1) * columns m)%nat /\ norm_obs m2 = Ok o
                  /\ in_range (m_obs m2) (VA s)).
Proof.
  intros RE IT E h1. pose proof (reachable_ok _ RE) as OK. unfold is_ts in IT.
  destruct (kind_ts (m_kind m)) as [t|] eqn:T; [|congruence]. clear IT.
  destruct (kind_ok_ts _ _ (mo_kind _ OK) T) as ((TO & CU & OB) & KC).
  destruct (set_forecaster_good _ _ _ _ _ _ _ OK T E)
    as (t1 & T1 & K1 & TO1 & O1 & H1 & R1 & C1 & MN & MX & FN & CF & FF & CC & LG & II & RS & AC & PV & AB & NM).
  fold h1 in H1.
  pose proof (kind_ok_cols _ _ (mo_kind _ OK) T) as CO.
  assert (CO1 : columns m1 = columns m).
  { unfold columns. rewrite K1. destruct (m_kind m); reflexivity. }
  assert (OL : length (sp_low (m_obs m1)) = ((1 + h1) * columns m)%nat).
  { rewrite O1. destruct (obs_length t1 TO1) as [A _]. rewrite A, H1, C1, CO. reflexivity. }
  assert (KC1 : known_comps (ts_comps t1)) by (rewrite C1; exact KC).
  destruct (stale_state_dict t1 (m_cur m1) TO1 KC1) as (r & RI & _ & SD).
  assert (LR : length r = columns m).
  { destruct (row_in_length _ _ _ RI) as [L _]. rewrite L, MN, CO. apply (ok_min t TO). }
  assert (LV : length (concat (fc_view t1)) = (horizon m * columns m)%nat).
  { assert (X : fc_view t1 = fc_view t) by (unfold fc_view; rewrite CF; reflexivity). rewrite X.
    destruct (ts_state _ _ OK T) as (r0 & _ & _ & _ & [L F] & _).
    unfold horizon. rewrite T, <- L, CO. apply concat_length_rows. apply Forall_forall.
    intros y I. rewrite Forall_forall in F. destruct (row_in_length _ _ _ (F _ I)) as [Y _].
    rewrite Y. apply (ok_min t TO). }
  destruct (keys_lengths (ts_comps t1) (ts_horizon t1)) as [KL KF].
  assert (ST : exists s, state m1 = Ok s /\ length s = ((1 + Nat.min h1 (horizon m)) * columns m)%nat).
  { unfold state. rewrite (state_dict_ts _ _ T1), SD. cbn [rmap]. eexists. split; [reflexivity|].
    unfold dvalues. rewrite map_length, app_length, !combine_length, KL, KF, LR, LV, C1, H1, <- CO.
    rewrite Nat.min_id. pose proof (Nat.mul_min_distr_r h1 (horizon m) (columns m)). lia. }
  split; [unfold horizon; rewrite T1; exact H1|]. split; [exact CO1|].
  split; [unfold series; rewrite T1, T; exact R1|].
  split; [exact OL|]. split; [exact ST|].
  destruct ST as (s & ST & LS).
  assert (NO : norm_obs m1 = normalize (m_obs m1) (VA s)) by (unfold norm_obs; rewrite ST; reflexivity).
  assert (CP : (0 < columns m)%nat) by (rewrite CO; apply (ok_cols t TO)).
  split; [|split].
  - intros L. rewrite NO. apply normalize_shape_err. unfold fits. simpl. rewrite LS, OL.
    rewrite Nat.min_r by lia. nia.
  - intros L. rewrite NO. eexists. apply normalize_eq. unfold fits. simpl. rewrite LS, OL.
    rewrite Nat.min_l by lia. reflexivity.
  - intros m2 o RST. unfold reset in RST.
    apply mbind_inv in RST. destruct RST as [(m3 & [] & U & RST)|(e & _ & C)]; [|discriminate].
    unfold update_step, mbind, mmodify in U. cbn [m_kind set_cur] in U. rewrite T1 in U.
    match type of U with context [ts_refresh ?c t1] => destruct (ts_refresh c t1) as [t3 x] eqn:RF end.
    destruct (ts_refresh_ok t1 TO1 _ _ _ RF) as (S3 & P3).
    apply pair_equal_spec in U. destruct U as [M3 ->].
    unfold mbind, mmodify, mget, mlift in RST. apply pair_equal_spec in RST. destruct RST as [M2 NO2].
    assert (K2 : kind_ok m2).
    { assert (O2 : m_obs m2 = ts_obs_space t3).
      { rewrite <- M2, <- M3. cbn. rewrite O1. unfold ts_obs_space.
        rewrite (same_min _ _ S3), (same_max _ _ S3), (same_horizon _ _ S3). reflexivity. }
      assert (KD2 : m_kind m2 = kind_set_ts (m_kind m) t3).
      { rewrite <- M2, <- M3. cbn. rewrite K1. destruct (m_kind m); reflexivity. }
      assert (A2 : m_act m2 = m_act m) by (rewrite <- M2, <- M3; exact AC).
      assert (P2 : m_prov m2 = m_prov m) by (rewrite <- M2, <- M3; exact PV).
      assert (B2 : m_abs m2 = m_abs m) by (rewrite <- M2, <- M3; exact AB).
      assert (TM : ts_mod m2 t3).
      { unfold ts_mod. split; [exact (ts_same_ok _ _ S3 TO1)|]. split; [exact P3|exact O2]. }
      assert (R3 : ts_rows t3 = ts_rows t) by (rewrite (same_rows _ _ S3); exact R1).
      assert (C3 : ts_comps t3 = ts_comps t) by (rewrite (same_comps _ _ S3); exact C1).
      pose proof (mo_kind _ OK) as KO. unfold kind_ok in *. rewrite KD2, A2, P2, B2.
      destruct (m_kind m); simpl in *; inversion T; subst; rewrite R3, C3; tauto. }
    assert (T3 : kind_ts (m_kind m2) = Some t3).
    { rewrite <- M2, <- M3. cbn. apply (kind_set_ts_series _ _ _ T1). }
    destruct (kind_ok_ts _ _ K2 T3) as ((TO3 & CU3 & OB3) & KC3).
    destruct (ts_state_dict_ok t3 (m_cur m2) TO3 CU3 KC3) as (r3 & _ & RI3 & _ & FF3 & SD3 & L3).
    exists (r3 ++ concat (fc_view t3)).
    assert (HC : (S (ts_horizon t3) * length (ts_comps t3))%nat = ((1 + h1) * columns m)%nat).
    { rewrite (same_horizon _ _ S3), (same_comps _ _ S3), H1, C1, CO. reflexivity. }
    split; [|split; [congruence|split; [rewrite M2 in NO2; exact NO2|]]].
    + unfold state. rewrite (state_dict_ts _ _ T3), SD3. cbn [rmap]. f_equal. apply map_snd_combine.
      destruct (keys_lengths (ts_comps t3) (ts_horizon t3)) as [A B].
      rewrite L3, app_length, A, B. lia.
    + rewrite OB3. destruct (state_in_box t3 r3 _ RI3 FF3) as [B1 B2]. split; assumption.
Qed.
