(** * Time-series modules: clock, data, observations, forecasts *)

From Coq Require Import ZArith QArith Qabs Bool String List Lia Lqa.
From Verif Require Import Num Py Space Logger Forecast Module
  Proofs_Num Proofs_Logger Spec_Module Spec_Reach Proofs_Module Proofs_Space Proofs_Battery
  Proofs_Genset Proofs_Ts Proofs_Any Proofs_Request.
Import ListNotations.
Local Open Scope string_scope.
Local Open Scope list_scope.
Local Open Scope Q_scope.

(** ** done *)
Lemma update_done e src (m m' : module Q) rw d i :
  update e src m = (m', Ok (rw, d, i)) ->
  d = match kind_ts (m_kind m) with Some t => ts_done t (m_cur m) | None => false end.
Proof.
  intros E. unfold update in E. destruct (m_kind m) as [b|g|g t|t|t|u] eqn:K; simpl.
  - destruct e as [v|]; [|discriminate]. unfold lift_kind in E.
    destruct (battery_update v src b) as [b' r] eqn:B. inversion E; subst.
    unfold battery_update in B. destruct src; minv; reflexivity.
  - destruct e as [v|]; [|discriminate]. unfold lift_kind in E.
    destruct (genset_update v src g) as [b' r] eqn:B. inversion E; subst.
    unfold genset_update in B. minv. reflexivity.
  - apply pair_equal_spec in E. destruct E as [_ E]. unfold grid_update in E.
    destruct e; [|discriminate].
    apply rbind_ok in E. destruct E as (r & _ & E). apply rbind_ok in E. destruct E as (c & _ & E).
    inversion E; reflexivity.
  - assert (L : load_update t (m_cur m) src = Ok (rw, d, i))
      by (apply pair_equal_spec in E; destruct E as [_ E]; destruct e; exact E).
    unfold load_update in L. destruct src; [discriminate|].
    apply rbind_ok in L. destruct L as (r & _ & L). inversion L; reflexivity.
  - destruct e as [v|]; [|discriminate].
    apply pair_equal_spec in E. destruct E as [_ E]. unfold renewable_update in E.
    destruct src; [|discriminate]. apply rbind_ok in E. destruct E as (r & _ & E).
    destruct (nleb v r); inversion E; reflexivity.
  - destruct e as [v|]; [|discriminate].
    apply pair_equal_spec in E. destruct E as [_ E]. unfold unbalanced_update in E.
    match type of E with context [if ?c then _ else _] => destruct c; inversion E end. reflexivity.
Qed.

(** A request that returned made one update. *)
Lemma request_updates x (m m' : module Q) out :
  unnormalized_step x m = (m', Ok out) -> exists e src, update e src m = (m', Ok out).
Proof.
  intros E.
  assert (SRC : forall y, as_source y m = (m', Ok out) -> exists e src, update e src m = (m', Ok out)).
  { intros y. unfold as_source, mbind, massert, mget, mlift, raise_error, mraise, raise.
    repeat match goal with
    | |- context [if ?b then _ else _] => destruct b
    | |- context [match max_production m with _ => _ end] => destruct (max_production m) as [[]|]
    | |- context [match gt_bound ?a ?b with _ => _ end] => destruct (gt_bound a b)
    end; try discriminate; eauto. }
  assert (SNK : forall y, as_sink y m = (m', Ok out) -> exists e src, update e src m = (m', Ok out)).
  { intros y. unfold as_sink, mbind, massert, mget, mlift, raise_error, mraise, raise.
    repeat match goal with
    | |- context [if ?b then _ else _] => destruct b
    | |- context [match max_consumption m with _ => _ end] => destruct (max_consumption m) as [[]|]
    | |- context [match gt_bound ?a ?b with _ => _ end] => destruct (gt_bound a b)
    end; try discriminate; eauto. }
  unfold unnormalized_step in E.
  destruct (nltb n0 x); [eauto|]. destruct (nltb x n0); [eauto|].
  unfold mbind, mget, massert in E. destruct (is_source (m_kind m)); [eauto|].
  destruct (is_sink (m_kind m)); [eauto|discriminate].
Qed.

Lemma kind_same_ts (k k' : kind Q) : kind_same k k' ->
  match kind_ts k, kind_ts k' with
  | Some t, Some t' => ts_same t t'
  | None, None => True
  | _, _ => False
  end.
Proof. destruct k, k'; simpl; try tauto. Qed.

Lemma same_final_step (m m' : module Q) : mod_same m m' -> final_step m' = final_step m.
Proof.
  intros S. pose proof (kind_same_ts _ _ (sm_kind _ _ S)) as K. unfold final_step.
  destruct (kind_ts (m_kind m)), (kind_ts (m_kind m')); try tauto; simpl.
  rewrite (same_final _ _ K). reflexivity.
Qed.
Lemma same_series (m m' : module Q) : mod_same m m' -> series m' = series m.
Proof.
  intros S. pose proof (kind_same_ts _ _ (sm_kind _ _ S)) as K. unfold series.
  destruct (kind_ts (m_kind m)), (kind_ts (m_kind m')); try tauto; simpl.
  apply (same_rows _ _ K).
Qed.
Lemma same_horizon_m (m m' : module Q) : mod_same m m' -> horizon m' = horizon m.
Proof.
  intros S. pose proof (kind_same_ts _ _ (sm_kind _ _ S)) as K. unfold horizon.
  destruct (kind_ts (m_kind m)), (kind_ts (m_kind m')); try tauto; simpl.
  apply (same_horizon _ _ K).
Qed.
Lemma same_fk_user k k' v f : same_fk k k' -> k' = FcUser v f -> k = FcUser v f.
Proof.
  intros S ->. destruct k; simpl in S; try congruence. destruct S; discriminate.
Qed.
Lemma same_user (m m' : module Q) : mod_same m m' -> user_forecaster m' -> user_forecaster m.
Proof.
  intros S (t' & v & f & T & F). pose proof (kind_same_ts _ _ (sm_kind _ _ S)) as K.
  unfold user_forecaster. rewrite T in K. destruct (kind_ts (m_kind m)) as [t|]; [|tauto].
  exists t, v, f. split; [reflexivity|].
  destruct (same_fc _ _ K) as (k & SK & EF). rewrite EF in F. simpl in F.
  exact (same_fk_user _ _ _ _ SK F).
Qed.

Lemma ts_done_iff (t : tsdata Q) cur : ts_done t cur = true <-> (ts_final t - 1 <= cur)%Z.
Proof. unfold ts_done. apply Z.leb_le. Qed.

(** C17, one step *)
Lemma C17_step (m m' : module Q) a n o :
  reachable m -> step a n m = (m', Ok o) ->
  m_cur m' = (m_cur m + 1)%Z
  /\ (done_of o = true <-> exists f, final_step m = Some f /\ (f - 1 <= m_cur m)%Z).
Proof.
  intros RE E. destruct (step_good _ _ _ _ _ (reachable_ok _ RE) E) as (S & _ & D).
  destruct D as [(_ & _ & e & C)|(m0 & da & x & m1 & rw & d & i & S0 & _ & C0 & _ & _ & _ & _ & U & C1 & _ & _ & D)];
    [discriminate|].
  split; [exact C1|].
  destruct D as [(ob & X & _)|[(e & X) _]]; [|discriminate]. inversion X; subst. unfold done_of. simpl.
  apply request_updates in U. destruct U as (e & src & U). apply update_done in U. subst d.
  rewrite <- (same_final_step _ _ S0). unfold final_step. rewrite <- C0.
  destruct (kind_ts (m_kind m0)) as [t|]; simpl.
  - rewrite ts_done_iff. split; [eauto|intros (f & F & L); inversion F; subst; exact L].
  - split; [discriminate|]. intros (f & F & _). discriminate.
Qed.

(** C17, a whole episode *)
Lemma C17_episode cs : forall (m m' : module Q) os,
  reachable m -> ~ user_forecaster m -> Forall step_only cs -> play cs m = (m', os) ->
  m_cur m' = (m_cur m + Z.of_nat (length os))%Z
  /\ forall j o, nth_error os j = Some o ->
       (done_of o = true <-> exists f, final_step m = Some f /\ (f - 1 <= m_cur m + Z.of_nat j)%Z).
Proof.
  induction cs as [|c cs IH]; intros m m' os RE NU F E.
  - inversion E; subst. split; [simpl; lia|]. intros [|j] o X; discriminate.
  - inversion F; subst. simpl in E. destruct c as [a n|]; [|contradiction].
    destruct (do_call (Step a n) m) as [m1 o1] eqn:D. destruct (play cs m1) as [m2 os2] eqn:P.
    inversion E; subst. clear E.
    assert (RE1 : reachable m1).
    { destruct RE as (m0 & cs0 & B & ->). exists m0, (cs0 ++ [Step a n]). split; [exact B|].
      replace m1 with (fst (do_call (Step a n) (fst (play cs0 m0)))) by (rewrite D; reflexivity).
      clear. revert m0. induction cs0 as [|c cs0 IH]; intros m0.
      - simpl. destruct (step a n m0) as [? []]; reflexivity.
      - simpl. destruct (do_call c m0) as [m1 o1]. specialize (IH m1).
        destruct (play cs0 m1) as [m2 o2]. simpl in IH.
        destruct (play (cs0 ++ [Step a n]) m1) as [m3 o3]. simpl in IH. simpl. exact IH. }
    pose proof (do_call_good (Step a n) m (reachable_ok _ RE)) as [S1 _]. rewrite D in S1. simpl in S1.
    assert (NU1 : ~ user_forecaster m1) by (intros U; apply NU; exact (same_user _ _ S1 U)).
    destruct (IH _ _ _ RE1 NU1 H2 P) as [C2 DN]. rewrite (same_final_step _ _ S1) in DN.
    simpl in D. destruct (step a n m) as [m3 [o|e]] eqn:ST; inversion D; subst; clear D.
    + destruct (C17_step _ _ _ _ _ RE ST) as [C1 D1]. split.
      * simpl. rewrite C2, C1. lia.
      * intros [|j] o' X; simpl in X.
        -- inversion X; subst. rewrite D1. replace (m_cur m + Z.of_nat 0)%Z with (m_cur m) by lia. reflexivity.
        -- rewrite (DN _ _ X), C1.
           replace (m_cur m + 1 + Z.of_nat j)%Z with (m_cur m + Z.of_nat (S j))%Z by lia. reflexivity.
    + destruct (C03_failed _ _ _ _ _ RE NU ST) as [C1 _]. rewrite C1 in *. auto.
Qed.

(** ** Observations *)
Lemma py_nth_nat {A} (l : list A) k : py_nth l (Z.of_nat k) = nth_error l k.
Proof.
  unfold py_nth. replace (0 <=? Z.of_nat k)%Z with true by (symmetry; apply Z.leb_le; lia).
  simpl. destruct (Z.ltb_spec (Z.of_nat k) (Z.of_nat (length l))) as [L|L].
  - rewrite Nat2Z.id. reflexivity.
  - replace (Z.of_nat k <? 0)%Z with false by (symmetry; apply Z.ltb_ge; lia).
    rewrite andb_false_r. symmetry. apply nth_error_None. lia.
Qed.

Lemma kind_ok_cols m t : kind_ok m -> kind_ts (m_kind m) = Some t ->
  columns m = length (ts_comps t).
Proof.
  intros K T. unfold kind_ok in K. unfold columns. destruct (m_kind m); inversion T; subst.
  - destruct K as (_ & _ & _ & _ & C & _). rewrite C. reflexivity.
  - destruct K as (_ & _ & _ & _ & C & _). rewrite C. reflexivity.
  - destruct K as (_ & _ & _ & _ & C & _). rewrite C. reflexivity.
Qed.

Lemma state_dict_ts (m : module Q) t : kind_ts (m_kind m) = Some t -> state_dict m = ts_state_dict t (m_cur m).
Proof. unfold state_dict. destruct (m_kind m); intros E; inversion E; reflexivity. Qed.

(** The state of a good time-series module. *)
Lemma ts_state m t : mod_ok m -> kind_ts (m_kind m) = Some t ->
  exists r, state m = Ok (r ++ concat (fc_view t))
    /\ row_in (ts_minobs t) (ts_maxobs t) r
    /\ (forall d, ts_row t (m_cur m) = Some d -> r = d)
    /\ fc_fits t (fc_view t) /\ length r = columns m
    /\ length (r ++ concat (fc_view t)) = (S (ts_horizon t) * columns m)%nat.
Proof.
  intros OK T. destruct (kind_ok_ts _ _ (mo_kind _ OK) T) as ((TO & CU & OB) & KC).
  destruct (ts_state_dict_ok t (m_cur m) TO CU KC) as (r & _ & RI & D & FF & SD & L).
  exists r. rewrite (kind_ok_cols _ _ (mo_kind _ OK) T).
  unfold state. rewrite (state_dict_ts _ _ T), SD. cbn [rmap].
  split; [|conj; auto].
  - f_equal. apply map_snd_combine. destruct (keys_lengths (ts_comps t) (ts_horizon t)) as [A B].
    rewrite L, app_length, A, B. lia.
  - destruct (row_in_length _ _ _ RI) as [X _]. rewrite X. apply (ok_min t TO).
Qed.

Lemma C18_lemma (m : module Q) : reachable m -> is_ts m ->
  exists s o, state m = Ok s /\ norm_obs m = Ok o
    /\ length s = ((1 + horizon m) * columns m)%nat
    /\ in_range (m_obs m) (VA s) /\ in_unit o
    /\ forall k row, m_cur m = Z.of_nat k -> data_at m k = Some row ->
         length row = columns m /\ firstn (columns m) s = row.
Proof.
  intros RE IT. pose proof (reachable_ok _ RE) as OK. unfold is_ts in IT.
  destruct (kind_ts (m_kind m)) as [t|] eqn:T; [|congruence]. clear IT.
  destruct (ts_state _ _ OK T) as (r & S & RI & D & FF & LR & L).
  destruct (kind_ok_ts _ _ (mo_kind _ OK) T) as ((TO & CU & OB) & KC).
  destruct (state_in_box t r _ RI FF) as [B1 B2].
  assert (IR : in_range (m_obs m) (VA (r ++ concat (fc_view t)))).
  { rewrite OB. split; assumption. }
  assert (FI : fits (m_obs m) (VA (r ++ concat (fc_view t)))).
  { unfold fits. simpl. destruct IR as [I1 _]. symmetry. exact (Forall2_length _ _ _ I1). }
  eexists _, _. split; [exact S|].
  assert (NO : norm_obs m = normalize (m_obs m) (VA (r ++ concat (fc_view t)))).
  { unfold norm_obs. rewrite S. reflexivity. }
  split; [rewrite NO; apply normalize_eq; exact FI|].
  unfold horizon. rewrite T. conj; auto.
  - unfold in_unit. rewrite entries_item. destruct IR as [I1 I2]. apply norm_range; auto.
    + assert (X : forall lo x hi : list Q, Forall2 Qle lo x -> Forall2 Qle x hi -> Forall2 Qle lo hi).
      { intros lo x hi X. revert hi. induction X; intros hi Y; inversion Y; subst; constructor; auto; lra. }
      exact (X _ _ _ I1 I2).
  - intros k row C DA. unfold data_at, series in DA. rewrite T in DA.
    assert (E : r = row). { apply D. unfold ts_row. rewrite C, py_nth_nat. exact DA. }
    rewrite <- E. split; [exact LR|]. rewrite firstn_app, LR, Nat.sub_diag, firstn_O, app_nil_r.
    rewrite <- LR. apply firstn_all.
Qed.

(** ** Forecasts *)
Lemma built_ts_built fp h m : built_ts fp h m -> built m.
Proof.
  intros []; [eapply built_load|eapply built_renewable|eapply built_grid]; eassumption.
Qed.

Lemma built_ts_data fp h m0 : built_ts fp h m0 ->
  exists t, kind_ts (m_kind m0) = Some t /\ fc_for fp (fc_kind (ts_fc t))
    /\ ts_horizon t = (if fparam_given fp then h else 0%nat).
Proof.
  intros [].
  - destruct (new_load_ok _ _ _ _ _ _ _ _ _ H H0) as (t & -> & _ & _ & _ & _ & L & F & _).
    exists t. auto.
  - destruct (new_renewable_ok _ _ _ _ _ _ _ _ _ _ H H0) as (t & lo & hi & -> & _ & _ & _ & _ & L & F & _).
    exists t. auto.
  - destruct (new_grid_ok _ _ _ _ _ _ _ _ _ _ _ _ _ H) as (t & -> & _ & _ & _ & L & F).
    exists t. auto.
Qed.

Lemma play_ts_data fp h m0 cs m : built_ts fp h m0 -> m = fst (play cs m0) ->
  mod_ok m /\ mod_same m0 m /\ exists t, kind_ts (m_kind m) = Some t /\ fc_for fp (fc_kind (ts_fc t))
    /\ ts_horizon t = (if fparam_given fp then h else 0%nat).
Proof.
  intros B ->. destruct (play_good cs m0 (built_ok _ (built_ts_built _ _ _ B))) as [S OK].
  split; [exact OK|]. split; [exact S|].
  destruct (built_ts_data _ _ _ B) as (t & T & F & H).
  pose proof (kind_same_ts _ _ (sm_kind _ _ S)) as K. rewrite T in K.
  destruct (kind_ts (m_kind (fst (play cs m0)))) as [t'|]; [|tauto].
  exists t'. split; [reflexivity|]. rewrite (same_horizon _ _ K). split; [|exact H].
  destruct (same_fc _ _ K) as (k & SK & ->). exact (fc_for_same _ _ _ SK F).
Qed.

Lemma firstn_repeat_concat {A} (l : list A) n : firstn (length l) (concat (repeat l (S n))) = l.
Proof. simpl. rewrite firstn_app, Nat.sub_diag, firstn_O, app_nil_r. apply firstn_all. Qed.

Lemma low_high_row m t : kind_ok m -> kind_ts (m_kind m) = Some t ->
  low_row m = ts_minobs t /\ high_row m = ts_maxobs t.
Proof.
  intros K T. destruct (kind_ok_ts _ _ K T) as ((TO & CU & OB) & KC).
  unfold low_row, high_row. rewrite OB. unfold ts_obs_space. cbn [sp_low sp_high].
  rewrite (kind_ok_cols _ _ K T). split.
  - rewrite <- (ok_min t TO). apply firstn_repeat_concat.
  - rewrite <- (ok_max t TO). apply firstn_repeat_concat.
Qed.

Lemma mid_row_eq lo : forall hi, mid_row lo hi = midrow lo hi.
Proof.
  unfold mid_row, midrow. induction lo as [|l lo IH]; intros [|x hi]; simpl; try reflexivity.
  unfold mid_row in IH. rewrite IH. reflexivity.
Qed.

Lemma kind_set_ts_series (m : module Q) t t' : kind_ts (m_kind m) = Some t ->
  kind_ts (kind_set_ts (m_kind m) t') = Some t'.
Proof. destruct (m_kind m); simpl; intros E; try discriminate; reflexivity. Qed.

Lemma C19_lemma fp h m0 cs m m' r :
  built_ts fp h m0 -> m = fst (play cs m0) -> module_forecast m = (m', r) ->
  series m' = series m
  /\ match r with
     | Ok (Some f) => length f = (if fparam_given fp then h else 0%nat)
                      /\ Forall (row_within (low_row m) (high_row m)) f
     | Ok None => fp = FPNone
     | Err _ => exists u, fp = FPUser u
     end.
Proof.
  intros B E F. destruct (play_ts_data _ _ _ _ _ B E) as (OK & _ & t & T & FK & HZ).
  destruct (kind_ok_ts _ _ (mo_kind _ OK) T) as ((TO & CU & OB) & KC).
  destruct (low_high_row _ _ (mo_kind _ OK) T) as [LR HR].
  unfold module_forecast in F. rewrite T in F.
  destruct (ts_forecast (m_cur m) t) as [t' x] eqn:TF. inversion F; subst m' r. clear F.
  destruct (ts_forecast_ok t TO _ _ _ TF) as (S & _ & P). split.
  - unfold series. cbn [m_kind set_kind]. rewrite (kind_set_ts_series _ _ _ T), T.
    apply (same_rows _ _ S).
  - destruct x as [[f|]|e].
    + destruct P as [P1 P2]. rewrite LR, HR.
      split; [congruence|exact P2].
    + destruct fp; simpl in FK; try reflexivity; rewrite P in FK; try discriminate.
      * destruct FK as (? & ? & ? & C); discriminate.
      * destruct FK as (? & C); discriminate.
    + destruct P as (vec & u & P). destruct fp; simpl in FK; try congruence.
      * destruct FK as (? & ? & ? & C). congruence.
      * eauto.
Qed.

Lemma py_slice_nat {A} (l : list A) a b : (a <= b)%nat ->
  py_slice l (Z.of_nat a) (Z.of_nat b) = firstn (b - a) (skipn a l).
Proof.
  intros L. unfold py_slice, py_clamp.
  replace (Z.of_nat a <? 0)%Z with false by (symmetry; apply Z.ltb_ge; lia).
  replace (Z.of_nat b <? 0)%Z with false by (symmetry; apply Z.ltb_ge; lia).
  rewrite <- !Nat2Z.inj_min, !Nat2Z.id.
  destruct (Nat.le_gt_cases (length l) a) as [G|G].
  - rewrite Nat.min_r by lia. rewrite (skipn_all2 l) by lia. rewrite (skipn_all2 l) by lia.
    rewrite !firstn_nil. reflexivity.
  - rewrite (Nat.min_l a) by lia. destruct (Nat.le_gt_cases (length l) b) as [G2|G2].
    + rewrite Nat.min_r by lia. rewrite !firstn_all2; rewrite ?skipn_length; try lia. reflexivity.
    + rewrite Nat.min_l by lia. reflexivity.
Qed.

Lemma nth_error_skipn' {A} n : forall (l : list A) j, nth_error (skipn n l) j = nth_error l (n + j).
Proof. induction n as [|n IH]; intros [|x l] j; simpl; try reflexivity; [destruct j; reflexivity|apply IH]. Qed.
Lemma nth_error_firstn' {A} n : forall (l : list A) j, (j < n)%nat -> nth_error (firstn n l) j = nth_error l j.
Proof.
  induction n as [|n IH]; intros [|x l] [|j] L; simpl; try reflexivity; try lia. apply IH. lia.
Qed.
Lemma nth_error_repeat' {A} (x : A) n : forall j, (j < n)%nat -> nth_error (repeat x n) j = Some x.
Proof. induction n as [|n IH]; intros [|j] L; simpl; try reflexivity; try lia. apply IH. lia. Qed.

(** Entries of a padded slice of the data. *)
Lemma padded_nth (rows : list (list Q)) k h pad j : (j < h)%nat ->
  nth_error (firstn h (skipn k rows) ++ repeat pad (h - length (firstn h (skipn k rows)))) j
  = Some (match nth_error rows (k + j) with Some r => r | None => pad end).
Proof.
  intros J. set (fut := firstn h (skipn k rows)).
  destruct (nth_error rows (k + j)) as [r|] eqn:N.
  - assert (X : nth_error fut j = Some r).
    { unfold fut. rewrite nth_error_firstn' by exact J. rewrite nth_error_skipn'. exact N. }
    rewrite nth_error_app1; [exact X|]. apply nth_error_Some. congruence.
  - apply nth_error_None in N.
    assert (LF : (length fut <= j)%nat).
    { unfold fut. rewrite firstn_length, skipn_length. lia. }
    rewrite nth_error_app2 by exact LF. apply nth_error_repeat'. lia.
Qed.

Lemma C20_lemma h m0 cs m k :
  built_ts FPOracle h m0 -> m = fst (play cs m0) -> m_cur m = Z.of_nat k ->
  exists m' f, module_forecast m = (m', Ok (Some f)) /\ length f = h
    /\ forall j, (j < h)%nat ->
         nth_error f j = Some (match data_at m (k + 1 + j) with
                               | Some row => row
                               | None => mid_row (low_row m) (high_row m)
                               end).
Proof.
  intros B E C. destruct (play_ts_data _ _ _ _ _ B E) as (OK & _ & t & T & FK & HZ).
  destruct (kind_ok_ts _ _ (mo_kind _ OK) T) as ((TO & CU & OB) & KC).
  destruct (low_high_row _ _ (mo_kind _ OK) T) as [LR HR].
  simpl in FK, HZ. unfold module_forecast. rewrite T.
  destruct (ts_forecast (m_cur m) t) as [t' x] eqn:TF.
  destruct (ts_forecast_ok t TO _ _ _ TF) as (S & _ & P).
  destruct x as [[f|]|e].
  2:{ congruence. }
  2:{ destruct P as (v & u & P). congruence. }
  eexists _, f. split; [reflexivity|]. destruct P as [P1 P2]. split; [congruence|].
  rewrite LR, HR, mid_row_eq. unfold data_at, series. rewrite T.
  intros j J. unfold ts_forecast in TF. rewrite C in TF. unfold ts_row in TF. rewrite py_nth_nat in TF.
  destruct (nth_error (ts_rows t) k) as [vc|] eqn:RW.
  - destruct (future_ok t TO (Z.of_nat k)) as [F1 F2].
    destruct (fc_call (ts_fc t) vc (ts_future t (Z.of_nat k)) (ts_horizon t)) as [kk y] eqn:FC.
    destruct (fc_call_ok t TO _ _ _ _ F1 F2 FC) as [_ PP].
    destruct y as [[[mm v]|]|]; [| |]; inversion TF; subst mm.
    destruct PP as (_ & _ & PO & _). rewrite (PO FK).
    unfold ts_future. replace (1 + Z.of_nat k)%Z with (Z.of_nat (k + 1)) by lia.
    replace (Z.of_nat (k + 1) + Z.of_nat (ts_horizon t))%Z with (Z.of_nat (k + 1 + ts_horizon t)) by lia.
    rewrite py_slice_nat by lia.
    replace (k + 1 + ts_horizon t - (k + 1))%nat with (ts_horizon t) by lia.
    rewrite padded_nth by lia. reflexivity.
  - unfold fc_full_pad in TF. rewrite (fc_pad_ok t TO) in TF by (simpl; lia). simpl in TF.
    apply pair_equal_spec in TF. destruct TF as [_ TF].
    apply (f_equal (fun x => match x with Ok (Some y) => y | _ => [] end)) in TF. subst f.
    rewrite Nat.sub_0_r.
    assert (N : nth_error (ts_rows t) (k + 1 + j) = None).
    { apply nth_error_None. apply nth_error_None in RW. lia. }
    rewrite N. apply nth_error_repeat'. lia.
Qed.
