(** * Lemmas behind the properties of single modules *)

From Coq Require Import ZArith QArith Qabs Bool String List Lia Lqa.
From Verif Require Import Num Py Space Logger Forecast Module
  Proofs_Num Proofs_Logger Spec_Module Spec_Reach Spec_Genset Proofs_Module Proofs_Space Proofs_Battery
  Proofs_Genset Proofs_Ts Proofs_Any Proofs_Request Proofs_Data Proofs_Setters Proofs_Classes.
Import ListNotations.
Local Open Scope string_scope.
Local Open Scope list_scope.
Local Open Scope Q_scope.

(** ** Construction from a series *)
Lemma mk_forecaster_total k lo hi h c : (0 < c)%nat -> length lo = c -> length hi = c ->
  exists fc, mk_forecaster k (mkSpace (concat (repeat lo (S h))) (concat (repeat hi (S h)))) h c = @Ok (forecaster Q) fc.
Proof.
  intros CP LL LH. unfold mk_forecaster. cbn [sp_low sp_high].
  rewrite <- LL. rewrite shaped_bounds_repeat by lia. cbn [rbind].
  rewrite LL, <- LH. rewrite shaped_bounds_repeat by lia. cbn [rbind]. eexists. reflexivity.
Qed.

Lemma get_forecaster_total fp lo hi h c ts inc rnd : (0 < c)%nat -> length lo = c -> length hi = c ->
  ~ asks_user fp ->
  exists fc, get_forecaster fp (mkSpace (concat (repeat lo (S h))) (concat (repeat hi (S h)))) h c ts inc rnd
             = @Ok (forecaster Q) fc.
Proof.
  intros CP LL LH NU. unfold get_forecaster. destruct fp; try (apply mk_forecaster_total; assumption).
  exfalso. apply NU. eexists. reflexivity.
Qed.

Lemma new_ts_accepts mk src snk comps bounds act (rows : list (list Q)) fp horizon inc initial final re prov abs rnd ts bds :
  (0 < length comps)%nat -> ~ asks_user fp ->
  set_time_series src snk rows = Ok ts -> bounds ts = Ok bds ->
  length (fst bds) = length comps -> Forall2 Qle (fst bds) (snd bds) ->
  Forall (row_in (fst bds) (snd bds)) ts ->
  exists m, new_ts mk src snk comps bounds act rows fp horizon inc initial final re prov abs rnd = Ok m.
Proof.
  intros CP NU E1 E2 L O R. unfold new_ts. rewrite E1. cbn [rbind]. rewrite E2. cbn [rbind].
  set (h := if fparam_given fp then horizon else 0%nat).
  assert (LH : length (snd bds) = length comps) by (rewrite <- (Forall2_length _ _ _ O); exact L).
  assert (GV : fparam_given fp = true \/ h = 0%nat).
  { unfold h. destruct (fparam_given fp); auto. }
  match goal with |- context [get_forecaster fp ?s h ?c ?x inc rnd] =>
    destruct (get_forecaster_total fp (fst bds) (snd bds) h c x inc rnd CP L LH NU) as (fc & GF) end.
  rewrite GF. cbn [rbind].
  destruct (get_forecaster_ok _ _ _ _ _ _ _ _ _ CP L LH GV GF) as (F1 & F2 & F3 & F4 & F5 & F6 & F7).
  match goal with |- context [ts_refresh initial ?t0] => set (t := t0) end.
  assert (OK : ts_ok t) by (constructor; simpl; auto).
  destruct (ts_refresh initial t) as [t' r] eqn:RF.
  destruct (ts_refresh_ok t OK _ _ _ RF) as (SM & P). destruct r as [u|e]; [eexists; reflexivity|].
  destruct P as ((vec & f & K) & _). exfalso. apply NU. simpl in K.
  destruct fp; simpl in F7; try (rewrite F7 in K; discriminate).
  - destruct F7 as (s & d & c0 & F7). rewrite F7 in K. discriminate.
  - eexists. reflexivity.
Qed.

Lemma all_pos_b rows : all_nonneg rows <-> forallb (forallb (fun x => Qle_bool 0 x)) rows = true.
Proof.
  unfold all_nonneg. rewrite forallb_forall. rewrite Forall_forall. split; intros H r I; specialize (H r I).
  - rewrite forallb_forall. rewrite Forall_forall in H. intros x J. apply Qleb_le. auto.
  - rewrite forallb_forall in H. rewrite Forall_forall. intros x J. apply Qleb_le. auto.
Qed.
Lemma all_neg_b rows : all_nonpos rows <-> forallb (forallb (fun x => Qle_bool x 0)) rows = true.
Proof.
  unfold all_nonpos. rewrite forallb_forall. rewrite Forall_forall. split; intros H r I; specialize (H r I).
  - rewrite forallb_forall. rewrite Forall_forall in H. intros x J. apply Qleb_le. auto.
  - rewrite forallb_forall in H. rewrite Forall_forall. intros x J. apply Qleb_le. auto.
Qed.

Lemma magnitude_map (sign : Q -> Prop) f (rows : list (list Q)) :
  (forall x, Qabs (f x) == Qabs x /\ sign (f x)) -> same_magnitude sign rows (map (map f) rows).
Proof.
  intros F. induction rows as [|r rows IH]; constructor; [|exact IH].
  induction r; constructor; auto.
Qed.

Lemma abs_abs x : Qabs (Qabs x) == Qabs x /\ 0 <= Qabs x.
Proof. split; [apply Qabs_pos|]; apply Qabs.Qabs_nonneg. Qed.
Lemma abs_opp x : Qabs (- Qabs x) == Qabs x /\ - Qabs x <= 0.
Proof.
  pose proof (Qabs.Qabs_nonneg x). rewrite Qabs_opp. split; [apply Qabs_pos; assumption|lra].
Qed.

(** C16 *)
Lemma C16_load_lemma rows fp h inc initial final re rnd m cs :
  single_column rows -> new_load rows fp h inc initial final re rnd = Ok m ->
  (all_nonneg rows \/ all_nonpos rows)
  /\ same_magnitude (fun y => y <= 0) rows (series m)
  /\ series (fst (play cs m)) = series m.
Proof.
  intros SC E. destruct (new_load_ok _ _ _ _ _ _ _ _ _ SC E) as (t & M & OK & _ & R & _ & _ & _ & SG).
  split; [|split].
  - rewrite all_pos_b, all_neg_b. tauto.
  - unfold series. rewrite M. simpl. rewrite R. apply (magnitude_map _ (fun x => - Qabs x)).
    exact abs_opp.
  - apply same_series. apply play_good. exact OK.
Qed.
Lemma C16_renewable_lemma rows fp h inc initial final re prov rnd m cs :
  single_column rows -> new_renewable rows fp h inc initial final re prov rnd = Ok m ->
  (all_nonneg rows \/ all_nonpos rows)
  /\ same_magnitude (fun y => 0 <= y) rows (series m)
  /\ series (fst (play cs m)) = series m.
Proof.
  intros SC E. destruct (new_renewable_ok _ _ _ _ _ _ _ _ _ _ SC E) as (t & lo & hi & M & OK & _ & R & _ & _ & _ & SG).
  split; [|split].
  - rewrite all_pos_b, all_neg_b. tauto.
  - unfold series. rewrite M. simpl. rewrite R. apply (magnitude_map _ Qabs). exact abs_abs.
  - apply same_series. apply play_good. exact OK.
Qed.

Lemma single_rect rows : single_column rows -> rectangular rows = true.
Proof.
  intros S. unfold rectangular. destruct rows as [|r rows]; [reflexivity|]. apply forallb_forall.
  intros x I. unfold single_column in S. rewrite Forall_forall in S. rewrite (S x I), (S r (or_introl eq_refl)).
  reflexivity.
Qed.
Lemma mixed_not rows x y : In x (concat rows) -> In y (concat rows) -> x < 0 -> 0 < y ->
  ~ all_nonneg rows /\ ~ all_nonpos rows.
Proof.
  intros I J X Y. apply in_concat in I. destruct I as (r & R & I). apply in_concat in J.
  destruct J as (r' & R' & J). unfold all_nonneg, all_nonpos. rewrite !Forall_forall.
  split; intros H.
  - specialize (H r R). rewrite Forall_forall in H. specialize (H x I). lra.
  - specialize (H r' R'). rewrite Forall_forall in H. specialize (H y J). lra.
Qed.
Lemma C16_mixed_lemma rows x y fp h inc initial final re prov rnd :
  single_column rows -> In x (concat rows) -> In y (concat rows) -> x < 0 -> 0 < y ->
  raises ValueError (new_load rows fp h inc initial final re rnd)
  /\ raises ValueError (new_renewable rows fp h inc initial final re prov rnd).
Proof.
  intros SC I J X Y. destruct (mixed_not _ _ _ I J X Y) as [N P].
  assert (B : forallb (forallb (fun x => nleb x n0)) rows || forallb (forallb (fun x => nleb n0 x)) rows = false).
  { apply orb_false_iff. split; apply not_true_is_false; intros C; [apply P, all_neg_b|apply N, all_pos_b]; exact C. }
  split; unfold new_load, new_renewable, new_ts, set_time_series, sign_check; rewrite (single_rect _ SC);
    simpl andb; cbv iota; rewrite B; simpl; eexists; split; reflexivity.
Qed.

Lemma sign_check_accepts src snk (rows : list (list Q)) : rectangular rows = true ->
  (src = false \/ snk = false) -> (all_nonneg rows \/ all_nonpos rows) ->
  exists f, set_time_series src snk rows = Ok (map (map f) rows).
Proof.
  intros R NB SG. unfold set_time_series. rewrite R. unfold sign_check.
  assert (B : src && snk = false) by (destruct NB as [-> | ->]; [reflexivity|apply andb_false_r]). rewrite B.
  assert (C : forallb (forallb (fun x => nleb x n0)) rows || forallb (forallb (fun x => nleb n0 x)) rows = true).
  { apply orb_true_iff. rewrite all_pos_b, all_neg_b in SG. tauto. }
  rewrite C. simpl. destruct src; eexists; reflexivity.
Qed.
Lemma bounds1_accepts (rows : list (list Q)) : single_column rows -> rows <> [] -> exists b, bounds1 rows = Ok b.
Proof.
  intros SC NE. unfold bounds1, get_bounds1. destruct rows as [|r rows]; [congruence|].
  inversion SC as [|? ? L]; subst. destruct r as [|x [|]]; try discriminate. simpl.
  unum. destruct (Qltb 0 (fold_left nmin (concat rows) x)); [eexists; reflexivity|].
  destruct (Qltb (fold_left nmax (concat rows) x) 0); eexists; reflexivity.
Qed.
Lemma C16_accepts_lemma rows fp h inc initial final re prov rnd :
  single_column rows -> rows <> [] -> (all_nonneg rows \/ all_nonpos rows) -> ~ asks_user fp ->
  (exists m, new_load rows fp h inc initial final re rnd = Ok m)
  /\ (exists m, new_renewable rows fp h inc initial final re prov rnd = Ok m).
Proof.
  intros SC NE SG NU.
  assert (G : forall src snk, (src = false \/ snk = false) -> exists ts bds,
     set_time_series src snk rows = Ok ts /\ bounds1 ts = Ok bds
     /\ length (fst bds) = 1%nat /\ Forall2 Qle (fst bds) (snd bds) /\ Forall (row_in (fst bds) (snd bds)) ts).
  { intros src snk NB. destruct (sign_check_accepts src snk rows (single_rect _ SC) NB SG) as (f & E).
    assert (SC' : single_column (map (map f) rows)) by (apply widths_map; exact SC).
    destruct (bounds1_accepts (map (map f) rows) SC') as (b & B).
    { destruct rows; [congruence|discriminate]. }
    exists (map (map f) rows), b. split; [exact E|]. split; [exact B|]. exact (bounds1_ok _ _ SC' B). }
  split.
  - destruct (G false true) as (ts & bds & E1 & E2 & L & O & R); [auto|].
    unfold new_load. eapply new_ts_accepts; eauto.
  - destruct (G true false) as (ts & bds & E1 & E2 & L & O & R); [auto|].
    unfold new_renewable. eapply new_ts_accepts; eauto.
Qed.

(** ** What a module of each class looks like after any calls *)
Lemma load_after rows fp h inc initial final re rnd m0 cs m :
  single_column rows -> new_load rows fp h inc initial final re rnd = Ok m0 -> m = fst (play cs m0) ->
  exists t, m_kind m = KLoad t /\ mod_ok m /\ ts_rows t = map (map (fun x => - Qabs x)) rows
    /\ m_raise m = re /\ fc_for fp (fc_kind (ts_fc t)).
Proof.
  intros SC E ->. destruct (new_load_ok _ _ _ _ _ _ _ _ _ SC E) as (t & M & OK & _ & R & _ & _ & FF & _).
  destruct (play_good cs m0 OK) as [S OK']. pose proof (sm_kind _ _ S) as KS. assert (M0 : m_kind m0 = KLoad t) by (rewrite M; reflexivity). rewrite M0 in KS. simpl in KS.
  destruct (m_kind (fst (play cs m0))) as [b'|g'|g' t'|t'|t'|u'] eqn:K; try contradiction.
  exists t'. split; [reflexivity|]. split; [exact OK'|]. split; [rewrite (same_rows _ _ KS); exact R|].
  split; [rewrite (sm_raise _ _ S), M; reflexivity|].
  destruct (same_fc _ _ KS) as (k & SK & ->). exact (fc_for_same _ _ _ SK FF).
Qed.
Lemma renewable_after rows fp h inc initial final re prov rnd m0 cs m :
  single_column rows -> new_renewable rows fp h inc initial final re prov rnd = Ok m0 -> m = fst (play cs m0) ->
  exists t, m_kind m = KRenewable t /\ mod_ok m /\ ts_rows t = map (map Qabs) rows
    /\ m_raise m = re /\ fc_for fp (fc_kind (ts_fc t)).
Proof.
  intros SC E ->. destruct (new_renewable_ok _ _ _ _ _ _ _ _ _ _ SC E)
    as (t & lo & hi & M & OK & _ & R & _ & _ & FF & _).
  destruct (play_good cs m0 OK) as [S OK']. pose proof (sm_kind _ _ S) as KS. assert (M0 : m_kind m0 = KRenewable t) by (rewrite M; reflexivity). rewrite M0 in KS. simpl in KS.
  destruct (m_kind (fst (play cs m0))) as [b'|g'|g' t'|t'|t'|u'] eqn:K; try contradiction.
  exists t'. split; [reflexivity|]. split; [exact OK'|]. split; [rewrite (same_rows _ _ KS); exact R|].
  split; [rewrite (sm_raise _ _ S), M; reflexivity|].
  destruct (same_fc _ _ KS) as (k & SK & ->). exact (fc_for_same _ _ _ SK FF).
Qed.
Lemma grid_after mi me rows fp h inc initial final cc re gt rnd m0 cs m :
  new_grid mi me rows fp h inc initial final cc re gt rnd = Ok m0 -> m = fst (play cs m0) ->
  exists t, m_kind m = KGrid (mkGrid mi me cc gt) t /\ mod_ok m /\ ts_rows t = grid_rows rows
    /\ m_raise m = re /\ fc_for fp (fc_kind (ts_fc t)).
Proof.
  intros E ->. destruct (new_grid_ok _ _ _ _ _ _ _ _ _ _ _ _ _ E) as (t & M & OK & R & _ & _ & FF).
  destruct (play_good cs m0 OK) as [S OK']. pose proof (sm_kind _ _ S) as KS. assert (M0 : m_kind m0 = KGrid (mkGrid mi me cc gt) t) by (rewrite M; reflexivity). rewrite M0 in KS. simpl in KS.
  destruct (m_kind (fst (play cs m0))) as [b'|g'|g' t'|t'|t'|u'] eqn:K; try contradiction. destruct KS as [-> KS].
  exists t'. split; [reflexivity|]. split; [exact OK'|]. split; [rewrite (same_rows _ _ KS); exact R|].
  split; [rewrite (sm_raise _ _ S), M; reflexivity|].
  destruct (same_fc _ _ KS) as (k & SK & ->). exact (fc_for_same _ _ _ SK FF).
Qed.
Lemma not_user (m : module Q) t fp : kind_ts (m_kind m) = Some t -> fc_for fp (fc_kind (ts_fc t)) ->
  ~ asks_user fp -> ~ user_forecaster m.
Proof.
  intros T F NU (t' & vec & f & T' & K). rewrite T in T'. inversion T'; subst t'. rewrite K in F.
  destruct fp; simpl in F; try discriminate.
  - destruct F as (s & d & c & F). discriminate.
  - apply NU. eexists. reflexivity.
Qed.
Lemma row_at (t : tsdata Q) (f : Q -> Q) rows k x :
  ts_rows t = map (map f) rows -> nth_error rows k = Some [x] -> ts_row t (Z.of_nat k) = Some [f x].
Proof.
  intros R N. unfold ts_row. rewrite py_nth_nat, R. rewrite (map_nth_error _ _ _ N). reflexivity.
Qed.

(** C25 *)
Lemma C25_load_lemma rows fp h inc initial final re rnd m0 cs m k x :
  single_column rows -> new_load rows fp h inc initial final re rnd = Ok m0 -> m = fst (play cs m0) ->
  m_cur m = Z.of_nat k -> nth_error rows k = Some [x] ->
  (forall a n m' o, step a n m = (m', Ok o) ->
     absorbed (info_of o) == Qabs x /\ dget "provided_energy" (info_of o) = None /\ reward_of o == 0)
  /\ (~ asks_user fp ->
      (exists m' o, step (VA []) false m = (m', Ok o))
      /\ (exists m' o, step (VA []) true m = (m', Ok o))
      /\ forall e, e <= 0 -> exists m' o, step (VS e) false m = (m', Ok o))
  /\ (forall e, 0 < e -> raises AssertionError (snd (step (VS e) false m))).
Proof.
  intros SC E M CU N. destruct (load_after _ _ _ _ _ _ _ _ _ _ _ SC E M) as (t & K & OK & R & _ & FF).
  pose proof (row_at t _ _ _ _ R N) as RW. rewrite <- CU in RW.
  assert (NG : is_genset (m_kind m) = false) by (rewrite K; reflexivity).
  assert (MA : m_act m = Some (mkSpace [] [])).
  { pose proof (mo_kind _ OK) as KO. unfold kind_ok in KO. rewrite K in KO. tauto. }
  split; [|split].
  - intros a n m' o S. destruct (step_asked _ _ _ _ _ OK NG S) as (da & e & m1 & _ & _ & U).
    destruct (request_load m t _ e K RW) as [A B]. destruct (Qlt_le_dec 0 e) as [P|P].
    + destruct (B P) as (ex & C & _). congruence.
    + rewrite (A P) in U. inversion U as [[M1 RWD DN IN]]. clear U. try rewrite <- RWD. unfold absorbed. simpl.
      split; [rewrite mul_m1; ring|]. split; reflexivity.
  - intros NU.
    assert (NUF : ~ user_forecaster m) by (apply (not_user m t fp); [rewrite K; reflexivity|exact FF|exact NU]).
    destruct (request_load m t _ 0 K RW) as [A _]. specialize (A ltac:(lra)).
    split; [|split].
    + destruct (empty_served m m false _ _ _ OK NUF NG (or_introl eq_refl) A) as (m' & o & S).
      exists m'. eexists. exact S.
    + destruct (empty_served m m true _ _ _ OK NUF NG (or_intror MA) A) as (m' & o & S).
      exists m'. eexists. exact S.
    + intros e P. destruct (request_load m t _ e K RW) as [A' _]. specialize (A' P).
      destruct (scalar_served _ _ _ _ _ _ OK NUF NG A') as (m' & o & S).
      exists m'. eexists. exact S.
  - intros e P. destruct (request_load m t _ e K RW) as [_ B]. destruct (B P) as (ex & U & X).
    destruct (step (VS e) false m) as [m' r] eqn:S. destruct (scalar_step _ _ _ _ NG S) as [(ex' & C & _)|H].
    + destruct (state_dict_ok m (mo_kind _ OK)) as (sd & D & _). congruence.
    + destruct H as (m1 & r1 & U' & H). rewrite U in U'. inversion U'; subst. destruct H as [_ ->].
      simpl. exists ex. auto.
Qed.

Lemma C25_renewable_lemma rows fp h inc initial final re prov rnd m0 cs m k x :
  single_column rows -> new_renewable rows fp h inc initial final re prov rnd = Ok m0 -> m = fst (play cs m0) ->
  m_cur m = Z.of_nat k -> nth_error rows k = Some [x] ->
  (forall a n m' o, step a n m = (m', Ok o) ->
     let used := provided (info_of o) in
     0 <= used /\ used <= Qabs x /\ dget "absorbed_energy" (info_of o) = None
     /\ reports (info_of o) "curtailment" (Qabs x - used) /\ reward_of o == 0)
  /\ (~ asks_user fp -> forall e, 0 <= e -> (re = true -> e <= Qabs x) ->
       exists m' o, step (VS e) false m = (m', Ok o) /\ provided (info_of o) == clip 0 (Qabs x) e)
  /\ (forall e, re = true -> Qabs x < e -> raises ValueError (snd (step (VS e) false m)))
  /\ (forall e, e < 0 -> raises TypeError (snd (step (VS e) false m))).
Proof.
  intros SC E M CU N. destruct (renewable_after _ _ _ _ _ _ _ _ _ _ _ _ SC E M) as (t & K & OK & R & RA & FF).
  pose proof (row_at t _ _ _ _ R N) as RW. rewrite <- CU in RW.
  assert (NG : is_genset (m_kind m) = false) by (rewrite K; reflexivity).
  assert (AP : 0 <= Qabs x) by apply Qabs.Qabs_nonneg.
  assert (FAIL : forall e ex, unnormalized_step e m = (m, Err ex) -> snd (step (VS e) false m) = Err ex).
  { intros e ex U. destruct (step (VS e) false m) as [m' r] eqn:S.
    destruct (scalar_step _ _ _ _ NG S) as [(ex' & C & _)|H].
    + destruct (state_dict_ok m (mo_kind _ OK)) as (sd & D & _). congruence.
    + destruct H as (m1 & r1 & U' & H). rewrite U in U'. inversion U'; subst. destruct H as [_ ->]. reflexivity. }
  split; [|split; [|split]].
  - intros a n m' o S. destruct (step_asked _ _ _ _ _ OK NG S) as (da & e & m1 & _ & _ & U).
    destruct (request_renewable m t _ e K RW AP) as (A & B & C).
    destruct (Qlt_le_dec e 0) as [P|P]; [destruct (C P) as (ex & D & _); congruence|].
    assert (RL : m_raise m = true -> e <= Qabs x).
    { intros TR. destruct (Qlt_le_dec (Qabs x) e) as [L|L]; [|exact L].
      destruct (B L TR) as (ex & D & _). congruence. }
    destruct (A P RL) as (p & U' & -> & P0 & P1). rewrite U' in U. inversion U as [[M1 RWD DN IN]].
    clear U. try rewrite <- RWD. unfold provided, reports. simpl.
    conj; try assumption; try reflexivity. eexists. split; reflexivity.
  - intros NU e P RL.
    assert (NUF : ~ user_forecaster m) by (apply (not_user m t fp); [rewrite K; reflexivity|exact FF|exact NU]).
    destruct (request_renewable m t _ e K RW AP) as (A & _). rewrite <- RA in RL.
    destruct (A P RL) as (p & U' & -> & P0 & P1).
    destruct (scalar_served _ _ _ _ _ _ OK NUF NG U') as (m' & o & S).
    exists m'. eexists. split; [exact S|]. reflexivity.
  - intros e RT L. rewrite <- RA in RT. destruct (request_renewable m t _ e K RW AP) as (_ & B & _).
    destruct (B L RT) as (ex & U & X). rewrite (FAIL _ _ U). exists ex. auto.
  - intros e L. destruct (request_renewable m t _ e K RW AP) as (_ & _ & C).
    destruct (C L) as (ex & U & X). rewrite (FAIL _ _ U). exists ex. auto.
Qed.

(** C23, C24 *)
Lemma grid_fail e ex (m : module Q) : mod_ok m -> is_genset (m_kind m) = false ->
  unnormalized_step e m = (m, Err ex) -> step (VS e) false m = (m, Err ex).
Proof.
  intros OK NG U. destruct (step (VS e) false m) as [m' r] eqn:S.
  destruct (scalar_step _ _ _ _ NG S) as [(ex' & C & _)|H].
  + destruct (state_dict_ok m (mo_kind _ OK)) as (sd & D & _). congruence.
  + destruct H as (m1 & r1 & U' & H). rewrite U in U'. inversion U'; subst. destruct H as [-> ->]. reflexivity.
Qed.

Lemma grid_step_cases mi me rows fp h inc initial final cc re gt rnd m0 cs m k p q c s a n m' o :
  new_grid mi me rows fp h inc initial final cc re gt rnd = Ok m0 -> m = fst (play cs m0) ->
  gt <> Fixed -> m_cur m = Z.of_nat k -> nth_error (grid_rows rows) k = Some [p; q; c; s] ->
  step a n m = (m', Ok o) ->
  exists e, (exists da, (if n then denorm_action m a else Ok a) = Ok da /\ pick_energy 0 da = Ok e)
  /\ 0 <= mi * s /\ 0 <= me * s
  /\ ((0 <= e /\ (re = true -> e <= mi * s)
        /\ dget "absorbed_energy" (info_of o) = None
        /\ provided (info_of o) = clip 0 (mi * s) e
        /\ reward_of o == - (p * provided (info_of o) + cc * (c * provided (info_of o)))
        /\ reports (info_of o) "co2_production" (c * provided (info_of o)))
      \/ (e < 0 /\ (re = true -> - e <= me * s)
        /\ dget "provided_energy" (info_of o) = None
        /\ absorbed (info_of o) == clip 0 (me * s) (- e)
        /\ reward_of o == q * absorbed (info_of o)
        /\ reports (info_of o) "co2_production" 0)).
Proof.
  intros E M NF CU N S. destruct (grid_after _ _ _ _ _ _ _ _ _ _ _ _ _ _ _ E M) as (t & K & OK & R & RA & FF).
  assert (RW : ts_row t (m_cur m) = Some [p; q; c; s]).
  { unfold ts_row. rewrite CU, py_nth_nat, R. exact N. }
  assert (NG : is_genset (m_kind m) = false) by (rewrite K; reflexivity).
  destruct (step_asked _ _ _ _ _ OK NG S) as (da & e & m1 & D & P & U).
  exists e. split; [eauto|].
  destruct (grid_limits _ _ _ _ _ _ _ OK K RW) as (S01 & P0 & Q0 & C0 & MI & ME & _). simpl in MI, ME.
  split; [destruct S01 as [Z|Z]; rewrite Z; lra|]. split; [destruct S01 as [Z|Z]; rewrite Z; lra|].
  destruct (request_grid m _ t p q c s e OK K NF RW) as (A & B & C). simpl in A, B, C.
  assert (RL : m_raise m = true -> e <= mi * s /\ - e <= me * s).
  { intros TR. split; [destruct (Qlt_le_dec (mi * s) e) as [L|L]|destruct (Qlt_le_dec (me * s) (- e)) as [L|L]]; try exact L;
      (destruct (C TR) as (ex & X & _); [tauto|congruence]). }
  rewrite <- RA. destruct (Qlt_le_dec e 0) as [L|L].
  - right. split; [exact L|]. split; [intros TR; apply RL; exact TR|].
    destruct (B L) as (rw & co & x & U' & X1 & X2 & X3); [intros TR; apply RL; exact TR|].
    rewrite U' in U. inversion U as [[M1 RWD DN IN]]. clear U. try rewrite <- RWD. unfold absorbed, reports. simpl.
    conj; try assumption; try reflexivity. eexists. split; [reflexivity|exact X3].
  - left. split; [exact L|]. split; [intros TR; apply RL; exact TR|].
    destruct (A L) as (rw & co & x & U' & X1 & X2 & X3); [intros TR; apply RL; exact TR|].
    rewrite U' in U. inversion U as [[M1 RWD DN IN]]. clear U. try rewrite <- RWD. unfold provided, reports. simpl.
    conj; try assumption; try reflexivity. eexists. split; [reflexivity|exact X3].
Qed.

Lemma clip_zero e : clip 0 0 e == 0.
Proof. unfold clip. destruct (Qlt_le_dec 0 e); [reflexivity|]. destruct (Qlt_le_dec e 0); lra. Qed.
Lemma clip_hi_proper lo h h' e : h == h' -> clip lo h e == clip lo h' e.
Proof.
  intros E. unfold clip. destruct (Qlt_le_dec h e), (Qlt_le_dec h' e), (Qlt_le_dec e lo); lra.
Qed.

Lemma absent_zero k (i : info Q) : dget k i = None -> match dget k i with Some e => e | None => 0 end = 0.
Proof. intros ->. reflexivity. Qed.

Lemma C23_lemma mi me rows fp h inc initial final cc re gt rnd m0 cs m k p q c s :
  new_grid mi me rows fp h inc initial final cc re gt rnd = Ok m0 -> m = fst (play cs m0) ->
  gt <> Fixed -> m_cur m = Z.of_nat k -> nth_error (grid_rows rows) k = Some [p; q; c; s] ->
  (s == 0 \/ s == 1)
  /\ (forall a n m' o, step a n m = (m', Ok o) ->
       provided (info_of o) <= mi /\ absorbed (info_of o) <= me
       /\ (s == 0 -> provided (info_of o) == 0 /\ absorbed (info_of o) == 0
                      /\ reward_of o == 0 /\ reports (info_of o) "co2_production" 0))
  /\ (s == 0 -> exists x y, max_production m = Ok (BFin x) /\ x == 0
                        /\ max_consumption m = Ok (BFin y) /\ y == 0)
  /\ (re = false -> ~ asks_user fp -> forall e, exists m' o, step (VS e) false m = (m', Ok o))
  /\ (re = true -> s == 0 -> forall e, ~ e == 0 -> raises ValueError (snd (step (VS e) false m))).
Proof.
  intros E M NF CU N. destruct (grid_after _ _ _ _ _ _ _ _ _ _ _ _ _ _ _ E M) as (t & K & OK & R & RA & FF).
  assert (RW : ts_row t (m_cur m) = Some [p; q; c; s]).
  { unfold ts_row. rewrite CU, py_nth_nat, R. exact N. }
  assert (NG : is_genset (m_kind m) = false) by (rewrite K; reflexivity).
  destruct (grid_limits _ _ _ _ _ _ _ OK K RW) as (S01 & P0 & Q0 & C0 & MI & ME & MP & MC). simpl in MI, ME, MP, MC.
  split; [exact S01|]. split; [|split; [|split]].
  - intros a n m' o S.
    destruct (grid_step_cases _ _ _ _ _ _ _ _ _ _ _ _ _ _ _ _ _ _ _ _ _ _ _ _ E M NF CU N S)
      as (e & _ & L1 & L2 & [(E0 & _ & AN & PV & RV & CO)|(E0 & _ & PN & AV & RV & CO)]).
    + assert (AZ : absorbed (info_of o) = 0) by (apply absent_zero; exact AN).
      pose proof (clip_between (mi * s) e L1) as [B1 B2]. simpl in B1, B2. rewrite <- PV in B1, B2.
      split; [destruct S01 as [Z|Z]; rewrite Z in B2; lra|]. split; [rewrite AZ; exact ME|].
      intros Z. assert (PZ : provided (info_of o) == 0) by (rewrite Z in B2; lra).
      split; [exact PZ|]. split; [rewrite AZ; reflexivity|]. split; [rewrite RV, PZ; ring|].
      destruct CO as (v & V1 & V2). exists v. split; [exact V1|]. rewrite V2, PZ. ring.
    + assert (PZ : provided (info_of o) = 0) by (apply absent_zero; exact PN).
      pose proof (clip_between (me * s) (- e) L2) as [B1 B2]. simpl in B1, B2. rewrite <- AV in B1, B2.
      split; [rewrite PZ; exact MI|]. split; [destruct S01 as [Z|Z]; rewrite Z in B2; lra|].
      intros Z. assert (AZ : absorbed (info_of o) == 0) by (rewrite Z in B2; lra).
      split; [rewrite PZ; reflexivity|]. split; [exact AZ|]. split; [rewrite RV, AZ; ring|exact CO].
  - intros Z. exists (mi * s), (me * s). split; [exact MP|]. split; [rewrite Z; ring|].
    split; [exact MC|]. rewrite Z. ring.
  - intros RF NU e.
    assert (NUF : ~ user_forecaster m) by (apply (not_user m t fp); [rewrite K; reflexivity|exact FF|exact NU]).
    destruct (request_grid m _ t p q c s e OK K NF RW) as (A & B & _).
    destruct (Qlt_le_dec e 0) as [L|L].
    + destruct (B L) as (rw & co & x & U & _); [congruence|].
      destruct (scalar_served _ _ _ _ _ _ OK NUF NG U) as (m' & o & S).
      exists m'. eexists. exact S.
    + destruct (A L) as (rw & co & x & U & _); [congruence|].
      destruct (scalar_served _ _ _ _ _ _ OK NUF NG U) as (m' & o & S).
      exists m'. eexists. exact S.
  - intros RT Z e NZ. destruct (request_grid m _ t p q c s e OK K NF RW) as (_ & _ & C). simpl in C.
    rewrite <- RA in RT. destruct (C RT) as (ex & U & X).
    + rewrite Z. destruct (Qlt_le_dec 0 e) as [L|L]; [left; lra|right]. 
      destruct (Qlt_le_dec e 0) as [L'|L']; [lra|]. exfalso. apply NZ. lra.
    + rewrite (grid_fail _ _ _ OK NG U). exists ex. auto.
Qed.

Lemma C24_lemma mi me rows fp h inc initial final cc re gt rnd m0 cs m k p q c s a n m' o :
  new_grid mi me rows fp h inc initial final cc re gt rnd = Ok m0 -> m = fst (play cs m0) ->
  gt <> Fixed -> m_cur m = Z.of_nat k -> nth_error (grid_rows rows) k = Some [p; q; c; s] ->
  step a n m = (m', Ok o) ->
  let imported := provided (info_of o) in
  let exported := absorbed (info_of o) in
  (0 <= imported /\ 0 <= exported /\ (imported == 0 \/ exported == 0))
  /\ reward_of o == - (p * imported + cc * (c * imported)) + q * exported
  /\ reports (info_of o) "co2_production" (c * imported)
  /\ forall e, a = VS e -> n = false ->
       imported == (if Qlt_le_dec e 0 then 0 else clip 0 (mi * s) e)
       /\ exported == (if Qlt_le_dec e 0 then clip 0 (me * s) (- e) else 0).
Proof.
  intros E M NF CU N S imported exported.
  destruct (grid_step_cases _ _ _ _ _ _ _ _ _ _ _ _ _ _ _ _ _ _ _ _ _ _ _ _ E M NF CU N S)
    as (e & (da & D & PK) & L1 & L2 & [(E0 & _ & AN & PV & RV & CO)|(E0 & _ & PN & AV & RV & CO)]).
  - assert (AZ : exported = 0) by (apply absent_zero; exact AN). rewrite AZ.
    pose proof (clip_between (mi * s) e L1) as [B1 B2]. simpl in B1, B2. rewrite <- PV in B1, B2.
    fold imported in B1, B2, RV, CO, PV |- *. split; [split; [exact B1|]; split; [lra|right; reflexivity]|].
    split; [rewrite RV; ring|]. split; [exact CO|].
    intros e' -> ->. simpl in D. inversion D; subst da. simpl in PK. inversion PK; subst e'.
    destruct (Qlt_le_dec e 0); [lra|]. rewrite PV. split; reflexivity.
  - assert (PZ : imported = 0) by (apply absent_zero; exact PN). rewrite PZ.
    pose proof (clip_between (me * s) (- e) L2) as [B1 B2]. simpl in B1, B2. rewrite <- AV in B1, B2.
    fold exported in B1, B2, RV, CO, AV |- *. split; [split; [lra|]; split; [exact B1|left; reflexivity]|].
    split; [rewrite RV; ring|]. split.
    + destruct CO as (v & V1 & V2). exists v. split; [exact V1|]. rewrite V2. ring.
    + intros e' -> ->. simpl in D. inversion D; subst da. simpl in PK. inversion PK; subst e'.
      destruct (Qlt_le_dec e 0); [|lra]. split; [reflexivity|exact AV].
Qed.

(** C26 *)
Lemma unbalanced_after re init l o cs m : m = fst (play cs (@new_unbalanced Q re init l o)) ->
  m_kind m = KUnbalanced (mkUnb l o) /\ mod_ok m /\ m_act m = None.
Proof.
  intros ->. pose proof (new_unbalanced_good re init l o) as OK.
  destruct (play_good cs _ OK) as [S OK']. pose proof (sm_kind _ _ S) as KS. simpl in KS.
  destruct (m_kind (fst (play cs (new_unbalanced re init l o)))) eqn:K; try contradiction.
  subst. split; [reflexivity|]. split; [exact OK'|]. exact (sm_act _ _ S).
Qed.

Lemma C26_lemma re init lossc overc cs m e :
  m = fst (play cs (@new_unbalanced Q re init lossc overc)) ->
  0 <= lossc -> 0 <= overc ->
  exists m' o, step (VS e) false m = (m', Ok o)
    /\ provided (info_of o) == (if Qlt_le_dec e 0 then 0 else e)
    /\ absorbed (info_of o) == (if Qlt_le_dec e 0 then - e else 0)
    /\ reward_of o == - (lossc * provided (info_of o) + overc * absorbed (info_of o))
    /\ reward_of o <= 0 /\ done_of o = false.
Proof.
  intros M LC OC. destruct (unbalanced_after _ _ _ _ _ _ M) as (K & OK & _).
  destruct (request_unbalanced m _ e K) as [A B]. simpl in A, B.
  assert (NUF : ~ user_forecaster m).
  { intros (t & vec & f & T & _). rewrite K in T. discriminate. }
  assert (NG : is_genset (m_kind m) = false) by (rewrite K; reflexivity).
  destruct (Qlt_le_dec e 0) as [L|L].
  - destruct (B L) as [C _]. assert (CP : 0 <= overc * - e) by (apply Qmult_le_0_compat; lra).
    specialize (C CP). destruct (scalar_served _ _ _ _ _ _ OK NUF NG C) as (m' & o & S).
    exists m'. eexists. split; [exact S|]. unfold provided, absorbed, reward_of, done_of. simpl.
    repeat split; lra.
  - destruct (A L) as [C _]. assert (CP : 0 <= lossc * e) by (apply Qmult_le_0_compat; lra).
    specialize (C CP). destruct (scalar_served _ _ _ _ _ _ OK NUF NG C) as (m' & o & S).
    exists m'. eexists. split; [exact S|]. unfold provided, absorbed, reward_of, done_of. simpl.
    repeat split; lra.
Qed.

Lemma C26_other_lemma re init lossc overc cs m :
  m = fst (play cs (@new_unbalanced Q re init lossc overc)) ->
  (forall e, lossc < 0 -> 0 < e -> raises AssertionError (snd (step (VS e) false m)))
  /\ (forall e, overc < 0 -> e < 0 -> raises AssertionError (snd (step (VS e) false m)))
  /\ (forall e, raises AssertionError (snd (step (VS e) true m))).
Proof.
  intros M. destruct (unbalanced_after _ _ _ _ _ _ M) as (K & OK & MA).
  assert (NG : is_genset (m_kind m) = false) by (rewrite K; reflexivity).
  split; [|split].
  - intros e L P. destruct (request_unbalanced m _ e K) as [A _]. simpl in A.
    destruct (A ltac:(lra)) as [_ C]. destruct C as (ex & U & X).
    { assert (0 < (- lossc) * e) by (apply Qmult_lt_0_compat; lra). lra. }
    rewrite (grid_fail _ _ _ OK NG U). exists ex. auto.
  - intros e L P. destruct (request_unbalanced m _ e K) as [_ A]. simpl in A.
    destruct (A P) as [_ C]. destruct C as (ex & U & X).
    { assert (0 < (- overc) * (- e)) by (apply Qmult_lt_0_compat; lra). lra. }
    rewrite (grid_fail _ _ _ OK NG U). exists ex. auto.
  - intros e. rewrite (step_not_genset _ _ _ NG). unfold base_step, mbind, mget, mlift, denorm_action.
    rewrite MA. simpl. eexists. split; reflexivity.
Qed.

(** ** Steps that never fail (C50) *)
Lemma battery_after minc maxc maxch maxdis eff cost ic is init rs m0 cs m :
  new_battery minc maxc maxch maxdis eff cost None ic is init rs = Ok m0 ->
  minc <= charge m0 -> charge m0 <= maxc -> m = fst (play cs m0) ->
  exists b, batt_ok m b /\ mod_ok m /\ m_raise m = rs
    /\ b_max_charge b = maxch /\ b_max_discharge b = maxdis
    /\ b_min_capacity b = minc /\ b_max_capacity b = maxc
    /\ m_act m = Some (mkSpace [- maxdis / eff] [maxch * eff])
    /\ m_obs m = m_obs m0.
Proof.
  intros E L U ->. destruct (new_battery_ok _ _ _ _ _ _ _ _ _ _ _ E L U)
    as (b & BO & P1 & P2 & P3 & P4 & P5 & P6 & AC & RS & _).
  destruct (play cs m0) as [m os] eqn:PL. destruct (play_battery _ _ _ _ _ BO PL) as (b' & BO' & SP & _).
  pose proof (new_battery_good _ _ _ _ _ _ _ _ _ _ _ _ E) as OK.
  destruct (play_good cs m0 OK) as [S OK']. rewrite PL in S, OK'. simpl in *.
  destruct SP as (c & s & ->). exists (set_charge b c s). simpl.
  conj; try assumption.
  - rewrite (sm_raise _ _ S); exact RS.
  - rewrite (sm_act _ _ S); exact AC.
  - exact (sm_obs _ _ S).
Qed.

Lemma C50_battery_lemma minc maxc maxch maxdis eff cost ic is init m0 cs m :
  new_battery minc maxc maxch maxdis eff cost None ic is init false = Ok m0 ->
  minc <= charge m0 -> charge m0 <= maxc -> 0 <= maxch -> 0 <= maxdis -> m = fst (play cs m0) ->
  forall e n, exists m' o, step (VS e) n m = (m', Ok o).
Proof.
  intros E L U MC MD M e n. destruct (battery_after _ _ _ _ _ _ _ _ _ _ _ _ _ E L U M)
    as (b & (K & WF & BI & _) & OK & RS & P1 & P2 & _ & _ & AC & _).
  assert (NUF : ~ user_forecaster m).
  { intros (t & vec & f & T & _). rewrite K in T. discriminate. }
  assert (NG : is_genset (m_kind m) = false) by (rewrite K; reflexivity).
  assert (G : forall x, exists m1 rw d i, unnormalized_step x m = (m1, Ok (rw, d, i))).
  { intros x. destruct (request_battery_ok m b x K WF BI) as (b' & rw & i & U' & _); try (subst; assumption).
    - intros C. congruence.
    - do 4 eexists. exact U'. }
  assert (D : exists x, (if n then denorm_action m (VS e) else Ok (VS e)) = Ok (VS x)).
  { destruct n; [|eauto]. unfold denorm_action. rewrite AC. rewrite denormalize_eq by reflexivity.
    simpl. eauto. }
  destruct D as (x & D). destruct (G x) as (m1 & rw & d & i & U').
  destruct (step_served (VS e) n m m1 (VS x) x rw d i OK NUF NG D) as (m' & o & S); [reflexivity|exact U'|].
  exists m'. eexists. exact S.
Qed.

Lemma genset_served (m : module Q) g p x e rest (n : bool) da :
  mod_ok m -> m_kind m = KGenset g -> gen_in g p -> 0 <= x -> x <= 1 ->
  (if n then denorm_action m (VA (x :: rest)) else Ok (VA (x :: rest))) = Ok da ->
  pick_energy 1 da = Ok e -> 0 <= e ->
  let st := next_status g (round01 x) in
  let lo := times_status st (g_min_prod g) in
  let hi := times_status st (g_max_prod g) in
  ((m_raise m = true -> lo <= e /\ e <= hi) ->
     exists m' o, step (VA (x :: rest)) n m = (m', Ok o) /\ provided (info_of o) = clip lo hi e)
  /\ (m_raise m = true -> e < lo \/ hi < e ->
      raises ValueError (snd (step (VA (x :: rest)) n m))
      /\ m_cur (fst (step (VA (x :: rest)) n m)) = m_cur m
      /\ m_log (fst (step (VA (x :: rest)) n m)) = m_log m
      /\ running (fst (step (VA (x :: rest)) n m)) = st).
Proof.
  intros OK K GI X0 X1 D P E0 st lo hi.
  destruct (update_status_refines g p x GI X0 X1) as (g' & US & SG & _ & ST). fold st in ST.
  set (m0 := set_kind m (KGenset g')).
  assert (STEP : step (VA (x :: rest)) n m = base_step (VA (x :: rest)) n m0).
  { unfold step, mbind, mget, massert, mret, lift_kind. rewrite K. unum.
    destruct (Qle_bool 0 x) eqn:A; [|qprop; lra]. destruct (Qle_bool x 1) eqn:B; [|qprop; lra].
    simpl andb. cbv iota. rewrite US. reflexivity. }
  assert (MS : mod_same m m0).
  { constructor; try reflexivity. simpl. rewrite K. exact SG. }
  assert (OK0 : mod_ok m0).
  { destruct OK as [A B C]. constructor.
    - unfold kind_ok in *. simpl. rewrite K in A. exact A.
    - exact B.
    - rewrite (mod_same_keys _ _ MS). exact C. }
  assert (NUF : ~ user_forecaster m0) by (intros (t & vec & f & T & _); discriminate T).
  destruct (gen_same_in _ _ SG) as (_ & _ & _ & MN & MX & _).
  assert (LO : genset_min_production g' = lo) by (unfold genset_min_production; rewrite MN, ST; reflexivity).
  assert (HI : genset_max_production g' = hi) by (unfold genset_max_production; rewrite MX, ST; reflexivity).
  destruct (request_genset_full m0 g' e eq_refl) as (A & B & _). rewrite LO, HI in A, B.
  split.
  - intros RL. specialize (A E0 RL).
    destruct (base_step_served (VA (x :: rest)) n m0 m0 da e _ _ _ OK0 NUF D P A) as (m' & o & S).
    exists m'. eexists. rewrite STEP. split; [exact S|]. reflexivity.
  - intros RT O. destruct (B E0 RT O) as (ex & U & X). rewrite STEP.
    destruct (base_step (VA (x :: rest)) n m0) as [m' r] eqn:S.
    destruct (base_step_cases _ _ _ _ _ S) as [(_ & ex' & _ & [C|[(da' & D' & P')|C]])|H].
    + unfold m0 in C. change (denorm_action (set_kind m (KGenset g'))) with (denorm_action m) in C. congruence.
    + change (if n then denorm_action m0 (VA (x :: rest)) else Ok (VA (x :: rest)))
        with (if n then denorm_action m (VA (x :: rest)) else Ok (VA (x :: rest))) in D'.
      assert (da' = da) by congruence. subst. change (energy_pos (m_kind m0)) with 1%nat in P'. congruence.
    + destruct (state_dict_ok m0 (mo_kind _ OK0)) as (sd & SD & _). congruence.
    + destruct H as (da' & e' & sd & D' & P' & _ & H).
      change (if n then denorm_action m0 (VA (x :: rest)) else Ok (VA (x :: rest)))
        with (if n then denorm_action m (VA (x :: rest)) else Ok (VA (x :: rest))) in D'.
      assert (da' = da) by congruence. subst da'. change (energy_pos (m_kind m0)) with 1%nat in P'.
      assert (e' = e) by congruence. subst e'. rewrite U in H.
      destruct H as [(ex' & Y & ->)|(m1 & rw & d & i & Y & _)]; [|congruence].
      inversion Y; subst. simpl. split; [exists ex'; auto|]. split; [reflexivity|]. split; [reflexivity|].
      unfold running. simpl. exact ST.
Qed.

Lemma genset_after mn mx co cp cc su wd ab up init rs prov m0 cs m :
  (0 <= su)%Z -> (0 <= wd)%Z ->
  new_genset mn mx co cp cc su wd ab up init rs prov = Ok m0 -> m = fst (play cs m0) ->
  exists g p, m_kind m = KGenset g /\ gen_in g p /\ mod_ok m /\ m_raise m = rs /\ m_obs m = m_obs m0
    /\ m_act m = m_act m0
    /\ g_min_prod g = mn /\ g_max_prod g = mx /\ g_start_up g = su /\ g_wind_down g = wd.
Proof.
  intros SU WD E ->. destruct (play cs m0) as [m os] eqn:PL.
  destruct (reach_genset _ _ _ _ _ _ _ _ _ _ _ _ _ _ _ _ SU WD E PL)
    as (g & p & K & GI & _ & P1 & P2 & _ & _ & _ & P3 & P4 & _).
  pose proof (new_genset_good _ _ _ _ _ _ _ _ _ _ _ _ _ E) as OK.
  destruct (play_good cs m0 OK) as [S OK']. rewrite PL in S, OK'. simpl in *.
  exists g, p. conj; try assumption.
  - rewrite (sm_raise _ _ S). unfold new_genset in E. destruct (nltb mx mn); [discriminate|].
    inversion E. reflexivity.
  - exact (sm_obs _ _ S).
  - exact (sm_act _ _ S).
Qed.

(** C03/C50, genset: what a request to be on or off for [e] does. *)
Lemma genset_request_lemma mn mx co cp cc su wd ab up init rs prov m0 cs m x e rest :
  (0 <= su)%Z -> (0 <= wd)%Z ->
  new_genset mn mx co cp cc su wd ab up init rs prov = Ok m0 -> m = fst (play cs m0) ->
  0 <= x -> x <= 1 -> 0 <= e ->
  let r := step (VA (x :: e :: rest)) false m in
  let lo := if running (fst r) then mn else 0 in
  let hi := if running (fst r) then mx else 0 in
  ((rs = false \/ (lo <= e /\ e <= hi)) ->
     exists o, snd r = Ok o /\ provided (info_of o) == clip lo hi e)
  /\ (rs = true -> e < lo \/ hi < e ->
      raises ValueError (snd r) /\ m_cur (fst r) = m_cur m /\ m_log (fst r) = m_log m).
Proof.
  intros SU WD E M X0 X1 E0.
  destruct (genset_after _ _ _ _ _ _ _ _ _ _ _ _ _ _ _ SU WD E M)
    as (g & p & K & GI & OK & RS & _ & _ & P1 & P2 & _).
  pose proof (genset_served m g p x e (e :: rest) false (VA (x :: e :: rest)) OK K GI X0 X1 eq_refl eq_refl E0) as H.
  cbv zeta in H. set (st := next_status g (round01 x)) in *. destruct H as [A B].
  intros r lo hi.
  assert (RUN : running (fst r) = st).
  { destruct (step (VA (x :: e :: rest)) false m) as [m' o] eqn:S.
    destruct (step_genset _ _ _ _ _ _ _ K GI S) as [(_ & C & _)|(x' & rest' & g' & EQ & _ & _ & US & KM & SG & _)].
    - exfalso. apply (C x (e :: rest) eq_refl). split; assumption.
    - unfold r. simpl. rewrite (running_of _ _ KM).
      inversion EQ; subst x' rest'.
      destruct (update_status_refines g p x GI X0 X1) as (g'' & US' & _ & _ & ST).
      rewrite US in US'. inversion US'; subst g''. exact ST. }
  assert (LO : times_status st (g_min_prod g) == lo).
  { unfold lo, times_status. rewrite RUN, P1. destruct st; unum; ring. }
  assert (HI : times_status st (g_max_prod g) == hi).
  { unfold hi, times_status. rewrite RUN, P2. destruct st; unum; ring. }
  rewrite RS in A, B.
  split.
  - intros C. destruct A as (m' & o & S & PR).
    { intros RT. destruct C as [C|C]; [congruence|]. rewrite LO, HI. exact C. }
    exists o. unfold r. rewrite S. split; [reflexivity|]. rewrite PR.
    rewrite (clip_hi_proper _ _ _ _ HI). unfold clip.
    destruct (Qlt_le_dec hi e); [reflexivity|].
    destruct (Qlt_le_dec e (times_status st (g_min_prod g))), (Qlt_le_dec e lo); lra.
  - intros RT C. destruct (B RT) as (V & CU & LG & _).
    { rewrite LO, HI. exact C. }
    split; [exact V|]. split; [exact CU|exact LG].
Qed.

(** ** Observations of batteries and gensets (C51) *)
Lemma norm_obs_in_unit (m : module Q) s : state m = Ok s ->
  Forall2 Qle (sp_low (m_obs m)) (sp_high (m_obs m)) ->
  in_range (m_obs m) (VA s) -> exists o, norm_obs m = Ok o /\ in_unit o.
Proof.
  intros ST LH [L H]. unfold norm_obs. rewrite ST. cbn [rbind].
  assert (F : fits (m_obs m) (VA s)) by (unfold fits; symmetry; exact (Forall2_length _ _ _ L)).
  rewrite (normalize_eq _ _ F). eexists. split; [reflexivity|]. unfold in_unit.
  rewrite entries_item. unfold sp_spread. apply norm_range; assumption.
Qed.

Lemma C51_battery_lemma minc maxc maxch maxdis eff cost ic is init rs m0 cs m :
  new_battery minc maxc maxch maxdis eff cost None ic is init rs = Ok m0 ->
  minc <= charge m0 -> charge m0 <= maxc -> 0 < maxc -> m = fst (play cs m0) ->
  exists s o, state m = Ok s /\ in_range (m_obs m) (VA s) /\ norm_obs m = Ok o /\ in_unit o.
Proof.
  intros E L U MP M. destruct (battery_after _ _ _ _ _ _ _ _ _ _ _ _ _ E L U M)
    as (b & (K & WF & (B1 & B2 & B3) & _) & OK & RS & _ & _ & P1 & P2 & AC & OB).
  assert (OB0 : m_obs m0 = mkSpace [minc / maxc; minc] [1; maxc]).
  { unfold new_battery in E. destruct (negb _); [discriminate|]. destruct (neqb maxc n0); [discriminate|].
    apply rbind_ok in E. destruct E as (c & _ & E). inversion E. reflexivity. }
  rewrite OB0 in OB.
  assert (ST : state m = Ok [b_soc b; b_charge b]).
  { unfold state, state_dict. rewrite K. reflexivity. }
  rewrite P1 in *. rewrite P2 in *.
  assert (S1 : minc / maxc <= b_soc b).
  { rewrite B3. apply Qmult_le_compat_r; [exact B1|]. apply Qlt_le_weak, Qinv_lt_0_compat, MP. }
  assert (S2 : b_soc b <= 1).
  { rewrite B3. apply Qdiv_le_1; assumption. }
  assert (IR : in_range (m_obs m) (VA [b_soc b; b_charge b])).
  { rewrite OB. split; simpl; repeat (constructor; try assumption). }
  destruct (norm_obs_in_unit m _ ST) as (o & NO & IU); [|exact IR|].
  { rewrite OB. simpl. repeat constructor; lra. }
  exists [b_soc b; b_charge b], o. auto.
Qed.

Lemma C51_genset_lemma mn mx co cp cc su wd ab up init rs prov m0 cs m :
  (0 <= su)%Z -> (0 <= wd)%Z ->
  new_genset mn mx co cp cc su wd ab up init rs prov = Ok m0 -> m = fst (play cs m0) ->
  exists s o, state m = Ok s /\ in_range (m_obs m) (VA s) /\ norm_obs m = Ok o /\ in_unit o.
Proof.
  intros SU WD E M.
  destruct (genset_after _ _ _ _ _ _ _ _ _ _ _ _ _ _ _ SU WD E M)
    as (g & p & K & GI & OK & RS & OB & AC & P1 & P2 & P3 & P4).
  assert (OB0 : m_obs m0 = mkSpace [0; 0; 0; 0] [1; 1; inject_Z su; inject_Z wd]).
  { unfold new_genset in E. destruct (nltb mx mn); [discriminate|]. inversion E. reflexivity. }
  rewrite OB0 in OB.
  assert (ST : state m = Ok [bool_num (g_status g); bool_num (g_goal g);
                             inject_Z (g_until_up g); inject_Z (g_until_down g)]).
  { unfold state, state_dict. rewrite K. reflexivity. }
  assert (UD : (0 <= g_until_up g <= su)%Z /\ (0 <= g_until_down g <= wd)%Z).
  { destruct GI as (_ & _ & SH & PO). rewrite P3, P4 in *. destruct p; simpl in SH, PO;
      destruct SH as (_ & _ & -> & ->); lia. }
  assert (BN : forall c, 0 <= @bool_num Q _ c /\ bool_num c <= 1).
  { intros []; unfold bool_num; unum; lra. }
  pose proof (BN (g_status g)). pose proof (BN (g_goal g)).
  assert (IR : in_range (m_obs m) (VA [bool_num (g_status g); bool_num (g_goal g);
                             inject_Z (g_until_up g); inject_Z (g_until_down g)])).
  { rewrite OB. change 0 with (inject_Z 0) at 3 4. split; simpl; repeat constructor; try tauto;
      rewrite <- Zle_Qle; lia. }
  destruct (norm_obs_in_unit m _ ST) as (o & NO & IU); [|exact IR|].
  { rewrite OB. simpl. change 0 with (inject_Z 0) at 3 4. repeat constructor; try lra; rewrite <- Zle_Qle; lia. }
  do 2 eexists. split; [exact ST|]. split; [exact IR|]. split; [exact NO|exact IU].
Qed.
