(** * Standardization, bounds and samples of the environments with continuous actions *)

From Coq Require Import ZArith QArith Qminmax Bool String List Lia Lqa.
From Verif Require Import Num Py NonModular NmMpc OldEnv GymEnv Spec_Module Spec_NonModular Spec_GymEnv Proofs_Num Proofs_NonModular
  Proofs_NmRun Proofs_NmHistory Proofs_NmBattery Proofs_NmCost Proofs_NmClock Proofs_NmEpisode Proofs_NmTotal Proofs_NmReads
  Proofs_OldEnv Proofs_OldEnv4 Proofs_GymEnv Proofs_GymEnv2.
Import ListNotations.
Local Open Scope string_scope.
Local Open Scope list_scope.
Local Open Scope Q_scope.

(** The computed deviations are at least one. *)
Lemma at_least_one_ok (x : Q) : 1 <= at_least_one x.
Proof. unfold at_least_one. destruct (nltb x n1) eqn:E; unum; qprop; lra. Qed.
Lemma standardizations_ok deviation (g : nonmod Q) tables s : standardizations deviation g tables = Ok s -> stds_ok s.
Proof.
  unfold standardizations. intros H. apply rbind_ok in H. destruct H as (a & A & H). apply rbind_ok in H. destruct H as (o & O & H).
  injection H as <-. unfold stds_ok. cbn [st_std st_obs_std st_mean st_obs_mean].
  split; [apply Forall_forall; intros x I; apply in_map_iff in I; destruct I as (y & <- & _); apply at_least_one_ok|].
  split; [apply Forall_forall; intros x I; apply in_map_iff in I; destruct I as (y & <- & _); apply at_least_one_ok|].
  split; [rewrite map_length, !app_length, !map_length; reflexivity|rewrite !map_length; reflexivity].
Qed.

(** There and back *)
Lemma moved_round mean std (x y z : list Q) : Forall (fun s => 1 <= s) std -> moved mean std (map CNum x) y -> moved_back mean std y z ->
  length z = length x /\ forall i v w, nth_error x i = Some v -> nth_error z i = Some w -> w == v.
Proof.
  intros F (L1 & L2 & L3 & M) (K1 & K2 & K3 & B). rewrite map_length in *. split; [congruence|]. intros i v w V W.
  assert (I : (i < length x)%nat) by (apply nth_error_Some; congruence).
  destruct (nth_error mean i) as [m|] eqn:EM; [|apply nth_error_None in EM; lia].
  destruct (nth_error std i) as [s|] eqn:ES; [|apply nth_error_None in ES; lia].
  destruct (M i m s (CNum v) EM ES (map_nth_error CNum _ _ V)) as (v' & y' & E & Y & YE). injection E as <-.
  destruct (B i m s y' EM ES Y) as (w' & W' & WE). rewrite W in W'. injection W' as <-.
  assert (S1 : 1 <= s) by (eapply Forall_forall; [exact F|eapply nth_error_In; exact ES]).
  rewrite WE, YE. field. lra.
Qed.

Lemma backward_total (x mean std : list Q) : length x = length mean -> length mean = length std ->
  exists y, backward (map CNum x) mean std = Ok y.
Proof.
  intros L1 L2. unfold backward, shaped_alike. rewrite map_length, L1, L2, !Nat.eqb_refl. cbn [andb].
  clear L2. revert mean std L1. induction x as [|v x IH]; intros [|m mean] std L1; try discriminate; [exists []; reflexivity|].
  destruct std as [|s std]; [exists []; reflexivity|]. destruct (IH mean std ltac:(cbn in L1; lia)) as (y & Y).
  cbn [map combine rmapM fst snd num rbind]. rewrite Y. eexists. reflexivity.
Qed.

(** Names and values *)
Lemma dget_app {A} k (d e : dict A) : dget k (d ++ e) = match dget k d with Some x => Some x | None => dget k e end.
Proof. induction d as [|[k1 x] d IH]; cbn; [reflexivity|]. destruct (String.eqb k k1); [reflexivity|exact IH]. Qed.
Lemma dget_combine {A} (ks : list string) : forall (l : list A) i k x, NoDup ks -> nth_error ks i = Some k -> nth_error l i = Some x ->
  dget k (combine ks l) = Some x.
Proof.
  induction ks as [|k0 ks IH]; intros l i k x ND K X; [destruct i; discriminate|].
  destruct l as [|y l]; [destruct i; discriminate|]. inversion ND as [|? ? NI ND']; subst. destruct i as [|i]; cbn in *.
  - injection K as <-. injection X as <-. rewrite String.eqb_refl. reflexivity.
  - destruct (String.eqb k k0) eqn:E; [apply String.eqb_eq in E; subst; exfalso; apply NI; eapply nth_error_In; exact K|].
    eapply IH; eassumption.
Qed.
Lemma combine_absent {A} (ks : list string) (l : list A) k : ~ In k ks -> dget k (combine ks l) = None.
Proof.
  intros NI. apply dget_None. intros I. apply NI. apply in_map_iff in I. destruct I as ((k' & x) & E & I). cbn in E. subst k'.
  eapply in_combine_l. exact I.
Qed.
Ltac nodup := repeat (constructor; [cbn; intuition discriminate|]); constructor.
Lemma nodup_entries ar : NoDup (entries ar).
Proof. unfold entries. destruct (has_genset ar); cbn; nodup. Qed.
Lemma nodup_shown ar : NoDup (shown_columns ar).
Proof. unfold shown_columns. destruct (has_grid ar); cbn; nodup. Qed.
Lemma shown_no_entry ar k : In k (shown_columns ar) -> ~ In k (entries ar).
Proof. unfold shown_columns, entries. destruct (has_grid ar), (has_genset ar); cbn; intros H K; intuition congruence. Qed.

Lemma known_action (e : gym Q) ao i k x : nth_error (entries (nm_arch (gy_grid e))) i = Some k -> nth_error (fst ao) i = Some x ->
  one_value e ao k = Ok (CNum x).
Proof.
  intros K X. unfold one_value, known_values. rewrite dget_app.
  change (action_names (has_genset (nm_arch (gy_grid e)))) with (entries (nm_arch (gy_grid e))).
  rewrite (dget_combine _ _ _ _ _ (nodup_entries _) K (map_nth_error CNum _ _ X)). reflexivity.
Qed.
Lemma known_shown (e : gym Q) ao i k c : nth_error (shown_columns (nm_arch (gy_grid e))) i = Some k -> nth_error (snd ao) i = Some c ->
  one_value e ao k = Ok c.
Proof.
  intros K X. unfold one_value, known_values. rewrite dget_app.
  change (action_names (has_genset (nm_arch (gy_grid e)))) with (entries (nm_arch (gy_grid e))).
  change (observation_names (has_grid (nm_arch (gy_grid e)))) with (shown_columns (nm_arch (gy_grid e))).
  rewrite (combine_absent (entries (nm_arch (gy_grid e)))); [|apply shown_no_entry; eapply nth_error_In; exact K].
  rewrite (dget_combine _ _ _ _ _ (nodup_shown _) K X). reflexivity.
Qed.

Lemma dget_index {A} (v : dict A) k c : dget k v = Some c -> exists i, nth_error (map fst v) i = Some k /\ nth_error (map snd v) i = Some c.
Proof.
  induction v as [|[k0 x] v IH]; cbn; [discriminate|]. destruct (String.eqb k k0) eqn:E; intros H.
  - apply String.eqb_eq in E. injection H as <-. exists 0%nat. cbn. subst. auto.
  - destruct (IH H) as (i & I1 & I2). exists (S i). auto.
Qed.
Lemma last_row_names (r : record Q) d : last_row r = Ok d -> map fst d = map fst r.
Proof.
  unfold last_row. revert d. induction r as [|[k l] r IH]; cbn; intros d H; [injection H as <-; reflexivity|].
  apply rbind_ok in H. destruct H as (x & X & H). apply rbind_ok in H. destruct H as (d' & D & H). injection H as <-.
  unfold rmap in X. destruct (last_of l); [|discriminate]. injection X as <-. cbn. f_equal. apply IH. exact D.
Qed.
Lemma run_names c (g g' : nonmod Q) v : nm_run c g = (g', Ok v) -> map fst v = map fst (nm_state g).
Proof.
  intros R. pose proof (run_row _ _ _ _ R) as L. apply last_row_names in L. rewrite L.
  pose proof (ds_state _ _ (descends_after [HRun c] g)) as D. unfold nm_after in D. cbn [fold_left nm_do] in D. rewrite R in D.
  exact D.
Qed.

(** What the values are after a step *)
Lemma values_after (a : list Q) e e' o r d : gym_step a e = (e', Ok (o, r, d)) ->
  map fst (nm_state (gy_grid e)) = shown_columns (nm_arch (gy_grid e)) ->
  match gy_stds e with Some s => stds_ok s | None => True end ->
  exists b c v, means_action e a b /\ stands_for (nm_arch (gy_grid e)) b c /\ nm_run c (gy_grid e) = (gy_grid e', Ok v)
    /\ (forall k x, dget k c = Some x -> exists y, shows_value e' k y /\ y == x)
    /\ (forall k x, dget k v = Some x -> exists y, get_values [k] e' = (e', Ok [y]) /\ same_cell x y).
Proof.
  intros H NS SO. apply gym_step_ok in H. destruct H as (b & c & v & cost & MA & CO & R & _ & MV & _ & _ & EE).
  pose proof (gym_control_ok _ _ _ CO) as SF. exists b, c, v. split; [exact MA|]. split; [exact SF|]. split; [exact R|].
  assert (AC : gy_action e' = Some a) by (rewrite EE; reflexivity).
  assert (OB : gy_obs e' = Some o) by (rewrite EE; reflexivity).
  assert (ST : gy_stds e' = gy_stds e) by (rewrite EE; reflexivity).
  assert (AR : nm_arch (gy_grid e') = nm_arch (gy_grid e)) by (destruct (run_kept _ _ _ _ R); assumption).
  assert (KN : exists b' o', known e' a = Ok (b', o') /\ length b' = length b
     /\ (forall i x y, nth_error b i = Some x -> nth_error b' i = Some y -> y == x)
     /\ length o' = length (map snd v)
     /\ (forall i x y, nth_error (map snd v) i = Some x -> nth_error o' i = Some y -> same_cell x y)).
  { unfold known, current_obs. rewrite OB, ST. unfold means_action, means_values in MA, MV. destruct (gy_stds e) as [s|].
    - destruct MV as (y & MV & ->). destruct SO as (S1 & S2 & S3 & S4).
      pose proof MA as (L1 & L2 & L3 & MB). pose proof MV as (K1 & K2 & K3 & MC).
      destruct (backward_total a (st_mean s) (st_std s) L1 L2) as (b' & B'). rewrite B'. cbn [rbind].
      destruct (backward_total y (st_obs_mean s) (st_obs_std s) ltac:(congruence) K2) as (z & Z). rewrite Z. cbn [rbind].
      apply backward_ok in B', Z. exists b', (map CNum z). split; [reflexivity|].
      pose proof B' as (M1 & M2 & M3 & MD). pose proof Z as (N1 & N2 & N3 & ME).
      split; [congruence|]. split.
      { intros i x x' X X'. assert (I : (i < length b)%nat) by (apply nth_error_Some; congruence).
        destruct (nth_error a i) as [w|] eqn:EA; [|apply nth_error_None in EA; lia].
        destruct (nth_error (st_mean s) i) as [m|] eqn:EM; [|apply nth_error_None in EM; lia].
        destruct (nth_error (st_std s) i) as [q|] eqn:EQ; [|apply nth_error_None in EQ; lia].
        destruct (MB i m q w EM EQ EA) as (w1 & W1 & V1). destruct (MD i m q w EM EQ EA) as (w2 & W2 & V2).
        rewrite X in W1. rewrite X' in W2. injection W1 as <-. injection W2 as <-. rewrite V1, V2. reflexivity. }
      split; [rewrite map_length; congruence|]. intros i x x' X X'.
      assert (I : (i < length (map snd v))%nat) by (apply nth_error_Some; congruence).
      destruct (nth_error (st_obs_mean s) i) as [m|] eqn:EM; [|apply nth_error_None in EM; lia].
      destruct (nth_error (st_obs_std s) i) as [q|] eqn:EQ; [|apply nth_error_None in EQ; lia].
      destruct (MC i m q x EM EQ X) as (u & w & -> & W & WE).
      destruct (ME i m q w EM EQ W) as (t & T & TE). rewrite (map_nth_error CNum _ _ T) in X'. injection X' as <-.
      assert (Q1 : 1 <= q) by (eapply Forall_forall; [exact S2|eapply nth_error_In; exact EQ]).
      cbn. rewrite TE, WE. field. lra.
    - subst b o. cbn [rbind]. exists a, (map snd v). split; [reflexivity|]. split; [reflexivity|].
      split; [intros i x y X Y; rewrite X in Y; injection Y as <-; reflexivity|]. split; [reflexivity|].
      intros i x y X Y. rewrite X in Y. injection Y as <-. destruct x; cbn; reflexivity. }
  destruct KN as (b' & o' & KN & LB & SB & LO & SO'). split.
  - intros k x X. destruct SF as (SF1 & SF2). destruct (In_nth_error _ _ (SF2 _ _ X)) as (i & I).
    destruct (SF1 _ _ I) as (x' & X1 & X2). rewrite X in X2. injection X2 as <-.
    assert (J : (i < length b)%nat) by (apply nth_error_Some; congruence).
    destruct (nth_error b' i) as [y|] eqn:Y; [|apply nth_error_None in Y; lia].
    exists y. split; [|apply (SB i); assumption]. apply (one_shows e' a (b', o') k y AC KN).
    apply (known_action e' (b', o') i k y); [rewrite AR; exact I|exact Y].
  - intros k x X. destruct (dget_index _ _ _ X) as (i & I1 & I2). rewrite (run_names _ _ _ _ R), NS in I1.
    assert (J : (i < length (map snd v))%nat) by (apply nth_error_Some; congruence).
    destruct (nth_error o' i) as [y|] eqn:Y; [|apply nth_error_None in Y; lia].
    exists y. split; [|apply (SO' i); assumption].
    rewrite (get_values_some e' a [k] AC), KN. cbn [rbind rmapM].
    rewrite (known_shown e' (b', o') i k y); [reflexivity|rewrite AR; exact I1|exact Y].
Qed.

(** *** The bounds *)
Lemma bounds_ok (g : nonmod Q) high low : action_bounds g = Ok (high, low) ->
  exists mi me pc pd pv, parameter g "grid_power_import" mi /\ parameter g "grid_power_export" me
    /\ parameter g "battery_power_charge" pc /\ parameter g "battery_power_discharge" pd /\ parameter g "PV_rated_power" pv
    /\ if has_genset (nm_arch g) then
         exists rated pmin pmax, parameter g "genset_rated_power" rated /\ parameter g "genset_pmin" pmin
           /\ parameter g "genset_pmax" pmax /\ high = [rated * pmax; mi; me; pc; pd; pv] /\ low = [rated * pmin; 0; 0; 0; 0; 0]
       else high = [mi; me; pc; pd; pv] /\ low = [0; 0; 0; 0; 0].
Proof.
  unfold action_bounds. intros H. apply rbind_ok in H. destruct H as (mi & E1 & H). apply rbind_ok in H. destruct H as (me & E2 & H).
  apply rbind_ok in H. destruct H as (pc & E3 & H). apply rbind_ok in H. destruct H as (pd & E4 & H).
  apply rbind_ok in H. destruct H as (pv & E5 & H). apply rbind_ok in H. destruct H as (gen & E6 & H). injection H as <- <-.
  exists mi, me, pc, pd, pv. do 4 (split; [apply dfind_parameter; assumption|]). split; [apply attr_parameter; exact E5|].
  destruct (has_genset (nm_arch g)); [|injection E6 as <-; split; reflexivity].
  apply rbind_ok in E6. destruct E6 as (rated & F1 & E6). apply rbind_ok in E6. destruct E6 as (pmax & F2 & E6).
  apply rbind_ok in E6. destruct E6 as (pmin & F3 & E6). injection E6 as <-.
  exists rated, pmin, pmax. do 3 (split; [apply dfind_parameter; assumption|]). split; reflexivity.
Qed.

Lemma followed (a : list Q) e e' o r d : gym_step a e = (e', Ok (o, r, d)) -> gy_stds e = None ->
  action_bounds (gy_grid e) = Ok (gy_high e, gy_low e) -> within_space e a ->
  (forall rated pmin, parameter (gy_grid e) "genset_rated_power" rated -> parameter (gy_grid e) "genset_pmin" pmin -> 0 <= rated * pmin) ->
  exists c oc, stands_for (nm_arch (gy_grid e)) a c /\ produced (gy_grid e) (gy_grid e') oc
    /\ (has_grid (nm_arch (gy_grid e)) = true -> exists x y, dget "grid_import" c = Some x /\ dget "grid_export" c = Some y
          /\ oc_import oc == x /\ oc_export oc == y)
    /\ (has_genset (nm_arch (gy_grid e)) = true -> exists x, dget "genset" c = Some x /\ oc_genset oc == x).
Proof.
  intros H NS AB WS PM. apply gym_step_ok in H. destruct H as (b & c & v & cost & MA & CO & R & _).
  unfold means_action in MA. rewrite NS in MA. subst b. apply gym_control_ok in CO.
  destruct (run_follows _ _ _ _ R) as (oc & PR & FO). exists c, oc. split; [exact CO|]. split; [exact PR|].
  destruct FO as (_ & FG & FN). destruct WS as (W1 & W2 & W3). destruct CO as (CO & _).
  destruct (bounds_ok _ _ _ AB) as (mi & me & pc & pd & pv & P1 & P2 & _ & _ & _ & BB). unfold entries in CO.
  destruct (has_genset (nm_arch (gy_grid e))).
  - destruct BB as (rated & pmin & pmax & G1 & G2 & G3 & BH & BL). rewrite BH, BL in *. split.
    + intros HG. rewrite HG in FG. destruct FG as (x & y & mi' & me' & X & Y & Q1 & Q2 & O1 & O2). exists x, y.
      split; [exact X|]. split; [exact Y|].
      destruct (CO 1%nat _ eq_refl) as (x1 & N1 & X1). destruct (CO 2%nat _ eq_refl) as (y1 & N2 & Y1).
      assert (mi' = mi) by (eapply parameter_unique; eassumption). assert (me' = me) by (eapply parameter_unique; eassumption). subst.
      pose proof (W3 1%nat x1 _ _ N1 eq_refl eq_refl). pose proof (W3 2%nat y1 _ _ N2 eq_refl eq_refl).
      rewrite X in X1. rewrite Y in Y1. injection X1 as <-. injection Y1 as <-. unfold limited in *.
      revert O1 O2. mm; intros; split; lra.
    + intros _. destruct FN as (x & rated' & pmin' & pmax' & X & Q1 & Q2 & Q3 & O1 & O2).
      assert (rated' = rated) by (eapply parameter_unique; eassumption). assert (pmin' = pmin) by (eapply parameter_unique; eassumption).
      assert (pmax' = pmax) by (eapply parameter_unique; eassumption). subst. exists x. split; [exact X|].
      destruct (CO 0%nat _ eq_refl) as (x1 & N1 & X1). pose proof (W3 0%nat x1 _ _ N1 eq_refl eq_refl) as B.
      rewrite X in X1. injection X1 as <-. specialize (PM _ _ G1 G2).
      destruct (Qlt_le_dec 1 x) as [L|L]; [specialize (O2 L); clear O1; revert O2|specialize (O1 L); clear O2; revert O1];
        unfold limited; mm; intros; lra.
  - destruct BB as (BH & BL). rewrite BH, BL in *. split; [|discriminate].
    intros HG. rewrite HG in FG. destruct FG as (x & y & mi' & me' & X & Y & Q1 & Q2 & O1 & O2). exists x, y.
    split; [exact X|]. split; [exact Y|].
    destruct (CO 0%nat _ eq_refl) as (x1 & N1 & X1). destruct (CO 1%nat _ eq_refl) as (y1 & N2 & Y1).
    assert (mi' = mi) by (eapply parameter_unique; eassumption). assert (me' = me) by (eapply parameter_unique; eassumption). subst.
    pose proof (W3 0%nat x1 _ _ N1 eq_refl eq_refl). pose proof (W3 1%nat y1 _ _ N2 eq_refl eq_refl).
    rewrite X in X1. rewrite Y in Y1. injection X1 as <-. injection Y1 as <-. unfold limited in *.
    revert O1 O2. mm; intros; split; lra.
Qed.
