(** * Steps and episodes of the environments with continuous actions *)

From Coq Require Import ZArith QArith Bool String List Lia Lqa.
From Verif Require Import Num Py NonModular NmMpc OldEnv GymEnv Spec_Module Spec_NonModular Spec_GymEnv Proofs_Num Proofs_NonModular
  Proofs_NmRun Proofs_NmHistory Proofs_NmBattery Proofs_NmCost Proofs_NmClock Proofs_NmEpisode Proofs_NmTotal Proofs_NmReads Proofs_OldEnv4.
Import ListNotations.
Local Open Scope string_scope.
Local Open Scope list_scope.
Local Open Scope Q_scope.

Lemma at_index_ok (a : list Q) i x : at_index a i = Ok x -> nth_error a i = Some x.
Proof. unfold at_index. destruct (nth_error a i); intros H; inversion H; reflexivity. Qed.

Lemma gym_control_ok ar (a : list Q) c : gym_control ar a = Ok c -> stands_for ar a c.
Proof.
  unfold gym_control. intros H.
  apply rbind_ok in H. destruct H as (ch & E1 & H). apply rbind_ok in H. destruct H as (di & E2 & H).
  apply rbind_ok in H. destruct H as (gen & E3 & H). apply rbind_ok in H. destruct H as (im & E4 & H).
  apply rbind_ok in H. destruct H as (ex & E5 & H). apply rbind_ok in H. destruct H as (pv & E6 & H).
  injection H as <-. apply at_index_ok in E1, E2, E4, E5, E6. unfold stands_for, entries.
  destruct (has_genset ar).
  - apply rbind_ok in E3. destruct E3 as (x & E3 & E). injection E as <-. apply at_index_ok in E3.
    cbn [Nat.add] in *. split.
    + intros i k H. do 6 (destruct i as [|i]; [cbn in H; injection H as <-; eexists; split; [eassumption|reflexivity]|]).
      destruct i; discriminate H.
    + intros k y H. cbn in H |- *.
      repeat match type of H with (if String.eqb ?k ?s then _ else _) = _ =>
        let K := fresh in destruct (String.eqb k s) eqn:K; [apply String.eqb_eq in K; subst k; tauto|] end. discriminate H.
  - injection E3 as <-. cbn [Nat.add] in *. split.
    + intros i k H. do 5 (destruct i as [|i]; [cbn in H; injection H as <-; eexists; split; [eassumption|reflexivity]|]).
      destruct i; discriminate H.
    + intros k y H. cbn in H |- *.
      repeat match type of H with (if String.eqb ?k ?s then _ else _) = _ =>
        let K := fresh in destruct (String.eqb k s) eqn:K; [apply String.eqb_eq in K; subst k; tauto|] end. discriminate H.
Qed.

(** Standardization *)
Lemma combine_nth {A B} (l : list A) : forall (m : list B) i x y, nth_error l i = Some x -> nth_error m i = Some y ->
  nth_error (combine l m) i = Some (x, y).
Proof.
  induction l as [|a l IH]; intros m i x y H K; [destruct i; discriminate|].
  destruct m as [|b m]; [destruct i; discriminate|]. destruct i as [|i]; cbn in *; [congruence|]. apply IH; assumption.
Qed.
Lemma rmapM_nth {A B} (f : A -> res B) l : forall m, rmapM f l = Ok m -> length m = length l
  /\ forall i x, nth_error l i = Some x -> exists y, f x = Ok y /\ nth_error m i = Some y.
Proof.
  induction l as [|a l IH]; intros m H; cbn in H.
  - injection H as <-. split; [reflexivity|]. intros i x E. destruct i; discriminate.
  - apply rbind_ok in H. destruct H as (y & E & H). apply rbind_ok in H. destruct H as (m' & E' & H). injection H as <-.
    destruct (IH _ E') as (IH1 & IH2). split; [cbn; congruence|]. intros i x K. destruct i as [|i]; cbn in K |- *.
    + injection K as <-. eauto.
    + apply IH2; exact K.
Qed.
Lemma shaped {A B C} (x : list A) (y : list B) (z : list C) : shaped_alike x y z = true -> length x = length y /\ length y = length z.
Proof. unfold shaped_alike. intros H. apply andb_prop in H. destruct H as (H1 & H2). apply Nat.eqb_eq in H1, H2. auto. Qed.

Lemma forward_ok x mean std (y : list Q) : forward x mean std = Ok y -> moved mean std x y.
Proof.
  unfold forward. destruct (shaped_alike x mean std) eqn:E; [|discriminate]. intros H. apply shaped in E. destruct E as (L1 & L2).
  apply rmapM_nth in H. destruct H as (L & H). rewrite !combine_length in L.
  split; [exact L1|]. split; [exact L2|]. split; [rewrite L; lia|]. intros i m s c M S' C.
  destruct (H i _ (combine_nth _ _ _ _ _ C (combine_nth _ _ _ _ _ M S'))) as (w & W & N). cbn [fst snd] in W.
  apply rbind_ok in W. destruct W as (v & V & W). injection W as <-. destruct c as [v'|k|]; try discriminate V. injection V as ->.
  exists v. eexists. split; [reflexivity|]. split; [exact N|]. reflexivity.
Qed.
Lemma backward_ok x mean std (y : list Q) : backward (map CNum x) mean std = Ok y -> moved_back mean std x y.
Proof.
  unfold backward. destruct (shaped_alike (map CNum x) mean std) eqn:E; [|discriminate]. intros H. apply shaped in E.
  rewrite map_length in E. destruct E as (L1 & L2).
  apply rmapM_nth in H. destruct H as (L & H). rewrite !combine_length, map_length in L.
  split; [exact L1|]. split; [exact L2|]. split; [rewrite L; lia|]. intros i m s v M S' C.
  apply (map_nth_error CNum) in C.
  destruct (H i _ (combine_nth _ _ _ _ _ C (combine_nth _ _ _ _ _ M S'))) as (w & W & N). cbn [fst snd num] in W.
  cbn [rbind] in W. injection W as <-. eexists. split; [exact N|]. reflexivity.
Qed.
Lemma backward_cells x mean std (y : list Q) : backward x mean std = Ok y -> exists x', x = map CNum x'.
Proof.
  unfold backward. destruct (shaped_alike x mean std) eqn:E; [|discriminate]. apply shaped in E. destruct E as (L1 & L2).
  revert mean std L1 L2 y. induction x as [|c x IH]; intros [|m mean] [|s std] L1 L2 y H; try discriminate; [exists []; reflexivity|].
  cbn [combine rmapM] in H. apply rbind_ok in H. destruct H as (w & W & H). apply rbind_ok in H. destruct H as (y' & H & _).
  cbn [fst snd] in W. destruct c as [v|k|]; try discriminate W.
  destruct (IH mean std ltac:(cbn in L1; lia) ltac:(cbn in L2; lia) _ H) as (x' & ->). exists (v :: x'). reflexivity.
Qed.

(** A step *)
Lemma base_step_ok (a : list Q) e e' o r d : base_step a e = (e', Ok (o, r, d)) ->
  exists c v cost, gym_control (nm_arch (gy_grid e)) a = Ok c /\ nm_run c (gy_grid e) = (gy_grid e', Ok v)
    /\ get_cost (gy_grid e') = Ok (CNum cost) /\ o = map snd v /\ r = - cost /\ d = nm_done (gy_grid e')
    /\ e' = set_current (Some a) (Some o) (set_gym_grid (gy_grid e') e).
Proof.
  unfold base_step. intros H. apply mbind_ok in H. destruct H as (e1 & x & E & H). unfold mget in E. injection E as <- <-.
  apply mbind_ok in H. destruct H as (e1 & c & E & H). unfold mlift in E. injection E as <- CO.
  apply mbind_ok in H. destruct H as (e2 & v & E & H). unfold on_gym in E.
  destruct (nm_run c (gy_grid e)) as [g' w] eqn:R. injection E as <- ->.
  apply mbind_ok in H. destruct H as (e3 & x & E & H). unfold mget in E. injection E as <- <-.
  apply mbind_ok in H. destruct H as (e3 & cost & E & H). unfold mlift in E. injection E as <- CC.
  apply mbind_ok in H. destruct H as (e3 & u & E & H). unfold mmodify in E. injection E as <- <-.
  unfold mret in H. injection H as <- <- <- <-.
  apply rbind_ok in CC. destruct CC as (cl & CC & CN). destruct cl as [x|k|]; try discriminate CN. injection CN as ->.
  exists c, v, cost. cbn [gy_grid set_gym_grid set_current] in *. auto 10.
Qed.
Lemma set_current_twice a o a' o' (e : gym Q) : set_current a o (set_current a' o' e) = set_current a o e.
Proof. reflexivity. Qed.
Lemma gym_step_ok (a : list Q) e e' o r d : gym_step a e = (e', Ok (o, r, d)) ->
  exists b c v cost, means_action e a b /\ gym_control (nm_arch (gy_grid e)) b = Ok c
    /\ nm_run c (gy_grid e) = (gy_grid e', Ok v)
    /\ get_cost (gy_grid e') = Ok (CNum cost) /\ means_values e v o /\ r = - cost /\ d = nm_done (gy_grid e')
    /\ e' = set_current (Some a) (Some o) (set_gym_grid (gy_grid e') e).
Proof.
  unfold gym_step. intros H. apply mbind_ok in H. destruct H as (e1 & x & E & H). unfold mget in E. injection E as <- <-.
  apply mbind_ok in H. destruct H as (e1 & b & E & H). unfold mlift in E. injection E as <- BA.
  apply mbind_ok in H. destruct H as (e1 & ((o' & r') & d') & E & H).
  apply base_step_ok in E. destruct E as (c & v & cost & CO & R & CC & EO & ER & ED & EE).
  apply mbind_ok in H. destruct H as (e2 & x & E & H). unfold mlift in E. injection E as <- FO.
  apply mbind_ok in H. destruct H as (e3 & u & E & H). unfold mmodify in E. injection E as <- <-.
  unfold mret in H. injection H as <- <- <- <-.
  exists b, c, v, cost. unfold means_action, means_values.
  assert (G : gy_grid (set_current (Some a) (Some x) e1) = gy_grid e1) by reflexivity. rewrite G.
  split; [destruct (gy_stds e) as [s|]; [apply backward_ok; exact BA|injection BA as <-; reflexivity]|].
  split; [exact CO|]. split; [exact R|]. split; [exact CC|].
  split.
  { destruct (gy_stds e) as [s|]; [|injection FO as <-; exact EO].
    unfold rmap in FO. destruct (forward o' (st_obs_mean s) (st_obs_std s)) as [y|er] eqn:F; [|discriminate FO].
    injection FO as <-. exists y. split; [|reflexivity]. apply forward_ok. rewrite <- EO. exact F. }
  split; [exact ER|]. split; [exact ED|]. rewrite EE at 1. rewrite set_current_twice. reflexivity.
Qed.

(** What a step returns *)
Lemma gym_step_spec (a : list Q) e e' o r d : equipped (gy_grid e) -> gym_step a e = (e', Ok (o, r, d)) ->
  exists b c v cost, means_action e a b /\ stands_for (nm_arch (gy_grid e)) b c
    /\ nm_run c (gy_grid e) = (gy_grid e', Ok v) /\ means_values e v o
    /\ gained (nm_cost (gy_grid e)) (nm_cost (gy_grid e')) "total_cost" (CNum cost)
    /\ r == - cost /\ d = nm_done (gy_grid e').
Proof.
  intros EQ H. apply gym_step_ok in H. destruct H as (b & c & v & cost & MA & CO & R & CC & MV & ER & ED & _).
  exists b, c, v, cost. split; [exact MA|]. split; [apply gym_control_ok; exact CO|]. split; [exact R|]. split; [exact MV|].
  destruct (run_bill c _ _ v (eq_cost _ EQ) R) as (oc & em & cost' & _ & _ & G & _).
  assert (cost' = cost).
  { apply latest_iff in CC. pose proof (gained_latest _ _ _ _ G) as (l & L). destruct CC as (l' & L'). rewrite L in L'.
    injection L' as L'. apply app_inj_tail in L'. destruct L' as (_ & L'). congruence. }
  subst cost'. split; [exact G|]. split; [rewrite ER; reflexivity|exact ED].
Qed.

(** The clock *)
Lemma run_clock c (g g' : nonmod Q) v : nm_run c g = (g', Ok v) ->
  nm_len g' = nm_len g /\ nm_horizon g' = nm_horizon g /\ nm_use g' = nm_use g
  /\ (if ended g then nm_t g' = nm_t g /\ nm_done g' = true else nm_t g' = (nm_t g + 1)%Z /\ nm_done g' = nm_done g).
Proof.
  intros H. apply nm_run_ok in H. destruct H as (p & c' & o & s & prod & _ & H & _). cbv zeta in H.
  destruct (ended g); [subst g'; cbn; auto 10|].
  apply update_variables_varies in H. destruct H as (? & ? & ? & ->). cbn. auto 10.
Qed.

Lemma until_cons o os : until_done (o :: os) -> os = [] \/ (snd o = false /\ until_done os).
Proof. unfold until_done. destruct os as [|o' os]; [auto|]. cbn [removelast]. intros H. inversion H; subst. right. auto. Qed.

(** The last step of an episode *)
Definition last_t (g : nonmod Q) : Z := if (nm_horizon g =? 0)%Z then (nm_len g - 1)%Z else (nm_len g - nm_horizon g)%Z.
Lemma ended_last g : (0 <= nm_horizon g)%Z -> (nm_t g <= last_t g)%Z -> ended g = (nm_t g =? last_t g)%Z.
Proof.
  unfold ended, last_t. intros H L. destruct (Z.eqb_spec (nm_horizon g) 0) as [E|E].
  - destruct (Z.eqb_spec (nm_t g) (nm_len g - nm_horizon g)); [lia|]. reflexivity.
  - destruct (Z.eqb_spec (nm_t g) (nm_len g - nm_horizon g)); [reflexivity|]. cbn [orb].
    apply Z.eqb_neq. lia.
Qed.

Lemma lasts_from e : (0 <= nm_horizon (gy_grid e))%Z -> (nm_t (gy_grid e) <= last_t (gy_grid e))%Z -> nm_done (gy_grid e) = false ->
  lasts e (last_t (gy_grid e) - nm_t (gy_grid e) + 1).
Proof.
  intros H T D l os e' P. revert H T D. induction P as [e|e a e1 o l os e2 S P IH]; intros H T D U.
  - cbn. split; [lia|]. split; [discriminate|lia].
  - destruct o as ((ob & r) & d). apply gym_step_ok in S. destruct S as (b & c & v & cost & _ & _ & R & _ & _ & _ & ED & _).
    apply run_clock in R. destruct R as (RL & RH & _ & RE).
    assert (LT : last_t (gy_grid e1) = last_t (gy_grid e)) by (unfold last_t; rewrite RL, RH; reflexivity).
    rewrite (ended_last _ H T) in RE. destruct (Z.eqb_spec (nm_t (gy_grid e)) (last_t (gy_grid e))) as [E|E].
    + destruct RE as (_ & RD). rewrite RD in ED. subst d. destruct (until_cons _ _ U) as [-> |(X & _)]; [|discriminate X].
      inversion P; subst. cbn. split; [lia|]. split; [lia|reflexivity].
    + destruct RE as (RT & RD). rewrite RD, D in ED. subst d. cbn [existsb snd orb length].
      destruct (until_cons _ _ U) as [-> |(_ & U')].
      * inversion P; subst. cbn. split; [lia|]. split; [discriminate|lia].
      * destruct (IH ltac:(lia) ltac:(lia) ltac:(congruence) U') as (I1 & I2). split; [lia|]. rewrite I2. lia.
Qed.

(** A reset *)
Lemma shows_kept p q d n x b (g : nonmod Q) : shows g n x b ->
  shows (set_epochs p q (set_clock (nm_t g) (nm_len g) d (vars n x b g))) n x b.
Proof.
  intros [S1 S2 S3 S4 S5 S6]. constructor; try assumption.
  - cbn [vars nm_arch set_epochs set_clock set_battery set_next set_now] in *. destruct (has_grid (nm_arch g)); [exact S5|]. repeat split.
  - cbn [vars nm_arch set_epochs set_clock set_battery set_next set_now] in *. destruct (has_battery (nm_arch g)); [exact S6|reflexivity].
Qed.
Record restarted (g g' : nonmod Q) : Prop := mkRestarted {
  rs_t : nm_t g' = 0%Z;
  rs_len : nm_len g' = data_length (nm_default g) g;
  rs_done : nm_done g' = false;
  rs_horizon : nm_horizon g' = nm_horizon g;
  rs_use : nm_use g' = nm_default g;
  rs_arch : nm_arch g' = nm_arch g;
  rs_par : nm_par g' = nm_par g;
  rs_load : nm_load_ts g' = nm_load_ts g;
  rs_pv : nm_pv_ts g' = nm_pv_ts g;
  rs_limit : nm_limit g' = nm_limit g;
  rs_state : firsts (nm_state g) = Ok (nm_state g');
  rs_shows : shows g' (nm_now g') (nm_next g') (nm_battery g')
}.
Lemma restarted_rewound st n x b (g : nonmod Q) : firsts (nm_state g) = Ok st -> shows (rewound false st g) n x b ->
  let g1 := vars n x b (rewound false st g) in
  restarted g (set_epochs (nm_per_epoch g1) (S (nm_epoch g1)) (set_clock (nm_t g1) (nm_len g1) false g1)).
Proof.
  intros F SH g1.
  assert (U : use_after false g = nm_default g) by (unfold use_after; destruct (nm_default g); reflexivity).
  constructor.
  - reflexivity.
  - change (data_length (use_after false g) g = data_length (nm_default g) g). rewrite U. reflexivity.
  - reflexivity.
  - reflexivity.
  - exact U.
  - reflexivity.
  - reflexivity.
  - reflexivity.
  - reflexivity.
  - reflexivity.
  - exact F.
  - pose proof (shows_kept (nm_per_epoch g1) (S (nm_epoch g1)) false n x b _ SH) as K. exact K.
Qed.
Lemma reset_clock (g g' : nonmod Q) : nm_reset false g = (g', Ok tt) -> restarted g g'.
Proof.
  intros H. apply nm_reset_any in H. destruct H as [(e & X & _)|(st & g1 & r1 & F & U & R)]; [discriminate X|].
  destruct r1 as [u|er]; [|destruct R; discriminate]. destruct R as (_ & ->).
  pose proof (update_variables_ok _ _ _ U) as (n & x & b & -> & SH).
  exact (restarted_rewound st n x b g F SH).
Qed.

Lemma gym_reset_ok start (e e' : gym Q) o : gym_reset start e = (e', Ok o) ->
  exists g1 v, nm_reset false (gy_grid e) = (g1, Ok tt) /\ get_updated_values g1 = Ok v
    /\ means_values e v o
    /\ (match gy_trajectory e with
        | None => gy_grid e' = g1
        | Some n => (0 < nm_len g1 - nm_horizon g1 - n)%Z
                    /\ gy_grid e' = set_clock start (start + n + nm_horizon g1) (nm_done g1) g1
        end)
    /\ e' = set_current (gy_action e) (Some o) (set_gym_grid (gy_grid e') e).
Proof.
  unfold gym_reset, base_reset. intros H. apply mbind_ok in H. destruct H as (e5 & o' & E5 & H).
  apply mbind_ok in E5. destruct E5 as (e1 & [] & E & E5). unfold on_gym in E.
  destruct (nm_reset false (gy_grid e)) as [g1 w] eqn:R. injection E as <- ->.
  apply mbind_ok in E5. destruct E5 as (e1 & x & E & E5). unfold mget in E. injection E as <- <-.
  apply mbind_ok in E5. destruct E5 as (e1 & [] & E & E5). unfold on_gym in E. cbn [gy_grid set_gym_grid gy_trajectory] in E.
  destruct (short_trajectory (gy_trajectory e) start g1) as [g2 w] eqn:T. injection E as <- ->.
  apply mbind_ok in E5. destruct E5 as (e1 & x & E & E5). unfold mget in E. injection E as <- <-.
  apply mbind_ok in E5. destruct E5 as (e1 & v & E & E5). unfold mlift in E. injection E as <- V.
  apply mbind_ok in E5. destruct E5 as (e1 & [] & E & E5). unfold mmodify in E. injection E as <-.
  unfold mret in E5. injection E5 as <- <-.
  apply mbind_ok in H. destruct H as (e1 & x & E & H). unfold mget in E. injection E as <- <-.
  cbn [gy_stds set_current set_gym_grid gy_action gy_grid] in *.
  assert (Y : gy_grid e' = g2 /\ means_values e v o /\ e' = set_current (gy_action e) (Some o) (set_gym_grid g2 e)).
  { unfold means_values. destruct (gy_stds e) as [s|].
    - apply mbind_ok in H. destruct H as (e2 & y & E & H). unfold mlift in E. injection E as <- F.
      apply mbind_ok in H. destruct H as (e2 & [] & E & H). unfold mmodify in E. injection E as <-.
      unfold mret in H. injection H as <- <-. cbn. split; [reflexivity|]. split; [|reflexivity].
      exists y. split; [apply forward_ok; exact F|reflexivity].
    - unfold mret in H. injection H as <- <-. cbn. auto. }
  destruct Y as (Y1 & Y2 & Y3). exists g1, v. split; [reflexivity|].
  assert (Z : get_updated_values g1 = Ok v /\ match gy_trajectory e with
        | None => g2 = g1
        | Some n => (0 < nm_len g1 - nm_horizon g1 - n)%Z
                    /\ g2 = set_clock start (start + n + nm_horizon g1) (nm_done g1) g1
        end).
  { unfold short_trajectory in T. destruct (gy_trajectory e) as [n|].
    - apply mbind_ok in T. destruct T as (g3 & x & E & T). unfold mget in E. injection E as <- <-.
      destruct (Z.leb_spec (nm_len g1 - nm_horizon g1 - n) 0) as [L|L]; [discriminate T|].
      unfold mmodify in T. injection T as <-. split; [exact V|]. auto.
    - unfold mret in T. injection T as <-. auto. }
  destruct Z as (Z1 & Z2). split; [exact Z1|]. split; [exact Y2|]. rewrite Y1. split; [exact Z2|exact Y3].
Qed.

Lemma gym_reset_lasts start (e e' : gym Q) o : gym_reset start e = (e', Ok o) -> year (gy_grid e) ->
  (0 <= nm_horizon (gy_grid e) < 8760)%Z ->
  (forall n, gy_trajectory e = Some n -> (1 <= n)%Z) ->
  lasts e' (steps_of (gy_trajectory e) (nm_horizon (gy_grid e))).
Proof.
  intros H Y HZ TJ. apply gym_reset_ok in H. destruct H as (g1 & v & R & _ & _ & T & _).
  apply reset_clock in R. destruct R as [R1 R2 R3 R4 _ _ _ _ _ _ _ _]. unfold year in Y. rewrite Y in R2.
  set (h := nm_horizon (gy_grid e)) in *.
  assert (X : nm_horizon (gy_grid e') = h /\ nm_done (gy_grid e') = false
    /\ (last_t (gy_grid e') - nm_t (gy_grid e') + 1 = steps_of (gy_trajectory e) h)%Z
    /\ (nm_t (gy_grid e') <= last_t (gy_grid e'))%Z).
  { unfold last_t, steps_of. destruct (gy_trajectory e) as [n|].
    - destruct T as (T1 & ->). cbn. specialize (TJ n eq_refl). rewrite R4. destruct (Z.eqb_spec h 0); repeat split; try assumption; lia.
    - rewrite T. rewrite R1, R2, R4. destruct (Z.eqb_spec h 0); repeat split; try assumption; lia. }
  destruct X as (X1 & X2 & X3 & X4). rewrite <- X3. apply lasts_from; [lia|exact X4|exact X2].
Qed.

(** The constructor *)
Lemma new_gym_wrong trajectory episode start (g : nonmod Q) : nm_len g <> 8760%Z ->
  raises AssertionError (new_gym trajectory episode start g).
Proof. intros H. unfold new_gym. apply Z.eqb_neq in H. rewrite H. eexists. split; reflexivity. Qed.

Lemma new_gym_ok trajectory episode start (g : nonmod Q) : nm_len g = 8760%Z ->
  let h := match episode with None => 0%Z | Some m => (8760 - m)%Z end in
  match trajectory with
  | None => exists e, new_gym trajectory episode start g = Ok e /\ gy_grid e = set_horizon h g /\ gy_trajectory e = None
  | Some n =>
      ((h + n < 8760)%Z -> exists e, new_gym trajectory episode start g = Ok e /\ gy_trajectory e = Some n
          /\ gy_grid e = set_clock start (start + n + h) (nm_done g) (set_horizon h g))
      /\ ((8760 <= h + n)%Z -> raises ValueError (new_gym trajectory episode start g))
  end.
Proof.
  intros L h. unfold new_gym. rewrite L. cbn [Z.eqb Pos.eqb negb]. fold h.
  destruct trajectory as [n|]; [|eexists; split; [reflexivity|split; reflexivity]].
  unfold short_trajectory, mbind, mget. cbn [nm_len nm_horizon set_horizon]. rewrite L. split; intros H.
  - destruct (Z.leb_spec (8760 - h - n) 0); [lia|]. eexists. split; [reflexivity|]. split; reflexivity.
  - destruct (Z.leb_spec (8760 - h - n) 0); [|lia]. eexists. split; reflexivity.
Qed.
