(** * What a non-modular microgrid shows, and its episodes *)

From Coq Require Import ZArith QArith Qabs Qminmax Bool String List Lia Lqa Permutation.
From Verif Require Import Num Py Spec_Module Proofs_Num Proofs_Run Proofs_Progress Proofs_Env NonModular Spec_NonModular
  Proofs_NonModular Proofs_NmRun Proofs_NmHistory Proofs_NmBattery Proofs_NmCost Proofs_NmClock Proofs_NmProgress
  Proofs_NmEpisode Proofs_NmTotal.
Import ListNotations.
Local Open Scope string_scope.
Local Open Scope list_scope.
Local Open Scope Q_scope.

(** ** The rows shown *)

Lemma last_step_ended g : last_step g <-> ended g = true.
Proof. unfold last_step, ended. rewrite orb_true_iff, !Z.eqb_eq. reflexivity. Qed.

Lemma at_now g (l : list Q) x : clock_ok g -> iloc (in_use g l) (nm_t g) = Ok x -> at_step g 0 l x.
Proof.
  intros C H. destruct C as [_ C2 _ _]. unfold at_step. rewrite Z.add_0_r. split; [lia|].
  apply iloc_ok in H; [exact H|lia].
Qed.
Lemma at_next g (l : list Q) c : clock_ok g -> next_value g l = Ok c -> upcoming g l c.
Proof.
  intros C H. destruct C as [_ C2 _ _]. unfold next_value in H. unfold upcoming, at_step, data.
  destruct (nm_use g) eqn:U.
  - destruct (Z.ltb_spec (nm_t g) (nm_len g - 1)).
    + apply rmap_ok in H. destruct H as (x & H & ->). apply iloc_ok in H; [|lia].
      left. exists x. split; [reflexivity|]. split; [lia|exact H].
    + injection H as <-. right. split; [reflexivity|]. split; [reflexivity|lia].
  - apply rmap_ok in H. destruct H as (x & H & ->). apply iloc_ok in H; [|lia]. unfold in_use in H. rewrite U in H.
    left. exists x. split; [reflexivity|]. split; [lia|exact H].
  - apply rmap_ok in H. destruct H as (x & H & ->). apply iloc_ok in H; [|lia]. unfold in_use in H. rewrite U in H.
    left. exists x. split; [reflexivity|]. split; [lia|exact H].
Qed.

Lemma shows_reads g n x b : clock_ok g -> shows g n x b ->
  reads_now (vars n x b g) /\ reads_next (vars n x b g) /\ reads_next_grid (vars n x b g).
Proof.
  intros C [S1 S2 S3 S4 S5 S6].
  assert (NW : forall l y, iloc (in_use g l) (nm_t g) = Ok y -> at_step (vars n x b g) 0 l y) by (intros l y E; apply at_now in E; assumption).
  assert (NX : forall l y, next_value g l = Ok y -> upcoming (vars n x b g) l y) by (intros l y E; apply at_next in E; assumption).
  unfold reads_now, reads_next, reads_next_grid.
  change (nm_arch (vars n x b g)) with (nm_arch g). change (nm_now (vars n x b g)) with n. change (nm_next (vars n x b g)) with x.
  change (nm_load_ts (vars n x b g)) with (nm_load_ts g). change (nm_pv_ts (vars n x b g)) with (nm_pv_ts g).
  change (nm_status_ts (vars n x b g)) with (nm_status_ts g). change (nm_import_ts (vars n x b g)) with (nm_import_ts g).
  change (nm_export_ts (vars n x b g)) with (nm_export_ts g). change (nm_co2_ts (vars n x b g)) with (nm_co2_ts g).
  split; [|split].
  - split; [apply NW; exact S2|]. split; [apply NW; exact S1|]. intros G. rewrite G in S5.
    destruct S5 as (T1 & T2 & T3 & T4 & _). auto.
  - split; apply NX; assumption.
  - intros G. rewrite G in S5. destruct S5 as (_ & _ & _ & _ & T1 & T2 & T3 & T4). auto 10.
Qed.

(** The same variables on the same data *)
Lemma reads_same g g' : nm_arch g' = nm_arch g -> nm_now g' = nm_now g -> nm_next g' = nm_next g ->
  nm_load_ts g' = nm_load_ts g -> nm_pv_ts g' = nm_pv_ts g -> nm_status_ts g' = nm_status_ts g ->
  nm_import_ts g' = nm_import_ts g -> nm_export_ts g' = nm_export_ts g -> nm_co2_ts g' = nm_co2_ts g ->
  nm_use g' = nm_use g -> nm_limit g' = nm_limit g -> nm_t g' = nm_t g -> nm_len g' = nm_len g ->
  (reads_now g' <-> reads_now g) /\ (reads_next g' <-> reads_next g) /\ (reads_next_grid g' <-> reads_next_grid g).
Proof.
  intros E1 E2 E3 E4 E5 E6 E7 E8 E9 E10 E11 E12 E13.
  unfold reads_now, reads_next, reads_next_grid, upcoming, at_step, data.
  rewrite E1, E2, E3, E4, E5, E6, E7, E8, E9, E10, E11, E12, E13.
  split; [reflexivity|]. split; reflexivity.
Qed.

(** One step *)
Lemma run_advances control (g : nonmod Q) g' v : clock_ok g -> nm_run control g = (g', Ok v) ->
  (last_step g -> nm_t g' = nm_t g /\ nm_done g' = true /\ nm_now g' = nm_now g /\ nm_next g' = nm_next g)
  /\ (~ last_step g -> nm_t g' = (nm_t g + 1)%Z /\ nm_done g' = nm_done g
        /\ reads_now g' /\ reads_next g' /\ reads_next_grid g')
  /\ nm_len g' = nm_len g /\ nm_horizon g' = nm_horizon g /\ nm_use g' = nm_use g /\ nm_limit g' = nm_limit g
  /\ nm_load_ts g' = nm_load_ts g /\ nm_pv_ts g' = nm_pv_ts g.
Proof.
  intros C H. apply nm_run_ok in H. destruct H as (p & c & o & s & prod & R & H & _). cbv zeta in H.
  rewrite last_step_ended. destruct (ended g) eqn:D.
  - subst g'. split; [intros _; auto|]. split; [intros X; contradiction X; reflexivity|]. auto 10.
  - assert (C1 : clock_ok (set_clock (nm_t g + 1) (nm_len g) (nm_done g) (after_records control g p c o s))).
    { destruct C as [K1 K2 K3 K4]. constructor; try assumption. cbn. unfold ended in D.
      apply orb_false_iff in D. destruct D as (_ & D). apply Z.eqb_neq in D. lia. }
    apply update_variables_ok in H. destruct H as (n & x & b & -> & SH). apply (shows_reads _ _ _ _ C1) in SH.
    split; [discriminate|]. split; [intros _; split; [reflexivity|]; split; [reflexivity|exact SH]|]. auto 10.
Qed.

Lemma reset_reads testing (g : nonmod Q) g' : equipped g -> set_right g -> nm_reset testing g = (g', Ok tt) ->
  clock_ok g' /\ nm_t g' = 0%Z /\ nm_done g' = false /\ nm_use g' = use_after testing g
  /\ reads_now g' /\ reads_next g' /\ reads_next_grid g'.
Proof.
  intros E SR H. pose proof (clock_reset testing g E SR) as C. rewrite H in C. simpl in C.
  apply nm_reset_any in H. destruct H as [(e & X & _)|(st & g1 & r1 & _ & U & K)]; [discriminate X|].
  destruct r1 as [u|e]; destruct K as (K1 & ->); [|discriminate K1].
  apply update_variables_ok in U. destruct U as (n & x & b & -> & SH).
  assert (C' : clock_ok (rewound testing st g)) by (destruct C as [X1 X2 X3 X4]; constructor; assumption).
  apply (shows_reads _ _ _ _ C') in SH. split; [exact C|].
  assert (T : nm_t (vars n x b (rewound testing st g)) = 0%Z) by reflexivity.
  assert (US : nm_use (vars n x b (rewound testing st g)) = use_after testing g) by reflexivity.
  clear C. revert SH T US. generalize (vars n x b (rewound testing st g)). intros g1 SH T US.
  split; [exact T|]. split; [reflexivity|]. split; [exact US|].
  destruct (reads_same g1 (set_epochs (nm_per_epoch g1) (S (nm_epoch g1)) (set_clock (nm_t g1) (nm_len g1) false g1)))
    as (R1 & R2 & R3); try reflexivity.
  rewrite R1, R2, R3. exact SH.
Qed.

(** ** Histories without exceptions *)

Lemma nm_fine_do c g g' : nm_fine c g g' -> g' = nm_do c g.
Proof.
  destruct c; simpl; [intros (v & ->)|intros ->|intros ->| |]; auto.
Qed.
Lemma nm_quiet_after g0 cs g : nm_quiet g0 cs g -> g = nm_after cs g0.
Proof.
  induction 1 as [|cs g c g' _ IH F]; [reflexivity|]. apply nm_fine_do in F. subst.
  unfold nm_after. rewrite fold_left_app. reflexivity.
Qed.


Lemma new_reads (sp : nm_spec Q) h g : new_nonmodular sp h = Ok g -> reads_now g /\ reads_next g.
Proof.
  intros H. pose proof (new_rows _ _ _ H) as RW. apply new_nonmodular_ok in H.
  destruct H as (_ & H2 & _ & _ & _ & _ & _ & _ & _ & HG & HL & HP & (x & X & X') & (y & Y & Y') & _ & T & L & _ & _ & _ & _ & SP & DF & US).
  assert (AT : forall l z, iloc l 0 = Ok z -> at_step g 0 l z).
  { intros l z E. unfold at_step, data. rewrite T, US. split; [lia|]. apply iloc_ok in E; [exact E|lia]. }
  split.
  - split; [apply AT; exact HL|]. split; [apply AT; exact HP|]. rewrite H2. intros G.
    destruct (HG G) as (_ & _ & _ & _ & I1 & I2 & I3 & I4 & _). auto 10.
  - assert (UP : forall l z c, iloc l 1 = Ok z -> c = CNum z -> upcoming g l c).
    { intros l z c E ->. left. exists z. split; [reflexivity|]. unfold at_step, data. rewrite T, US. split; [lia|].
      apply iloc_ok in E; [exact E|lia]. }
    split; [eapply UP; eassumption|eapply UP; eassumption].
Qed.

Lemma split_right limit (cancel : bool) (g : nonmod Q) : clock_ok g -> (0 < all_rows g)%nat -> (0 < limit < all_rows g)%nat ->
  set_right (if negb (nm_split g) then set_data limit true Training Training g
             else if cancel then set_data (nm_limit g) false All All g else g).
Proof.
  intros [C1 C2 C3 C4] S1 PR. destruct (nm_split g) eqn:SP; simpl.
  - destruct cancel; split; try exact S1; split; cbn; auto; try congruence.
    destruct (nm_default g); [exact I|apply C3|exact C3].
  - split; [exact S1|]. split; [exact PR|reflexivity].
Qed.

Lemma reads_quiet sp h g0 cs g : wired sp -> new_nonmodular sp h = Ok g0 -> nm_quiet g0 cs g ->
  Forall (proper (all_rows g0)) cs ->
  reads_now g /\ reads_next g /\ (Exists rewinds cs \/ (0 < nm_t g)%Z -> reads_next_grid g).
Proof.
  intros W N Q. pose proof (equipped_new _ _ _ W N) as E0. pose proof (new_rows _ _ _ N) as RW.
  assert (RW' : (0 < all_rows g0)%nat) by lia.
  pose proof (clock_new _ _ _ N RW') as C0.
  induction Q as [|cs g c g' Q IH F]; intros PR.
  - destruct (new_reads _ _ _ N) as (R1 & R2). split; [exact R1|]. split; [exact R2|].
    intros [X|X]; [inversion X|]. apply new_nonmodular_ok in N.
    destruct N as (_ & _ & _ & _ & _ & _ & _ & _ & _ & _ & _ & _ & _ & _ & _ & T & _). lia.
  - apply Forall_app in PR. destruct PR as (PR1 & PR2). specialize (IH PR1). inversion PR2 as [|? ? PR3 _]; subst.
    pose proof (nm_quiet_after _ _ _ Q) as EQ.
    assert (E : equipped g) by (rewrite EQ; apply equipped_after; exact E0).
    assert (C : clock_ok g) by (rewrite EQ; apply clock_after; assumption).
    assert (AR : all_rows g = all_rows g0).
    { rewrite EQ. pose proof (descends_after cs g0) as D. apply all_rows_eq; [apply (ds_load _ _ D)|apply (ds_pv _ _ D)]. }
    destruct IH as (I1 & I2 & I3).
    assert (SR : set_right g).
    { split; [lia|]. split; [|apply (ck_split _ C)]. pose proof (ck_default _ C) as X. destruct (nm_default g); [exact I|apply X|exact X]. }
    destruct c as [control|testing|limit cancel|hh|x]; simpl in F.
    + destruct F as (v & F). pose proof (run_advances _ _ _ _ C F) as (L1 & L2 & L3).
      assert (XX : forall P : Prop, Exists rewinds (cs ++ [HRun control]) \/ P -> Exists rewinds cs \/ P).
      { intros P [X|X]; [|right; exact X]. apply Exists_app in X. destruct X as [X|X]; [left; exact X|].
        inversion X as [? ? X'|? ? X']; [contradiction X'|inversion X']. }
      destruct (ended g) eqn:D.
      * apply last_step_ended in D. destruct (L1 D) as (T & _ & NN & NX).
        assert (DS : nm_arch g' = nm_arch g /\ nm_status_ts g' = nm_status_ts g /\ nm_import_ts g' = nm_import_ts g
           /\ nm_export_ts g' = nm_export_ts g /\ nm_co2_ts g' = nm_co2_ts g).
        { pose proof (nm_fine_do (HRun control) g g' (ex_intro _ v F)) as X. rewrite X.
          pose proof (descends_do g (HRun control) g (descends_refl g)) as DD.
          split; [apply (ds_arch _ _ DD)|]. split; [apply (ds_status _ _ DD)|]. split; [apply (ds_import _ _ DD)|].
          split; [apply (ds_export _ _ DD)|apply (ds_co2 _ _ DD)]. }
        destruct DS as (D1 & D2 & D3 & D4 & D5). destruct L3 as (L3 & _ & L4 & L5 & L6 & L7).
        destruct (reads_same g g') as (R1 & R2 & R3); try assumption.
        rewrite R1, R2, R3, T.
        split; [exact I1|]. split; [exact I2|]. intros X. apply I3. apply XX. exact X.
      * assert (ND : ~ last_step g) by (intros X; apply last_step_ended in X; congruence).
        destruct (L2 ND) as (_ & _ & R1 & R2 & R3). auto.
    + apply reset_reads in F; [|exact E|exact SR]. destruct F as (_ & _ & _ & _ & R1 & R2 & R3). auto.
    + unfold train_test_split in F. unfold mbind at 1, mmodify at 1 in F. cbv beta iota in F.
      apply reset_reads in F.
      * destruct F as (_ & _ & _ & _ & R1 & R2 & R3). auto.
      * destruct E. destruct (negb (nm_split g)); [constructor; assumption|destruct cancel; constructor; assumption].
      * apply split_right; [exact C|lia|rewrite AR; exact PR3].
    + subst g'. split; [exact I1|]. split; [exact I2|]. intros X. apply I3.
      destruct X as [X|X]; [|right; exact X]. apply Exists_app in X. destruct X as [X|X]; [left; exact X|].
      inversion X as [? ? X'|? ? X']; [contradiction X'|inversion X'].
    + subst g'. split; [exact I1|]. split; [exact I2|]. intros X. apply I3.
      destruct X as [X|X]; [|right; exact X]. apply Exists_app in X. destruct X as [X|X]; [left; exact X|].
      inversion X as [? ? X'|? ? X']; [contradiction X'|inversion X'].
Qed.

(** ** Episodes *)


Lemma episode_steps controls : forall g0 g, clock_ok g0 -> nm_t g0 = 0%Z -> nm_done g0 = false ->
  nm_quiet g0 (map HRun controls) g ->
  nm_t g = Z.min (Z.of_nat (length controls)) (episode_end g0)
  /\ (nm_done g = true <-> (episode_end g0 < Z.of_nat (length controls))%Z)
  /\ clock_ok g /\ nm_len g = nm_len g0 /\ nm_horizon g = nm_horizon g0.
Proof.
  induction controls as [|c cs IH] using rev_ind; intros g0 g C T D Q.
  - inversion Q as [|cs g1 c g' Q1 F EQ]; [subst|destruct cs; discriminate EQ].
    rewrite T, D. simpl. unfold episode_end. destruct C as [C1 C2 C3 C4].
    destruct (andb _ _) eqn:K; (split; [|split; [split; [discriminate|]|split; [constructor; assumption|auto]]]); qprop; lia.
  - rewrite map_app in Q. simpl in Q. inversion Q as [EQ|cs' g1 c' g' Q1 F EQ]; [destruct cs; discriminate EQ|].
    apply app_inj_tail in EQ. destruct EQ as (-> & ->). subst g'.
    destruct (IH _ _ C T D Q1) as (IT & ID & IC & IL & IH').
    destruct F as (v & F). pose proof F as F'. apply (run_advances _ _ _ _ IC) in F'.
    destruct F' as (L1 & L2 & L3 & L4 & L5 & L6 & L7 & L8).
    assert (CG : clock_ok g).
    { pose proof (nm_fine_do (HRun c) g1 g (ex_intro _ v F)) as X.
      assert (K : nm_default g = nm_default g1 /\ nm_split g = nm_split g1).
      { apply nm_run_ok in F. destruct F as (? & ? & ? & ? & ? & _ & F & _). cbv zeta in F.
        destruct (ended g1); [subst g; auto|]. apply update_variables_varies in F. destruct F as (? & ? & ? & ->). auto. }
      destruct K as (K1 & K2). destruct IC as [J1 J2 J3 J4].
      constructor; unfold data_length, all_rows in *; rewrite ?L3, ?L5, ?L6, ?L7, ?L8, ?K1, ?K2; try assumption.
      destruct (ended g1) eqn:EN.
      - apply last_step_ended in EN. destruct (L1 EN) as (-> & _). exact J2.
      - assert (ND : ~ last_step g1) by (intros Y; apply last_step_ended in Y; congruence).
        destruct (L2 ND) as (-> & _). unfold last_step in ND. lia. }
    rewrite app_length. simpl length. rewrite Nat2Z.inj_add. change (Z.of_nat 1) with 1%Z.
    destruct C as [C1 C2 C3 C4].
    assert (EE : (0 <= episode_end g0 <= nm_len g0 - 1)%Z).
    { unfold episode_end. destruct (andb _ _) eqn:K; qprop; lia. }
    assert (LS : last_step g1 <-> nm_t g1 = episode_end g0).
    { destruct IC as [J1 J2 J3 J4]. unfold last_step, episode_end in *. rewrite IH', IL in *.
      destruct (andb _ _) eqn:K; qprop; lia. }
    split; [|split; [|split; [exact CG|split; congruence]]].
    + destruct (ended g1) eqn:EN.
      * apply last_step_ended in EN. destruct (L1 EN) as (-> & _). apply LS in EN. lia.
      * assert (ND : ~ last_step g1) by (intros Y; apply last_step_ended in Y; congruence).
        destruct (L2 ND) as (-> & _). rewrite LS in ND. lia.
    + destruct (ended g1) eqn:EN.
      * apply last_step_ended in EN. destruct (L1 EN) as (_ & -> & _). apply LS in EN. split; [intros _; lia|reflexivity].
      * assert (ND : ~ last_step g1) by (intros Y; apply last_step_ended in Y; congruence).
        destruct (L2 ND) as (_ & -> & _). rewrite LS in ND. rewrite ID. lia.
Qed.

(** ** Resetting forgets *)

(** *** Epochs are only counted. *)

Definition comm {A} (m : M (nonmod Q) A) : Prop :=
  forall a b g, m (set_epochs a b g) = (set_epochs a b (fst (m g)), snd (m g)).
Lemma comm_bind {A C} (f : M (nonmod Q) A) (k : A -> M (nonmod Q) C) : comm f -> (forall x, comm (k x)) -> comm (mbind f k).
Proof.
  intros F K a b g. unfold mbind. rewrite F. destruct (f g) as [g1 [x|e]]; simpl; [apply K|reflexivity].
Qed.
Lemma comm_get {C} (k : nonmod Q -> M (nonmod Q) C) :
  (forall a b g, k (set_epochs a b g) = k g) -> (forall g, comm (k g)) -> comm (mbind mget k).
Proof. intros E K a b g. unfold mbind, mget. rewrite E. apply K. Qed.
Lemma comm_lift {A} (r : res A) : comm (mlift r).
Proof. intros a b g. reflexivity. Qed.
Lemma comm_ret {A} (x : A) : comm (mret x).
Proof. intros a b g. reflexivity. Qed.
Lemma comm_modify f : (forall a b g, f (set_epochs a b g) = set_epochs a b (f g)) -> comm (mmodify f).
Proof. intros F a b g. unfold mmodify. simpl. rewrite F. reflexivity. Qed.
Lemma comm_now f : comm (now_grid f).
Proof. apply comm_modify. reflexivity. Qed.
Lemma comm_next f : comm (next_grid f).
Proof. apply comm_modify. reflexivity. Qed.
Lemma comm_production f : comm (on_production f).
Proof. intros a b g. unfold on_production. simpl. destruct (f (nm_production g)) as [r x]. reflexivity. Qed.
Lemma comm_state f : comm (on_state f).
Proof. intros a b g. unfold on_state. simpl. destruct (f (nm_state g)) as [r x]. reflexivity. Qed.
Lemma comm_cost f : comm (on_cost f).
Proof. intros a b g. unfold on_cost. simpl. destruct (f (nm_cost g)) as [r x]. reflexivity. Qed.
Lemma comm_co2 f : comm (on_co2 f).
Proof. intros a b g. unfold on_co2. simpl. destruct (f (nm_co2 g)) as [r x]. reflexivity. Qed.

Ltac unepoch := repeat match goal with
  |- context[?f (set_epochs ?a ?b ?g)] => change (f (set_epochs a b g)) with (f g) end.
Ltac comms := repeat (cbv beta; match goal with
  | |- comm (mbind mget _) => apply comm_get; [intros; cbv beta; unepoch; reflexivity|intro]
  | |- comm (mbind _ _) => apply comm_bind; [|intro]
  | |- comm (mlift _) => apply comm_lift
  | |- comm (mret _) => apply comm_ret
  | |- comm (now_grid _) => apply comm_now
  | |- comm (next_grid _) => apply comm_next
  | |- comm (on_production _) => apply comm_production
  | |- comm (on_state _) => apply comm_state
  | |- comm (on_cost _) => apply comm_cost
  | |- comm (on_co2 _) => apply comm_co2
  | |- comm (mmodify _) => apply comm_modify; reflexivity
  | |- comm (if ?b then _ else _) => destruct b
  end).

Lemma update_variables_comm : comm update_variables.
Proof. unfold update_variables. comms. Qed.
Lemma run_comm control : comm (nm_run control).
Proof. unfold nm_run. cbv zeta. comms; apply update_variables_comm. Qed.

(** *** Variables of parts that do not exist *)

Definition same_idle (g0 g : nonmod Q) : Prop :=
  nm_arch g = nm_arch g0
  /\ (has_grid (nm_arch g0) = false ->
      now_status (nm_now g) = now_status (nm_now g0) /\ now_import (nm_now g) = now_import (nm_now g0)
      /\ now_export (nm_now g) = now_export (nm_now g0) /\ now_co2 (nm_now g) = now_co2 (nm_now g0)
      /\ nx_status (nm_next g) = nx_status (nm_next g0) /\ nx_import (nm_next g) = nx_import (nm_next g0)
      /\ nx_export (nm_next g) = nx_export (nm_next g0) /\ nx_co2 (nm_next g) = nx_co2 (nm_next g0))
  /\ (has_battery (nm_arch g0) = false -> nm_battery g = nm_battery g0).

Definition idles {A} g0 (m : M (nonmod Q) A) : Prop := forall g, same_idle g0 g -> same_idle g0 (fst (m g)).
Lemma idles_bind {A C} g0 (f : M (nonmod Q) A) (k : A -> M (nonmod Q) C) :
  idles g0 f -> (forall x, idles g0 (k x)) -> idles g0 (mbind f k).
Proof.
  intros F K g I. unfold mbind. specialize (F g I). destruct (f g) as [g1 [x|e]]; simpl in *; [apply K|]; exact F.
Qed.
Lemma idles_get {C} g0 (k : nonmod Q -> M (nonmod Q) C) :
  (forall g, nm_arch g = nm_arch g0 -> idles g0 (k g)) -> idles g0 (mbind mget k).
Proof. intros K g I. unfold mbind, mget. apply K; [apply I|exact I]. Qed.
Lemma idles_lift {A} g0 (r : res A) : idles g0 (mlift r).
Proof. intros g I. exact I. Qed.
Lemma idles_ret {A} g0 (x : A) : idles g0 (mret x).
Proof. intros g I. exact I. Qed.
Lemma idles_modify g0 f : (forall g, same_idle g0 g -> same_idle g0 (f g)) -> idles g0 (mmodify f).
Proof. intros F g I. apply F. exact I. Qed.
Lemma idles_records g0 (f : M (record Q) unit) : idles g0 (on_production f) /\ idles g0 (on_state f)
  /\ idles g0 (on_cost f) /\ idles g0 (on_co2 f).
Proof.
  repeat apply conj; intros g I; unfold on_production, on_state, on_cost, on_co2;
    match goal with |- context[f ?r] => destruct (f r) as [r' x] end; exact I.
Qed.
Lemma idles_now g0 f : (has_grid (nm_arch g0) = true \/ forall n, now_status (f n) = now_status n /\ now_import (f n) = now_import n
    /\ now_export (f n) = now_export n /\ now_co2 (f n) = now_co2 n) -> idles g0 (now_grid f).
Proof.
  intros H. apply idles_modify. intros g (I1 & I2 & I3). split; [exact I1|]. split; [|exact I3].
  intros G. destruct H as [H|H]; [congruence|]. destruct (H (nm_now g)) as (H1 & H2 & H3 & H4).
  cbn [nm_now nm_next set_now]. rewrite H1, H2, H3, H4. apply I2. exact G.
Qed.
Lemma idles_next g0 f : (has_grid (nm_arch g0) = true \/ forall n, nx_status (f n) = nx_status n /\ nx_import (f n) = nx_import n
    /\ nx_export (f n) = nx_export n /\ nx_co2 (f n) = nx_co2 n) -> idles g0 (next_grid f).
Proof.
  intros H. apply idles_modify. intros g (I1 & I2 & I3). split; [exact I1|]. split; [|exact I3].
  intros G. destruct H as [H|H]; [congruence|]. destruct (H (nm_next g)) as (H1 & H2 & H3 & H4).
  cbn [nm_now nm_next set_next]. rewrite H1, H2, H3, H4. apply I2. exact G.
Qed.
Lemma idles_battery g0 f : has_battery (nm_arch g0) = true -> idles g0 (mmodify (fun g => set_battery (f g) g)).
Proof. intros H. apply idles_modify. intros g (I1 & I2 & I3). split; [exact I1|]. split; [exact I2|]. congruence. Qed.

Lemma idles_variables g0 : idles g0 update_variables.
Proof.
  unfold update_variables. apply idles_get. intros g EA.
  destruct (has_grid (nm_arch g)) eqn:G, (has_battery (nm_arch g)) eqn:B;
    assert (G0 := G); assert (B0 := B); rewrite EA in G0, B0;
    repeat (cbv beta; match goal with
      | |- idles _ (mbind _ _) => apply idles_bind; [|intro]
      | |- idles _ (mlift _) => apply idles_lift
      | |- idles _ (mret _) => apply idles_ret
      | |- idles _ (now_grid _) => apply idles_now; first [left; exact G0|right; intro; cbn; auto]
      | |- idles _ (next_grid _) => apply idles_next; first [left; exact G0|right; intro; cbn; auto]
      | |- idles _ (mmodify _) => apply (idles_battery _ _ B0)
      end).
Qed.

Lemma idles_run g0 control : idles g0 (nm_run control).
Proof.
  unfold nm_run. apply idles_get. intros g EA.
  repeat (cbv beta zeta; match goal with
    | |- idles _ (mbind mget _) => apply idles_get; intros ? ?
    | |- idles _ (mbind _ _) => apply idles_bind; [|intro]
    | |- idles _ (mlift _) => apply idles_lift
    | |- idles _ update_variables => apply idles_variables
    | |- idles _ (on_production _) => apply (proj1 (idles_records _ _))
    | |- idles _ (on_state _) => apply (proj1 (proj2 (idles_records _ _)))
    | |- idles _ (on_cost _) => apply (proj1 (proj2 (proj2 (idles_records _ _))))
    | |- idles _ (on_co2 _) => apply (proj2 (proj2 (proj2 (idles_records _ _))))
    | |- idles _ (if ?b then _ else _) => destruct b
    | |- idles _ (mmodify _) => apply idles_modify; intros ? I; exact I
    end).
Qed.
Lemma idles_reset g0 testing : idles g0 (nm_reset testing).
Proof.
  unfold nm_reset.
  repeat (cbv beta zeta; match goal with
    | |- idles _ (mbind mget _) => apply idles_get; intros ? ?
    | |- idles _ (mbind _ _) => apply idles_bind; [|intro]
    | |- idles _ (mlift _) => apply idles_lift
    | |- idles _ update_variables => apply idles_variables
    | |- idles _ (mmodify _) => apply idles_modify; intros g' I; first [exact I | destruct (nm_use g'); exact I]
    end).
Qed.
Lemma idle_after cs g0 : same_idle g0 (nm_after cs g0).
Proof.
  apply nm_after_ind; [split; [reflexivity|]; split; auto 10|].
  intros c g I. destruct c as [control|testing|limit cancel|h|x]; simpl.
  - apply idles_run. exact I.
  - apply idles_reset. exact I.
  - unfold train_test_split, mbind, mmodify. apply idles_reset. destruct (negb (nm_split g)); [exact I|]. destruct cancel; exact I.
  - exact I.
  - exact I.
Qed.

(** *** Two histories *)


Lemma comm_same {A} (m : M (nonmod Q) A) g g' : comm m -> same_but_epochs g g' ->
  snd (m g) = snd (m g') /\ same_but_epochs (fst (m g)) (fst (m g')).
Proof.
  intros C E. pose proof (C [] 0%nat g) as X. pose proof (C [] 0%nat g') as Y.
  unfold same_but_epochs in *. rewrite E in X. rewrite X in Y. injection Y. intros Y1 Y2.
  split; [exact Y1|]. unfold set_epochs. 
  assert (Z : set_epochs [] 0 (fst (m g)) = set_epochs [] 0 (fst (m g'))) by congruence. exact Z.
Qed.

Lemma cleared_same (r r' : record Q) : map fst r = map fst r' -> cleared r = cleared r'.
Proof.
  revert r'. induction r as [|[k l] r IH]; intros [|[k' l'] r'] E; try discriminate E; [reflexivity|].
  simpl in E. injection E as <- E. simpl. f_equal. apply IH. exact E.
Qed.
Lemma firsts_same (r r' : record Q) : NoDup (map fst r) -> map fst r = map fst r' ->
  (forall k, In k (map fst r) -> exists x l l', dget k r = Some (x :: l) /\ dget k r' = Some (x :: l')) -> firsts r = firsts r'.
Proof.
  revert r'. induction r as [|[k l] r IH]; intros [|[k' l'] r'] ND E H; try discriminate E; [reflexivity|].
  simpl in E, ND. injection E as <- E. inversion ND as [|? ? NI ND']; subst.
  destruct (H k (or_introl eq_refl)) as (x & l1 & l2 & E1 & E2). simpl in E1, E2. rewrite String.eqb_refl in E1, E2.
  injection E1 as ->. injection E2 as ->. unfold firsts in *. cbn [rmapM]. simpl.
  rewrite (IH r'); [reflexivity|exact ND'|exact E|].
  intros k' I'. destruct (H k' (or_intror I')) as (x' & m & m' & E1 & E2). exists x', m, m'. simpl in E1, E2.
  destruct (String.eqb k' k) eqn:K; [apply String.eqb_eq in K; subst; contradiction|]. auto.
Qed.


Lemma nonmod_eq (g g' : nonmod Q) :
  nm_par g = nm_par g' -> nm_arch g = nm_arch g' -> nm_load_ts g = nm_load_ts g' -> nm_pv_ts g = nm_pv_ts g' ->
  nm_status_ts g = nm_status_ts g' -> nm_import_ts g = nm_import_ts g' -> nm_export_ts g = nm_export_ts g' ->
  nm_co2_ts g = nm_co2_ts g' -> nm_now g = nm_now g' -> nm_next g = nm_next g' -> nm_battery g = nm_battery g' ->
  nm_actions g = nm_actions g' -> nm_state g = nm_state g' -> nm_production g = nm_production g' ->
  nm_cost g = nm_cost g' -> nm_co2 g = nm_co2 g' -> nm_per_epoch g = nm_per_epoch g' -> nm_horizon g = nm_horizon g' ->
  nm_t g = nm_t g' -> nm_len g = nm_len g' -> nm_done g = nm_done g' -> nm_epoch g = nm_epoch g' ->
  nm_limit g = nm_limit g' -> nm_split g = nm_split g' -> nm_default g = nm_default g' -> nm_use g = nm_use g' -> g = g'.
Proof. destruct g, g'; simpl; intros; subst; reflexivity. Qed.

Lemma shows_same A A' n x b n' x' b' : shows A n x b -> shows A' n' x' b' ->
  nm_arch A = nm_arch A' -> nm_load_ts A = nm_load_ts A' -> nm_pv_ts A = nm_pv_ts A' -> nm_status_ts A = nm_status_ts A' ->
  nm_import_ts A = nm_import_ts A' -> nm_export_ts A = nm_export_ts A' -> nm_co2_ts A = nm_co2_ts A' ->
  nm_use A = nm_use A' -> nm_limit A = nm_limit A' -> nm_t A = nm_t A' -> nm_len A = nm_len A' -> nm_state A = nm_state A' ->
  same_idle A A' -> n = n' /\ x = x' /\ b = b'.
Proof.
  intros [S1 S2 S3 S4 S5 S6] [S1' S2' S3' S4' S5' S6'] E1 E2 E3 E4 E5 E6 E7 E8 E9 E10 E11 E12 (I1 & I2 & I3).
  assert (NV : forall l, next_value A l = next_value A' l).
  { intros l. unfold next_value, in_use. rewrite E8, E9, E10, E11. reflexivity. }
  assert (IU : forall l, in_use A l = in_use A' l).
  { intros l. unfold in_use. rewrite E8, E9. reflexivity. }
  rewrite E3, IU, E10 in S1. rewrite E2, IU, E10 in S2. rewrite E3, NV in S3. rewrite E2, NV in S4.
  rewrite E1 in S5, S6, I2, I3. rewrite E4, E5, E6, E7, E10, !IU, !NV in S5. rewrite E12 in S6.
  assert (LT : forall k c c', latest (nm_state A') k c -> latest (nm_state A') k c' -> c = c').
  { intros k c c' (l & X) (l' & X'). rewrite X in X'. injection X' as X'. apply app_inj_tail in X'. apply X'. }
  destruct n as [n1 n2 n3 n4 n5 n6], n' as [m1 m2 m3 m4 m5 m6], x as [x1 x2 x3 x4 x5 x6], x' as [y1 y2 y3 y4 y5 y6].
  cbn [now_pv now_load now_status now_import now_export now_co2 nx_pv nx_load nx_status nx_import nx_export nx_co2] in *.
  rewrite S1 in S1'. injection S1' as <-. rewrite S2 in S2'. injection S2' as <-. rewrite S3 in S3'. injection S3' as <-.
  rewrite S4 in S4'. injection S4' as <-.
  assert (GG : (n3, n4, n5, n6, (x3, x4, x5, x6)) = (m3, m4, m5, m6, (y3, y4, y5, y6))).
  { destruct (has_grid (nm_arch A')).
    - destruct S5 as (T1 & T2 & T3 & T4 & T5 & T6 & T7 & T8), S5' as (U1 & U2 & U3 & U4 & U5 & U6 & U7 & U8).
      congruence.
    - destruct S5 as (T1 & T2 & T3 & T4 & T5 & T6 & T7 & T8), S5' as (U1 & U2 & U3 & U4 & U5 & U6 & U7 & U8).
      destruct (I2 eq_refl) as (V1 & V2 & V3 & V4 & V5 & V6 & V7 & V8). congruence. }
  injection GG as -> -> -> -> -> -> -> ->. split; [reflexivity|]. split; [reflexivity|].
  destruct (has_battery (nm_arch A')); [|rewrite S6, S6', I3; reflexivity].
  destruct b as [b1 b2 b3], b' as [c1 c2 c3]. cbn [bv_soc bv_charge bv_discharge] in *.
  destruct S6 as (T1 & T2 & T3), S6' as (U1 & U2 & U3). f_equal; eapply LT; eassumption.
Qed.

Lemma reset_shape testing (g : nonmod Q) h : nm_reset testing g = (h, Ok tt) ->
  exists st n x b, firsts (nm_state g) = Ok st /\ shows (rewound testing st g) n x b
    /\ nm_now h = n /\ nm_next h = x /\ nm_battery h = b
    /\ nm_par h = nm_par g /\ nm_arch h = nm_arch g /\ nm_load_ts h = nm_load_ts g /\ nm_pv_ts h = nm_pv_ts g
    /\ nm_status_ts h = nm_status_ts g /\ nm_import_ts h = nm_import_ts g /\ nm_export_ts h = nm_export_ts g
    /\ nm_co2_ts h = nm_co2_ts g /\ nm_actions h = cleared (nm_actions g) /\ nm_state h = st
    /\ nm_production h = cleared (nm_production g) /\ nm_cost h = cleared (nm_cost g) /\ nm_co2 h = cleared (nm_co2 g)
    /\ nm_horizon h = nm_horizon g /\ nm_t h = 0%Z /\ nm_len h = data_length (use_after testing g) g /\ nm_done h = false
    /\ nm_limit h = nm_limit g /\ nm_split h = nm_split g /\ nm_default h = nm_default g /\ nm_use h = use_after testing g
    /\ nm_per_epoch h = epochs_after g /\ nm_epoch h = S (nm_epoch g).
Proof.
  intros H. apply nm_reset_any in H. destruct H as [(e & X & _)|(st & g1 & r1 & F & U & K)]; [discriminate X|].
  destruct r1 as [u|e]; destruct K as (K1 & ->); [|discriminate K1].
  apply update_variables_ok in U. destruct U as (n & x & b & -> & SH).
  exists st, n, x, b. split; [exact F|]. split; [exact SH|]. clear SH.
  repeat (split; [reflexivity|]). reflexivity.
Qed.

Lemma reset_forgets g0 cs cs' testing h h' : equipped g0 ->
  same_settings (nm_after cs g0) (nm_after cs' g0) ->
  nm_reset testing (nm_after cs g0) = (h, Ok tt) -> nm_reset testing (nm_after cs' g0) = (h', Ok tt) ->
  same_but_epochs h h'.
Proof.
  intros E0 (P1 & P2 & P3 & P4 & P5) H H'.
  pose proof (descends_after cs g0) as D. pose proof (descends_after cs' g0) as D'.
  pose proof (equipped_after cs g0 E0) as E. pose proof (equipped_after cs' g0 E0) as E'.
  pose proof (idle_after cs g0) as I. pose proof (idle_after cs' g0) as I'.
  set (g := nm_after cs g0) in *. set (g' := nm_after cs' g0) in *. clearbody g g'.
  assert (F : firsts (nm_state g) = firsts (nm_state g')).
  { apply firsts_same.
    - eapply Permutation_NoDup; [symmetry; exact (eq_state _ E)|apply status_columns_nodup].
    - rewrite (ds_state _ _ D), (ds_state _ _ D'). reflexivity.
    - intros k K. rewrite (ds_state _ _ D) in K. pose proof (Permutation_in _ (eq_state _ E0) K) as K'.
      destruct (eq_first _ E0 _ K') as (x & l & DG).
      destruct (ds_first _ _ D _ _ _ DG) as (l1 & X1). destruct (ds_first _ _ D' _ _ _ DG) as (l2 & X2). eauto. }
  apply reset_shape in H, H'.
  destruct H as (st & n & x & b & FS & SH & A1 & A2 & A3 & A4 & A5 & A6 & A7 & A8 & A9 & A10 & A11 & A12 & A13 & A14 & A15 & A16
    & A17 & A18 & A19 & A20 & A21 & A22 & A23 & A24 & _ & _).
  destruct H' as (st' & n' & x' & b' & FS' & SH' & C1 & C2 & C3 & C4 & C5 & C6 & C7 & C8 & C9 & C10 & C11 & C12 & C13 & C14 & C15 & C16
    & C17 & C18 & C19 & C20 & C21 & C22 & C23 & C24 & _ & _).
  assert (SE : st' = st) by congruence. rewrite SE in *. clear SE st'.
  destruct D as [D1 D2 D3 D4 D5 D6 D7 _ _ D10 D11 D12 D13 D14 _], D' as [G1 G2 G3 G4 G5 G6 G7 _ _ G10 G11 G12 G13 G14 _].
  assert (UA : use_after testing g = use_after testing g') by (unfold use_after; rewrite P5; reflexivity).
  assert (DL : data_length (use_after testing g) g = data_length (use_after testing g') g').
  { unfold data_length. rewrite UA, P3, D2, D3, G2, G3. reflexivity. }
  destruct (shows_same _ _ _ _ _ _ _ _ SH SH') as (Q1 & Q2 & Q3).
  1: change (nm_arch g = nm_arch g'); congruence.
  1: change (nm_load_ts g = nm_load_ts g'); congruence.
  1: change (nm_pv_ts g = nm_pv_ts g'); congruence.
  1: change (nm_status_ts g = nm_status_ts g'); congruence.
  1: change (nm_import_ts g = nm_import_ts g'); congruence.
  1: change (nm_export_ts g = nm_export_ts g'); congruence.
  1: change (nm_co2_ts g = nm_co2_ts g'); congruence.
  1: change (use_after testing g = use_after testing g'); exact UA.
  1: change (nm_limit g = nm_limit g'); exact P3.
  1: reflexivity.
  1: change (data_length (use_after testing g) g = data_length (use_after testing g') g'); exact DL.
  1: reflexivity.
  { unfold same_idle. change (nm_arch (rewound testing st g)) with (nm_arch g). change (nm_arch (rewound testing st g')) with (nm_arch g').
    change (nm_now (rewound testing st g)) with (nm_now g). change (nm_now (rewound testing st g')) with (nm_now g').
    change (nm_next (rewound testing st g)) with (nm_next g). change (nm_next (rewound testing st g')) with (nm_next g').
    change (nm_battery (rewound testing st g)) with (nm_battery g). change (nm_battery (rewound testing st g')) with (nm_battery g').
    rewrite D1, G1. destruct I as (_ & I2 & I3), I' as (_ & J2 & J3). split; [reflexivity|]. split.
    - intros X. destruct (I2 X) as (K1 & K2 & K3 & K4 & K5 & K6 & K7 & K8), (J2 X) as (L1 & L2 & L3 & L4 & L5 & L6 & L7 & L8).
      repeat apply conj; congruence.
    - intros X. rewrite (I3 X), (J3 X). reflexivity. }
  assert (M1 : cleared (nm_actions g) = cleared (nm_actions g')) by (apply cleared_same; congruence).
  assert (M2 : cleared (nm_production g) = cleared (nm_production g')) by (apply cleared_same; congruence).
  assert (M3 : cleared (nm_cost g) = cleared (nm_cost g')) by (apply cleared_same; congruence).
  assert (M4 : cleared (nm_co2 g) = cleared (nm_co2 g')) by (apply cleared_same; congruence).
  unfold same_but_epochs. apply nonmod_eq; cbn [set_epochs nm_par nm_arch nm_load_ts nm_pv_ts nm_status_ts nm_import_ts nm_export_ts nm_co2_ts nm_now nm_next nm_battery
         nm_actions nm_state nm_production nm_cost nm_co2 nm_per_epoch nm_horizon nm_t nm_len nm_done nm_epoch nm_limit nm_split nm_default nm_use];
    congruence.
Qed.

(** When a reset returns *)
Lemma reset_total testing (g : nonmod Q) : equipped g -> aligned g -> set_right g ->
  (use_after testing g = All \/ 1 < data_length (use_after testing g) g)%Z -> exists h, nm_reset testing g = (h, Ok tt).
Proof.
  intros E A SR L. destruct (nm_reset testing g) as [h r] eqn:H. pose proof (clock_reset testing g E SR) as C.
  rewrite H in C. simpl in C. apply nm_reset_any in H. destruct (equipped_firsts _ E) as (st & F).
  destruct H as [(e & _ & X & _)|(st' & g1 & r1 & F' & U & K)]; [congruence|].
  assert (st' = st) by congruence. subst st'.
  destruct (shows_total (rewound testing st g)) as (n & x & b & SH).
  - destruct r1 as [u|e]; destruct K as (_ & ->);
      apply update_variables_varies in U; destruct U as (n & x & b & ->);
      destruct C as [X1 X2 X3 X4]; constructor; assumption.
  - exact A.
  - apply firsts_ok in F. destruct F as (F1 & F2 & F3). intros k I. destruct (eq_first _ E k I) as (x & l & D).
    apply F2 in D. change (nm_state (rewound testing st g)) with st. eauto.
  - change (use_after testing g = All \/ (0 + 1 < data_length (use_after testing g) g)%Z). destruct L as [L|L]; [left; exact L|right; lia].
  - rewrite (update_variables_total _ _ _ _ SH) in U. injection U as <- <-. destruct K as (-> & ->). eauto.
Qed.

(** After a reset only the settings matter: any further runs give the same results. *)
Lemma runs_same controls : forall g g', same_but_epochs g g' ->
  same_but_epochs (nm_after (map HRun controls) g) (nm_after (map HRun controls) g').
Proof.
  induction controls as [|c cs IH]; intros g g' S; [exact S|].
  simpl. apply IH. apply (comm_same _ _ _ (run_comm c) S).
Qed.

(** ** What a run returns *)

Lemma run_status control (g : nonmod Q) g' v : columns (nm_state g) (status_columns (nm_arch g)) ->
  nm_run control g = (g', Ok v) ->
  gained (nm_state g) (nm_state g') "load" (nx_load (nm_next g))
  /\ gained (nm_state g) (nm_state g') "pv" (nx_pv (nm_next g))
  /\ gained (nm_state g) (nm_state g') "hour" (CNum (inject_Z (nm_t g mod 24)))
  /\ (has_grid (nm_arch g) = true ->
      gained (nm_state g) (nm_state g') "grid_status" (nx_status (nm_next g))
      /\ gained (nm_state g) (nm_state g') "grid_price_import" (nx_import (nm_next g))
      /\ gained (nm_state g) (nm_state g') "grid_price_export" (nx_export (nm_next g))
      /\ gained (nm_state g) (nm_state g') "grid_co2" (nx_co2 (nm_next g)))
  /\ (forall k x, gained (nm_state g) (nm_state g') k x -> dget k v = Some x).
Proof.
  intros CC H. apply run_records in H. destruct H as (prod & R & _ & LV).
  destruct (rc_state _ _ _ _ _ _ _ R) as (u & E). set (s := nm_state g') in *. clearbody s. clear R.
  assert (P : forall k, In k (status_columns (nm_arch g)) -> exists l, dget k (nm_state g) = Some l).
  { intros k I. apply present_in. eapply Permutation_in; [symmetry; exact CC|exact I]. }
  unfold update_status in E. unfold mbind at 1, mget at 1 in E. apply mbind_ok in E.
  destruct E as (s1 & b & E1 & E). unfold mlift in E1. injection E1 as <- E1.
  assert (NB : forall k, k <> "battery_soc" -> k <> "capa_to_charge" -> k <> "capa_to_discharge" -> dget k b = None).
  { intros k K1 K2 K3. destruct (has_battery (nm_arch g)); [|injection E1 as <-; reflexivity].
    minv. injection E1 as <-. simpl.
    destruct (String.eqb_spec k "battery_soc"), (String.eqb_spec k "capa_to_discharge"), (String.eqb_spec k "capa_to_charge"); congruence. }
  assert (GA : forall k x, In k (status_columns (nm_arch g)) ->
    dget k ([("load", nx_load (nm_next g)); ("pv", nx_pv (nm_next g)); ("hour", CNum (nofZ (nm_t g mod 24)))] ++ b
              ++ (if has_grid (nm_arch g) then
                    [("grid_status", nx_status (nm_next g)); ("grid_price_import", nx_import (nm_next g));
                     ("grid_price_export", nx_export (nm_next g)); ("grid_co2", nx_co2 (nm_next g))]
                  else [])) = Some x -> gained (nm_state g) s k x).
  { intros k x I X. destruct (P k I) as (l & L). destruct (append_row_ok _ _ _ _ _ _ E L) as (y & Y1 & Y2).
    rewrite X in Y1. injection Y1 as <-. exists l. auto. }
  assert (DA : forall A k (d d' : dict A), dget k d = None -> dget k (d ++ d') = dget k d').
  { intros A k d d'. induction d as [|[k' y] d IH]; simpl; [reflexivity|]. destruct (String.eqb k k'); [discriminate|exact IH]. }
  split; [apply GA; [simpl; auto|reflexivity]|].
  split; [apply GA; [simpl; auto 10|reflexivity]|].
  split; [apply GA; [simpl; auto 10|reflexivity]|].
  split.
  { intros G. rewrite G in GA. unfold status_columns in GA. rewrite G in GA.
    split; [|split; [|split]]; apply GA; try (rewrite !in_app_iff; simpl; auto 20);
      cbn [app dget String.eqb Ascii.eqb Bool.eqb]; rewrite DA by (apply NB; discriminate); reflexivity. }
  intros k x (l & _ & L'). destruct (last_row_get _ _ _ _ LV L') as (y & Y1 & Y2). rewrite last_of_snoc in Y1. congruence.
Qed.

(** *** [penalty] *)
Lemma penalty_never coef (g : nonmod Q) : In "load" (map fst (nm_actions g)) -> dget "load" (nm_production g) = None ->
  exists e, nm_penalty coef g = Err e.
Proof.
  intros I N. unfold nm_penalty.
  match goal with |- exists e, rbind (rmapM ?f ?l) _ = _ => assert (K : exists e, rmapM f l = Err e); [|destruct K as (e & ->); exists e; reflexivity] end.
  induction (nm_actions g) as [|[k l] a IH]; [contradiction I|]. simpl in I.
  cbn [rmapM fst snd]. destruct I as [->|I].
  - destruct (last_of l) as [x|e]; simpl; [|eauto]. unfold dfind. rewrite N. simpl. eauto.
  - destruct (IH I) as (e & E). rewrite E. match goal with |- exists e0, rbind ?r _ = _ => destruct r as [x|e']; simpl; eauto end.
Qed.
