(** * Physical invariants of modules inside a microgrid *)

From Coq Require Import ZArith QArith Qabs Bool String List Lia Lqa Permutation.
From Verif Require Import Num Py Space Logger Forecast Module Container Microgrid
  Proofs_Num Proofs_Logger Spec_Module Spec_Reach Spec_Genset Proofs_Module Proofs_Battery Proofs_Genset
  Proofs_Ts Proofs_Any Proofs_Request
  Proofs_Data Proofs_Classes Spec_Microgrid Spec_Sane Proofs_Container Proofs_Run Proofs_Balance
  Proofs_Mgrid Proofs_Views Proofs_MgProps Proofs_MgProps2 Proofs_Build Proofs_Episode.
Import ListNotations.
Local Open Scope string_scope.
Local Open Scope list_scope.
Local Open Scope Q_scope.

Definition phys_kind (k : kind Q) : Prop :=
  match k with
  | KBattery b => batt_wf b /\ batt_in b /\ 0 <= b_max_charge b /\ 0 <= b_max_discharge b
  | KGenset g => (exists p, gen_in g p) /\ 0 <= g_min_prod g /\ g_min_prod g <= g_max_prod g
  | KGrid g _ => gr_type g <> Fixed
  | KUnbalanced u => 0 <= u_loss_load_cost u /\ 0 <= u_overgeneration_cost u
  | _ => True
  end.
Record phys (m : module Q) : Prop := mkPhys {
  ph_ok : mod_ok m;
  ph_kind : phys_kind (m_kind m);
  ph_fc : ~ user_forecaster m;
  ph_act : is_genset (m_kind m) = true -> forall sp, m_act m = Some sp -> Forall (Qle 0) (sp_high sp)
}.

Lemma like_user (m m' : module Q) : mod_like m m' -> user_forecaster m' -> user_forecaster m.
Proof.
  intros [K _ _ _ _ _] (t' & vec & f & KT & F). unfold user_forecaster.
  destruct (m_kind m) as [b|s|gg t|t|t|u], (m_kind m') as [b'|s'|gg' u'|u'|u'|uu']; simpl in K, KT; try discriminate; try contradiction;
    injection KT as <-.
  - destruct K as [_ [ff K]]. exists t, vec, f. split; [reflexivity|]. destruct (same_fc _ _ K) as (k & SF & E).
    rewrite E in F. simpl in F. exact (same_fk_user _ _ _ _ SF F).
  - destruct K as [ff K]. exists t, vec, f. split; [reflexivity|]. destruct (same_fc _ _ K) as (k & SF & E).
    rewrite E in F. simpl in F. exact (same_fk_user _ _ _ _ SF F).
  - destruct K as [ff K]. exists t, vec, f. split; [reflexivity|]. destruct (same_fc _ _ K) as (k & SF & E).
    rewrite E in F. simpl in F. exact (same_fk_user _ _ _ _ SF F).
Qed.

Lemma like_act (m m' : module Q) : mod_like m m' ->
  (is_genset (m_kind m) = true -> forall sp, m_act m = Some sp -> Forall (Qle 0) (sp_high sp)) ->
  is_genset (m_kind m') = true -> forall sp, m_act m' = Some sp -> Forall (Qle 0) (sp_high sp).
Proof.
  intros [K _ A _ _ _] H G sp E. apply H; [|congruence].
  destruct (m_kind m), (m_kind m'); simpl in *; try discriminate; try contradiction; reflexivity.
Qed.

(** Everything but charge and status is kept by any call. *)
Lemma phys_like (m m' : module Q) : phys m -> mod_ok m' -> mod_like m m' -> physical_same m m' -> phys m'.
Proof.
  intros [O P U A] O' L [PB PG].
  constructor; [exact O'| |intros U'; exact (U (like_user _ _ L U'))|exact (like_act _ _ L A)].
  pose proof (ml_kind _ _ L) as K.
  destruct (m_kind m) as [b|s|gg t|t|t|u].
  - rewrite (PB _ eq_refl). exact P.
  - rewrite (PG _ eq_refl). exact P.
  - destruct (m_kind m'); simpl in K; try contradiction. destruct K as [-> _]. exact P.
  - destruct (m_kind m'); simpl in K; try contradiction. exact I.
  - destruct (m_kind m'); simpl in K; try contradiction. exact I.
  - destruct (m_kind m'); simpl in K; try contradiction. subst. exact P.
Qed.

(** The kind after a base step of a battery is the kind after the request. *)
Lemma module_log_kind sd rw i (m m' : module Q) r : module_log sd rw i m = (m', r) -> m_kind m' = m_kind m.
Proof.
  unfold module_log, mbind, mget.
  intros E.
  destruct (m_prov m) as [np|], (dget "provided_energy" i) as [p|]; simpl in E;
    try (injection E as <- _; reflexivity);
    destruct (m_abs m) as [na|], (dget "absorbed_energy" i) as [q|]; simpl in E;
    try (injection E as <- _; reflexivity);
    match type of E with (let '(_, _) := ?x in _) = _ => destruct x end; injection E as <- _; reflexivity.
Qed.

Lemma step_phys (a : pyval Q) n (m m' : module Q) r : step a n m = (m', r) -> phys m -> phys m'.
Proof.
  intros E P. destruct (step_good _ _ _ _ _ (ph_ok _ P) E) as (SM & O' & _).
  pose proof (mod_like_same _ _ SM) as L.
  destruct (m_kind m) as [b|s|gg t|t|t|u] eqn:K.
  - constructor; [exact O'| |intros U; exact (ph_fc _ P (like_user _ _ L U))|exact (like_act _ _ L (ph_act _ P))].
    pose proof (ph_kind _ P) as PK. rewrite K in PK. destruct PK as (WF & BI & C & Dd).
    rewrite step_not_genset in E by (rewrite K; reflexivity).
    destruct (base_step_cases _ _ _ _ _ E) as [[-> _]|(da & e & sd & _ & _ & _ & H)].
    + rewrite K. exact (ph_kind _ P) || (simpl; auto).
    + assert (X : exists m1 r1, unnormalized_step e m = (m1, r1) /\ m_kind m' = m_kind m1).
      { destruct H as [(ex & U & _)|(m1 & rw & d & i & U & H)]; [do 2 eexists; split; [exact U|reflexivity]|].
        exists m1, (Ok (rw, d, i)). split; [exact U|].
        destruct H as [(ex & ML & _)|(m2 & ML & H)]; pose proof (module_log_kind _ _ _ _ _ _ ML) as KK; [exact KK|].
        assert (K1 : kind_ts (m_kind m2) = None).
        { rewrite KK. destruct (request_battery _ _ _ _ _ K WF BI U) as [[-> _]|(b' & rw' & i' & -> & _)]; [rewrite K|]; reflexivity. }
        assert (K2 : forall x, update_step false m2 = (m', x) -> m_kind m' = m_kind m2).
        { intros x. unfold update_step, mbind, mmodify. simpl. rewrite K1. intros Q. injection Q as <- _. reflexivity. }
        destruct H as [(ex & US & _)|[US _]]; rewrite (K2 _ US); exact KK. }
      destruct X as (m1 & r1 & U & ->).
      destruct (request_battery _ _ _ _ _ K WF BI U) as [[-> _]|(b' & rw' & i' & -> & _ & MV)].
      * rewrite K. simpl. auto.
      * simpl. split; [exact (moved_wf _ _ _ _ MV WF)|]. split; [exact (moved_in _ _ _ _ MV WF BI)|].
        rewrite (moved_params _ _ _ _ MV). simpl. auto.
  - constructor; [exact O'| |intros U; exact (ph_fc _ P (like_user _ _ L U))|exact (like_act _ _ L (ph_act _ P))].
    pose proof (ph_kind _ P) as PK. rewrite K in PK. destruct PK as ((p & GI) & MN & MX).
    destruct (step_genset _ _ _ _ _ _ _ K GI E) as [[-> _]|(x & rest & g' & _ & _ & _ & _ & K' & SG & GI' & _)].
    + rewrite K. simpl. eauto.
    + rewrite K'. simpl. destruct (gen_same_in _ _ SG) as (_ & _ & _ & E1 & E2 & _).
      rewrite E1, E2. eauto.
  - apply (phys_like m m' P O' L). split; intros ? K'; rewrite K in K'; discriminate.
  - apply (phys_like m m' P O' L). split; intros ? K'; rewrite K in K'; discriminate.
  - apply (phys_like m m' P O' L). split; intros ? K'; rewrite K in K'; discriminate.
  - apply (phys_like m m' P O' L). split; intros ? K'; rewrite K in K'; discriminate.
Qed.

Lemma reset_phys (m m' : module Q) r : reset m = (m', r) -> phys m -> phys m'.
Proof.
  intros E P. destruct (reset_good _ _ _ (ph_ok _ P) E) as (SM & O' & _).
  exact (phys_like m m' P O' (mod_like_same _ _ SM) (reset_physical _ _ _ E)).
Qed.
Lemma set_final_phys v (m m' : module Q) r : module_set_final v m = (m', r) -> phys m -> phys m'.
Proof.
  intros E P. destruct (set_final_likes _ _ _ _ E (ph_ok _ P)) as (O' & L & _).
  exact (phys_like m m' P O' L (set_final_physical _ _ _ _ E)).
Qed.
Lemma set_init_phys v (m : module Q) : phys m -> phys (set_init m v).
Proof.
  intros P. destruct (set_init_likes m v (ph_ok _ P)) as (O' & L & _).
  apply (phys_like m _ P O' L). split; intros ? K; exact K.
Qed.
Lemma set_name_phys v (m : module Q) : phys m -> phys (set_name m v).
Proof.
  intros P. destruct (set_name_likes m v (ph_ok _ P)) as [O' L].
  apply (phys_like m _ P O' L). split; intros ? K; exact K.
Qed.

Lemma do_call_phys (c : call Q) m : phys m -> phys (fst (do_call c m)).
Proof.
  intros P. destruct c as [a n|]; simpl.
  - destruct (step a n m) as [m' [o|e]] eqn:E; simpl; exact (step_phys _ _ _ _ _ E P).
  - destruct (reset m) as [m' r] eqn:E; simpl. exact (reset_phys _ _ _ E P).
Qed.
Lemma play_phys cs : forall m, phys m -> phys (fst (play cs m)).
Proof.
  induction cs as [|c cs IH]; intros m P; [exact P|].
  simpl. destruct (do_call c m) as [m1 o] eqn:E. specialize (IH m1).
  destruct (play cs m1) as [m2 os] eqn:E2. simpl in *. apply IH. pose proof (do_call_phys c m P) as H. rewrite E in H. exact H.
Qed.

Lemma fc_not_user fp k vec f : ~ asks_user fp -> fc_for fp k -> k <> FcUser vec f.
Proof.
  intros NU FF ->. destruct fp; simpl in FF; try discriminate.
  - destruct FF as (? & ? & ? & F). discriminate.
  - apply NU. eexists; reflexivity.
Qed.

Lemma sane_phys m : sane m -> phys m.
Proof.
  intros [minc maxc maxch maxdis eff cost ic is init rs m' E L1 L2 C Dd
         |mn mx co cp cc su wd ab up init rs prov m' S W N E
         |rows fp h inc initial final re rnd m' SC NU E
         |rows fp h inc initial final re prov rnd m' SC NU E
         |mi me rows fp h inc initial final cc re gt rnd m' NF NU E
         |re init l o L O].
  - destruct (new_battery_ok _ _ _ _ _ _ _ _ _ _ _ E L1 L2) as (b & BO & E1 & E2 & E3 & E4 & _).
    destruct BO as (K & WF & BI & _). constructor.
    + apply built_ok. eapply built_battery; exact E.
    + rewrite K. simpl. rewrite E3, E4. auto.
    + intros (t & ? & ? & KT & _). rewrite K in KT. discriminate.
    + rewrite K. discriminate.
  - destruct (new_genset_ok _ _ _ _ _ _ _ _ _ _ _ _ _ S W E) as (g & K & GI & MM & E1 & E2 & _). constructor.
    + apply built_ok. eapply built_genset; exact E.
    + rewrite K. simpl. rewrite E1, E2. eauto.
    + intros (t & ? & ? & KT & _). rewrite K in KT. discriminate.
    + intros _ sp A. unfold new_genset in E. unum. destruct (Qltb mx mn); [discriminate|]. injection E as <-.
      simpl in A. injection A as <-. simpl. constructor; [lra|constructor; [lra|constructor]].
  - destruct (new_load_ok _ _ _ _ _ _ _ _ _ SC E) as (t & -> & O & _ & _ & _ & _ & FF & _). constructor.
    + exact O.
    + exact I.
    + intros (t' & vec & f & KT & F). simpl in KT. injection KT as <-. exact (fc_not_user _ _ _ _ NU FF F).
    + discriminate.
  - destruct (new_renewable_ok _ _ _ _ _ _ _ _ _ _ SC E) as (t & lo & hi & -> & O & _ & _ & _ & _ & FF & _). constructor.
    + exact O.
    + exact I.
    + intros (t' & vec & f & KT & F). simpl in KT. injection KT as <-. exact (fc_not_user _ _ _ _ NU FF F).
    + discriminate.
  - destruct (new_grid_ok _ _ _ _ _ _ _ _ _ _ _ _ _ E) as (t & -> & O & _ & _ & _ & FF). constructor.
    + exact O.
    + exact NF.
    + intros (t' & vec & f & KT & F). simpl in KT. injection KT as <-. exact (fc_not_user _ _ _ _ NU FF F).
    + discriminate.
  - constructor.
    + apply built_ok. apply built_unbalanced.
    + simpl. auto.
    + intros (t & ? & ? & KT & _). discriminate.
    + discriminate.
Qed.
Lemma sane_reachable_phys m : sane_reachable m -> phys m.
Proof. intros (m0 & cs & S & ->). apply play_phys. apply sane_phys. exact S. Qed.

(** ** Through any microgrid call *)
Section Mods.
Variable R : module Q -> module Q -> Prop.
Hypothesis Rr : forall m, R m m.
Hypothesis Rt : forall m1 m2 m3, R m1 m2 -> R m2 m3 -> R m1 m3.
Definition mods {A} (f : M (mgrid Q) A) : Prop :=
  forall g g' r, f g = (g', r) -> Forall2 R (mg_mods g) (mg_mods g').
Lemma mods_ret {A} (a : A) : mods (mret a).
Proof. intros g g' r E. injection E as <- _. apply Forall2_refl. exact Rr. Qed.
Lemma mods_lift {A} (a : res A) : mods (mlift a).
Proof. intros g g' r E. injection E as <- _. apply Forall2_refl. exact Rr. Qed.
Lemma mods_raise {A} c t : mods (@mraise _ A c t).
Proof. intros g g' r E. injection E as <- _. apply Forall2_refl. exact Rr. Qed.
Lemma mods_get : mods (@mget (mgrid Q)).
Proof. intros g g' r E. injection E as <- _. apply Forall2_refl. exact Rr. Qed.
Lemma mods_bind {A B} (x : M (mgrid Q) A) (f : A -> M (mgrid Q) B) : mods x -> (forall a, mods (f a)) -> mods (mbind x f).
Proof.
  intros Hx Hf g g' r E. destruct (mbind_any _ _ _ _ _ E) as [(e & E1 & _)|(g1 & a & E1 & E2)].
  - exact (Hx _ _ _ E1).
  - eapply (Forall2_trans R Rt); [exact (Hx _ _ _ E1)|exact (Hf _ _ _ _ E2)].
Qed.
Lemma mods_fold {A B} (f : B -> A -> M (mgrid Q) B) l : (forall b a, mods (f b a)) -> forall b, mods (mfold f l b).
Proof.
  intros H. induction l as [|a l IH]; intros b; simpl; [apply mods_ret|]. apply mods_bind; [apply H|exact IH].
Qed.
Lemma mods_with {A} i (f : M (module Q) A) : (forall m m' r, f m = (m', r) -> R m m') -> mods (with_module i f).
Proof.
  intros H g g' r E. destruct (with_module_any _ _ _ _ _ E) as [(-> & _)|(m & m' & N & F & ->)].
  - apply Forall2_refl. exact Rr.
  - simpl. eapply (Forall2_set_nth R Rr); [exact N|exact (H _ _ _ F)].
Qed.
Lemma mods_module i : mods (get_module i).
Proof. apply mods_with. intros m m' r E. injection E as <- _. apply Rr. Qed.
(** Calls that touch no module. *)
Lemma mods_keep {A} (f : M (mgrid Q) A) : (forall g, mg_mods (fst (f g)) = mg_mods g) -> mods f.
Proof.
  intros H g g' r E. specialize (H g). rewrite E in H. simpl in H. rewrite H. apply Forall2_refl. exact Rr.
Qed.

Hypothesis Rstep : forall a n m m' r, step a n m = (m', r) -> R m m'.
Hypothesis Rreset : forall m m' r, reset m = (m', r) -> R m m'.
Hypothesis Rfinal : forall v m m' r, module_set_final v m = (m', r) -> R m m'.
Hypothesis Rinit : forall v m, R m (set_init m v).

Ltac md := repeat first
  [ apply mods_ret | apply mods_lift | apply mods_raise | apply mods_get
  | apply mods_bind | apply mods_fold | apply mods_module
  | apply mods_with; intros; eauto
  | intros; progress (match goal with |- mods (match ?x with _ => _ end) => destruct x end)
  | progress intros ].

Lemma step_append_mods nm i (a : pyval Q) n st : mods (step_append nm i a n st).
Proof. unfold step_append. md. Qed.
Lemma run_mods (c : control Q) n : mods (run c n).
Proof.
  unfold run, run_fixed, run_controllable, run_excess, run_deficit.
  repeat first
  [ apply mods_ret | apply mods_lift | apply mods_raise | apply mods_get
  | apply step_append_mods | apply mods_fold | apply mods_module | apply mods_bind
  | (intros; progress (match goal with |- mods (match ?x with _ => _ end) => destruct x end))
  | progress intros ].
  all: apply mods_keep; intros g0; match goal with |- context [logger_log ?a ?b] => destruct (logger_log a b) end; reflexivity.
Qed.
Lemma set_attr_mods has (set : M (module Q) unit) : (forall m m' r, set m = (m', r) -> R m m') ->
  mods (set_module_attr has set).
Proof. intros H. unfold set_module_attr. md. Qed.
Lemma set_initial_mods v : mods (set_initial_steps v).
Proof. apply set_attr_mods. intros m m' r E. injection E as <- _. apply Rinit. Qed.
Lemma set_final_mods v : mods (set_final_steps v).
Proof. apply set_attr_mods. exact (Rfinal v). Qed.
Lemma mg_set_initial_mods v : mods (mg_set_initial_step v).
Proof.
  unfold mg_set_initial_step. apply mods_bind; [apply set_initial_mods|]. intros _. md. apply mods_keep. reflexivity.
Qed.
Lemma mg_set_final_mods v : mods (mg_set_final_step v).
Proof.
  unfold mg_set_final_step. apply mods_bind; [apply set_final_mods|]. intros _. md. apply mods_keep. reflexivity.
Qed.
Lemma mods_put_same g1 (k : unit -> M (mgrid Q) unit) g g' r :
  mg_mods g1 = mg_mods g -> mods (k tt) -> mbind (mput g1) k g = (g', r) -> Forall2 R (mg_mods g) (mg_mods g').
Proof. intros E H X. rewrite <- E. exact (H _ _ _ X). Qed.
Lemma set_trajectory_mods : mods set_trajectory.
Proof.
  intros g g' r E. unfold set_trajectory, mbind at 1, mget in E. simpl in E.
  destruct (mg_traj g) as [f|]; [|injection E as <- _; apply Forall2_refl; exact Rr].
  revert E. apply mods_put_same; [reflexivity|].
  apply mods_bind; [apply mods_lift|]. intros p. apply mods_bind; [apply set_initial_mods|]. intros _. apply set_final_mods.
Qed.
Lemma mg_reset_mods : mods mg_reset.
Proof.
  unfold mg_reset. apply mods_bind; [apply set_trajectory_mods|]. intros _. md. apply mods_keep. reflexivity.
Qed.
Lemma do_mcall_mods c g : Forall2 R (mg_mods g) (mg_mods (do_mcall c g)).
Proof.
  destruct c as [c n| |v|v]; simpl.
  - destruct (run c n g) as [g' r] eqn:E. exact (run_mods _ _ _ _ _ E).
  - destruct (mg_reset g) as [g' r] eqn:E. exact (mg_reset_mods _ _ _ E).
  - destruct (mg_set_initial_step v g) as [g' r] eqn:E. exact (mg_set_initial_mods _ _ _ _ E).
  - destruct (mg_set_final_step v g) as [g' r] eqn:E. exact (mg_set_final_mods _ _ _ _ E).
Qed.
Lemma mplay_mods cs : forall g, Forall2 R (mg_mods g) (mg_mods (mplay cs g)).
Proof.
  induction cs as [|c cs IH]; intros g; [apply Forall2_refl; exact Rr|].
  eapply (Forall2_trans R Rt); [apply do_mcall_mods|apply IH].
Qed.
End Mods.

Lemma mplay_phys cs g : Forall phys (mg_mods g) -> Forall phys (mg_mods (mplay cs g)).
Proof.
  intros P. assert (F : Forall2 (fun m m' => phys m -> phys m') (mg_mods g) (mg_mods (mplay cs g))).
  { apply mplay_mods; eauto using step_phys, reset_phys, set_final_phys, set_init_phys. }
  revert P. induction F; intros P; constructor; inversion P; subst; auto.
Qed.

(** All modules of a microgrid built from sane modules are in good shape. *)
Lemma from_phys D g : from_modules D g -> Forall (fun d => sane_reachable (snd d)) D -> Forall phys (mg_mods g).
Proof.
  intros (ds & add & lossc & overc & sh & tr & g0 & cs & [RD E] & -> & ->) S.
  apply mplay_phys. destruct (new_microgrid_inv _ _ _ _ _ _ _ E) as (c & ms & GS & _ & -> & _).
  revert S GS. generalize (all_defs ds add lossc overc) as D. generalize ct_empty. generalize 0%nat.
  intros i ct D. revert i ct c ms. induction D as [|d D IH]; intros i ct c ms S GS; simpl in GS.
  - injection GS as _ <-. constructor.
  - inversion S; subst. destruct (get_subcontainers _ D _) as [c' ms'] eqn:G in GS. injection GS as <- <-.
    constructor; [apply set_name_phys; apply sane_reachable_phys; assumption|]. eapply IH; eassumption.
Qed.
