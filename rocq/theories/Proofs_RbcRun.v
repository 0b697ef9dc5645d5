(** * Whole runs of the rule-based controller; actions of the continuous environment *)

From Coq Require Import ZArith QArith Qabs Bool String List Lia Lqa Permutation.
From Verif Require Import Num Py Space Logger Forecast Module Container Microgrid PriorityList Env
  Proofs_Num Proofs_Logger Spec_Module Spec_Reach Spec_Genset Proofs_Module Proofs_Space Proofs_Battery Proofs_Genset
  Proofs_Ts Proofs_Any Proofs_Request
  Proofs_Data Proofs_Classes Proofs_Props Spec_Microgrid Spec_Sane Proofs_Container Proofs_Run Proofs_Balance
  Proofs_Mgrid Proofs_Views Proofs_MgProps Proofs_MgProps2 Proofs_Build Proofs_Episode Proofs_Sane Proofs_Progress
  Proofs_Control Proofs_Convert Spec_Priority Proofs_Perm Proofs_Priority Proofs_Deploy Proofs_Rbc
  Spec_Env Proofs_Env Proofs_Obs Proofs_Cont.
Import ListNotations.
Local Open Scope string_scope.
Local Open Scope list_scope.
Local Open Scope Q_scope.

(** ** The controller *)
Lemma controlled_first pl (g g1 : mgrid Q) obs rw inf k g' d : rbc_step pl g = (g1, Ok (obs, rw, false, inf)) ->
  controlled pl g1 k g' d -> controlled pl g (S k) g' d.
Proof.
  intros E. induction 1 as [|k h1 h2 o r d i C IH ST].
  - eapply ct_step; [constructor|exact E].
  - eapply ct_step; [exact IH|exact ST].
Qed.
Lemma rbc_loop_controlled pl n : forall (g g' : mgrid Q), rbc_loop n pl g = (g', Ok tt) ->
  exists k d, controlled pl g k g' d /\ (k <= n)%nat /\ (k = n \/ d = true).
Proof.
  induction n as [|n IH]; intros g g' E.
  - cbn [rbc_loop] in E. injection E as <-. exists 0%nat, false. split; [constructor|]. split; auto.
  - cbn [rbc_loop] in E. apply mbind_ok in E. destruct E as (g1 & [[[obs rw] d] inf] & E1 & E2). destruct d.
    + injection E2 as <-. exists 1%nat, true. split; [eapply ct_step; [constructor|exact E1]|]. split; [lia|auto].
    + destruct (IH g1 g' E2) as (k & d & C & L & X). exists (S k), d. split; [eapply controlled_first; eauto|]. split; [lia|].
      destruct X as [->|X]; auto.
Qed.

Lemma fold_min l : forall a, (fold_left Nat.min l a <= a)%nat /\ (forall x, In x l -> (fold_left Nat.min l a <= x)%nat)
  /\ (fold_left Nat.min l a = a \/ In (fold_left Nat.min l a) l).
Proof.
  induction l as [|b l IH]; intros a; cbn [fold_left].
  - split; [lia|]. split; [intros x []|auto].
  - destruct (IH (Nat.min a b)) as (A & C & X). split; [lia|]. split.
    + intros x [<-|I]; [lia|auto].
    + destruct X as [X|X]; [|right; right; exact X].
      destruct (Nat.min_spec a b) as [[_ M]|[_ M]]; [left; congruence|right; left; congruence].
Qed.
Lemma mg_len_shortest D (g : mgrid Q) n : from_modules D g -> mg_len g = Ok n -> shortest_series g n.
Proof.
  intros F. destruct (containers_partition D g F) as (LD & P & _).
  unfold mg_len. match goal with |- context [concat (map ?f _)] => set (h := f) end.
  assert (IN : forall x, In x (concat (map h (all_ids g))) <->
            exists i m t, nth_error (mg_mods g) i = Some m /\ kind_ts (m_kind m) = Some t /\ length (ts_rows t) = x).
  { intros x. rewrite in_concat_map. split.
    - intros (i & _ & I). unfold h in I. destruct (nth_error (mg_mods g) i) as [m|] eqn:M; [|destruct I].
      destruct (kind_ts (m_kind m)) as [t|] eqn:K; [|destruct I]. destruct I as [<-|[]]. exists i, m, t. auto.
    - intros (i & m & t & M & K & <-). exists i. split.
      + eapply Permutation_in; [apply Permutation_sym, P|]. apply in_seq. rewrite <- LD. split; [lia|]. apply nth_error_Some. congruence.
      + unfold h. rewrite M, K. left. reflexivity. }
  cbv zeta. destruct (concat (map h (all_ids g))) as [|a l]; [discriminate|]. intros E. injection E as <-.
  destruct (fold_min l a) as (A & C & X). split.
  - apply IN. destruct X as [->|X]; [left; reflexivity|right; exact X].
  - intros i m t M K. assert (I : In (length (ts_rows t)) (a :: l)) by (apply IN; exists i, m, t; auto). destruct I as [<-|I]; auto.
Qed.

Section Whole.
Variables (ds : list (mdef Q)) (add : bool) (lossc overc : Q) (sh : option (shaper Q)) (g0 : mgrid Q).
Let D := all_defs ds add lossc overc.
Hypothesis B : mbuilt ds add lossc overc sh None g0.
Hypothesis SEP : names_separate D.
Hypothesis FR : Forall (fun d => fresh (snd d)) ds.
Hypothesis DN : D <> [].

Lemma controlled_episode pl (g : mgrid Q) k g' d : episode D g0 0 g -> drives D g pl -> controlled pl g k g' d ->
  episode D g0 k g'.
Proof.
  intros E0 DR. pose proof (ei_from _ _ _ _ (episode_inv _ _ _ _ _ _ B SEP FR _ _ E0)) as F0.
  induction 1 as [|k g1 g2 obs rw d inf C IH ST]; [exact E0|].
  destruct (rbc_step_inv _ _ _ _ ST) as (a & c & P & AC & RUN).
  pose proof (ei_from _ _ _ _ (episode_inv _ _ _ _ _ _ B SEP FR _ _ IH)) as F1.
  exact (ep_run D g0 k g1 g2 c false _ IH
           (populate_complete D _ pl a c F1 SEP (drives_any D g g1 pl F0 F1 DR) P AC) RUN).
Qed.

Theorem rbc_whole j (g g' : mgrid Q) pl limit log : episode D g0 j g -> drives D g pl ->
  rbc_run pl limit g = (g', Ok log) ->
  exists n g1 obs k d, match limit with Some l => n = l | None => shortest_series g n end
    /\ mg_reset g = (g1, Ok obs) /\ controlled pl g1 k g' d /\ (k <= n)%nat /\ (k = n \/ d = true)
    /\ (forall h cells, In (h, cells) log -> length cells = k)
    /\ (forall nm j key cells, In ((nm, j, key), cells) log <->
         (exists i m, nth_error (positions nm D) j = Some i /\ at_index g' i m
            /\ dget key (lg_data (m_log m)) = Some (ColList cells))
         \/ (nm = "balance" /\ j = 0%nat /\ dget key (lg_data (mg_balance g')) = Some (ColList cells))).
Proof.
  intros EP DR E. pose proof (ei_from _ _ _ _ (episode_inv _ _ _ _ _ _ B SEP FR _ _ EP)) as F0.
  unfold rbc_run in E. apply mbind_ok in E. destruct E as (g1 & g2 & E0 & E). injection E0 as <- <-.
  apply mbind_ok in E. destruct E as (g1 & n & E0 & E). apply mlift_ok in E0. destruct E0 as [-> EN].
  apply mbind_ok in E. destruct E as (g1 & obs & RS & E).
  apply mbind_ok in E. destruct E as (g2 & [] & LP & E).
  apply mbind_ok in E. destruct E as (g3 & g4 & E0 & E). injection E0 as <- <-.
  apply mlift_ok in E. destruct E as [-> GL].
  pose proof (ep_reset D g0 j g g1 obs EP RS) as EP1.
  pose proof (ei_from _ _ _ _ (episode_inv _ _ _ _ _ _ B SEP FR _ _ EP1)) as F1.
  destruct (rbc_loop_controlled _ _ _ _ LP) as (k & d & C & L & X).
  pose proof (controlled_episode pl g1 k g2 d EP1 (drives_any D g g1 pl F0 F1 DR) C) as EPK.
  destruct (episode_log ds add lossc overc sh g0 B SEP FR k g2 EPK DN) as (cols & GL' & LC & IC).
  rewrite GL in GL'. injection GL' as <-.
  exists n, g1, obs, k, d. split.
  { destruct limit as [l|]; [injection EN as <-; reflexivity|exact (mg_len_shortest D g n F0 EN)]. }
  auto 10.
Qed.
End Whole.

(** ** Membership in the continuous action space *)
Lemma all_unit_iff (xs : list Q) : all_unit xs = true <-> Forall (fun x => 0 <= x <= 1) xs.
Proof.
  induction xs as [|x xs IH]; cbn [all_unit]; [split; auto|].
  rewrite !andb_true_iff, IH. cbn. rewrite !Qle_bool_iff. split.
  - intros [[A C] F]. constructor; auto.
  - intros F. inversion F as [|? ? [A C] F']; subst. auto.
Qed.

Section Space.
Variables (D : list (mdef Q)) (g : mgrid Q).
Hypothesis F : from_modules D g.
Hypothesis SEP : names_separate D.
Let V : mg_inv D g := from_modules_inv D g F.

Lemma in_positions nm i : In i (positions nm D) <-> exists d, nth_error D i = Some d /\ mdef_name d = nm.
Proof.
  unfold positions. rewrite in_map_iff. split.
  - intros ([k d] & <- & I). apply filter_In in I. cbn [fst snd] in I. destruct I as [I E]. apply String.eqb_eq in E.
    apply In_enum in I. exists d. split; [exact I|congruence].
  - intros (d & N & E). exists (i, d). split; [reflexivity|]. apply filter_In. cbn [snd]. split; [apply In_enum, N|].
    apply String.eqb_eq. congruence.
Qed.
Lemma action_names_in nm l : In (nm, l) (action_names g) <-> fixed_grid D nm /\ l = positions nm D.
Proof.
  split.
  - intros I. destruct (action_names_sub D g F nm l I) as (i & m & gr & t & J & I' & M & K & T).
    destruct (part_entry D g Fixed nm l i V I' J) as (df & m' & ID & EN & M' & O & L & TM).
    rewrite M in M'. injection M' as <-. pose proof (ml_kind _ _ L) as KL. rewrite K in KL.
    destruct (m_kind (snd df)) as [| |gr' t'| | |] eqn:K'; simpl in KL; try contradiction. destruct KL as [E _]. subst gr'.
    assert (FG : fixed_grid D nm) by (exists df, gr, t'; auto).
    split; [exact FG|]. pose proof (ex_of_name D g V SEP df Fixed ID) as ON. rewrite EN in ON.
    rewrite K' in ON. specialize (ON T). unfold of_name in ON.
    pose proof (Proofs_Num.In_dget _ _ _ (part_nodup Fixed g) I') as DG. rewrite DG in ON. congruence.
  - intros [(d & gr & t & I & EN & K & T) ->].
    pose proof (ex_of_name D g V SEP d Fixed I) as ON. rewrite K in ON. specialize (ON T). rewrite EN in ON. unfold of_name in ON.
    destruct (part_key D g d V I) as (l & DG). rewrite K, EN in DG. cbn [module_type] in DG. rewrite T in DG.
    rewrite DG in ON. subst l. apply Proofs_Num.dget_In in DG. unfold action_names. apply filter_In. split; [exact DG|]. cbn [snd].
    pose proof (part_shown D g Fixed _ _ V DG) as NE. destruct (positions nm D) as [|i l] eqn:PO; [congruence|].
    destruct (part_entry D g Fixed nm (i :: l) i V DG (or_introl eq_refl)) as (df & m' & ID & EN' & M' & O & L & TM).
    rewrite M'. pose proof (SEP df d ID I) as C. rewrite EN, EN' in C. specialize (C eq_refl).
    pose proof (mod_like_category _ _ L) as C2. rewrite C in C2. unfold category_of in C2. rewrite K in C2. cbn in C2.
    destruct (m_kind m'); cbn in C2 |- *; try reflexivity; congruence.
Qed.
Lemma fixed_grid_at nm i m : fixed_grid D nm -> In i (positions nm D) -> nth_error (mg_mods g) i = Some m -> act_dims m = 1%nat.
Proof.
  intros (d & gr & t & I & EN & K & T) J M. apply in_positions in J. destruct J as (d' & N & EN').
  destruct (Proofs_Run.Forall2_nth_r _ _ _ _ _ (iv_mods _ _ V) M) as (d2 & N2 & O & L). pose proof (eq_trans (eq_sym N) N2) as NN. injection NN as <-.
  pose proof (SEP d' d (nth_error_In _ _ N) I) as C. rewrite EN, EN' in C. specialize (C eq_refl).
  rewrite (act_dims_pos m O). pose proof (mod_like_category _ _ L) as C2. rewrite C in C2. unfold category_of in C2. rewrite K in C2. cbn in C2.
  destruct (m_kind m); cbn in C2 |- *; try reflexivity; congruence.
Qed.
Lemma at_position nm i : In i (positions nm D) -> exists m, nth_error (mg_mods g) i = Some m.
Proof.
  intros J. apply in_positions in J. destruct J as (d & N & _).
  destruct (Proofs_Run.Forall2_nth _ _ _ _ _ (iv_mods _ _ V) N) as (m & M & _). eauto.
Qed.
Lemma entry_ok nm l : fixed_grid D nm -> length l = length (positions nm D) ->
  forallb (fun xi => match nth_error (mg_mods g) (snd xi) with
                     | None => false
                     | Some m => Nat.eqb (length (fst xi)) (act_dims m) && all_unit (fst xi)
                     end) (combine l (positions nm D)) = true
  <-> Forall (fun xs => exists x, xs = [x] /\ 0 <= x <= 1) l.
Proof.
  intros FG. assert (SUB : incl (positions nm D) (positions nm D)) by (intros x; auto). revert SUB.
  generalize (positions nm D) at 1 3 4 as ps. intros ps. revert l.
  induction ps as [|i ps IH]; intros l SUB LN; destruct l as [|xs l]; try discriminate LN; [split; auto|].
  cbn [combine forallb snd fst]. destruct (at_position nm i) as (m & M); [apply SUB; left; reflexivity|].
  rewrite M, (fixed_grid_at nm i m FG (SUB i (or_introl eq_refl)) M), !andb_true_iff, all_unit_iff, Nat.eqb_eq.
  rewrite IH; [|intros x I; apply SUB; right; exact I|simpl in LN; lia]. split.
  - intros [[L1 U] R]. constructor; [|exact R]. destruct xs as [|x [|y xs]]; try discriminate L1. inversion U; subst. eauto.
  - intros FA. inversion FA as [|? ? (x & -> & U) R]; subst. split; [|exact R]. split; [reflexivity|]. repeat constructor; tauto.
Qed.

Theorem nested_valid a : (forall dd, a = CDict dd -> NoDup (map fst dd)) -> in_nested g a = true <-> valid_action D a.
Proof.
  intros ND. destruct a as [xs|dd]; [split; [discriminate|intros (dd & X & _); discriminate X]|].
  specialize (ND dd eq_refl).
  assert (NA : NoDup (map fst (action_names g))).
  { unfold action_names. apply NoDup_map_filter. apply part_nodup. }
  split.
  - intros E. pose proof (nested_keys g dd) as NK. exists dd. split; [reflexivity|]. intros nm.
    cbn [in_nested] in E. apply andb_true_iff in E. destruct E as [L A].
    rewrite forallb_forall in A. destruct (dget nm dd) as [l|] eqn:DG.
    + assert (I : In nm (map fst (action_names g))).
      { apply (NK nm); [cbn [in_nested]; rewrite L; cbn [andb]; apply forallb_forall; exact A|].
        apply Proofs_Num.dget_In in DG. apply in_map_iff. exists (nm, l). auto. }
      apply in_map_iff in I. destruct I as ([nm' ps] & E & I). cbn [fst] in E. subst nm'.
      specialize (A _ I). cbn [fst snd] in A. rewrite DG in A. apply action_names_in in I. destruct I as [FG ->].
      apply andb_true_iff in A. destruct A as [L1 A]. apply Nat.eqb_eq in L1. split; [exact FG|]. split; [exact L1|].
      exact (proj1 (entry_ok nm l FG L1) A).
    + intros FG. assert (I : In (nm, positions nm D) (action_names g)) by (apply action_names_in; auto).
      specialize (A _ I). cbn [fst] in A. rewrite DG in A. discriminate A.
  - intros (dd' & E & H). injection E as <-. cbn [in_nested]. apply andb_true_iff. split.
    + apply Nat.eqb_eq. rewrite <- (map_length fst dd), <- (map_length fst (action_names g)).
      apply Nat.le_antisymm; apply NoDup_incl_length; auto.
      * intros nm I. destruct (dget nm dd) as [l|] eqn:DG; [|apply Proofs_Num.dget_None in DG; contradiction].
        specialize (H nm). rewrite DG in H. destruct H as (FG & _). apply in_map_iff. exists (nm, positions nm D).
        split; [reflexivity|]. apply action_names_in. auto.
      * intros nm I. apply in_map_iff in I. destruct I as ([nm' ps] & E & I). cbn [fst] in E. subst nm'.
        apply action_names_in in I. destruct I as [FG _]. specialize (H nm). destruct (dget nm dd) as [l|] eqn:DG; [|contradiction].
        apply Proofs_Num.dget_In in DG. apply in_map_iff. exists (nm, l). auto.
    + apply forallb_forall. intros [nm ps] I. apply action_names_in in I. destruct I as [FG ->]. cbn [fst snd].
      specialize (H nm). destruct (dget nm dd) as [l|]; [|contradiction]. destruct H as (_ & L1 & FA).
      rewrite L1, Nat.eqb_refl. cbn [andb]. apply (entry_ok nm l FG L1). exact FA.
Qed.
End Space.

Theorem continuous_accepts D e a : continuous_env D e -> names_separate D ->
  (forall dd, a = CDict dd -> NoDup (map fst dd)) ->
  (in_nested (ev_mg e) a = true <-> valid_action D a)
  /\ (~ valid_action D a -> raises AssertionError (snd (continuous_step a e)) /\ fst (continuous_step a e) = e).
Proof.
  intros CE SEP ND. pose proof (nested_valid D _ (continuous_env_from D e CE) SEP a ND) as NV. split; [exact NV|].
  intros NOT. rewrite continuous_step_eq. unfold continuous_action.
  destruct (in_nested (ev_mg e) a) eqn:IN; [exfalso; apply NOT, NV; reflexivity|]. cbn [negb]. unfold raise. split; [|reflexivity].
  eexists. split; reflexivity.
Qed.

(** ** A fixed grid cannot be stepped, so nothing can be run *)
Lemma fixed_grid_step (m m' : module Q) gr t o : m_kind m = KGrid gr t -> gr_type gr = Fixed ->
  step (VS 0) false m <> (m', Ok o).
Proof.
  intros K T E. unfold step, mbind at 1, mget in E. rewrite K in E. cbv iota in E.
  apply base_step_cases in E. destruct E as [(_ & e & X & _)|(da & e & sd & DA & PE & SD & H)]; [discriminate X|].
  injection DA as <-. rewrite K in PE. cbn in PE. injection PE as <-.
  assert (U : exists x, unnormalized_step 0 m = (m, Err x)).
  { unfold unnormalized_step. unfold mbind, mget. cbn. rewrite K. cbn. unfold as_source, mbind, massert, mret. cbn.
    rewrite K. cbn. rewrite T. cbn. unfold update. rewrite K. cbn. eexists. reflexivity. }
  destruct U as (x & U).
  destruct H as [(ex & _ & X)|(m1 & rw & d & i & UN & _)]; [discriminate X|]. rewrite U in UN. discriminate UN.
Qed.
Theorem fixed_grid_never_runs D (g : mgrid Q) c n nm : from_modules D g -> names_separate D -> fixed_grid D nm ->
  exists g' x, run c n g = (g', Err x).
Proof.
  intros F SEP FG. destruct (run c n g) as [g' [[[[obs rw] d] inf]|x]] eqn:R; [exfalso|eauto].
  destruct (run_executes D g g' c n obs rw d inf F SEP R) as (es & [PF ND] & _ & FX & _).
  destruct FG as (df & gr & t & I & EN & K & T).
  specialize (FX df I). rewrite K in FX. specialize (FX T). cbn in FX.
  apply In_nth_error in I. destruct I as (i & NI).
  assert (PI : In i (positions (mdef_name df) D)) by (apply in_positions; eauto).
  assert (EI : In (i, VS 0, false) (under (fun e => (ev_id e, ev_act e, ev_norm e)) (mdef_name df) es)).
  { rewrite FX. apply in_map_iff. exists i. auto. }
  apply under_in in EI. destruct EI as (e & IE & _ & EQ). injection EQ as E1 E2 E3.
  destruct (performs_each _ _ _ PF ND e IE) as (m & m' & M & M' & ST). rewrite E1 in M. rewrite E2, E3 in ST.
  destruct (Proofs_Run.Forall2_nth_r _ _ _ _ _ (iv_mods _ _ (from_modules_inv D g F)) M) as (d2 & N2 & O & L).
  pose proof (eq_trans (eq_sym NI) N2) as NN. injection NN as <-.
  pose proof (ml_kind _ _ L) as KL. rewrite K in KL. destruct (m_kind m) as [| |gr' t'| | |] eqn:KM; simpl in KL; try contradiction.
  destruct KL as [-> _]. exact (fixed_grid_step m m' gr t' _ KM T ST).
Qed.
Theorem continuous_fixed_grid D e a nm : continuous_env D e -> names_separate D -> fixed_grid D nm ->
  exists e' x, continuous_step a e = (e', Err x).
Proof.
  intros CE SEP FG. rewrite continuous_step_eq. destruct (continuous_action (ev_mg e) a) as [c|x]; [|eauto].
  destruct (fixed_grid_never_runs D (ev_mg e) c true nm (continuous_env_from D e CE) SEP FG) as (g' & x & ->). do 2 eexists. reflexivity.
Qed.
