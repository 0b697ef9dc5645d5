(** * The continuous environment: lemmas *)

From Coq Require Import ZArith NArith QArith Qabs Bool String Ascii List ListDec Lia Lqa Permutation Sorted.
From Verif Require Import Num Py Space Logger Forecast Module Container Microgrid PriorityList Env
  Proofs_Num Proofs_Logger Spec_Module Spec_Reach Spec_Genset Proofs_Module Proofs_Space Proofs_Battery Proofs_Genset
  Proofs_Ts Proofs_Any Proofs_Request
  Proofs_Data Proofs_Classes Proofs_Props Spec_Microgrid Spec_Sane Proofs_Container Proofs_Run Proofs_Balance
  Proofs_Mgrid Proofs_Views Proofs_MgProps Proofs_MgProps2 Proofs_Build Proofs_Episode Proofs_Sane Proofs_Progress
  Proofs_Control Proofs_Convert Spec_Priority Proofs_Perm Proofs_Priority Proofs_Deploy Proofs_Rbc
  Spec_Env Proofs_Env Proofs_Obs.
Import ListNotations.
Local Open Scope string_scope.
Local Open Scope list_scope.
Local Open Scope Q_scope.

Lemma continuous_step_eq a (e : env Q) : continuous_step a e =
  match continuous_action (ev_mg e) a with
  | Err x => (e, Err x)
  | Ok c => (env_set_mg e (fst (run c true (ev_mg e))), snd (run c true (ev_mg e)))
  end.
Proof.
  unfold continuous_step, mbind, mget, mlift, on_mg. destruct (continuous_action (ev_mg e) a) as [c|x]; [|reflexivity].
  destruct (run c true (ev_mg e)); reflexivity.
Qed.
Lemma new_continuous_ok (g0 : mgrid Q) flat keys e0 : new_continuous_env g0 flat keys = Ok e0 ->
  ev_mg e0 = g0 /\ (flat = true -> action_names g0 <> []) /\ new_base_env g0 flat keys = Ok e0.
Proof.
  unfold new_continuous_env. intros E. destruct (validate_keys g0 keys) as [ks|] eqn:VK; [|discriminate E]. cbn [rbind] in E.
  assert (ks = keys). { unfold validate_keys in VK. destruct keys; [congruence|]. destruct (mg_state_series false g0); [|discriminate VK].
    cbn [rbind] in VK. destruct (forallb _ _); [congruence|discriminate VK]. }
  subst ks. destruct (flat && _) eqn:FL; [discriminate E|]. split; [exact (proj1 (new_base_ok _ _ _ _ E))|]. split; [|exact E].
  intros -> X. rewrite X in FL. discriminate FL.
Qed.
Lemma cplay_mg cs : forall e : env Q, exists cs', ev_mg (cplay cs e) = mplay cs' (ev_mg e).
Proof.
  induction cs as [|c cs IH]; intros e; [exists []; reflexivity|].
  cbn [cplay fold_left]. change (fold_left _ cs ?x) with (cplay cs x).
  assert (X : exists cs', ev_mg (do_ccall c e) = mplay cs' (ev_mg e)).
  { destruct c as [a| |c]; cbn [do_ccall].
    - rewrite continuous_step_eq. destruct (continuous_action (ev_mg e) a) as [c|x]; [exists [MRun c true]|exists []]; reflexivity.
    - rewrite env_reset_eq. exists [MReset]. reflexivity.
    - exists [c]. reflexivity. }
  destruct X as (cs1 & E1). destruct (IH (do_ccall c e)) as (cs2 & E2). rewrite E2, E1.
  exists (cs1 ++ cs2). unfold mplay. rewrite fold_left_app. reflexivity.
Qed.
Lemma continuous_env_from D e : continuous_env D e -> from_modules D (ev_mg e).
Proof.
  intros (ds & add & lossc & overc & sh & tr & g0 & flat & keys & e0 & cs & B & -> & NW & ->).
  destruct (new_continuous_ok _ _ _ _ NW) as (M & _). destruct (cplay_mg cs e0) as (cs' & E). rewrite M in E.
  exists ds, add, lossc, overc, sh, tr, g0, cs'. conj; auto.
Qed.


Lemma rmapM_fails {A B} (f : A -> res B) l a x : In a l -> f a = Err x -> exists y, rmapM f l = Err y.
Proof.
  intros I E. induction l as [|b l IH]; [contradiction|]. simpl. destruct I as [->|I].
  - rewrite E. simpl. eauto.
  - destruct (f b); simpl; eauto. destruct (IH I) as (y & ->). simpl. eauto.
Qed.
Lemma scalar_load (x : Q) (m : module Q) t : m_kind m = KLoad t -> kind_ok m -> raises TypeError (convert1 true false m (VS x)).
Proof.
  intros K O. unfold kind_ok in O. rewrite K in O. destruct O as (_ & _ & A & _).
  unfold convert1, module_space. rewrite A. cbn. eexists. split; reflexivity.
Qed.
(** Reading off the current load as an action of the module. *)
Definition load_action (m : module Q) : res (pyval Q) :=
  rbind (max_consumption m) (fun b => rbind (bound_num b) (fun x => convert1 true false m (VS (- (1) * x)))).
Lemma load_action_fails (m : module Q) t : m_kind m = KLoad t -> mod_ok m ->
  (exists x, load_action m = Err x) /\ (in_data m -> raises TypeError (load_action m)).
Proof.
  intros K O. unfold load_action. split.
  - destruct (max_consumption m) as [b|x]; [|eexists; reflexivity]. cbn [rbind].
    destruct (bound_num b) as [y|x]; [|eexists; reflexivity]. cbn [rbind].
    destruct (scalar_load (- (1) * y) m t K (mo_kind _ O)) as (x & -> & _). eauto.
  - intros ID. assert (KT : kind_ts (m_kind m) = Some t) by (rewrite K; reflexivity).
    assert (C1 : columns m = 1%nat) by (unfold columns; rewrite K; reflexivity).
    destruct (row_single m t O ID KT C1) as (x & R & _).
    unfold max_consumption, current_load, ts_item. rewrite K, R. cbn.
    eapply scalar_load; [exact K|exact (mo_kind _ O)].
Qed.

Lemma NoDup_map_filter {A B} (f : A -> B) p l : NoDup (map f l) -> NoDup (map f (filter p l)).
Proof.
  induction l as [|a l IH]; simpl; intros N; [constructor|]. inversion N as [|? ? NI N']; subst.
  destruct (p a); [|auto]. simpl. constructor; [|auto]. intros I. apply NI. apply in_map_iff in I. destruct I as (x & E & I).
  apply in_map_iff. exists x. split; [exact E|]. apply filter_In in I. apply I.
Qed.

Section Loads.
Variable D : list (mdef Q).
Variable g : mgrid Q.
Hypothesis F : from_modules D g.
Let V := from_modules_inv _ _ F.

Lemma fixed_sinks : to_dict [ct_get (mg_ct g) Fixed Sinks] = ctc (mg_ct g) (Fixed, Sinks).
Proof. change (dupdate [] (ctc (mg_ct g) (Fixed, Sinks)) = ctc (mg_ct g) (Fixed, Sinks)). rewrite dupdate_fresh; [reflexivity|]. apply (iv_nodup _ _ V). Qed.
Lemma fixed_sink_loads nm l : In (nm, l) (ctc (mg_ct g) (Fixed, Sinks)) ->
  l <> [] /\ forall i, In i l -> exists m t, nth_error (mg_mods g) i = Some m /\ m_kind m = KLoad t /\ mod_ok m.
Proof.
  intros I. assert (DG : dget nm (ctc (mg_ct g) (Fixed, Sinks)) = Some l).
  { apply Proofs_Num.In_dget; [apply (iv_nodup _ _ V)|exact I]. }
  rewrite (iv_ct _ _ V) in DG. split.
  - intros ->. destruct (members _ _ _ _); discriminate DG.
  - intros i J. assert (C : exists d, nth_error D i = Some d /\ category_of (snd d) = (Fixed, Sinks)).
    { apply (sub_in D g F). apply in_concat. exists l. split; [|exact J]. apply in_map_iff. exists (nm, l). auto. }
    destruct C as (d & N & C). destruct (mod_at D g V i d N) as (m & M & O & L).
    rewrite <- (mod_like_category _ _ L) in C. unfold category_of in C. exists m.
    destruct (m_kind m) as [b|s|gg t|t|t|u] eqn:K; simpl in C; try discriminate C. exists t. auto.
Qed.
Lemma some_load : has_load D -> exists nm l, In (nm, l) (ctc (mg_ct g) (Fixed, Sinks)).
Proof.
  intros (d & t & I & K). apply In_nth_error in I. destruct I as (i & N).
  assert (X : In i (concat (map snd (ctc (mg_ct g) (Fixed, Sinks))))).
  { apply (sub_in D g F). exists d. split; [exact N|]. unfold category_of. rewrite K. reflexivity. }
  apply in_concat in X. destruct X as (l & X & _). apply in_map_iff in X. destruct X as ([nm l'] & _ & X). eauto.
Qed.

Theorem load_refused a : has_load D ->
  (exists x, continuous_action g a = Err x)
  /\ (in_nested g a = false -> raises AssertionError (continuous_action g a))
  /\ (in_nested g a = true -> Forall in_data (mg_mods g) -> raises TypeError (continuous_action g a)).
Proof.
  intros HL. destruct (some_load HL) as (nm & l & I). unfold continuous_action.
  destruct (in_nested g a) eqn:IN; cbn [negb].
  2:{ conj; [eexists; reflexivity| |discriminate]. intros _. eexists. split; reflexivity. }
  destruct a as [xs|dd]; [discriminate IN|]. rewrite fixed_sinks.
  assert (ONE : forall nm l, In (nm, l) (ctc (mg_ct g) (Fixed, Sinks)) -> forall f,
     (forall i m, nth_error (mg_mods g) i = Some m -> f i = load_action m) ->
     (exists x, rmapM f l = Err x) /\ (Forall in_data (mg_mods g) -> raises TypeError (rmapM f l))).
  { clear nm l I. intros nm l I f Hf. destruct (fixed_sink_loads nm l I) as [NE H]. destruct l as [|i l]; [congruence|]. split.
    - destruct (H i (or_introl eq_refl)) as (m & t & M & K & O). destruct (load_action_fails m t K O) as [(x & X) _].
      apply (rmapM_fails f _ i x); [left; reflexivity|]. rewrite (Hf i m M). exact X.
    - intros ID. rewrite Forall_forall in ID.
      assert (R : forall j, In j (i :: l) -> raises TypeError (f j)).
      { intros j J. destruct (H j J) as (m & t & M & K & O). rewrite (Hf j m M). apply (load_action_fails m t K O).
        apply ID. eapply nth_error_In; eauto. }
      apply rmapM_raises; [intros j J; right; apply R, J|]. exists i. split; [left; reflexivity|apply R; left; reflexivity]. }
  match goal with |- context [rmapM ?f (ctc _ _)] => set (h := f) end.
  assert (HH : forall nm l, In (nm, l) (ctc (mg_ct g) (Fixed, Sinks)) ->
     (exists x, h (nm, l) = Err x) /\ (Forall in_data (mg_mods g) -> raises TypeError (h (nm, l)))).
  { intros nm' l' I'. unfold h. cbn [fst snd].
    match goal with |- context [rmapM ?f l'] => destruct (ONE nm' l' I' f) as [(x & X) Y] end.
    - intros i m M. rewrite M. reflexivity.
    - split; [rewrite X; eexists; reflexivity|]. intros ID. destruct (Y ID) as (y & -> & C). exists y. split; [reflexivity|exact C]. }
  clearbody h. conj.
  - destruct (HH nm l I) as [(x & X) _]. destruct (rmapM_fails h _ _ x I X) as (y & ->). eexists. reflexivity.
  - discriminate.
  - intros _ ID. assert (R : raises TypeError (rmapM h (ctc (mg_ct g) (Fixed, Sinks)))).
    { apply rmapM_raises; [intros [nm' l'] I'; right; apply HH; auto|]. exists (nm, l). split; [exact I|]. apply HH; auto. }
    destruct R as (y & -> & C). exists y. split; [reflexivity|exact C].
Qed.

(** The action space. *)
Lemma action_names_sub nm l : In (nm, l) (action_names g) -> exists i m gr t, In i l /\ In (nm, l) (part_dict Fixed g)
  /\ nth_error (mg_mods g) i = Some m /\ m_kind m = KGrid gr t /\ gr_type gr = Fixed.
Proof.
  unfold action_names. intros I. apply filter_In in I. cbn [snd] in I. destruct I as [I S]. destruct l as [|i l]; [discriminate S|].
  destruct (part_entry D g Fixed nm (i :: l) i V I (or_introl eq_refl)) as (df & m & ID & EN & M & O & L & T).
  rewrite M in S. exists i, m. destruct (m_kind m) as [b|s|gr t|t|t|u] eqn:K; simpl in *; try discriminate.
  exists gr, t. conj; auto.
Qed.
Lemma no_names : no_fixed_grid D -> action_names g = [].
Proof.
  intros NF. destruct (action_names g) as [|[nm l] r] eqn:E; [reflexivity|].
  destruct (action_names_sub nm l) as (i & m & gr & t & _ & _ & M & K & T); [rewrite E; left; reflexivity|]. exfalso.
  destruct (Proofs_Run.Forall2_nth_r _ _ _ _ _ (iv_mods _ _ V) M) as (d & Nd & _ & L).
  pose proof (ml_kind _ _ L) as KL. rewrite K in KL. destruct (m_kind (snd d)) as [| |gr' t'| | |] eqn:K'; simpl in KL; try contradiction.
  destruct KL as [-> _]. exact (NF d gr' t' (nth_error_In _ _ Nd) K' T).
Qed.
Lemma nested_keys dd nm : in_nested g (CDict dd) = true -> In nm (map fst dd) -> In nm (map fst (action_names g)).
Proof.
  cbn [in_nested]. intros E. apply andb_true_iff in E. destruct E as [L A]. apply Nat.eqb_eq in L.
  assert (I : incl (map fst (action_names g)) (map fst dd)).
  { intros k J. apply in_map_iff in J. destruct J as ([k' l] & <- & J). rewrite forallb_forall in A. specialize (A _ J).
    cbn [fst] in *. destruct (dget k' dd) eqn:DG; [|discriminate A]. apply Proofs_Num.dget_In in DG. apply in_map_iff. exists (k', l0). auto. }
  assert (ND : NoDup (map fst (action_names g))).
  { unfold action_names. apply NoDup_map_filter. apply part_nodup. }
  apply (NoDup_length_incl ND); [rewrite !map_length; lia|exact I].
Qed.
Lemma controllable_not_fixed d : names_separate D -> In d D -> module_type (m_kind (snd d)) = Controllable ->
  forall l, ~ In (mdef_name d, l) (part_dict Fixed g).
Proof.
  intros SEP I T l J. pose proof (part_shown D g Fixed _ _ V J) as NE. destruct l as [|i l]; [congruence|].
  destruct (part_entry D g Fixed _ _ i V J (or_introl eq_refl)) as (df & m & ID & EN & M & O & L & TM).
  pose proof (SEP df d ID I EN) as C. unfold category_of in C. rewrite T in C. rewrite <- (like_type _ _ L) in TM. congruence.
Qed.
Lemma loads_keys {B} (h : string * list nat -> res (string * B)) X loads :
  (forall kl r, h kl = Ok r -> fst r = fst kl) -> rmapM h X = Ok loads -> map fst loads = map fst X.
Proof.
  intros H. revert loads. induction X as [|x X IH]; simpl; intros loads E; [injection E as <-; reflexivity|].
  destruct (h x) as [r|] eqn:HX; [|discriminate E]. cbn [rbind] in E. destruct (rmapM h X) as [rs|]; [|discriminate E].
  cbn [rbind] in E. injection E as <-. simpl. rewrite (IH rs eq_refl), (H x r HX). reflexivity.
Qed.
Theorem controllable_refused a c : names_separate D -> has_controllable D -> continuous_action g a = Ok c ->
  exists g' x, run c true g = (g', Err x).
Proof.
  intros SEP (d & I & T) E. destruct (run c true g) as [g' r] eqn:R.
  assert (X : exists e, r = Err e /\ mg_balance g' = mg_balance g).
  2:{ destruct X as (x & -> & _). eauto. }
  apply (run_missing D g g' c true r d F I T); [|exact R].
  unfold continuous_action in E. destruct (in_nested g a) eqn:IN; [|discriminate E]. cbn [negb] in E.
  destruct a as [xs|dd]; [discriminate E|]. rewrite fixed_sinks in E.
  match type of E with context [rmapM ?f ?l] => destruct (rmapM f l) as [loads|] eqn:EL; [|discriminate E] end.
  cbn [rbind] in E. injection E as <-.
  match goal with |- ?x = None => destruct x as [v|] eqn:DG; [exfalso|reflexivity] end.
  apply Proofs_Num.dget_In in DG. assert (IK : In (mdef_name d) (map fst (dupdate (map (fun kl => (fst kl, CList (map VA (snd kl)))) dd) loads))).
  { apply in_map_iff. eexists. split; [|exact DG]. reflexivity. }
  apply keys_dupdate in IK. destruct IK as [IK|IK].
  - rewrite map_map in IK. cbn [fst] in IK. apply (nested_keys dd _ IN) in IK.
    apply in_map_iff in IK. destruct IK as ([nm l] & E & IK). cbn [fst] in E. subst nm. unfold action_names in IK. apply filter_In in IK.
    exact (controllable_not_fixed d SEP I T l (proj1 IK)).
  - apply loads_keys in EL.
    2:{ intros kl r' H. match type of H with rmap _ ?x = _ => destruct x; [|discriminate H] end. injection H as <-. reflexivity. }
    rewrite EL in IK. apply in_map_iff in IK. destruct IK as ([nm l] & E & IK). cbn [fst] in E. subst nm.
    destruct (fixed_sink_loads _ _ IK) as [NE H]. destruct l as [|i l]; [congruence|].
    assert (C : exists df, nth_error D i = Some df /\ category_of (snd df) = (Fixed, Sinks)).
    { apply (sub_in D g F). apply in_concat. exists (i :: l). split; [|left; reflexivity]. apply in_map_iff. exists (mdef_name d, i :: l). auto. }
    destruct C as (df & N & C).
    assert (DG' : dget (mdef_name d) (ctc (mg_ct g) (Fixed, Sinks)) = Some (i :: l)).
    { apply Proofs_Num.In_dget; [apply (iv_nodup _ _ V)|exact IK]. }
    rewrite (iv_ct _ _ V) in DG'.
    assert (J : In i (members (mdef_name d) (Fixed, Sinks) 0 D)).
    { destruct (members (mdef_name d) (Fixed, Sinks) 0 D); [discriminate DG'|]. injection DG' as -> ->. left. reflexivity. }
    apply members_iff in J. destruct J as (df' & N' & _ & EN & C').
    pose proof (SEP df' d (nth_error_In _ _ N') I) as X. unfold category_of in *. rewrite X in C'; [|congruence]. congruence.
Qed.
End Loads.

Theorem continuous_never D e a : continuous_env D e -> has_load D \/ (names_separate D /\ has_controllable D) ->
  exists e' x, continuous_step a e = (e', Err x) /\ (has_load D -> e' = e).
Proof.
  intros CE H. pose proof (continuous_env_from D e CE) as F. rewrite continuous_step_eq.
  destruct (continuous_action (ev_mg e) a) as [c|x] eqn:E; [|eauto].
  destruct H as [HL|[SEP HC]].
  - destruct (load_refused D _ F a HL) as ((x & X) & _). congruence.
  - destruct (controllable_refused D _ F a c SEP HC E) as (g' & x & R). rewrite R. eexists _, x. split; [reflexivity|].
    intros HL. destruct (load_refused D _ F a HL) as ((y & Y) & _). congruence.
Qed.
Theorem continuous_load_class D e a : continuous_env D e -> has_load D ->
  (in_nested (ev_mg e) a = false -> raises AssertionError (snd (continuous_step a e)))
  /\ (in_nested (ev_mg e) a = true -> Forall in_data (mg_mods (ev_mg e)) -> raises TypeError (snd (continuous_step a e))).
Proof.
  intros CE HL. pose proof (continuous_env_from D e CE) as F. rewrite continuous_step_eq.
  destruct (load_refused D _ F a HL) as (_ & A & B). split.
  - intros X. destruct (A X) as (x & -> & C). exists x. auto.
  - intros X Y. destruct (B X Y) as (x & -> & C). exists x. auto.
Qed.
Theorem continuous_flat D (g : mgrid Q) keys e : from_modules D g -> no_fixed_grid D -> new_continuous_env g true keys <> Ok e.
Proof. intros F NF E. destruct (new_continuous_ok _ _ _ _ E) as (_ & H & _). exact (H eq_refl (no_names D g F NF)). Qed.
Theorem continuous_space D e a : continuous_env D e -> no_fixed_grid D -> in_nested (ev_mg e) a = true <-> a = CDict [].
Proof.
  intros CE NF. pose proof (no_names D _ (continuous_env_from D e CE) NF) as E. unfold in_nested. rewrite E. destruct a as [xs|dd].
  - split; discriminate.
  - cbn [length forallb]. rewrite andb_true_r, Nat.eqb_eq. split; [|intros X; injection X as ->; reflexivity].
    intros L. destruct dd; [reflexivity|discriminate L].
Qed.
