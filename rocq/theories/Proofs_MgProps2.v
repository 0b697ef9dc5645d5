(** * Proofs of the microgrid properties: results, lockstep *)

From Coq Require Import ZArith QArith Qabs Bool String List Lia Lqa Permutation.
From Verif Require Import Num Py Space Logger Forecast Module Container Microgrid
  Proofs_Num Proofs_Logger Spec_Module Spec_Reach Proofs_Module Proofs_Ts Proofs_Any Proofs_Request
  Proofs_Data Proofs_Classes Spec_Microgrid Proofs_Container Proofs_Run Proofs_Balance Proofs_Mgrid Proofs_Views
  Proofs_MgProps.
Import ListNotations.
Local Open Scope string_scope.
Local Open Scope list_scope.
Local Open Scope Q_scope.

(** ** C28 *)
Lemma performs_shape ms es ms' : performs ms es ms' -> Forall mod_ok ms ->
  Forall (fun e => exists m : module Q, info_shape (m_kind m) (info_of (ev_out e))) es.
Proof.
  induction 1 as [|ms e es m m' ms' N E P IH]; intros O; constructor.
  - exists m. eapply step_shape; eauto. rewrite Forall_forall in O. apply O. eapply nth_error_In; eauto.
  - apply IH. rewrite Forall_forall in *. intros y J. apply In_nth_error in J. destruct J as (j & J).
    rewrite nth_set_nth in J. destruct (Nat.eqb (ev_id e) j).
    * destruct (nth_error ms j) eqn:Z; inversion J; subst. eapply step_rel; [exact E|]. apply O. eapply nth_error_In; eauto.
    * apply O. eapply nth_error_In; eauto.
Qed.

(** Each step is reported under the name of the module that made it. *)
Lemma ran_identity D (g : mgrid Q) c n ci efix ectl eflex ms1 ms2 ms3 r2 fp fa p a p3 a3 r3 s3 :
  mg_inv D g -> ran c n g ci efix ectl eflex ms1 ms2 ms3 r2 fp fa p a p3 a3 r3 s3 ->
  forall e, In e (efix ++ ectl ++ eflex) -> exists df, nth_error D (ev_id e) = Some df /\ mdef_name df = ev_name e.
Proof.
  intros V RN e I.
  assert (K : exists f, In (ev_key e) (part_tuples f g)).
  { rewrite !in_app_iff in I. destruct I as [I|[I|I]].
    - exists Fixed. rewrite <- (rn_fix_keys _ _ _ _ _ _ _ _ _ _ _ _ _ _ _ _ _ _ _ RN). apply in_map. exact I.
    - exists Controllable. apply (in_map ev_order) in I. rewrite (rn_ctl_orders _ _ _ _ _ _ _ _ _ _ _ _ _ _ _ _ _ _ _ RN) in I.
      unfold orders in I. apply in_concat in I. destruct I as (l & I1 & I2). apply in_map_iff in I1.
      destruct I1 as ([k ids] & <- & I1). cbn [fst snd] in I2. destruct (dget k c) as [v|]; [|destruct I2].
      apply in_map_iff in I2. destruct I2 as ([i x] & E & IC). apply in_combine_l in IC. cbn [fst snd] in E.
      unfold ev_order in E. inversion E; subst. apply part_tuples_in. exists ids. auto.
    - exists Flex. rewrite <- (rn_flex_keys _ _ _ _ _ _ _ _ _ _ _ _ _ _ _ _ _ _ _ RN). apply in_map. exact I. }
  destruct K as (f & K). destruct (part_module _ _ _ _ _ V K) as (df & m & N & NM & _). eauto.
Qed.

Theorem run_reports D (g g' : mgrid Q) (c : control Q) n obs rw d inf :
  from_modules D g -> run c n g = (g', Ok (obs, rw, d, inf)) ->
  exists es ci, did g es g' /\ get_cost_info g = Ok ci
    /\ d = existsb (fun e => done_of (ev_out e)) es
    /\ match mg_shaper g with
       | None => rw == sum_of ev_reward es
       | Some f => f inf ci = Ok rw
       end
    /\ (forall nm, dget nm obs = entry_for (under (fun e => obs_of (ev_out e)) nm es))
    /\ (forall nm, ~ In nm energy_keys ->
          dget nm inf = entry_for (under (fun e => EInfo (info_of (ev_out e))) nm es))
    /\ (forall e, In e es -> exists df, nth_error D (ev_id e) = Some df /\ mdef_name df = ev_name e).
Proof.
  intros F E. apply from_modules_inv in F.
  destruct (run_ok_full _ _ _ _ _ _ _ _ _ F E) as (ci & efix & ectl & eflex & ms1 & ms2 & ms3 & r2 & fp & fa & p & a & p3 & a3 & r3 & lg
    & RN & -> & _ & C & -> & -> & ->).
  exists (efix ++ ectl ++ eflex), ci.
  pose proof (ran_performs _ _ _ _ _ _ _ _ _ _ _ _ _ _ _ _ _ _ _ RN) as PF.
  destruct (ran_totals _ _ F _ _ _ _ _ _ _ _ _ _ _ _ _ _ _ _ _ _ RN) as (_ & _ & R3 & _).
  set (es := efix ++ ectl ++ eflex) in *.
  destruct (mstep_balance_shaped _ _ _ _ _ _ _ (rn_b3 _ _ _ _ _ _ _ _ _ _ _ _ _ _ _ _ _ _ _ RN)) as (SH & RE & _).
  conj.
  - split; [exact PF|]. exact (ran_nodup _ _ F _ _ _ _ _ _ _ _ _ _ _ _ _ _ _ _ _ _ RN).
  - exact (rn_cost _ _ _ _ _ _ _ _ _ _ _ _ _ _ _ _ _ _ _ RN).
  - rewrite done_collect. simpl. apply orb_false_r.
  - unfold shaped_reward in SH. destruct (mg_shaper g); [exact SH|]. inversion SH; subst. fold es in R3. exact R3.
  - intros nm. rewrite obs_collect. simpl. unfold entry_for. destruct (under _ nm es); reflexivity.
  - intros nm NI. unfold output_info. rewrite (dget_filter (fun k => negb (String.eqb k "absorbed_energy" || String.eqb k "provided_energy"))).
    simpl in NI.
    assert (NP : String.eqb nm "provided_energy" = false) by (apply String.eqb_neq; intros ->; tauto).
    assert (NA : String.eqb nm "absorbed_energy" = false) by (apply String.eqb_neq; intros ->; tauto).
    rewrite NP, NA. cbn [orb negb].
    rewrite infos_collect.
    + change (ms_info mstep_init) with [("absorbed_energy", []); ("provided_energy", @nil (entry Q))].
      cbn [dget]. rewrite NP, NA. unfold entry_for. destruct (under _ nm es); reflexivity.
    + eapply Forall_impl; [|eapply performs_shape; [exact PF|]].
      * intros e (m & S). eapply shape_named; [exact S|]. simpl. tauto.
      * eapply iv_all_ok; eauto.
  - intros e I. exact (ran_identity _ _ _ _ _ _ _ _ _ _ _ _ _ _ _ _ _ _ _ _ F RN e I).
Qed.

(** ** The clock *)
Lemma step_clock (a : pyval Q) n m m' o : mod_ok m -> step a n m = (m', Ok o) ->
  mod_ok m' /\ mod_same m m' /\ m_cur m' = (m_cur m + 1)%Z /\ lg_len (m_log m') = S (lg_len (m_log m))
  /\ (done_of o = true <-> exists f, final_step m = Some f /\ (f - 1 <= m_cur m)%Z).
Proof.
  intros OK E. destruct (step_good _ _ _ _ _ OK E) as (S & O' & D).
  destruct D as [(_ & _ & e & C)|(m0 & da & x & m1 & rw & d & i & S0 & _ & C0 & _ & _ & _ & _ & U & C1 & L & _ & D)];
    [discriminate|].
  conj; auto. destruct D as [(ob & X & _)|[(e & X) _]]; [|discriminate]. inversion X; subst. unfold done_of. simpl.
  apply request_updates in U. destruct U as (e & src & U). apply update_done in U. subst d.
  rewrite <- (same_final_step _ _ S0). unfold final_step. rewrite <- C0.
  destruct (kind_ts (m_kind m0)) as [t|]; simpl.
  - rewrite ts_done_iff. split; [eauto|intros (f & F & L'); inversion F; subst; exact L'].
  - split; [discriminate|]. intros (f & F & _). discriminate.
Qed.

(** ** C29 *)
Lemma filter_name_tuples (e : dict (list nat)) nm : NoDup (map fst e) ->
  map snd (filter (fun t => String.eqb nm (fst t)) (concat (map (fun kl => map (fun i => (fst kl, i)) (snd kl)) e)))
  = match dget nm e with Some l => l | None => [] end.
Proof.
  induction e as [|[k l] e IH]; intros N; [reflexivity|]. simpl in *. inversion N; subst.
  rewrite filter_app, map_app, (IH H2).
  destruct (String.eqb nm k) eqn:Q.
  - apply String.eqb_eq in Q. subst k.
    assert (dget nm e = None) as -> by (apply dget_None; auto). rewrite app_nil_r.
    clear IH H1 H2 N. induction l as [|i l IH]; simpl; [reflexivity|]. rewrite String.eqb_refl. simpl. f_equal. exact IH.
  - clear IH H1 H2 N. induction l as [|i l IH]; simpl; [reflexivity|]. rewrite Q. exact IH.
Qed.
Lemma under_app {A} (f : event -> A) nm es1 es2 : under f nm (es1 ++ es2) = under f nm es1 ++ under f nm es2.
Proof. unfold under. rewrite filter_app, map_app. reflexivity. Qed.
Lemma under_keys nm es : under ev_id nm es = map snd (filter (fun t => String.eqb nm (fst t)) (map ev_key es)).
Proof.
  unfold under. induction es as [|e es IH]; simpl; [reflexivity|].
  destruct (String.eqb nm (ev_name e)); simpl; [f_equal|]; exact IH.
Qed.
Lemma orders_keys c d :
  (forall nm l, In (nm, l) d -> exists v, dget nm c = Some v /\ (length l <= length (ctrl_list v))%nat) ->
  map (fun o => fst o) (orders c d) = concat (map (fun kl => map (fun i => (fst kl, i)) (snd kl)) d).
Proof.
  induction d as [|[k l] d IH]; intros H; [reflexivity|]. unfold orders. simpl. rewrite map_app. f_equal.
  - destruct (H k l) as (v & -> & L); [simpl; auto|]. rewrite map_map. simpl.
    rewrite <- (map_map fst (fun i => (k, i))). rewrite combine_fst, firstn_all2 by exact L. reflexivity.
  - apply IH. intros. apply H. simpl. auto.
Qed.
Lemma part_nodup f (g : mgrid Q) : NoDup (map fst (part_dict f g)).
Proof. apply NoDup_to_dict. Qed.
Lemma part_tuples_dict f (g : mgrid Q) :
  part_tuples f g = concat (map (fun kl => map (fun i => (fst kl, i)) (snd kl)) (part_dict f g)).
Proof. reflexivity. Qed.

Definition of_name (nm : string) (f : mtype) (g : mgrid Q) : list nat :=
  match dget nm (part_dict f g) with Some l => l | None => [] end.

Lemma positions_members_aux nm k (D : list (mdef Q)) : forall i,
  (forall d, In d D -> mdef_name d = nm -> category_of (snd d) = k) ->
  map fst (filter (fun id => String.eqb nm (mdef_name (snd id))) (combine (seq i (length D)) D))
  = members nm k i D.
Proof.
  induction D as [|d D IH]; intros i H; [reflexivity|]. rewrite members_cons.
  cbn [length seq combine filter]. change (mdef_name (snd (i, d))) with (mdef_name d).
  destruct (String.eqb nm (mdef_name d)) eqn:Q.
  - apply String.eqb_eq in Q. rewrite (H d) by (simpl; auto).
    assert (mtype_eqb (fst k) (fst k) = true) as -> by (apply mtype_eqb_eq; reflexivity).
    assert (ssink_eqb (snd k) (snd k) = true) as -> by (apply ssink_eqb_eq; reflexivity).
    simpl. f_equal. apply IH. intros. apply H; simpl; auto.
  - simpl. apply IH. intros. apply H; simpl; auto.
Qed.
Lemma members_other nm k k' (D : list (mdef Q)) :
  (forall d, In d D -> mdef_name d = nm -> category_of (snd d) = k) -> k' <> k -> members nm k' 0 D = [].
Proof.
  intros H N. destruct (members nm k' 0 D) as [|j l] eqn:M; [reflexivity|]. exfalso.
  assert (I : In j (members nm k' 0 D)) by (rewrite M; simpl; auto).
  apply members_iff in I. destruct I as (d & Nd & _ & E & C). apply N. rewrite <- C. apply H; auto.
  eapply nth_error_In; eauto.
Qed.
Lemma of_name_sep D g nm f : mg_inv D g -> names_separate D ->
  forall k, (forall d, In d D -> mdef_name d = nm -> category_of (snd d) = k) ->
  of_name nm f g = if mtype_eqb (fst k) f then positions nm D else [].
Proof.
  intros V SEP k H. unfold of_name, positions. rewrite (positions_members_aux nm k D 0 H).
  rewrite part_dict_view. 
  destruct (dget nm (view (mg_ct g) (cats f))) as [l|] eqn:G.
  - destruct (view_get D g V _ _ _ G) as (k' & I & M & NE).
    destruct (category_dec k' k) as [->|NK]; [|rewrite (members_other nm k k' D H NK) in M; subst; tauto].
    apply in_cats in I. subst f. assert (mtype_eqb (fst k) (fst k) = true) as -> by (apply mtype_eqb_eq; reflexivity).
    auto.
  - destruct (mtype_eqb (fst k) f) eqn:Q; [|reflexivity]. apply mtype_eqb_eq in Q.
    destruct (members nm k 0 D) as [|j l] eqn:M; [reflexivity|].
    rewrite (view_get_sep D g V (cats f) nm k SEP) in G; [discriminate|apply in_cats; auto|congruence].
Qed.

Lemma complete_part D g c : mg_inv D g -> complete D c ->
  forall nm l, In (nm, l) (part_dict Controllable g) ->
    exists v, dget nm c = Some v /\ (length l <= length (ctrl_list v))%nat.
Proof.
  intros V C nm l I. apply In_dget in I; [|apply part_nodup]. rewrite part_dict_view in I.
  destruct (view_get D g V _ _ _ I) as (k & K & M & NE). apply in_cats in K. destruct k as [f s]. simpl in K. subst.
  apply C. exact NE.
Qed.

Section Ran3.
Variables (D : list (mdef Q)) (g : mgrid Q).
Hypothesis V : mg_inv D g.
Variables (c : control Q) (n : bool) (ci : cost_info Q) (efix ectl eflex : list event)
  (ms1 ms2 ms3 : list (module Q)) (r2 fp fa p a p3 a3 r3 s3 : Q).
Hypothesis RN : ran c n g ci efix ectl eflex ms1 ms2 ms3 r2 fp fa p a p3 a3 r3 s3.
Let es := efix ++ ectl ++ eflex.
Hypothesis CC : complete D c.

Lemma ran_all_ids : names_separate D -> Permutation (event_ids es) (seq 0 (length D)).
Proof.
  intros SEP. unfold es. rewrite (ran_ids g _ _ _ _ _ _ _ _ _ _ _ _ _ _ _ _ _ _ RN).
  rewrite pick_complete; [apply parts_perm; auto|]. eapply complete_part; eauto.
Qed.
Lemma ran_under nm :
  under ev_id nm es = of_name nm Fixed g ++ of_name nm Controllable g ++ of_name nm Flex g.
Proof.
  unfold es. rewrite !under_app, !under_keys. unfold of_name.
  rewrite (rn_fix_keys _ _ _ _ _ _ _ _ _ _ _ _ _ _ _ _ _ _ _ RN), (rn_flex_keys _ _ _ _ _ _ _ _ _ _ _ _ _ _ _ _ _ _ _ RN).
  assert (K : map ev_key ectl = map fst (map ev_order ectl)) by (rewrite map_map; reflexivity).
  rewrite K, (rn_ctl_orders _ _ _ _ _ _ _ _ _ _ _ _ _ _ _ _ _ _ _ RN), orders_keys by (eapply complete_part; eauto).
  rewrite !part_tuples_dict, !filter_name_tuples by apply part_nodup. reflexivity.
Qed.
Lemma ran_under_sep nm : names_separate D -> under ev_id nm es = positions nm D.
Proof.
  intros SEP. rewrite ran_under.
  assert (K : exists k, forall d, In d D -> mdef_name d = nm -> category_of (snd d) = k).
  { destruct (find (fun d => String.eqb nm (mdef_name d)) D) as [d0|] eqn:Fd.
    - apply find_some in Fd. destruct Fd as [I Q]. apply String.eqb_eq in Q.
      exists (category_of (snd d0)). intros d I' Q'. apply SEP; auto. congruence.
    - exists (Fixed, Sources). intros d I Q. eapply find_none in Fd; [|exact I]. simpl in Fd.
      rewrite Q, String.eqb_refl in Fd. discriminate. }
  destruct K as (k & K). rewrite !(of_name_sep D g nm _ V SEP k K).
  destruct (fst k); simpl; rewrite ?app_nil_r; reflexivity.
Qed.
End Ran3.

Lemma performs_stepped ms es ms' : performs ms es ms' -> NoDup (event_ids es) -> Forall mod_ok ms ->
  Permutation (event_ids es) (seq 0 (length ms)) -> Forall2 stepped_once ms ms'.
Proof.
  intros P N O PM. apply Forall2_nth_intro; [apply performs_length in P; exact P|].
  intros i m m' A B.
  assert (I : In i (event_ids es)).
  { eapply Permutation_in; [apply Permutation_sym; exact PM|]. apply in_seq.
    assert (i < length ms)%nat by (apply nth_error_Some; congruence). lia. }
  unfold event_ids in I. apply in_map_iff in I. destruct I as (e & <- & I).
  destruct (performs_each _ _ _ P N e I) as (m1 & m1' & N1 & N1' & E). rewrite A in N1. rewrite B in N1'.
  inversion N1; inversion N1'; subst. exists (ev_act e), (ev_norm e), (ev_out e). split; [exact E|].
  destruct (step_clock _ _ _ _ _ ltac:(rewrite Forall_forall in O; apply O; eapply nth_error_In; eauto) E) as (_ & _ & C & L & _).
  auto.
Qed.

Theorem run_lockstep D (g g' : mgrid Q) (c : control Q) n obs rw d inf :
  from_modules D g -> names_separate D -> complete D c -> run c n g = (g', Ok (obs, rw, d, inf)) ->
  Forall2 stepped_once (mg_mods g) (mg_mods g')
  /\ exists es, did g es g' /\ Permutation (event_ids es) (seq 0 (length D))
       /\ forall nm, under ev_id nm es = positions nm D.
Proof.
  intros F SEP C E. apply from_modules_inv in F.
  destruct (run_ok_full _ _ _ _ _ _ _ _ _ F E) as (ci & efix & ectl & eflex & ms1 & ms2 & ms3 & r2 & fp & fa & p & a & p3 & a3 & r3 & lg
    & RN & -> & _ & _ & _).
  pose proof (ran_performs _ _ _ _ _ _ _ _ _ _ _ _ _ _ _ _ _ _ _ RN) as PF.
  pose proof (ran_nodup _ _ F _ _ _ _ _ _ _ _ _ _ _ _ _ _ _ _ _ _ RN) as ND.
  pose proof (ran_all_ids _ _ F _ _ _ _ _ _ _ _ _ _ _ _ _ _ _ _ _ _ RN C SEP) as PM.
  split.
  - simpl. eapply performs_stepped; eauto; [eapply iv_all_ok; eauto|].
    rewrite <- (Forall2_length _ _ _ (iv_mods _ _ F)). exact PM.
  - exists (efix ++ ectl ++ eflex). conj; [split; auto|exact PM|]. intros nm.
    exact (ran_under_sep _ _ F _ _ _ _ _ _ _ _ _ _ _ _ _ _ _ _ _ _ RN C nm SEP).
Qed.

(** Without any assumption: what was stepped was stepped once, the rest is untouched. *)
Theorem run_steps_at_most_once D (g g' : mgrid Q) (c : control Q) n obs rw d inf :
  from_modules D g -> run c n g = (g', Ok (obs, rw, d, inf)) ->
  Forall2 (fun m m' => stepped_once m m' \/ m' = m) (mg_mods g) (mg_mods g').
Proof.
  intros F E. apply from_modules_inv in F.
  destruct (run_ok_full _ _ _ _ _ _ _ _ _ F E) as (ci & efix & ectl & eflex & ms1 & ms2 & ms3 & r2 & fp & fa & p & a & p3 & a3 & r3 & lg
    & RN & -> & _ & _ & _). simpl.
  pose proof (ran_performs _ _ _ _ _ _ _ _ _ _ _ _ _ _ _ _ _ _ _ RN) as PF.
  pose proof (ran_nodup _ _ F _ _ _ _ _ _ _ _ _ _ _ _ _ _ _ _ _ _ RN) as ND.
  pose proof (iv_all_ok _ _ F) as O.
  apply Forall2_nth_intro; [eapply performs_length; eauto|]. intros i m m' A B.
  destruct (in_dec Nat.eq_dec i (event_ids (efix ++ ectl ++ eflex))) as [I|I].
  - left. unfold event_ids in I. apply in_map_iff in I. destruct I as (e & <- & I).
    destruct (performs_each _ _ _ PF ND e I) as (m1 & m1' & N1 & N1' & E1). rewrite A in N1. rewrite B in N1'.
    inversion N1; inversion N1'; subst. exists (ev_act e), (ev_norm e), (ev_out e). split; [exact E1|].
    rewrite Forall_forall in O. destruct (step_clock _ _ _ _ _ (O _ (nth_error_In _ _ A)) E1) as (_ & _ & X & L & _). auto.
  - right. rewrite (performs_other _ _ _ PF _ I) in B. congruence.
Qed.
