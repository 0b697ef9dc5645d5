(** * Proofs about [run]: totals, results and balance *)

From Coq Require Import ZArith QArith Qabs Bool String List Lia Lqa Permutation.
From Verif Require Import Num Py Space Logger Forecast Module Container Microgrid
  Proofs_Num Proofs_Logger Spec_Module Spec_Reach Proofs_Module Proofs_Ts Proofs_Any
  Proofs_Request Proofs_Data Proofs_Classes Spec_Microgrid Proofs_Container Proofs_Run.
Import ListNotations.
Local Open Scope string_scope.
Local Open Scope list_scope.
Local Open Scope Q_scope.

(** ** Collected infos *)
Lemma dget_dset {A} k k' (v : A) d :
  dget k (dset k' v d) = if String.eqb k k' then Some v else dget k d.
Proof.
  induction d as [|[k0 v0] d IH]; simpl.
  - reflexivity.
  - destruct (String.eqb k' k0) eqn:E1; simpl.
    + apply String.eqb_eq in E1. subst. destruct (String.eqb k k0); reflexivity.
    + rewrite IH. destruct (String.eqb k k0) eqn:E2; [|reflexivity].
      apply String.eqb_eq in E2. subst. rewrite String.eqb_sym, E1. reflexivity.
Qed.
Lemma dget_dappend {A} k k' (v : A) d :
  dget k (dappend k' v d)
  = if String.eqb k k' then Some (match dget k d with Some l => l | None => [] end ++ [v])
    else dget k d.
Proof.
  unfold dappend. destruct (dget k' d) as [l|] eqn:E; rewrite dget_dset;
    destruct (String.eqb k k') eqn:K; try reflexivity;
    apply String.eqb_eq in K; subst; rewrite E; reflexivity.
Qed.
Definition named {A} (k : string) (d : dict A) : list A :=
  map snd (filter (fun kv => String.eqb k (fst kv)) d).
Lemma dget_existing k (i : info Q) : forall d : dict (list (entry Q)),
  dget k (fold_left (fun d kv => dappend_existing (fst kv) (EVal (snd kv)) d) i d)
  = match dget k d with Some l => Some (l ++ map EVal (named k i)) | None => None end.
Proof.
  induction i as [|[k0 v] i IH]; intros d; simpl.
  - destruct (dget k d); [rewrite app_nil_r|]; reflexivity.
  - rewrite IH. unfold dappend_existing, named. simpl.
    destruct (dget k0 d) as [l|] eqn:E.
    + rewrite dget_dset. destruct (String.eqb k k0) eqn:K.
      * apply String.eqb_eq in K. subst. rewrite E. simpl. rewrite <- app_assoc. reflexivity.
      * reflexivity.
    + destruct (String.eqb k k0) eqn:K; [|reflexivity].
      apply String.eqb_eq in K. subst. rewrite E. reflexivity.
Qed.

(** What an event adds to an info key. *)
Definition contrib (k : string) (e : event) : list (entry Q) :=
  (if String.eqb k (ev_name e) then [EInfo (info_of (ev_out e))] else [])
  ++ map EVal (named k (info_of (ev_out e))).

Lemma info_append k e st l :
  dget k (ms_info st) = Some l ->
  dget k (ms_info (mstep_append (ev_name e) (ev_out e) st)) = Some (l ++ contrib k e).
Proof.
  intros E. unfold mstep_append, contrib, info_of. destruct (ev_out e) as [[[o r] d] i]. simpl.
  rewrite dget_existing, dget_dappend. destruct (String.eqb k (ev_name e)); rewrite E; simpl.
  - rewrite <- app_assoc. reflexivity.
  - reflexivity.
Qed.
Lemma info_collect k es : forall st l,
  dget k (ms_info st) = Some l ->
  dget k (ms_info (collect es st)) = Some (l ++ concat (map (contrib k) es)).
Proof.
  induction es as [|e es IH]; intros st l E; simpl.
  - rewrite app_nil_r. exact E.
  - unfold collect in *. simpl. rewrite (IH _ _ (info_append _ _ _ _ E)). rewrite <- app_assoc. reflexivity.
Qed.

Definition has_energy (i : info Q) : Prop :=
  forall k, In k ["provided_energy"; "absorbed_energy"] ->
    named k i = match dget k i with Some v => [v] | None => [] end.
Lemma shape_energy k i : info_shape k i -> has_energy i.
Proof.
  intros S k' [<-|[<-|[]]];
    destruct k; simpl in S; repeat match goal with H : exists _, _ |- _ => destruct H end;
    repeat match goal with H : _ \/ _ |- _ => destruct H end; subst; reflexivity.
Qed.
Lemma step_shape (a : pyval Q) n m m' o :
  mod_ok m -> step a n m = (m', Ok o) -> info_shape (m_kind m) (info_of o).
Proof.
  intros O E. destruct (step_good _ _ _ _ _ O E) as (_ & _ & [(_ & _ & e & C)|D]); [discriminate|].
  destruct D as (m0 & da & x & m1 & rw & d & i & SM & _ & _ & _ & _ & _ & _ & U & _ & _ & _ & D).
  destruct D as [(o' & D & _)|((e & C) & _)]; [|discriminate].
  inversion D; subst. unfold info_of. simpl.
  apply request_any in U. destruct U as (k1 & _ & _ & _ & S).
  destruct SM as [SK _ _ _ _ _ _ _].
  destruct (m_kind m), (m_kind m0); simpl in SK; try contradiction; exact S.
Qed.
Lemma performs_energy ms es ms' : performs ms es ms' -> Forall mod_ok ms ->
  Forall mod_ok ms' /\ Forall (fun e => has_energy (info_of (ev_out e))) es.
Proof.
  induction 1 as [|ms e es m m' ms' N E P IH]; intros O; [auto|].
  assert (Om : mod_ok m). { rewrite Forall_forall in O. apply O. eapply nth_error_In; eauto. }
  assert (O' : Forall mod_ok (set_nth ms (ev_id e) m')).
  { destruct (step_good _ _ _ _ _ Om E) as (_ & Om' & _).
    rewrite Forall_forall in *. intros x I. apply In_nth_error in I. destruct I as (j & I).
    rewrite nth_set_nth in I. destruct (Nat.eqb (ev_id e) j).
    - destruct (nth_error ms j); inversion I; subst. exact Om'.
    - apply O. eapply nth_error_In; eauto. }
  destruct (IH O') as [O2 F]. split; [exact O2|]. constructor; [|exact F].
  eapply shape_energy, step_shape; eauto.
Qed.

Lemma rmapM_vals xs : rmapM (@entry_val Q) (map EVal xs) = Ok xs.
Proof. induction xs as [|x xs IH]; simpl; [reflexivity|]. rewrite IH. reflexivity. Qed.
Lemma fold_add xs : forall s, fold_left nadd xs s == s + fold_right Qplus 0 xs.
Proof.
  induction xs as [|x xs IH]; intros s; simpl; [lra|]. rewrite IH. unum. lra.
Qed.
Lemma nsum_fold xs : nsum xs == fold_right Qplus 0 xs.
Proof. unfold nsum. rewrite fold_add. unum. lra. Qed.
Lemma fold_plus_app xs ys : fold_right Qplus 0 (xs ++ ys) == fold_right Qplus 0 xs + fold_right Qplus 0 ys.
Proof. induction xs as [|x xs IH]; simpl; [lra|]. rewrite IH. lra. Qed.

Definition energy_of (k : string) (e : event) : Q :=
  match dget k (info_of (ev_out e)) with Some x => x | None => 0 end.

Lemma contrib_sum k es : In k ["provided_energy"; "absorbed_energy"] ->
  Forall (fun e => has_energy (info_of (ev_out e))) es ->
  (forall xs, rmapM entry_val (concat (map (contrib k) es)) = Ok xs ->
     nsum xs == sum_of (energy_of k) es /\ Forall (fun e => ev_name e <> k) es)
  /\ (Forall (fun e => ev_name e <> k) es ->
      exists xs, rmapM entry_val (concat (map (contrib k) es)) = Ok xs).
Proof.
  intros K. induction es as [|e es IH]; intros F; simpl.
  - split.
    + intros xs E. inversion E; subst. split; [reflexivity|constructor].
    + eauto.
  - inversion F as [|? ? Fe Fs]; subst. destruct (IH Fs) as [I1 I2]. specialize (Fe k K).
    unfold contrib at 1 3. rewrite Fe.
    destruct (String.eqb k (ev_name e)) eqn:KE.
    + split; [intros xs C; discriminate|]. intros C. inversion C as [|? ? Ce Cs]; subst.
      apply String.eqb_eq in KE. congruence.
    + assert (NE : ev_name e <> k).
      { apply String.eqb_neq in KE. congruence. }
      change (sum_of (energy_of k) (e :: es)) with (energy_of k e + sum_of (energy_of k) es).
      assert (EN : energy_of k e = match dget k (info_of (ev_out e)) with Some v => v | None => 0 end)
        by reflexivity.
      destruct (dget k (info_of (ev_out e))) as [v|]; rewrite EN; cbn [app map].
      * split.
        -- intros xs E. simpl in E. destruct (rmapM entry_val (concat (map (contrib k) es))) as [ys|]; [|discriminate].
           simpl in E. inversion E; subst. destruct (I1 _ eq_refl) as [S N]. split; [|constructor; auto].
           rewrite nsum_fold. cbn [fold_right]. rewrite <- nsum_fold, S. reflexivity.
        -- intros C. inversion C as [|? ? Ce Cs]; subst. destruct (I2 Cs) as (ys & Y). simpl. rewrite Y. simpl. eauto.
      * split.
        -- intros xs E. simpl in E. destruct (I1 _ E) as [S N]. split; [|constructor; auto]. rewrite S. lra.
        -- intros C. inversion C as [|? ? Ce Cs]; subst. exact (I2 Cs).
Qed.

(** Nobody is called 'provided_energy' or 'absorbed_energy'. *)
Definition plain_names (es : list event) : Prop :=
  Forall (fun e => ev_name e <> "provided_energy" /\ ev_name e <> "absorbed_energy") es.

Lemma reward_collect es : forall st, ms_reward (collect es st) == ms_reward st + sum_of ev_reward es.
Proof.
  induction es as [|e es IH]; intros st; unfold collect in *; simpl; [lra|].
  rewrite IH. unfold ev_reward at 2, reward_of. destruct (ev_out e) as [[[o r] d] i]. simpl. unum. lra.
Qed.
Lemma done_collect es : forall st,
  ms_done (collect es st) = existsb (fun e => done_of (ev_out e)) es || ms_done st.
Proof.
  induction es as [|e es IH]; intros st; unfold collect in *; simpl; [reflexivity|].
  rewrite IH. unfold done_of at 2. destruct (ev_out e) as [[[o r] d] i]. simpl.
  destruct d, (existsb (fun e => done_of (ev_out e)) es), (ms_done st); reflexivity.
Qed.

Lemma balance_totals sh ci es p a r s :
  Forall (fun e => has_energy (info_of (ev_out e))) es ->
  mstep_balance sh ci (collect es mstep_init) = Ok (p, a, r, s) ->
  p == sum_of ev_provided es /\ a == sum_of ev_absorbed es /\ r == sum_of ev_reward es
  /\ plain_names es.
Proof.
  intros F B. apply mstep_balance_shaped in B. destruct B as (_ & -> & P & A).
  unfold info_sum in P, A.
  rewrite (info_collect "provided_energy" es mstep_init [] eq_refl) in P.
  rewrite (info_collect "absorbed_energy" es mstep_init [] eq_refl) in A. simpl in P, A.
  apply rmap_ok in P. destruct P as (xs & P & ->). apply rmap_ok in A. destruct A as (ys & A & ->).
  destruct (contrib_sum "provided_energy" es ltac:(simpl; auto) F) as [CP _].
  destruct (contrib_sum "absorbed_energy" es ltac:(simpl; auto) F) as [CA _].
  destruct (CP _ P) as [SP NP]. destruct (CA _ A) as [SA NA].
  split; [exact SP|]. split; [exact SA|]. split.
  - rewrite reward_collect. simpl. unum. lra.
  - unfold plain_names. rewrite Forall_forall in *. auto.
Qed.
Lemma balance_ok sh ci es s :
  Forall (fun e => has_energy (info_of (ev_out e))) es -> plain_names es ->
  shaped_reward sh ci (collect es mstep_init) = Ok s ->
  exists p a r, mstep_balance sh ci (collect es mstep_init) = Ok (p, a, r, s).
Proof.
  intros F N S. unfold mstep_balance, info_sum.
  rewrite (info_collect "provided_energy" es mstep_init [] eq_refl).
  rewrite (info_collect "absorbed_energy" es mstep_init [] eq_refl). simpl.
  destruct (contrib_sum "provided_energy" es ltac:(simpl; auto) F) as [_ CP].
  destruct (contrib_sum "absorbed_energy" es ltac:(simpl; auto) F) as [_ CA].
  destruct CP as (xs & ->). { eapply Forall_impl; [|exact N]. intros e [H _]. exact H. }
  destruct CA as (ys & ->). { eapply Forall_impl; [|exact N]. intros e [_ H]. exact H. }
  simpl. rewrite S. simpl. eauto.
Qed.

(** ** Collected observations and infos, by name *)
Lemma obs_collect es : forall st nm,
  dget nm (ms_obs (collect es st))
  = match under (fun e => obs_of (ev_out e)) nm es, dget nm (ms_obs st) with
    | [], o => o
    | l, Some l0 => Some (l0 ++ l)
    | l, None => Some l
    end.
Proof.
  induction es as [|e es IH]; intros st nm; unfold collect in *; simpl.
  - destruct (dget nm (ms_obs st)); reflexivity.
  - rewrite IH. unfold under. simpl. unfold mstep_append. destruct (ev_out e) as [[[o r] d] i] eqn:EO. simpl.
    rewrite dget_dappend. destruct (String.eqb nm (ev_name e)) eqn:K; simpl.
    + unfold obs_of. rewrite EO. simpl.
      destruct (map (fun e0 => fst (fst (fst (ev_out e0)))) (filter (fun e0 => String.eqb nm (ev_name e0)) es));
        destruct (dget nm (ms_obs st)); simpl; rewrite <- ?app_assoc; reflexivity.
    + reflexivity.
Qed.

Definition info_keys : list string :=
  ["provided_energy"; "absorbed_energy"; "co2_production"; "curtailment"].
Lemma shape_named k i nm : info_shape k i -> ~ In nm info_keys -> named nm i = [].
Proof.
  intros S N.
  assert (N1 : nm <> "provided_energy") by (intros ->; apply N; simpl; auto).
  assert (N2 : nm <> "absorbed_energy") by (intros ->; apply N; simpl; auto).
  assert (N3 : nm <> "co2_production") by (intros ->; apply N; simpl; auto).
  assert (N4 : nm <> "curtailment") by (intros ->; apply N; simpl; auto).
  apply String.eqb_neq in N1, N2, N3, N4. unfold named.
  destruct k; simpl in S; repeat match goal with H : exists _, _ |- _ => destruct H end;
    repeat match goal with H : _ \/ _ |- _ => destruct H end; subst; simpl;
    rewrite ?N1, ?N2, ?N3, ?N4; reflexivity.
Qed.
Lemma infos_collect es : forall st nm,
  Forall (fun e => named nm (info_of (ev_out e)) = []) es ->
  dget nm (ms_info (collect es st))
  = match under (fun e => EInfo (info_of (ev_out e))) nm es, dget nm (ms_info st) with
    | [], o => o
    | l, Some l0 => Some (l0 ++ l)
    | l, None => Some l
    end.
Proof.
  induction es as [|e es IH]; intros st nm F; unfold collect in *; simpl.
  - destruct (dget nm (ms_info st)); reflexivity.
  - inversion F as [|? ? Fe Fs]; subst. rewrite (IH _ _ Fs). unfold under. simpl.
    assert (X : dget nm (ms_info (mstep_append (ev_name e) (ev_out e) st))
      = if String.eqb nm (ev_name e)
        then Some (match dget nm (ms_info st) with Some l => l | None => [] end ++ [EInfo (info_of (ev_out e))])
        else dget nm (ms_info st)).
    { unfold mstep_append. unfold info_of in *. destruct (ev_out e) as [[[o r] d] i]. simpl in *.
      rewrite dget_existing, dget_dappend, Fe. simpl.
      destruct (String.eqb nm (ev_name e)); [rewrite app_nil_r; reflexivity|].
      destruct (dget nm (ms_info st)); [rewrite app_nil_r|]; reflexivity. }
    rewrite X. destruct (String.eqb nm (ev_name e)) eqn:K; simpl.
    + destruct (map (fun e0 => EInfo (info_of (ev_out e0))) (filter (fun e0 => String.eqb nm (ev_name e0)) es));
        destruct (dget nm (ms_info st)); simpl; rewrite <- ?app_assoc; reflexivity.
    + reflexivity.
Qed.
Lemma dget_filter {A} (f : string -> bool) (d : dict A) k :
  dget k (filter (fun kv => f (fst kv)) d) = if f k then dget k d else None.
Proof.
  induction d as [|[k0 v] d IH]; simpl; [destruct (f k); reflexivity|].
  destruct (f k0) eqn:F; simpl.
  - destruct (String.eqb k k0) eqn:E; [|exact IH]. apply String.eqb_eq in E. subst. rewrite F. reflexivity.
  - rewrite IH. destruct (String.eqb k k0) eqn:E; [|reflexivity].
    apply String.eqb_eq in E. subst. rewrite F. reflexivity.
Qed.

(** ** Flex modules give exactly what they are asked for *)
Lemma update_ok_grid_row e src (m m' : module Q) g t o :
  m_kind m = KGrid g t -> mod_ok m -> update (Some e) src m = (m', Ok o) ->
  exists p q c s, ts_row t (m_cur m) = Some [p; q; c; s].
Proof.
  intros K O E. unfold update in E. rewrite K in E. apply pair_equal_spec in E. destruct E as [_ E2].
  destruct (ts_row t (m_cur m)) as [r|] eqn:R.
  2:{ unfold grid_update, grid_cost, grid_cell, rbind in E2. rewrite R in E2. discriminate E2. }
  assert (length r = 4%nat).
  { pose proof (mo_kind _ O) as KO. unfold kind_ok in KO. rewrite K in KO.
    destruct KO as (_ & _ & _ & (TO & _) & CO & _).
    pose proof (ok_rows _ TO) as W. rewrite Forall_forall in W.
    specialize (W _ (py_nth_In _ _ _ R)). pose proof (ok_min _ TO) as L. rewrite CO in L.
    destruct W as [W _]. apply Forall2_length in W. rewrite <- W, L. reflexivity. }
  do 4 (destruct r as [|? r]; [discriminate|]). destruct r; [|discriminate]. eauto.
Qed.

Lemma max_production_nonneg e src (m m' : module Q) o y :
  mod_ok m -> module_type (m_kind m) = Flex -> update (Some e) src m = (m', Ok o) ->
  max_production m = Ok (BFin y) -> 0 <= y.
Proof.
  intros O F U MP. destruct (m_kind m) eqn:K; try discriminate F.
  - destruct (update_ok_grid_row _ _ _ _ _ _ _ K O U) as (p & q & c & s & R).
    destruct (grid_limits _ _ _ _ _ _ _ O K R) as (S & _ & _ & _ & GI & _ & X & _).
    rewrite X in MP. inversion MP; subst. destruct S as [-> | ->]; lra.
  - unfold max_production in MP. rewrite K in MP. unfold current_renewable, ts_item in MP.
    destruct (ts_row t (m_cur m)) as [[|x [|]]|] eqn:R; inversion MP; subst.
    pose proof (mo_kind _ O) as KO. unfold kind_ok in KO. rewrite K in KO.
    destruct KO as (_ & _ & _ & _ & _ & NN). rewrite Forall_forall in NN.
    specialize (NN _ (py_nth_In _ _ _ R)). inversion NN; assumption.
  - unfold max_production in MP. rewrite K in MP. discriminate.
Qed.
Lemma max_consumption_nonneg e src (m m' : module Q) o y :
  mod_ok m -> module_type (m_kind m) = Flex -> update (Some e) src m = (m', Ok o) ->
  max_consumption m = Ok (BFin y) -> 0 <= y.
Proof.
  intros O F U MP. destruct (m_kind m) eqn:K; try discriminate F.
  - destruct (update_ok_grid_row _ _ _ _ _ _ _ K O U) as (p & q & c & s & R).
    destruct (grid_limits _ _ _ _ _ _ _ O K R) as (S & _ & _ & _ & _ & GE & _ & X).
    rewrite X in MP. inversion MP; subst. destruct S as [-> | ->]; lra.
  - unfold max_consumption in MP. rewrite K in MP. discriminate.
  - unfold max_consumption in MP. rewrite K in MP. discriminate.
Qed.

Lemma flex_source (k : kind Q) : module_type k = Flex -> is_source k = true /\ is_fixed (module_type k) = false
  /\ is_genset k = false.
Proof. intros F. rewrite F. destruct k; try discriminate F; auto. Qed.

(** A served, non-negative request to a flex module within its limit. *)
Lemma flex_request (m m1 : module Q) a rw d i :
  mod_ok m -> module_type (m_kind m) = Flex ->
  unnormalized_step a m = (m1, Ok (rw, d, i)) ->
  (0 <= a -> (forall y, max_production m = Ok (BFin y) -> a <= y \/ a == 0) ->
     provided i == a /\ absorbed i == 0)
  /\ (a < 0 -> (forall y, max_consumption m = Ok (BFin y) -> - a <= y) ->
     absorbed i == - a /\ provided i == 0)
  /\ (0 <= a -> forall y, max_production m = Ok (BFin y) -> 0 <= y)
  /\ (forall y, max_consumption m = Ok (BFin y) -> 0 <= y).
Proof.
  intros O F U. destruct (flex_source _ F) as (S & NF & _). pose proof (nonfixed_not_load _ NF) as NL.
  destruct (Qlt_le_dec a 0) as [L|L].
  - rewrite (request_neg _ _ L) in U.
    destruct (as_sink_cases _ _ _ _ NF U) as [(_ & _ & e & C & _)|(_ & D)]; [discriminate|].
    destruct D as [(_ & e & _ & C)|[(_ & _ & e & C & _)|(hi & MP & NB & D)]]; try discriminate.
    destruct D as [(_ & _ & _ & e & C & _)|[(_ & _ & _ & e & C & _)|(W & D)]]; try discriminate.
    split; [lra|]. split; [|split].
    2:{ lra. }
    2:{ intros y MP'. eapply max_consumption_nonneg; eauto. }
    intros _ LIM. pose proof (update_reports _ _ _ _ _ _ _ NL D) as [A P]. rewrite A, P.
    split; [|reflexivity]. rewrite clip_to_id; [lra|]. split; [lra|].
    destruct hi as [y| |]; [|exact I|exact I]. specialize (LIM _ MP). lra.
  - rewrite (request_pos _ _ S L) in U.
    destruct (as_source_cases _ _ _ _ NF U) as [(_ & _ & e & C & _)|[(_ & _ & _ & e & C & _)|(_ & _ & D)]];
      try discriminate.
    destruct D as [(_ & e & _ & C)|[(_ & _ & e & C & _)|(hi & MP & NB & D)]]; try discriminate.
    destruct D as [(_ & _ & _ & e & C & _)|(W & D)]; try discriminate.
    split; [|split; [lra|split]].
    2:{ intros _ y MP'. eapply max_production_nonneg; eauto. }
    2:{ intros y MC. eapply max_consumption_nonneg; eauto. }
    intros _ LIM. pose proof (update_reports _ _ _ _ _ _ _ NL D) as [P A]. rewrite A, P.
    split; [|reflexivity].
    assert (MN : min_production m = 0).
    { unfold min_production. destruct (m_kind m); try discriminate F; reflexivity. }
    rewrite MN. rewrite clip_to_id; [lra|]. split; [lra|].
    destruct hi as [y| |]; auto.
    destruct (LIM _ MP) as [X|X]; [exact X|].
    pose proof (max_production_nonneg _ _ _ _ _ _ O F D MP). lra.
Qed.

Lemma flex_exact (src : bool) (m m' : module Q) r x a o :
  mod_ok m -> module_type (m_kind m) = Flex -> 0 <= r -> share src m r = Ok x ->
  a == (if src then x else - x) -> step (VS a) false m = (m', Ok o) ->
  0 <= x /\ x <= r
  /\ (if src then provided (info_of o) == x /\ absorbed (info_of o) == 0
      else absorbed (info_of o) == x /\ provided (info_of o) == 0).
Proof.
  intros O F R SH A E. destruct (flex_source _ F) as (S & NF & NG).
  destruct (step_asked _ _ _ _ _ O NG E) as (da & e & m1 & DA & PE & U).
  simpl in DA. inversion DA; subst da. simpl in PE. inversion PE; subst e. clear DA PE.
  destruct (flex_request _ _ _ _ _ _ O F U) as (POS & NEG & MP0 & MC0).
  unfold share in SH. rewrite S in SH. destruct src.
  - assert (X : 0 <= x /\ x <= r /\ (forall y, max_production m = Ok (BFin y) -> x <= y)).
    { destruct (max_production m) as [[y| |]|] eqn:MP; inversion SH; subst; clear SH.
      - assert (Y0 : 0 <= y).
        { destruct (Qlt_le_dec a 0) as [L|L]; [|eapply MP0; eauto].
          (* a negative share would be an export request *)
          destruct (Qlt_le_dec y r) as [L2|L2]; [|lra].
          exfalso. destruct (m_kind m) eqn:K; try discriminate F.
          - unfold max_production in MP. rewrite K in MP.
            rewrite (request_neg _ _ L) in U.
            rewrite <- K in NF.
            destruct (as_sink_cases _ _ _ _ NF U) as [(_ & _ & e & C & _)|(_ & D)]; [discriminate|].
            destruct D as [(_ & e & _ & C)|[(_ & _ & e & C & _)|(hi & MC & NB & D)]]; try discriminate.
            destruct D as [(_ & _ & _ & e & C & _)|[(_ & _ & _ & e & C & _)|(W & D)]]; try discriminate.
            destruct (update_ok_grid_row _ _ _ _ _ _ _ K O D) as (p & q & c & s & RR).
            destruct (grid_limits _ _ _ _ _ _ _ O K RR) as (Sx & _ & _ & _ & GI & _ & X & _).
            unfold max_production in X. rewrite K in X. rewrite X in MP. inversion MP; subst.
            assert (0 <= gr_max_import g * s) by (destruct Sx as [-> | ->]; lra). lra.
          - unfold max_production in MP. rewrite K in MP. unfold current_renewable, ts_item in MP.
            destruct (ts_row t (m_cur m)) as [[|z [|]]|] eqn:RR; inversion MP; subst.
            pose proof (mo_kind _ O) as KO. unfold kind_ok in KO. rewrite K in KO.
            destruct KO as (_ & _ & _ & _ & _ & NN). rewrite Forall_forall in NN.
            specialize (NN _ (py_nth_In _ _ _ RR)). inversion NN; subst. lra.
          - unfold max_production in MP. rewrite K in MP. discriminate. }
        destruct (Qlt_le_dec y r); conj; try lra; intros y' Y'; inversion Y'; subst; lra.
      - conj; try lra. intros y C. discriminate. }
    destruct X as (X0 & XR & XM). split; [exact X0|]. split; [exact XR|].
    destruct POS as [P1 P2]; [lra| |split; [rewrite P1; exact A|exact P2]].
    intros y MP. specialize (XM _ MP). left. lra.
  - assert (X : 0 <= x /\ x <= r /\ (is_sink (m_kind m) = true -> forall y, max_consumption m = Ok (BFin y) -> x <= y)
              /\ (is_sink (m_kind m) = false -> x = 0)).
    { destruct (is_sink (m_kind m)).
      - destruct (max_consumption m) as [[y| |]|] eqn:MP; inversion SH; subst; clear SH.
        + specialize (MC0 _ eq_refl).
          destruct (Qlt_le_dec y r); conj; try lra; try discriminate; intros _ y' Y'; inversion Y'; subst; lra.
        + conj; try lra; try discriminate.
      - inversion SH; subst. conj; auto; try lra; discriminate. }
    destruct X as (X0 & XR & XM & XN). split; [exact X0|]. split; [exact XR|].
    destruct (Qlt_le_dec a 0) as [L|L].
    + destruct NEG as [N1 N2]; [exact L| |split; [rewrite N1, A; lra|exact N2]].
      intros y MC. destruct (is_sink (m_kind m)) eqn:SK.
      * specialize (XM eq_refl _ MC). lra.
      * rewrite (XN eq_refl) in A. lra.
    + destruct POS as [P1 P2]; [exact L| |split; [rewrite P2; lra|rewrite P1; lra]].
      intros y MP. right. lra.
Qed.
