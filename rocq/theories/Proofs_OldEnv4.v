(** * Observations, rewards and episodes of the environments of non-modular microgrids *)

From Coq Require Import ZArith QArith Qabs Qminmax Bool String List Lia Lqa.
From Verif Require Import Num Py NonModular OldEnv Spec_Module Spec_NonModular Spec_OldEnv Proofs_Num Proofs_NonModular Proofs_NmRun
  Proofs_NmHistory Proofs_NmBattery Proofs_NmCost Proofs_NmRecord Proofs_NmClock Proofs_NmEpisode Proofs_NmTotal Proofs_OldEnv Proofs_OldEnv3.
Import ListNotations.
Local Open Scope string_scope.
Local Open Scope list_scope.
Local Open Scope Q_scope.

(** ** Observations *)

Lemma find_num_ok (v : dict (cell Q)) k x : find_num v k = Ok x -> dget k v = Some (CNum x).
Proof. unfold find_num. intros H. apply rbind_ok in H. destruct H as (c & C & H). apply num_ok in H. subst c. apply dfind_ok in C. exact C. Qed.

Lemma scaled_ok (v : dict (cell Q)) norm scaled :
  rmapM (fun kn => (let? x := find_num v (fst kn) in Ok (fst kn, ndiv x (snd kn)))%py) norm = Ok scaled ->
  Forall2 (fun kn ky => fst ky = fst kn /\ exists z, dget (fst kn) v = Some (CNum z) /\ snd ky = z / snd kn) norm scaled.
Proof.
  intros H. apply rmapM_ok in H. induction H as [|[k n] [k' y] norm scaled H F IH]; constructor; [|exact IH].
  apply rbind_ok in H. destruct H as (z & Z & H). injection H as <- <-. cbn. split; [reflexivity|]. exists z. split; [apply find_num_ok; exact Z|reflexivity].
Qed.

Lemma transition_ok ts tc norm (g : nonmod Q) obs v : transition ts tc norm g = Ok obs -> get_updated_values g = Ok v ->
  displays ts tc norm v obs.
Proof.
  unfold transition. intros H G. rewrite G in H. cbn [rbind] in H.
  apply rbind_ok in H. destruct H as (scaled & S & H). apply scaled_ok in S.
  apply rbind_ok in H. destruct H as (h & D & H). apply dfind_ok in D. injection H as <-.
  assert (K : exists x s, h = x / s /\ dget "hour" v = Some (CNum x) /\ dget "hour" norm = Some s
    /\ Forall2 (fun kn y => exists z, dget (fst kn) v = Some (CNum z) /\ y = z / snd kn) (dremove "hour" norm) (map snd (dremove "hour" scaled))).
  { induction S as [|[k n] [k' y] norm scaled (E & z & Z & Y) F IH]; [discriminate D|].
    cbn [fst snd] in *. subst k'. cbn [dget dremove] in *. destruct (String.eqb_spec "hour" k).
    - injection D as <-. subst k y. exists z, n. repeat split; auto. clear - F.
      induction F as [|[k n] [k' y] norm scaled (E & z & Z & Y) F IH]; constructor; eauto.
    - destruct (IH D) as (x & s & A1 & A2 & A3 & A4). exists x, s. repeat split; auto. cbn [map snd]. constructor; eauto. }
  destruct K as (x & s & -> & A & B & C). exists (map snd (dremove "hour" scaled)), x, s. auto.
Qed.

(** The scales *)
Lemma normalization_ok (g : nonmod Q) norm : normalization g = Ok norm ->
  map fst norm = map fst (nm_state g) /\ forall k x, dget k norm = Some x -> scale g k x.
Proof.
  unfold normalization. intros H. apply rmapM_ok in H. split.
  - induction H as [|kl [k y] st norm H F IH]; [reflexivity|]. apply rbind_ok in H. destruct H as (z & Z & H).
    injection H as <- <-. cbn. f_equal. exact IH.
  - intros k x D. induction H as [|kl [k' y] st norm H F IH]; [discriminate D|].
    apply rbind_ok in H. destruct H as (z & Z & H). injection H as <- <-. cbn [dget] in D.
    destruct (String.eqb_spec k (fst kl)) as [E|E]; [|auto]. injection D as <-. rewrite <- E in Z. clear - Z.
    assert (P : forall key, par_attr g key = Ok z -> parameter g key z).
    { intros key. unfold par_attr, parameter. destruct (dget key (nm_par g)); intros X; [now injection X as ->|discriminate X]. }
    assert (I : forall l : list Q, iloc l 0 = Ok z -> nth_error l 0 = Some z).
    { intros l X. apply iloc_ok in X; [exact X|lia]. }
    unfold scale. repeat apply conj; intros K; unfold scale_of in Z;
      repeat (destruct K as [K|K]; [subst k|]); try contradiction K; try subst k; cbn in Z; auto; try (injection Z as <-; reflexivity).
Qed.

(** ** Rewards *)

Lemma reward_ok root train sm (g : nonmod Q) cost r : get_reward root train sm g = Ok r ->
  latest (nm_cost g) "total_cost" (CNum cost) -> rewards root train sm g cost r.
Proof.
  unfold get_reward. intros H L. apply rbind_ok in H. destruct H as (c & C & H).
  apply rbind_ok in C. destruct C as (c' & G & N). apply num_ok in N. subst c'. unfold get_cost in G. apply latest_iff in G.
  assert (c = cost) as -> by (pose proof (latest_cell _ _ _ _ G L); congruence).
  unum. unfold rewards. split; [|split].
  - intros -> ->. cbn in H. injection H as <-. split; intros X.
    + destruct (Qltb cost 0) eqn:Q; qprop; [lra|reflexivity].
    + destruct (Qltb cost 0) eqn:Q; qprop; [reflexivity|lra].
  - intros -> ->. cbn in H. apply rbind_ok in H. destruct H as (p & P & H). injection H as <-. exists p. split; [|reflexivity].
    apply dfind_ok in P. exact P.
  - intros [-> | (N1 & N2)]; [cbn in H; injection H as <-; reflexivity|].
    apply String.eqb_neq in N1, N2. rewrite N1, N2, !andb_false_r in H. injection H as <-. reflexivity.
Qed.

(** ** Histories *)
Section Env.
Context {A : Type}.
Variables (turn_sin turn_cos root : Q -> Q).
Variable control_of : nonmod Q -> A -> res (dict Q).

Lemma do_grid c (e : old_env Q) : exists cs, oe_grid (env_do turn_sin turn_cos root control_of c e) = nm_after cs (oe_grid e)
  /\ forall n, Forall (proper n) cs.
Proof.
  assert (K : exists cs, oe_grid e = nm_after cs (oe_grid e) /\ forall n, Forall (proper n) cs) by (exists []; split; [reflexivity|constructor]).
  destruct c as [a|t]; cbn [env_do].
  - unfold env_step, mbind, mget, mlift, on_env_grid, mmodify, mret. destruct (oe_done e); [exact K|].
    destruct (control_of (oe_grid e) a) as [c|]; [|exact K].
    assert (K2 : exists cs, fst (nm_run c (oe_grid e)) = nm_after cs (oe_grid e) /\ forall n, Forall (proper n) cs)
      by (exists [HRun c]; split; [reflexivity|repeat constructor]).
    destruct (nm_run c (oe_grid e)) as [g' [v|x]]; [|exact K2].
    cbn [oe_norm oe_grid set_grid oe_train oe_smoothing].
    destruct (transition turn_sin turn_cos (oe_norm e) g'); [|exact K2].
    destruct (get_reward root (oe_train e) (oe_smoothing e) g'); exact K2.
  - unfold env_reset, mbind, mget, mlift, on_env_grid, mmodify, mret, mraise, set_result, raise.
    set (t' := match oe_testing e with Some b => b | None => t end).
    assert (K2 : exists cs, fst (nm_reset t' (oe_grid e)) = nm_after cs (oe_grid e) /\ forall n, Forall (proper n) cs)
      by (exists [HReset t']; split; [reflexivity|repeat constructor]).
    cbn [oe_grid]. destruct (nm_reset t' (oe_grid e)) as [g' [v|x]]; [|exact K2].
    destruct t'; [|destruct (oe_resample e)]; cbn [oe_grid oe_norm set_grid set_train]; try exact K2;
      destruct (transition turn_sin turn_cos (oe_norm e) g'); exact K2.
Qed.
Lemma nm_after_app cs cs' g : nm_after (cs ++ cs') g = nm_after cs' (nm_after cs g).
Proof. unfold nm_after. apply fold_left_app. Qed.
Lemma after_grid ecs (e : old_env Q) : exists cs, oe_grid (env_after turn_sin turn_cos root control_of ecs e) = nm_after cs (oe_grid e)
  /\ forall n, Forall (proper n) cs.
Proof.
  induction ecs as [|c ecs IH] using rev_ind; [exists []; split; [reflexivity|constructor]|].
  unfold env_after. rewrite fold_left_app. cbn [fold_left]. fold (env_after turn_sin turn_cos root control_of ecs e).
  destruct IH as (cs & IH & P). destruct (do_grid c (env_after turn_sin turn_cos root control_of ecs e)) as (cs' & -> & P').
  exists (cs ++ cs'). rewrite IH, nm_after_app. split; [reflexivity|]. intros n. apply Forall_app. auto.
Qed.
Lemma after_norm ecs (e : old_env Q) : oe_norm (env_after turn_sin turn_cos root control_of ecs e) = oe_norm e
  /\ oe_smoothing (env_after turn_sin turn_cos root control_of ecs e) = oe_smoothing e.
Proof.
  unfold env_after. revert e. induction ecs as [|c ecs IH]; intros e; [auto|]. cbn [fold_left].
  destruct (IH (env_do turn_sin turn_cos root control_of c e)) as (-> & ->).
  destruct c as [a|t]; cbn [env_do].
  - destruct (step_kept turn_sin turn_cos root control_of a e) as (_ & K1 & K2 & _). auto.
  - destruct (reset_kept turn_sin turn_cos t e) as (_ & K1 & K2 & _). auto.
Qed.

Lemma new_env_ok limit sm re sampler testing (g : nonmod Q) g1 e :
  new_old_env turn_sin turn_cos limit sm re sampler testing g = (g1, Ok e) ->
  g1 = oe_grid e /\ (exists t, oe_grid e = nm_after [HSplit limit false; HReset t] g)
  /\ normalization g = Ok (oe_norm e) /\ oe_done e = false
  /\ oe_smoothing e = match sm with Some s => s | None => "sqrt" end
  /\ oe_train e = match testing with Some true => false | _ => true end
  /\ (re = Some true -> testing = Some true).
Proof.
  unfold new_old_env, mbind, mget, mlift, mret. intros H.
  destruct (normalization g) as [norm|] eqn:NO; [|discriminate H].
  destruct (train_test_split limit false g) as [g2 [u|x]] eqn:T; [|discriminate H].
  set (b := match re with Some b => b | None => false end) in *.
  assert (U : exists u', (if b then fun s : nonmod Q => (s, sampler) else fun s => (s, Ok tt)) g2 = (g2, u')) by (destruct b; eauto).
  destruct U as (u' & EU).
  match type of H with (let (_, _) := ?m in _) = _ => change m with ((if b then fun s : nonmod Q => (s, sampler) else fun s => (s, Ok tt)) g2) in H end.
  rewrite EU in H. destruct u' as [u'|]; [|discriminate H]. unfold b in *. clear b EU.
  match type of H with match ?m with _ => _ end = _ => destruct m as [e' [s|x]] eqn:R; [|discriminate H] end.
  injection H as <- <-. apply reset_ok in R. cbn [oe_testing oe_resample oe_grid oe_norm oe_train] in R.
  destruct R as (g' & NR & TR & RS & ->).
  cbn [oe_grid oe_norm oe_done oe_smoothing oe_train set_result set_train set_grid].
  split; [reflexivity|]. split.
  - exists (match testing with Some b => b | None => false end).
    change (g' = fst (nm_reset (match testing with Some b => b | None => false end) (fst (train_test_split limit false g)))).
    rewrite T. cbn [fst]. rewrite NR. reflexivity.
  - repeat split; try (destruct testing as [[]|]; reflexivity).
    intros ->. destruct testing as [[]|]; [reflexivity| |]; destruct RS; discriminate.
Qed.
End Env.

(** ** Episodes *)
Section Episodes.
Context {A : Type}.
Variables (turn_sin turn_cos root : Q -> Q).
Variable control_of : nonmod Q -> A -> res (dict Q).

Lemma run_row control (g : nonmod Q) g' v : nm_run control g = (g', Ok v) -> get_updated_values g' = Ok v.
Proof. intros H. apply run_records in H. destruct H as (prod & _ & _ & H). exact H. Qed.

Lemma equipped_run control g g' v : equipped g -> nm_run control g = (g', Ok v) -> equipped g'.
Proof. intros E R. replace g' with (nm_after [HRun control] g); [apply equipped_after; exact E|]. unfold nm_after. cbn [fold_left nm_do]. rewrite R. reflexivity. Qed.

(** What a step returns *)
Lemma step_spec a (e : old_env Q) e' obs r d : equipped (oe_grid e) -> oe_done e = false ->
  env_step turn_sin turn_cos root control_of a e = (e', Ok (obs, r, d)) ->
  exists control v cost, control_of (oe_grid e) a = Ok control /\ nm_run control (oe_grid e) = (oe_grid e', Ok v)
    /\ displays turn_sin turn_cos (oe_norm e) v obs
    /\ gained (nm_cost (oe_grid e)) (nm_cost (oe_grid e')) "total_cost" (CNum cost)
    /\ rewards root (oe_train e) (oe_smoothing e) (oe_grid e) cost r
    /\ d = nm_done (oe_grid e') /\ oe_done e' = d.
Proof.
  intros EQ D H. apply step_ok in H. destruct H as [(D' & _)|(_ & c & g' & v & s & w & CO & R & T & W & -> & O)]; [congruence|].
  injection O as -> -> ->. cbn [oe_grid set_result set_grid oe_done].
  destruct (run_bill c (oe_grid e) g' v (eq_cost _ EQ) R) as (o & em & cost & _ & _ & G & _).
  exists c, v, cost. split; [exact CO|]. split; [exact R|].
  split; [apply (transition_ok _ _ _ _ _ _ T (run_row _ _ _ _ R))|]. split; [exact G|].
  split; [|auto]. pose proof (reward_ok _ _ _ _ _ _ W (gained_latest _ _ _ _ G)) as RW.
  destruct (run_kept c (oe_grid e) g' v R) as (KP & _). unfold rewards, parameter in *. rewrite KP in RW. exact RW.
Qed.

(** Live episodes *)
Lemma live_cons o os : live (o :: os) -> os = [] \/ (snd o = false /\ live os).
Proof. unfold live. destruct os as [|o' os]; [auto|]. cbn [removelast]. intros H. inversion H; subst. right. auto. Qed.

Lemma live_plays l : forall (e : old_env Q) os e', equipped (oe_grid e) -> oe_done e = false -> live os ->
  env_plays turn_sin turn_cos root control_of e l os e' ->
  exists controls costs, length controls = length l /\ length costs = length l
    /\ nm_quiet (oe_grid e) (map HRun controls) (oe_grid e')
    /\ (l <> [] -> oe_done e' = nm_done (oe_grid e'))
    /\ (exists col, dget "total_cost" (nm_cost (oe_grid e)) = Some col
        /\ dget "total_cost" (nm_cost (oe_grid e')) = Some (col ++ map CNum costs))
    /\ Forall2 (fun o cost => rewards root (oe_train e) (oe_smoothing e) (oe_grid e) cost (snd (fst o))) os costs.
Proof.
  intros e os e' EQ D L P. revert EQ D L.
  induction P as [e|e a e1 o l os e2 S P IH]; intros EQ D L.
  - exists [], []. repeat (split; [first [reflexivity|constructor]|]).
    split; [intros K; congruence|]. split; [|constructor].
    assert (X : exists col, dget "total_cost" (nm_cost (oe_grid e)) = Some col).
    { destruct (dget "total_cost" (nm_cost (oe_grid e))) eqn:X; [eauto|]. exfalso. apply dget_None in X. apply X.
      apply (Permutation.Permutation_in _ (Permutation.Permutation_sym (eq_cost _ EQ))). unfold cost_columns. simpl. auto. }
    destruct X as (col & X). exists col. cbn [map]. rewrite app_nil_r. auto.
  - destruct o as ((obs & r) & d). destruct (step_spec a e e1 obs r d EQ D S) as (c & v & cost & CO & R & _ & G & W & DD & D1).
    apply step_ok in S. destruct S as [(S & _)|(_ & _ & g' & _ & s & w & _ & _ & _ & _ & E1 & _)]; [congruence|].
    assert (EQ1 : equipped (oe_grid e1)) by (eapply equipped_run; eassumption).
    assert (TR : oe_train e1 = oe_train e /\ oe_smoothing e1 = oe_smoothing e) by (rewrite E1; auto).
    destruct TR as (TR1 & TR2). destruct (run_kept _ _ _ _ R) as (KP & _).
    destruct (live_cons _ _ L) as [-> | (L1 & L2)].
    + inversion P as [x X1 X2 X3|]. subst x l e2. exists [c], [cost]. cbn [length]. repeat (split; [reflexivity|]).
      split; [apply (NQS (oe_grid e) [] (oe_grid e) (HRun c)); [constructor|exists v; exact R]|].
      split; [intros _; congruence|]. destruct G as (col & G1 & G2).
      split; [exists col; auto|]. constructor; [exact W|constructor].
    + cbn [snd] in L1. rewrite L1 in D1. destruct (IH EQ1 D1 L2) as (cs & costs & N1 & N2 & Qt & DN & (col & C1 & C2) & F).
      exists (c :: cs), (cost :: costs). cbn [length]. split; [lia|]. split; [lia|].
      split.
      { clear - R Qt. cbn [map]. revert Qt. generalize (oe_grid e2). induction (map HRun cs) as [|x xs IHx] using rev_ind; intros g2 Qt.
        - inversion Qt as [|cs0 g c0 g'0 Q1 Q2 E]; [|destruct cs0; discriminate]. subst.
          apply (NQS (oe_grid e) [] (oe_grid e) (HRun c)); [constructor|exists v; exact R].
        - inversion Qt as [E|cs0 g c0 g'0 Q1 Q2 E]; [destruct xs; discriminate|]. apply app_inj_tail in E. destruct E as (-> & ->). subst.
          rewrite app_comm_cons. apply NQS with g; [apply IHx; exact Q1|exact Q2]. }
      split.
      { intros _. destruct l as [|x l']; [|apply DN; discriminate]. inversion P as [y Y1 Y2 Y3|]. subst y os e2. congruence. }
      split.
      { destruct G as (col' & G1 & G2). exists col'. split; [exact G1|]. rewrite G2 in C1. injection C1 as <-.
        rewrite C2. rewrite <- app_assoc. reflexivity. }
      constructor; [exact W|]. clear - F TR1 TR2 KP. induction F as [|o x os costs H F IH]; constructor; [|exact IH].
      revert H. rewrite TR1, TR2. unfold rewards, parameter. rewrite KP. auto.
Qed.

Lemma plays_done l : forall (e : old_env Q) os e', oe_done e = false ->
  env_plays turn_sin turn_cos root control_of e l os e' -> oe_done e' = existsb (fun o => snd o) os.
Proof.
  intros e os e' D P. revert D. induction P as [e|e a e1 o l os e2 S P IH]; intros D; [exact D|].
  apply step_ok in S. destruct S as [(S & _)|(_ & c & g' & v & s & w & _ & _ & _ & _ & E1 & ->)]; [congruence|].
  cbn [existsb snd]. destruct (nm_done g') eqn:DG.
  - assert (D1 : oe_done e1 = true) by (rewrite E1; cbn; reflexivity).
    destruct (plays_over _ _ _ _ _ _ _ _ D1 P) as (-> & _). exact D1.
  - apply IH. rewrite E1. reflexivity.
Qed.
End Episodes.

Section Reached.
Context {A : Type}.
Variables (turn_sin turn_cos root : Q -> Q).
Variable control_of : nonmod Q -> A -> res (dict Q).

Lemma reached_grid sp g0 e : env_reached turn_sin turn_cos root control_of sp g0 e ->
  exists h cs, new_nonmodular sp h = Ok g0 /\ Forall (proper (all_rows g0)) cs /\ oe_grid e = nm_after cs g0.
Proof.
  intros (h & cs & limit & sm & re & sampler & testing & g1 & e0 & ecs & N & P & L & H & ->).
  destruct (after_grid turn_sin turn_cos root control_of ecs e0) as (cs' & -> & P').
  apply new_env_ok in H. destruct H as (_ & (t & ->) & _).
  exists h, (cs ++ [HSplit limit false; HReset t] ++ cs'). split; [exact N|]. split.
  - apply Forall_app. split; [exact P|]. apply Forall_app. split; [|apply P']. constructor; [exact L|]. constructor; [exact I|constructor].
  - rewrite !nm_after_app. reflexivity.
Qed.
Lemma reached_equipped sp g0 e : wired sp -> env_reached turn_sin turn_cos root control_of sp g0 e -> equipped (oe_grid e).
Proof.
  intros W R. apply reached_grid in R. destruct R as (h & cs & N & _ & ->). apply equipped_after. eapply equipped_new; eassumption.
Qed.
Lemma reached_scales sp g0 e : wired sp -> env_reached turn_sin turn_cos root control_of sp g0 e ->
  Permutation.Permutation (map fst (oe_norm e)) (status_columns (nm_arch (oe_grid e)))
  /\ forall k x, dget k (oe_norm e) = Some x -> scale g0 k x.
Proof.
  intros W R. pose proof (reached_equipped _ _ _ W R) as EQ. apply reached_grid in R as RG. destruct RG as (h' & cs' & _ & _ & GE).
  destruct R as (h & cs & limit & sm & re & sampler & testing & g1 & e0 & ecs & N & P & L & H & ->).
  rewrite (proj1 (after_norm turn_sin turn_cos root control_of ecs e0)).
  apply new_env_ok in H. destruct H as (_ & _ & NO & _). apply normalization_ok in NO. destruct NO as (K & S).
  split.
  2:{ intros k x D. specialize (S k x D). pose proof (descends_after cs g0) as DS. unfold scale, parameter in *.
      rewrite (ds_co2 _ _ DS), (ds_import _ _ DS), !(ds_par _ _ DS) in S by discriminate. exact S. }
  rewrite K, GE.
  pose proof (eq_state _ (equipped_after cs _ (equipped_new _ _ _ W N))) as ES.
  rewrite (ds_arch _ _ (descends_after cs g0)) in ES. rewrite (ds_arch _ _ (descends_after cs' g0)). exact ES.
Qed.
End Reached.

Lemma plays_snoc {A} ts tc root (control_of : nonmod Q -> A -> res (dict Q)) l : forall a e os e',
  env_plays ts tc root control_of e (l ++ [a]) os e' ->
  exists os' o em, os = os' ++ [o] /\ env_plays ts tc root control_of e l os' em.
Proof.
  induction l as [|b l IH]; intros a e os e' P.
  - inversion P as [|? ? e1 o ? os1 ? S P1]; subst. inversion P1; subst. exists [], o, e. split; [reflexivity|constructor].
  - cbn [app] in P. inversion P as [|? ? e1 o ? os1 ? S P1]; subst. destruct (IH a e1 os1 e' P1) as (os' & o' & em & -> & P2).
    exists (o :: os'), o', em. split; [reflexivity|]. econstructor; eassumption.
Qed.
