(** * Environments: their microgrid *)

From Coq Require Import ZArith QArith Qabs Bool String List Lia Lqa Permutation Sorted.
From Verif Require Import Num Py Space Logger Forecast Module Container Microgrid PriorityList Env
  Proofs_Num Proofs_Logger Spec_Module Spec_Reach Spec_Genset Proofs_Module Proofs_Space Proofs_Battery Proofs_Genset
  Proofs_Ts Proofs_Any Proofs_Request
  Proofs_Data Proofs_Classes Spec_Microgrid Spec_Sane Proofs_Container Proofs_Run Proofs_Balance
  Proofs_Mgrid Proofs_Views Proofs_MgProps Proofs_MgProps2 Proofs_Build Proofs_Episode Proofs_Sane Proofs_Progress
  Proofs_Control Proofs_Convert Spec_Priority Proofs_Perm Proofs_Priority Proofs_Deploy Proofs_Rbc Spec_Env.
Import ListNotations.
Local Open Scope string_scope.
Local Open Scope list_scope.
Local Open Scope Q_scope.

(** ** The log of actions does not matter *)
Definition with_other (o : logger Q) (g : mgrid Q) : mgrid Q := mg_set_logs g (mg_balance g) o.
Section Other.
Variable o : logger Q.
Notation quiet := (with_other o).
Definition qcom {A} (f : M (mgrid Q) A) : Prop := forall g, f (quiet g) = (quiet (fst (f g)), snd (f g)).

Lemma quiet_idem g : quiet (quiet g) = quiet g.
Proof. reflexivity. Qed.
Lemma qcom_ret {A} (a : A) : qcom (mret a).
Proof. intros g. reflexivity. Qed.
Lemma qcom_lift {A} (a : res A) : qcom (mlift a).
Proof. intros g. reflexivity. Qed.
Lemma qcom_raise {A} c s : qcom (@mraise (mgrid Q) A c s).
Proof. intros g. reflexivity. Qed.
Lemma qcom_bind {A B} (x : M (mgrid Q) A) (f : A -> M (mgrid Q) B) : qcom x -> (forall a, qcom (f a)) -> qcom (mbind x f).
Proof.
  intros X F g. unfold mbind. rewrite (X g). destruct (x g) as [g1 [a|e]]; simpl; [|reflexivity]. exact (F a g1).
Qed.
Lemma qcom_get {A} (K : mgrid Q -> M (mgrid Q) A) :
  (forall g, K (quiet g) = K g) -> (forall g, qcom (K g)) -> qcom (mbind mget K).
Proof. intros E F g. unfold mbind, mget. rewrite (E g). exact (F g g). Qed.
Lemma qcom_fold {A B} (f : B -> A -> M (mgrid Q) B) l : (forall b a, qcom (f b a)) -> forall b, qcom (mfold f l b).
Proof.
  intros F. induction l as [|a l IH]; intros b; simpl; [apply qcom_ret|]. apply qcom_bind; [apply F|exact IH].
Qed.
Lemma qcom_module {A} i (f : M (module Q) A) : qcom (with_module i f).
Proof.
  intros g. unfold with_module. cbn [with_other mg_set_logs mg_mods].
  destruct (nth_error (mg_mods g) i) as [m|]; [|reflexivity]. destruct (f m) as [m' r]. reflexivity.
Qed.
Lemma qcom_step_append nm i a n st : qcom (step_append nm i a n st).
Proof. unfold step_append. apply qcom_bind; [apply qcom_module|]. intros out. apply qcom_ret. Qed.
Lemma qcom_modify (h : mgrid Q -> mgrid Q) : (forall g, h (quiet g) = quiet (h g)) -> qcom (mmodify h).
Proof. intros E g. unfold mmodify. simpl. rewrite E. reflexivity. Qed.

Ltac qc :=
  repeat first
    [ apply qcom_ret | apply qcom_lift | apply qcom_raise | apply qcom_module | apply qcom_step_append
    | apply qcom_fold; intros ? ? | apply qcom_bind; [|intros ?] ].

Lemma qcom_run (c : control Q) n : qcom (run c n).
Proof.
  unfold run. apply qcom_get; [reflexivity|]. intros g. apply qcom_bind; [apply qcom_lift|]. intros ci.
  apply qcom_bind; [unfold run_fixed; qc|]. intros st1. apply qcom_bind; [apply qcom_lift|]. intros [[[fp fa] x] y].
  apply qcom_bind.
  { unfold run_controllable. qc. match goal with |- qcom (match ?d with _ => _ end) => destruct d end; qc. }
  intros st2. apply qcom_bind; [apply qcom_lift|]. intros [[[p a] x2] y2].
  apply qcom_bind.
  { destruct (nltb n0 (nsub p a)); unfold run_excess, run_deficit; qc.
    all: unfold get_module; qc.
    all: match goal with |- qcom (if ?b then _ else _) => destruct b end; qc.
    all: repeat match goal with |- qcom (match ?b with _ => _ end) => destruct b end; qc. }
  intros st3. apply qcom_bind; [apply qcom_lift|]. intros [[[p3 a3] r3] s3].
  apply qcom_bind.
  { intros g1. cbn [with_other mg_set_logs mg_balance mg_other]. destruct (logger_log _ (mg_balance g1)) as [lg r]. reflexivity. }
  intros _. destruct (isclose p3 a3); qc.
Qed.
Lemma qcom_attr has (set : M (module Q) unit) : qcom (set_module_attr has set).
Proof.
  unfold set_module_attr. apply qcom_get; [reflexivity|]. intros g.
  apply qcom_bind; [|intros []; qc]. apply qcom_fold. intros b i. unfold get_module. apply qcom_bind; [qc|]. intros m.
  destruct (has m); qc.
Qed.
Lemma set_trajectory_eq (g : mgrid Q) : set_trajectory g = match mg_traj g with
  | None => (g, Ok tt)
  | Some f => mbind (mlift (f (mg_calls g) (mg_initial g) (mg_final g)))
      (fun p => mbind (set_initial_steps (fst p)) (fun _ => set_final_steps (snd p))) (mg_set_calls g (S (mg_calls g)))
  end.
Proof. unfold set_trajectory, mbind at 1, mget. destruct (mg_traj g); reflexivity. Qed.
Lemma qcom_trajectory : qcom set_trajectory.
Proof.
  intros g. rewrite (set_trajectory_eq g), (set_trajectory_eq (quiet g)). cbn [with_other mg_set_logs mg_traj].
  destruct (mg_traj g) as [f|]; [|reflexivity].
  assert (Q : qcom (mbind (mlift (f (mg_calls g) (mg_initial g) (mg_final g)))
    (fun p => mbind (set_initial_steps (fst p)) (fun _ => set_final_steps (snd p))))).
  { apply qcom_bind; [apply qcom_lift|]. intros p. apply qcom_bind; [apply qcom_attr|]. intros _. apply qcom_attr. }
  exact (Q (mg_set_calls g (S (mg_calls g)))).
Qed.
Lemma qcom_set_initial v : qcom (mg_set_initial_step v).
Proof.
  unfold mg_set_initial_step. apply qcom_bind; [apply qcom_attr|]. intros _. apply qcom_get; [reflexivity|]. intros g.
  apply qcom_bind; [qc|]. intros i. apply qcom_modify. reflexivity.
Qed.
Lemma qcom_set_final v : qcom (mg_set_final_step v).
Proof.
  unfold mg_set_final_step. apply qcom_bind; [apply qcom_attr|]. intros _. apply qcom_get; [reflexivity|]. intros g.
  apply qcom_bind; [qc|]. intros i. apply qcom_modify. reflexivity.
Qed.
End Other.
Ltac qc :=
  repeat first
    [ apply qcom_ret | apply qcom_lift | apply qcom_raise | apply qcom_module | apply qcom_step_append
    | apply qcom_fold; intros ? ? | apply qcom_bind; [|intros ?] ].
Lemma qcom_reset : qcom logger_empty mg_reset.
Proof.
  unfold mg_reset. apply qcom_bind; [exact (qcom_trajectory _)|]. intros _.
  apply qcom_get; [reflexivity|]. intros g. apply qcom_bind; [qc|]. intros obs.
  apply qcom_bind; [|intros _; apply qcom_ret]. apply qcom_modify. reflexivity.
Qed.
Lemma quiet_call c g : quiet (do_mcall c g) = do_mcall c (quiet g).
Proof.
  destruct c as [c n| |v|v]; unfold do_mcall.
  - change quiet with (with_other logger_empty). rewrite (qcom_run logger_empty c n g). reflexivity.
  - change quiet with (with_other logger_empty). rewrite (qcom_reset g). reflexivity.
  - change quiet with (with_other logger_empty). rewrite (qcom_set_initial logger_empty v g). reflexivity.
  - change quiet with (with_other logger_empty). rewrite (qcom_set_final logger_empty v g). reflexivity.
Qed.

(** A log of actions is lost only by a reset. *)
Lemma keeps_other {A} (f : M (mgrid Q) A) : (forall o, qcom o f) -> forall g, mg_other (fst (f g)) = mg_other g.
Proof.
  intros C g. pose proof (C (mg_other g) g) as E. replace (with_other (mg_other g) g) with g in E by (destruct g; reflexivity).
  rewrite E. reflexivity.
Qed.

(** ** What the priority lists read *)
Lemma deploy_other o (g : mgrid Q) pl : forall a r, deploy (with_other o g) pl a r = deploy g pl a r.
Proof.
  induction pl as [|e pl IH]; intros a r; simpl; [reflexivity|].
  change (find_module (with_other o g)) with (find_module g).
  destruct (find_module g (el_module e)) as [m|]; simpl; [|reflexivity].
  destruct (slot_get a (el_module e)) as [s|]; simpl; [|reflexivity].
  destruct (Nat.ltb 1 (el_actions e) && _); [apply IH|].
  match goal with |- rbind ?X _ = _ => destruct X as [x|] end; simpl; [|reflexivity]. apply IH.
Qed.
Lemma populate_other o (g : mgrid Q) pl : populate_action (with_other o g) pl = populate_action g pl.
Proof.
  unfold populate_action. change (get_load (with_other o g)) with (get_load g).
  change (get_renewable (with_other o g)) with (get_renewable g).
  change (get_empty_action (with_other o g)) with (get_empty_action g).
  destruct (get_load g) as [l|]; simpl; [|reflexivity]. destruct (get_renewable g) as [r|]; simpl; [|reflexivity].
  destruct (negb _); [reflexivity|]. apply deploy_other.
Qed.

(** ** The log of actions *)
Definition action_log (cells : list Z) : logger Q :=
  match cells with
  | [] => logger_empty
  | _ => mkLogger [("action", ColList (map (fun a => Some (inject_Z a)) cells))] (length cells)
  end.
Lemma log_action_ok a (g : mgrid Q) cells : mg_other g = action_log cells ->
  log_action a g = (with_other (action_log (cells ++ [a])) g, Ok tt).
Proof.
  intros E. unfold log_action. rewrite E. destruct cells as [|b cells]; [reflexivity|].
  unfold action_log, logger_log, log_items, dget, dset. cbn [lg_len lg_data String.eqb Ascii.eqb Bool.eqb].
  change (String.eqb "action" "action") with true. cbn iota.
  simpl. rewrite map_app, app_length, Nat.add_1_r. reflexivity.
Qed.

(** ** Steps of the discrete environment *)
Definition after_run (e : env Q) (cells : list Z) (p : mgrid Q * res (run_out Q)) : env Q * res (env_out Q) :=
  let e' := env_set_mg e (with_other (action_log cells) (fst p)) in
  (e', rbind (snd p) (fun out => let '(obs, rw, dn, inf) := out in
         rmap (fun o => (o, rw, dn, inf)) (get_obs e' obs))).

Lemma discrete_step_refused a (e : env Q) cells : mg_other (ev_mg e) = action_log cells ->
  in_discrete (ev_n e) a = false ->
  discrete_step a e = (env_set_mg e (with_other (action_log (cells ++ [a])) (ev_mg e)), raise ValueError "Action not in action space").
Proof.
  intros L R. unfold discrete_step, on_mg, mbind at 1. rewrite (log_action_ok a _ cells L).
  unfold mbind, mget, mlift, discrete_action. cbn [env_set_mg ev_n]. rewrite R. reflexivity.
Qed.
Lemma rbc_step_eq pl (g : mgrid Q) : rbc_step pl g = match populate_action g pl with
  | Err x => (g, Err x)
  | Ok s => match as_control s with Err x => (g, Err x) | Ok c => run c false g end
  end.
Proof.
  unfold rbc_step, mbind, mget, mlift. destruct (populate_action g pl) as [s|]; [|reflexivity]. destruct (as_control s); reflexivity.
Qed.
Lemma env_step_eq (c : control Q) n (e : env Q) : env_step c n e =
  (env_set_mg e (fst (run c n (ev_mg e))), rbind (snd (run c n (ev_mg e))) (fun out => let '(obs, rw, dn, inf) := out in
     rmap (fun o => (o, rw, dn, inf)) (get_obs (env_set_mg e (fst (run c n (ev_mg e)))) obs))).
Proof.
  unfold env_step, on_mg, mbind, mget, mlift, mret. destruct (run c n (ev_mg e)) as [g1 [[[[obs rw] dn] inf]|x]]; simpl; [|reflexivity].
  unfold rmap. destruct (get_obs (env_set_mg e g1) obs); reflexivity.
Qed.
Lemma discrete_step_eq a (e : env Q) cells : mg_other (ev_mg e) = action_log cells ->
  let e1 := env_set_mg e (with_other (action_log (cells ++ [a])) (ev_mg e)) in
  discrete_step a e = match discrete_action e1 a with Err x => (e1, Err x) | Ok c => env_step c false e1 end.
Proof.
  intros L e1. unfold discrete_step, on_mg, mbind, mget, mlift. rewrite (log_action_ok a _ cells L). fold e1.
  destruct (discrete_action e1 a); reflexivity.
Qed.
Lemma discrete_step_accepted a (e : env Q) cells pl : mg_other (ev_mg e) = action_log cells ->
  in_discrete (ev_n e) a = true -> py_nth (ev_lists e) a = Some pl ->
  discrete_step a e = after_run e (cells ++ [a]) (rbc_step pl (grid_of e)).
Proof.
  intros L R N. rewrite (discrete_step_eq a e cells L). unfold discrete_action. cbn [env_set_mg ev_n ev_lists ev_mg].
  rewrite R, N. cbn [negb]. rewrite rbc_step_eq. unfold grid_of. change quiet with (with_other logger_empty).
  rewrite !populate_other. destruct (populate_action (ev_mg e) pl) as [s|x]; [|reflexivity]. cbn [rbind].
  destruct (as_control s) as [c|x]; [|reflexivity].
  rewrite env_step_eq. cbn [env_set_mg ev_mg ev_flat ev_keys ev_space ev_lists ev_n].
  rewrite (qcom_run _ c false (ev_mg e)), (qcom_run logger_empty c false (ev_mg e)). reflexivity.
Qed.

(** ** Priority lists keep driving *)
Lemma drives_any D (g g' : mgrid Q) pl : from_modules D g -> from_modules D g' -> drives D g pl -> drives D g' pl.
Proof.
  intros F F' (ND & ALL & DR). pose proof (from_modules_inv D g F) as V. pose proof (from_modules_inv D g' F') as V'.
  assert (LK : forall i m m', at_index g i m -> at_index g' i m' -> is_genset (m_kind m) = is_genset (m_kind m') /\ (deployable m <-> deployable m')).
  { intros i m m' A A'. destruct (iv_at D g i m V A) as (d & N & _ & L). destruct (iv_at D g' i m' V' A') as (d' & N' & _ & L').
    rewrite N in N'. injection N' as <-. destruct (kind_like_roles _ _ (ml_kind _ _ L)) as (S & _ & TT & _ & _ & G).
    destruct (kind_like_roles _ _ (ml_kind _ _ L')) as (S' & _ & TT' & _ & _ & G').
    split; [congruence|]. unfold deployable. rewrite S, S', TT, TT'. reflexivity. }
  assert (AT : forall i m, at_index g i m -> exists m', at_index g' i m').
  { intros i m A. destruct (iv_at D g i m V A) as (d & N & _). destruct (iv_nth D g' i d V' N) as (m' & A' & _). eauto. }
  assert (AT' : forall i m', at_index g' i m' -> exists m, at_index g i m).
  { intros i m A. destruct (iv_at D g' i m V' A) as (d & N & _). destruct (iv_nth D g i d V N) as (m' & A' & _). eauto. }
  split; [exact ND|]. split.
  - intros i m' A' DP. destruct (AT' i m' A') as (m & A). apply (ALL i m A). apply (LK i m m' A A'). exact DP.
  - eapply Forall_impl; [|exact DR]. intros e (i & m & A & DP & R & N & L). destruct (AT i m A) as (m' & A').
    destruct (LK i m m' A A') as [G P]. exists i, m'. split; [exact A'|]. split; [apply P; exact DP|]. split; [exact R|].
    split; [rewrite <- G; exact N|exact L].
Qed.

(** ** The invariant *)
Record env_inv (D : list (mdef Q)) (e : env Q) : Prop := mkEnvInv {
  vi_from : from_modules D (grid_of e);
  vi_n : ev_n e = length (ev_lists e);
  vi_log : exists cells, mg_other (ev_mg e) = action_log cells;
  vi_lists : names_separate D -> Forall (drives D (grid_of e)) (ev_lists e)
}.
Lemma py_nth_in {A} (l : list A) a : (0 <= a < Z.of_nat (length l))%Z -> exists x, py_nth l a = Some x /\ nth_error l (Z.to_nat a) = Some x.
Proof.
  intros R. destruct (nth_error l (Z.to_nat a)) as [x|] eqn:E.
  - exists x. split; [|reflexivity]. unfold py_nth. destruct (Z.leb_spec 0 a); [|lia]. destruct (Z.ltb_spec a (Z.of_nat (length l))); [|lia]. exact E.
  - apply nth_error_None in E. lia.
Qed.
Lemma in_discrete_iff n a : in_discrete n a = true <-> (0 <= a < Z.of_nat n)%Z.
Proof. unfold in_discrete. rewrite Bool.andb_true_iff, Z.leb_le, Z.ltb_lt. reflexivity. Qed.

Lemma rbc_step_from D pl (g g' : mgrid Q) r : from_modules D g -> rbc_step pl g = (g', r) -> from_modules D g'.
Proof.
  intros F E. rewrite rbc_step_eq in E. destruct (populate_action g pl) as [s|x]; [|injection E as <- <-; exact F].
  destruct (as_control s) as [c|x]; [|injection E as <- <-; exact F]. exact (from_modules_run D g c false g' r F E).
Qed.
Lemma quiet_other o g : quiet (with_other o g) = quiet g.
Proof. reflexivity. Qed.
Lemma quiet_empty D g : from_modules D g -> quiet g = g.
Proof.
  intros F. pose proof (iv_other _ _ (from_modules_inv D g F)) as O. unfold quiet. rewrite <- O. destruct g; reflexivity.
Qed.

Lemma vi_move D (e : env Q) g cells : env_inv D e -> from_modules D g ->
  env_inv D (env_set_mg e (with_other (action_log cells) g)).
Proof.
  intros V F. assert (G : grid_of (env_set_mg e (with_other (action_log cells) g)) = g).
  { unfold grid_of. cbn [env_set_mg ev_mg]. rewrite quiet_other. exact (quiet_empty D g F). }
  split.
  - rewrite G. exact F.
  - exact (vi_n D e V).
  - exists cells. reflexivity.
  - intros S. rewrite G. eapply Forall_impl; [|exact (vi_lists D e V S)]. intros pl DR.
    exact (drives_any D (grid_of e) g pl (vi_from D e V) F DR).
Qed.

Lemma step_inv D (e e' : env Q) a r : env_inv D e -> discrete_step a e = (e', r) -> env_inv D e'.
Proof.
  intros V E. destruct (vi_log D e V) as (cells & L). destruct (in_discrete (ev_n e) a) eqn:R.
  - destruct (py_nth_in (ev_lists e) a) as (pl & N & _). { rewrite <- (vi_n D e V). apply in_discrete_iff. exact R. }
    rewrite (discrete_step_accepted a e cells pl L R N) in E. unfold after_run in E. injection E as <- <-.
    apply (vi_move D e _ _ V). destruct (rbc_step pl (grid_of e)) as [g' rr] eqn:RS. exact (rbc_step_from D pl _ g' rr (vi_from D e V) RS).
  - rewrite (discrete_step_refused a e cells L R) in E. injection E as <- <-.
    change (with_other (action_log (cells ++ [a])) (ev_mg e)) with (with_other (action_log (cells ++ [a])) (grid_of e)).
    apply (vi_move D e _ _ V). exact (vi_from D e V).
Qed.
Lemma mcall_other c (g : mgrid Q) : mg_other (do_mcall c g) = mg_other g \/ mg_other (do_mcall c g) = logger_empty.
Proof.
  destruct c as [c n| |v|v]; unfold do_mcall.
  - left. apply keeps_other. intros o. apply qcom_run.
  - destruct (mg_reset g) as [g' r] eqn:E. cbn [fst]. 
    unfold mg_reset in E. unfold mbind at 1 in E. pose proof (keeps_other set_trajectory (fun o => qcom_trajectory o) g) as T.
    destruct (set_trajectory g) as [g1 [u|x]]; [|injection E as <- <-; left; exact T]. cbn [fst] in T.
    unfold mbind at 1, mget in E.
    match type of E with mbind ?F ?K g1 = _ => pose proof (keeps_other F) as KF end.
    match type of KF with ?P -> _ => assert (KP : P) by (intros o; qc) end. specialize (KF KP g1).
    unfold mbind at 1 in E. match type of E with (let '(_, _) := ?X in _) = _ => destruct X as [g2 [obs|x]] end; cbn [fst] in KF.
    + right. unfold mbind, mmodify, mret in E. injection E as <- <-. reflexivity.
    + left. injection E as <- <-. congruence.
  - left. apply keeps_other. intros o. apply qcom_set_initial.
  - left. apply keeps_other. intros o. apply qcom_set_final.
Qed.
Lemma call_inv D (e : env Q) c : env_inv D e -> env_inv D (env_set_mg e (do_mcall c (ev_mg e))).
Proof.
  intros V. destruct (vi_log D e V) as (cells & L).
  assert (O : exists cells', mg_other (do_mcall c (ev_mg e)) = action_log cells').
  { destruct (mcall_other c (ev_mg e)) as [O|O]; rewrite O; [eauto|exists []; reflexivity]. }
  destruct O as (cells' & O).
  replace (do_mcall c (ev_mg e)) with (with_other (action_log cells') (do_mcall c (grid_of e))).
  - apply (vi_move D e _ _ V). apply from_modules_call. exact (vi_from D e V).
  - unfold grid_of. rewrite <- quiet_call, <- O. destruct (do_mcall c (ev_mg e)); reflexivity.
Qed.
Lemma env_reset_eq (e : env Q) : env_reset e = (env_set_mg e (fst (mg_reset (ev_mg e))),
  rbind (snd (mg_reset (ev_mg e))) (fun obs => get_obs (env_set_mg e (fst (mg_reset (ev_mg e)))) obs)).
Proof. unfold env_reset, on_mg, mbind, mget, mlift. destruct (mg_reset (ev_mg e)) as [g1 [obs|x]]; reflexivity. Qed.
Lemma reset_inv D (e e' : env Q) r : env_inv D e -> env_reset e = (e', r) -> env_inv D e'.
Proof.
  intros V E. rewrite env_reset_eq in E. injection E as <- <-. exact (call_inv D e MReset V).
Qed.
Lemma remove_nth_spec {A} (l : list A) n : (n < length l)%nat ->
  length (remove_nth n l) = (length l - 1)%nat
  /\ forall i, nth_error (remove_nth n l) i = nth_error l (if Nat.ltb i n then i else S i).
Proof.
  revert n. induction l as [|x l IH]; intros n L; simpl in L; [lia|]. destruct n as [|n]; simpl.
  - split; [lia|]. intros i. reflexivity.
  - destruct (IH n ltac:(lia)) as [LE NE]. split; [lia|]. intros [|i]; simpl; [reflexivity|]. rewrite NE.
    change (Nat.ltb (S i) (S n)) with (Nat.ltb i n). destruct (Nat.ltb i n); reflexivity.
Qed.
Lemma remove_nth_incl {A} (l : list A) : forall n, incl (remove_nth n l) l.
Proof.
  induction l as [|x l IH]; intros [|n] y I; simpl in I |- *; try destruct I as [->|I]; auto. right. exact (IH n y I).
Qed.
Lemma remove_inv D (e e' : env Q) a r : env_inv D e -> remove_action a e = (e', r) -> env_inv D e'.
Proof.
  intros V E. unfold remove_action, mbind, mget in E. destruct (in_discrete (ev_n e) a) eqn:R; cbn [negb] in E.
  - unfold mput in E. injection E as <- <-. apply in_discrete_iff in R. rewrite (vi_n D e V) in R.
    split; cbn [env_set_actions ev_n ev_lists ev_mg].
    + exact (vi_from D e V).
    + rewrite (proj1 (remove_nth_spec (ev_lists e) (Z.to_nat a) ltac:(lia))), (vi_n D e V). reflexivity.
    + exact (vi_log D e V).
    + intros S. pose proof (vi_lists D e V S) as FA. rewrite Forall_forall in FA |- *. intros pl I.
      exact (FA pl (remove_nth_incl _ _ pl I)).
  - injection E as <- <-. exact V.
Qed.
Lemma eplay_inv D cs : forall e : env Q, env_inv D e -> env_inv D (eplay cs e).
Proof.
  induction cs as [|c cs IH]; intros e V; [exact V|]. apply IH. destruct c as [a| |a|c]; simpl.
  - destruct (discrete_step a e) as [e' r] eqn:E. exact (step_inv D e e' a r V E).
  - destruct (env_reset e) as [e' r] eqn:E. exact (reset_inv D e e' r V E).
  - destruct (remove_action a e) as [e' r] eqn:E. exact (remove_inv D e e' a r V E).
  - exact (call_inv D e c V).
Qed.
Lemma built_from ds add lossc overc sh tr (g0 : mgrid Q) : mbuilt ds add lossc overc sh tr g0 ->
  from_modules (all_defs ds add lossc overc) g0.
Proof. intros B. exists ds, add, lossc, overc, sh, tr, g0, []. split; [exact B|]. split; reflexivity. Qed.
Lemma new_discrete_ok (g0 : mgrid Q) flat keys rr e0 : new_discrete_env g0 flat keys rr = Ok e0 ->
  ev_mg e0 = g0 /\ ev_flat e0 = flat /\ ev_n e0 = length (ev_lists e0) /\ get_priority_lists g0 rr = Ok (ev_lists e0)
  /\ ev_keys e0 = keys /\ observation_space g0 keys = Ok (ev_space e0)
  /\ validate_keys g0 keys = Ok keys.
Proof.
  unfold new_discrete_env, new_base_env. intros E.
  destruct (get_priority_lists g0 false) as [?|]; [|discriminate E]. cbn [rbind] in E.
  destruct (validate_keys g0 keys) as [ks|] eqn:VK; [|discriminate E]. cbn [rbind] in E.
  assert (ks = keys). { unfold validate_keys in VK. destruct keys; [congruence|]. destruct (mg_state_series false g0); [|discriminate VK].
    cbn [rbind] in VK. destruct (forallb _ _); [congruence|discriminate VK]. }
  subst ks.
  destruct (observation_space g0 keys) as [sp|] eqn:SP; [|discriminate E]. cbn [rbind] in E.
  destruct (flat && _); [discriminate E|]. cbn [rbind] in E.
  destruct (get_priority_lists g0 rr) as [pls|]; [|discriminate E]. cbn [rbind] in E. injection E as <-.
  repeat split; auto.
Qed.
Theorem discrete_env_inv D e : discrete_env D e -> env_inv D e.
Proof.
  intros (ds & add & lossc & overc & sh & tr & g0 & flat & keys & rr & e0 & cs & B & -> & NW & ->). apply eplay_inv.
  pose proof (built_from _ _ _ _ _ _ _ B) as F. destruct (new_discrete_ok _ _ _ _ _ NW) as (M & _ & N & P & _).
  assert (G : grid_of e0 = g0). { unfold grid_of. rewrite M. exact (quiet_empty _ _ F). }
  split.
  - rewrite G. exact F.
  - exact N.
  - exists []. rewrite M. exact (iv_other _ _ (from_modules_inv _ _ F)).
  - intros S. rewrite G. destruct (priority_lists_ok _ g0 F S rr) as (pls & P' & _ & IFF). rewrite P in P'. injection P' as <-.
    apply Forall_forall. intros pl I. apply IFF in I. exact (order_drives _ g0 pl (proj1 I)).
Qed.

(** ** Controls of priority lists are complete *)
Lemma populate_complete D (g : mgrid Q) pl a c : from_modules D g -> names_separate D -> drives D g pl ->
  populate_action g pl = Ok a -> as_control a = Ok c -> complete D c.
Proof.
  intros F SEP DR P AC nm s NE. pose proof (from_modules_inv D g F) as V.
  destruct (populate_ok D g F SEP pl a DR P) as (_ & _ & xs & rest & c' & DI & AC' & CM & LEN).
  rewrite AC in AC'. injection AC' as <-.
  destruct (members nm (Controllable, s) 0 D) as [|i l] eqn:ME; [congruence|]. clear NE.
  assert (I : In i (members nm (Controllable, s) 0 D)) by (rewrite ME; left; reflexivity).
  apply members_iff in I. destruct I as (d & N & _ & NM & CT). rewrite Nat.sub_0_r in N.
  destruct (iv_nth D g i d V N) as (m & A & _ & L).
  pose proof (mod_like_category _ _ L) as CA. rewrite CT in CA.
  assert (DP : deployable m).
  { unfold category_of in CA. injection CA as C1 C2. split; [exact C1|].
    unfold ssink_of in C2. destruct (m_kind m) as [| |gr ?| | |]; simpl in *; try discriminate C1; reflexivity. }
  destruct DR as (ND & ALL & DR). destruct (ALL i m A DP) as (e & IE & RF).
  apply In_nth_error in IE. destruct IE as (k & NK).
  destruct (Proofs_Run.Forall2_nth _ _ _ _ _ CM NK) as (x & _ & CX). destruct (CX i m RF A) as (_ & r & w & RF' & GT & _).
  assert (E1 : fst r = nm). { destruct (refers_name D r i RF') as (d' & N' & E'). rewrite N in N'. injection N' as <-. congruence. }
  rewrite E1 in GT. exists w. split; [exact GT|].
  destruct (LEN nm w GT) as (_ & _ & _ & _ & ->). rewrite <- ME. unfold positions.
  rewrite (positions_members_aux nm (Controllable, s) D 0); [lia|].
  intros d' I' E'. rewrite <- CT. apply (sep_category D d SEP); [exact (nth_error_In _ _ N)|exact I'|congruence].
Qed.

(** ** C42 *)
Lemma in_space_iff D e a : env_inv D e -> in_action_space e a <-> in_discrete (ev_n e) a = true.
Proof. intros V. rewrite in_discrete_iff, (vi_n D e V). reflexivity. Qed.

Theorem step_is_list D (e : env Q) a : discrete_env D e -> in_action_space e a ->
  exists pl, nth_error (ev_lists e) (Z.to_nat a) = Some pl
    /\ (names_separate D -> drives D (grid_of e) pl)
    /\ exists g' r e', rbc_step pl (grid_of e) = (g', r) /\ grid_of e' = g'
       /\ ev_lists e' = ev_lists e
       /\ match r with
          | Ok (obs, rw, dn, inf) =>
              match get_obs e' obs with
              | Ok o => discrete_step a e = (e', Ok (o, rw, dn, inf))
              | Err x => discrete_step a e = (e', Err x)
              end
          | Err x => discrete_step a e = (e', Err x)
          end.
Proof.
  intros DE R. pose proof (discrete_env_inv D e DE) as V. destruct (vi_log D e V) as (cells & L).
  destruct (py_nth_in (ev_lists e) a R) as (pl & N & N'). apply (in_space_iff D e a V) in R.
  exists pl. split; [exact N'|]. split.
  { intros S. pose proof (vi_lists D e V S) as FA. rewrite Forall_forall in FA. exact (FA pl (nth_error_In _ _ N')). }
  destruct (rbc_step pl (grid_of e)) as [g' r] eqn:RS. exists g', r.
  exists (env_set_mg e (with_other (action_log (cells ++ [a])) g')). split; [reflexivity|].
  split. { unfold grid_of. cbn [env_set_mg ev_mg]. rewrite quiet_other. apply (quiet_empty D). exact (rbc_step_from D pl _ g' r (vi_from D e V) RS). }
  split; [reflexivity|].
  rewrite (discrete_step_accepted a e cells pl L R N), RS. unfold after_run. cbn [fst snd].
  destruct r as [[[[obs rw] dn] inf]|x]; cbn [rbind]; [|reflexivity]. unfold rmap.
  destruct (get_obs _ obs); reflexivity.
Qed.

Theorem step_refused D (e : env Q) a : discrete_env D e -> ~ in_action_space e a ->
  exists e', discrete_step a e = (e', raise ValueError "Action not in action space")
    /\ mg_mods (ev_mg e') = mg_mods (ev_mg e) /\ grid_of e' = grid_of e /\ ev_lists e' = ev_lists e
    /\ lg_len (mg_other (ev_mg e')) = S (lg_len (mg_other (ev_mg e))).
Proof.
  intros DE R. pose proof (discrete_env_inv D e DE) as V. destruct (vi_log D e V) as (cells & L).
  assert (R' : in_discrete (ev_n e) a = false). { apply Bool.not_true_iff_false. rewrite <- (in_space_iff D e a V). exact R. }
  eexists. split; [exact (discrete_step_refused a e cells L R')|]. cbn [env_set_mg ev_mg].
  split; [reflexivity|]. split; [reflexivity|]. split; [reflexivity|]. cbn [with_other mg_set_logs mg_other]. rewrite L.
  destruct cells as [|b cells]; [reflexivity|]. simpl. rewrite app_length, Nat.add_1_r. reflexivity.
Qed.

Theorem remove_ok D (e : env Q) a : discrete_env D e ->
  (in_action_space e a -> exists e', remove_action a e = (e', Ok tt) /\ ev_mg e' = ev_mg e
     /\ ev_n e' = length (ev_lists e') /\ length (ev_lists e') = (length (ev_lists e) - 1)%nat
     /\ forall i, nth_error (ev_lists e') i
                  = nth_error (ev_lists e) (if Nat.ltb i (Z.to_nat a) then i else S i))
  /\ (~ in_action_space e a -> exists s, remove_action a e = (e, raise ValueError s)).
Proof.
  intros DE. pose proof (discrete_env_inv D e DE) as V. split; intros R.
  - pose proof R as R'. apply (in_space_iff D e a V) in R'. unfold remove_action, mbind, mget. rewrite R'. cbn [negb].
    destruct (remove_nth_spec (ev_lists e) (Z.to_nat a)) as [A B]. { unfold in_action_space in R. lia. }
    eexists. split; [reflexivity|]. cbn [env_set_actions ev_mg ev_n ev_lists]. split; [reflexivity|].
    rewrite A, (vi_n D e V). auto.
  - assert (R' : in_discrete (ev_n e) a = false). { apply Bool.not_true_iff_false. rewrite <- (in_space_iff D e a V). exact R. }
    unfold remove_action, mbind, mget. rewrite R'. eexists. reflexivity.
Qed.

(** ** Episodes of the environment *)
Section EnvEpisode.
Variables (ds : list (mdef Q)) (add : bool) (lossc overc : Q) (sh : option (shaper Q)) (g0 : mgrid Q)
  (flat : bool) (keys : list string) (rr : bool) (e0 : env Q).
Hypothesis B : mbuilt ds add lossc overc sh None g0.
Let D := all_defs ds add lossc overc.
Hypothesis SEP : names_separate D.
Hypothesis NE : new_discrete_env g0 flat keys rr = Ok e0.

Record eep_inv (k r : nat) (e : env Q) : Prop := mkEepInv {
  ep_inv_env : env_inv D e;
  ep_inv_grid : episode D g0 k (grid_of e);
  ep_inv_log : exists cells, mg_other (ev_mg e) = action_log cells /\ length cells = (k + r)%nat
}.
Lemma env_episode_inv k r e : env_episode e0 k r e -> eep_inv k r e.
Proof.
  assert (V0 : env_inv D e0).
  { apply discrete_env_inv. exists ds, add, lossc, overc, sh, None, g0, flat, keys, rr, e0, []. auto. }
  induction 1 as [|k r e e' a out EP IH ST|k r e e' a x EP IH R ST|k r e e' a EP IH ST|k r e e' obs EP IH ST].
  - destruct (new_discrete_ok _ _ _ _ _ NE) as (M & _). pose proof (built_from _ _ _ _ _ _ _ B) as F. split.
    + exact V0.
    + unfold grid_of. rewrite M, (quiet_empty _ _ F). constructor.
    + exists []. rewrite M. split; [exact (iv_other _ _ (from_modules_inv _ _ F))|reflexivity].
  - destruct IH as [V EPI (cells & L & LN)]. split; [exact (step_inv D e e' a _ V ST)| |].
    + destruct (in_discrete (ev_n e) a) eqn:R; [|rewrite (discrete_step_refused a e cells L R) in ST; discriminate ST].
      destruct (py_nth_in (ev_lists e) a) as (pl & N & N'). { rewrite <- (vi_n D e V). apply in_discrete_iff. exact R. }
      rewrite (discrete_step_accepted a e cells pl L R N) in ST. unfold after_run in ST.
      destruct (rbc_step pl (grid_of e)) as [g' rs] eqn:RS. cbn [fst snd] in ST. injection ST as <- ST.
      destruct rs as [o2|]; [|discriminate ST].
      replace (grid_of _) with g'.
      2:{ unfold grid_of. cbn [env_set_mg ev_mg]. rewrite quiet_other. symmetry. apply (quiet_empty D).
          exact (rbc_step_from D pl _ g' _ (vi_from D e V) RS). }
      destruct (rbc_step_inv _ _ _ _ RS) as (ac & c & P & AC & RUN).
      assert (DR : drives D (grid_of e) pl).
      { pose proof (vi_lists D e V SEP) as FA. rewrite Forall_forall in FA. exact (FA pl (nth_error_In _ _ N')). }
      exact (ep_run D g0 k (grid_of e) g' c false o2 EPI (populate_complete D _ pl ac c (vi_from D e V) SEP DR P AC) RUN).
    + destruct (in_discrete (ev_n e) a) eqn:R; [|rewrite (discrete_step_refused a e cells L R) in ST; discriminate ST].
      destruct (py_nth_in (ev_lists e) a) as (pl & N & N'). { rewrite <- (vi_n D e V). apply in_discrete_iff. exact R. }
      rewrite (discrete_step_accepted a e cells pl L R N) in ST. unfold after_run in ST. injection ST as <- _.
      exists (cells ++ [a]). split; [reflexivity|]. rewrite app_length, LN. simpl. lia.
  - destruct IH as [V EPI (cells & L & LN)].
    assert (R' : in_discrete (ev_n e) a = false). { apply Bool.not_true_iff_false. rewrite <- (in_space_iff D e a V). exact R. }
    split; [exact (step_inv D e e' a _ V ST)| |]; rewrite (discrete_step_refused a e cells L R') in ST; injection ST as <- _.
    + exact EPI.
    + exists (cells ++ [a]). split; [reflexivity|]. rewrite app_length, LN. simpl. lia.
  - destruct IH as [V EPI (cells & L & LN)]. split; [exact (remove_inv D e e' a _ V ST)| |];
      unfold remove_action, mbind, mget in ST; destruct (negb _); try discriminate ST; unfold mput in ST; injection ST as <-.
    + exact EPI.
    + exists cells. auto.
  - destruct IH as [V EPI _]. split; [exact (reset_inv D e e' _ V ST)| |]; rewrite env_reset_eq in ST; injection ST as <- ST;
      destruct (mg_reset (ev_mg e)) as [g' [ob|x]] eqn:RS; try discriminate ST; cbn [fst].
    + assert (Q : mg_reset (grid_of e) = (quiet g', Ok ob)).
      { unfold grid_of. pose proof (qcom_reset (ev_mg e)) as C. rewrite RS in C. exact C. }
      exact (ep_reset D g0 k (grid_of e) (quiet g') ob EPI Q).
    + exists []. split; [|reflexivity]. cbn [env_set_mg ev_mg].
      destruct (mg_reset_ok _ _ _ RS) as (g1 & ms' & _ & _ & ->). reflexivity.
Qed.

Hypothesis FR : Forall (fun d => fresh (snd d)) ds.
Hypothesis DN : D <> [].

Theorem env_log k r e : env_episode e0 k r e ->
  (r = 0%nat -> exists cols, get_log (ev_mg e) = Ok cols /\ (forall h cells, In (h, cells) cols -> length cells = k)
     /\ (k <> 0%nat -> exists cells, In (("action", 0%nat, ""), cells) cols))
  /\ (r <> 0%nat -> raises ValueError (get_log (ev_mg e))).
Proof.
  intros EP. destruct (env_episode_inv k r e EP) as [V EPI (cells & L & LN)].
  destruct (episode_log ds add lossc overc sh g0 B SEP FR k (grid_of e) EPI DN) as (cols & GL & LC & _).
  destruct (episode_clock ds add lossc overc sh g0 B SEP FR k (grid_of e) EPI) as [_ CS]. specialize (CS DN).
  pose proof (episode_inv ds add lossc overc sh g0 B SEP FR k (grid_of e) EPI) as EI.
  unfold get_log in GL |- *. change (mg_current_step (ev_mg e)) with (mg_current_step (grid_of e)). rewrite CS in GL |- *.
  cbn [rbind] in GL |- *. change (mg_initial (ev_mg e)) with (mg_initial (grid_of e)).
  rewrite (ei_initial _ _ _ _ EI) in GL |- *.
  replace (mg_initial g0 + Z.of_nat k - mg_initial g0)%Z with (Z.of_nat k) in GL |- * by lia. rewrite Nat2Z.id in GL |- *.
  assert (LCO : log_columns (ev_mg e) = log_columns (grid_of e)
     ++ match cells with [] => [] | _ => [(("action", 0%nat, ""), ColList (map (fun a => Some (inject_Z a)) cells))] end).
  { unfold log_columns, grid_of, quiet. cbn [mg_set_logs mg_other mg_balance mg_mods]. rewrite L.
    change (all_dict (mg_set_logs (ev_mg e) (mg_balance (ev_mg e)) logger_empty)) with (all_dict (ev_mg e)).
    rewrite <- !app_assoc. f_equal. f_equal. destruct cells; reflexivity. }
  rewrite LCO.
  match type of GL with rmapM ?f _ = _ => set (ff := f) in * end.
  assert (APP : forall l1 l2, rmapM ff (l1 ++ l2) = rbind (rmapM ff l1) (fun a => rmap (app a) (rmapM ff l2))).
  { clear. induction l1 as [|x l1 IH]; intros l2; simpl.
    - destruct (rmapM ff l2); reflexivity.
    - destruct (ff x); simpl; [|reflexivity]. rewrite IH. destruct (rmapM ff l1); simpl; [|reflexivity]. destruct (rmapM ff l2); reflexivity. }
  rewrite APP, GL. cbn [rbind]. destruct cells as [|c cells].
  - simpl in LN. split; intros R; [|lia]. exists (cols ++ []). split; [reflexivity|]. rewrite app_nil_r. split; [exact LC|]. lia.
  - cbn [rmapM]. unfold ff. cbn [snd fst]. rewrite map_length. split; intros R.
    + replace (Nat.eqb (length (c :: cells)) k) with true by (symmetry; apply Nat.eqb_eq; lia). cbn [rbind rmap].
      eexists. split; [reflexivity|]. split.
      * intros h cl I. apply in_app_iff in I. destruct I as [I|[I|[]]]; [exact (LC h cl I)|]. apply (f_equal snd) in I. cbn [snd] in I. subst cl. rewrite map_length. lia.
      * intros _. eexists. apply in_app_iff. right. left. reflexivity.
    + replace (Nat.eqb (length (c :: cells)) k) with false by (symmetry; apply Nat.eqb_neq; lia). cbn [rbind rmap].
      eexists. split; reflexivity.
Qed.
End EnvEpisode.
