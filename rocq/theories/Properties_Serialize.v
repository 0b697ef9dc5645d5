(** * Properties C45, C55: saving and loading, microgrids built from microgrids

    [dump_module file m], [dump_microgrid file g]: [dump] to a named file
    ([file = true]: arrays go to files next to it) or to a string; the state is
    the directory.  [load_module], [load_microgrid]: [load], when the grid class
    is of type [gt].  [reachable], [from_modules]: see Spec_Reach, Spec_Microgrid.
    [kept]: all parameters, the state, the clock, the name, the log (Spec_Serialize).
    Exact rationals. *)

From Coq Require Import ZArith QArith Qabs Bool String List Lqa Lia.
From Verif Require Import Num Py Space Logger Forecast Module Container Microgrid Env Serialize
  Spec_Module Spec_Reach Spec_Microgrid Spec_Serialize Proofs_Data Proofs_Rebuild Examples_Mg Properties_Ts.
Import ListNotations.
Local Open Scope string_scope.
Local Open Scope list_scope.
Local Open Scope Q_scope.

(** ** Deciding the hypotheses *)
Definition functions_b (m : module Q) : bool :=
  match m_kind m with
  | KBattery b => match b_model b with Some _ => true | None => false end
  | KGenset g => match g_cost g with FuelFn _ => true | _ => false end
  | KGrid _ t | KLoad t | KRenewable t => match ts_fparam t with FPUser _ => true | _ => false end
  | KUnbalanced _ => false
  end.
Lemma functions_b_ok m : functions_b m = false -> ~ has_functions m.
Proof.
  unfold functions_b, has_functions. destruct (m_kind m); intros E H.
  - destruct (b_model b); congruence.
  - destruct H as [f H]. rewrite H in E. discriminate.
  - destruct H as [f H]. rewrite H in E. discriminate.
  - destruct H as [f H]. rewrite H in E. discriminate.
  - destruct H as [f H]. rewrite H in E. discriminate.
  - exact H.
Qed.
Definition noisy_b (m : module Q) : bool :=
  match kind_ts (m_kind m) with
  | Some t => match fc_kind (ts_fc t) with FcGauss _ _ _ => true | _ => false end
  | None => false
  end.
Lemma noisy_b_ok m : noisy_b m = false -> ~ noisy m.
Proof. unfold noisy_b. intros E (t & s & d & c & K & F). rewrite K, F in E. discriminate. Qed.
Definition windows_b (i f : Z) (ms : list (module Q)) : bool :=
  forallb (fun m => (m_init m =? i)%Z && match final_step m with Some x => (x =? f)%Z | None => true end) ms
  && existsb (fun m => match final_step m with Some _ => true | None => false end) ms.
Lemma windows_b_ok i f g : windows_b i f (mg_mods g) = true -> windows_agree g.
Proof.
  unfold windows_b. intros H. apply andb_prop in H. destruct H as [H E]. rewrite forallb_forall in H.
  assert (HI : forall m, In m (mg_mods g) -> m_init m = i).
  { intros m I. specialize (H m I). apply andb_prop in H. destruct H as [H _]. apply Z.eqb_eq. exact H. }
  assert (HF : forall m x, In m (mg_mods g) -> final_step m = Some x -> x = f).
  { intros m x I X. specialize (H m I). apply andb_prop in H. destruct H as [_ H]. rewrite X in H. apply Z.eqb_eq. exact H. }
  split; [|split].
  - intros m m' I I'. rewrite (HI m), (HI m') by assumption. reflexivity.
  - intros m m' x x' I I' X X'. rewrite (HF m x), (HF m' x') by assumption. reflexivity.
  - apply existsb_exists in E. destruct E as (m & I & E). exists m. split; [exact I|].
    destruct (final_step m); discriminate.
Qed.
Definition grids_b (gt : mtype) (ms : list (module Q)) : bool :=
  forallb (fun m => match m_kind m with KGrid gr _ => Container.mtype_eqb (gr_type gr) gt | _ => true end) ms.
Lemma grids_b_ok gt g : grids_b gt (mg_mods g) = true -> grids_are gt g.
Proof.
  unfold grids_b. rewrite forallb_forall. intros H m gr t I K. specialize (H m I). rewrite K in H.
  destruct (gr_type gr), gt; congruence || discriminate.
Qed.
Fixpoint nodup_b (l : list string) : bool :=
  match l with [] => true | x :: l' => negb (str_in x l') && nodup_b l' end.
Lemma nodup_b_ok l : nodup_b l = true -> NoDup l.
Proof.
  induction l as [|x l IH]; simpl; [constructor|]. intros H. apply andb_prop in H. destruct H as [H H'].
  constructor; [|auto]. intros I. apply Bool.negb_true_iff in H. unfold str_in in H.
  assert (X : existsb (String.eqb x) l = true) by (apply existsb_exists; exists x; split; [exact I|apply String.eqb_refl]).
  congruence.
Qed.
Definition savable_b (file : bool) (i f : Z) (gt : mtype) (ms : list (module Q)) : bool :=
  forallb (fun m => negb (functions_b m) && negb (noisy_b m)) ms && windows_b i f ms && grids_b gt ms
  && (negb file || nodup_b (map (fun m => yaml_tag (m_kind m)) ms)).
Lemma savable_b_ok file i f gt g : savable_b file i f gt (mg_mods g) = true ->
  windows_agree g /\ (forall m, In m (mg_mods g) -> ~ has_functions m) /\ (forall m, In m (mg_mods g) -> ~ noisy m)
  /\ grids_are gt g /\ (file = true -> classes_distinct g).
Proof.
  unfold savable_b. intros H. apply andb_prop in H. destruct H as [H N]. apply andb_prop in H. destruct H as [H G].
  apply andb_prop in H. destruct H as [H W]. rewrite forallb_forall in H.
  split; [eapply windows_b_ok; exact W|]. split; [|split; [|split]].
  - intros m I. specialize (H m I). apply andb_prop in H. destruct H as [H _]. apply functions_b_ok.
    apply Bool.negb_true_iff. exact H.
  - intros m I. specialize (H m I). apply andb_prop in H. destruct H as [_ H]. apply noisy_b_ok.
    apply Bool.negb_true_iff. exact H.
  - apply grids_b_ok. exact G.
  - intros ->. apply nodup_b_ok. exact N.
Qed.

(** ** C45: modules *)

(** A dumped module is loaded with everything kept but the forecast, which is the
    one made at the initial step; a reset makes it (up to [as_loaded]: the
    recomputed state of charge, the grid class's type) the original one, reset. *)
Theorem C45_module_round_trip (m : module Q) file st : reachable m -> ~ has_functions m ->
  exists st' s, dump_module file m st = (st', Ok s)
    /\ forall gt rnd, exists m', load_module st' gt rnd s = Ok m'
       /\ kept m m'
       /\ (~ noisy m -> shown_forecast m' = shown_forecast (fst (reset m)))
       /\ (~ noisy m -> fst (reset m') = as_loaded gt (fst (reset m))).
Proof. exact (C45_module_lemma m file st). Qed.
Print Assumptions C45_module_round_trip.

(** At the start of an episode nothing at all is lost. *)
Theorem C45_module_at_start (m : module Q) file st : reachable m -> ~ has_functions m -> ~ noisy m ->
  built m \/ (exists m0, reachable m0 /\ fst (reset m0) = m) ->
  exists st' s, dump_module file m st = (st', Ok s)
    /\ forall gt rnd, load_module st' gt rnd s = Ok (as_loaded gt m).
Proof. exact (C45_start_lemma m file st). Qed.
Print Assumptions C45_module_at_start.

(** A module built with a user function cannot be dumped. *)
Theorem C45_functions_raise (m : module Q) file st : reachable m -> has_functions m ->
  exists e, dump_module file m st = (st, Err e) /\ ex_class e = RepresenterError.
Proof. exact (C45_functions_lemma m file st). Qed.
Print Assumptions C45_functions_raise.

(** "A loaded module can be used like the dumped one" is false: if it was stepped
    since its reset, no step of the loaded module returns (until it is reset). *)
Theorem C45_next_step_refuted (m : module Q) file st st' s gt rnd m' : reachable m -> ~ has_functions m ->
  lg_len (m_log m) <> 0%nat -> dump_module file m st = (st', Ok s) -> load_module st' gt rnd s = Ok m' ->
  forall a n m'' o, step a n m' <> (m'', Ok o).
Proof. exact (C45_next_step_lemma m file st st' s gt rnd m'). Qed.
Print Assumptions C45_next_step_refuted.

(** A load with a perfect forecast, stepped once. *)
Definition stepped_load : res (module Q) := rbind (ex_load FPOracle 2) (fun m => Ok (fst (play [meet] m))).
Lemma stepped_reachable m : stepped_load = Ok m -> reachable m.
Proof.
  unfold stepped_load. destruct (ex_load FPOracle 2) as [m0|] eqn:E; [|discriminate]. intros X. injection X as <-.
  exact (ex_reachable _ _ [meet] _ (ex_load_built _ _ _ E)).
Qed.
Example C45_module_example :
  match stepped_load with
  | Ok m => reachable m /\ ~ has_functions m /\ ~ noisy m /\ lg_len (m_log m) = 1%nat
            /\ series m = [[-5]; [-7]; [0]; [-3]] /\ m_cur m = 1%Z
  | Err _ => False
  end.
Proof.
  destruct stepped_load as [m|] eqn:E; [|vm_compute in E; discriminate E].
  split; [exact (stepped_reachable m E)|]. vm_compute in E. injection E as <-.
  split; [apply functions_b_ok; reflexivity|]. split; [apply noisy_b_ok; reflexivity|].
  vm_compute. auto.
Qed.
Example C45_start_example :
  match ex_load FPOracle 2 with
  | Ok m => reachable m /\ ~ has_functions m /\ ~ noisy m /\ built m
  | Err _ => False
  end.
Proof.
  destruct (ex_load FPOracle 2) as [m|] eqn:E; [|vm_compute in E; discriminate E].
  split; [exact (ex_reachable _ _ [] _ (ex_load_built _ _ _ E))|].
  split; [|split; [|exact (built_ts_built _ _ _ (ex_load_built _ _ _ E))]]; vm_compute in E; injection E as <-.
  - apply functions_b_ok. reflexivity.
  - apply noisy_b_ok. reflexivity.
Qed.
(** A genset with a quadratic fuel curve. *)
Example C45_functions_example :
  match new_genset 1 20 (FuelFn (fun x => x * x)) (1#10) 3 0 0 true true 0 false "genset_production" with
  | Ok m => reachable m /\ has_functions m
  | Err _ => False
  end.
Proof.
  destruct (new_genset 1 20 _ (1#10) 3 0 0 true true 0 false "genset_production") as [m|] eqn:E; [|discriminate E].
  split; [exists m, []; split; [eapply built_genset; exact E|reflexivity]|].
  unfold new_genset in E. simpl in E. injection E as <-. simpl. eexists. reflexivity.
Qed.

(** "The forecast is kept" is false. *)
Theorem C45_forecast_refuted :
  exists (m m' : module Q) s, reachable m /\ ~ has_functions m
    /\ dump_module false m (mkStore [] []) = (mkStore [] [], Ok s)
    /\ load_module (mkStore [] []) Flex ex_rnd s = Ok m'
    /\ m_cur m' = m_cur m /\ state m' <> state m.
Proof.
  destruct stepped_load as [m|] eqn:E; [|vm_compute in E; discriminate E].
  pose proof (stepped_reachable m E) as R. vm_compute in E. injection E as <-.
  eexists. eexists. eexists. split; [exact R|]. split; [apply functions_b_ok; reflexivity|].
  split; [vm_compute; reflexivity|]. split; [vm_compute; reflexivity|]. split; [reflexivity|].
  vm_compute. discriminate.
Qed.
Print Assumptions C45_forecast_refuted.

(** "A forecaster set with set_forecaster is kept" is false: the loaded module has
    the forecaster it was built with. *)
Theorem C45_set_forecaster_refuted :
  exists (m m1 m' : module Q) s, reachable m /\ set_forecaster FPOracle 2 false ex_rnd m = (m1, Ok tt)
    /\ dump_module false m1 (mkStore [] []) = (mkStore [] [], Ok s)
    /\ load_module (mkStore [] []) Flex ex_rnd s = Ok m'
    /\ snd (module_forecast m1) = Ok (Some [[-7]; [0]]) /\ snd (module_forecast m') = Ok None.
Proof.
  destruct (ex_load FPNone 0) as [m|] eqn:E; [|vm_compute in E; discriminate E].
  pose proof (ex_reachable _ _ [] _ (ex_load_built _ _ _ E)) as R. change (fst (play [] m)) with m in R.
  vm_compute in E. injection E as <-. eexists. eexists. eexists. eexists. split; [exact R|].
  split; [vm_compute; reflexivity|]. split; [vm_compute; reflexivity|]. split; [vm_compute; reflexivity|].
  split; vm_compute; reflexivity.
Qed.
Print Assumptions C45_set_forecaster_refuted.

(** ** C45: microgrids *)

(** [named nm g] is [g.modules[nm]].  Dumping and loading a microgrid keeps, under
    every name, the modules in order, and the step window, the trajectory function
    and the balance log; the reward shaping function is lost.  Files are safe if no
    two modules are of one class.  If it was run since its reset, no run of the
    loaded microgrid returns (until it is reset). *)
Theorem C45_microgrid_round_trip D g file :
  from_modules D g -> names_separate D -> windows_agree g ->
  (forall m, In m (mg_mods g) -> ~ has_functions m) ->
  (file = true -> classes_distinct g) ->
  exists s, forall st, exists st', dump_microgrid file g st = (st', Ok s)
    /\ forall gt rnds, grids_are gt g ->
       exists g', load_microgrid st' gt rnds s = Ok g'
       /\ (forall nm, Forall2 kept (named nm g) (named nm g'))
       /\ ((forall m, In m (mg_mods g) -> ~ noisy m) -> forall nm,
             Forall2 (fun m m' => fst (reset m') = as_loaded gt (fst (reset m))) (named nm g) (named nm g'))
       /\ mg_initial g' = mg_initial g /\ mg_final g' = mg_final g /\ mg_traj g' = mg_traj g
       /\ log_view (mg_balance g') = log_view (mg_balance g) /\ lg_len (mg_balance g') = lg_len (mg_balance g)
       /\ mg_shaper g' = None
       /\ (lg_len (mg_balance g) <> 0%nat -> forall c n g'' o, run c n g' <> (g'', Ok o)).
Proof. exact (C45_microgrid_lemma D g file). Qed.
Print Assumptions C45_microgrid_round_trip.

Definition ran_once : list mcall := [MRun (ex_control 4) false].
Example C45_microgrid_example :
  match ex_mg with
  | Ok g0 => let g := after ran_once g0 in
             from_modules ex_all g /\ names_separate ex_all /\ windows_agree g
             /\ (forall m, In m (mg_mods g) -> ~ has_functions m) /\ (forall m, In m (mg_mods g) -> ~ noisy m)
             /\ grids_are Controllable g /\ (true = true -> classes_distinct g)
             /\ lg_len (mg_balance g) = 1%nat /\ length (named "grid" g) = 1%nat
  | Err _ => False
  end.
Proof.
  destruct ex_mg as [g0|] eqn:E; [|vm_compute in E; discriminate E]. cbv zeta.
  assert (X : rbind ex_mg (fun g => Ok (savable_b true 0 4 Controllable (mg_mods (after ran_once g)),
                 lg_len (mg_balance (after ran_once g)), length (named "grid" (after ran_once g)))) = Ok (true, 1%nat, 1%nat))
    by (vm_compute; reflexivity).
  rewrite E in X. cbn [rbind] in X. injection X as X L N.
  split; [exact (ex_from g0 ran_once E)|]. split; [exact ex_separate|].
  destruct (savable_b_ok _ _ _ _ _ X) as (W & F & NN & G & C). split; [exact W|]. split; [exact F|].
  split; [exact NN|]. split; [exact G|]. split; [exact C|]. split; [exact L|exact N].
Qed.

(** "Dumping to a file keeps every module" is false: two modules of one class
    share their files. *)
Definition two_loads : list (mdef Q) :=
  [(Some "a", or_balancing (new_load [[5]; [7]] FPNone 0 false 0 2 false mg_rnd));
   (Some "b", or_balancing (new_load [[1]; [2]] FPNone 0 false 0 2 false mg_rnd))].
Theorem C45_files_refuted :
  exists D (g g' : mgrid Q) st s ma mb ma' mb', from_modules D g /\ names_separate D /\ windows_agree g
    /\ (forall m, In m (mg_mods g) -> ~ has_functions m) /\ grids_are Flex g
    /\ dump_microgrid true g (mkStore [] []) = (st, Ok s)
    /\ load_microgrid st Flex (fun _ => mg_rnd) s = Ok g'
    /\ named "a" g = [ma] /\ named "b" g = [mb] /\ named "a" g' = [ma'] /\ named "b" g' = [mb']
    /\ series ma = [[-5]; [-7]] /\ series mb = [[-1]; [-2]]
    /\ series ma' = [[-1]; [-2]] /\ series mb' = [[-1]; [-2]].
Proof.
  destruct (new_microgrid two_loads true 10 2 None None) as [g|e] eqn:E; [|vm_compute in E; discriminate E].
  assert (F : from_modules (all_defs two_loads true 10 2) g).
  { exists two_loads, true, 10, 2, None, None, g, []. split; [|split; reflexivity]. split; [|exact E].
    repeat constructor; apply or_balancing_reachable; intros m M; (eapply built_load; [|exact M]); repeat constructor. }
  vm_compute in E. injection E as <-.
  eexists _, _, _, _, _, _, _, _, _. split; [exact F|]. split; [apply separate_b_ok; vm_compute; reflexivity|].
  match goal with |- windows_agree ?g /\ _ =>
    destruct (savable_b_ok false 0 2 Flex g) as (W & NF & _ & GA & _); [vm_compute; reflexivity|] end.
  split; [exact W|]. split; [exact NF|]. split; [exact GA|].
  split; [vm_compute; reflexivity|]. split; [vm_compute; reflexivity|].
  repeat (split; [vm_compute; reflexivity|]). vm_compute; reflexivity.
Qed.
Print Assumptions C45_files_refuted.

(** ** C55: [from_microgrid] *)

(** A microgrid built from another one without trajectory function has the same
    modules under every name, in order, in the state they are in, their step
    window, the same reward shaping function and an empty log. *)
Theorem C55_from_microgrid D (g : mgrid Q) lossc overc :
  from_modules D g -> names_separate D -> windows_agree g -> mg_traj g = None ->
  exists g', from_microgrid g lossc overc = Ok g'
    /\ (forall nm, named nm g' = named nm g)
    /\ (forall m, In m (mg_mods g) -> mg_initial g' = m_init m)
    /\ (forall m f, In m (mg_mods g) -> final_step m = Some f -> mg_final g' = Some f)
    /\ mg_shaper g' = mg_shaper g /\ mg_traj g' = None
    /\ mg_balance g' = logger_empty.
Proof. exact (from_microgrid_same D g lossc overc). Qed.
Print Assumptions C55_from_microgrid.

Example C55_example :
  match ex_mg with
  | Ok g0 => let g := after ran_once g0 in
             from_modules ex_all g /\ names_separate ex_all /\ windows_agree g /\ mg_traj g = None
             /\ length (named "battery" g) = 1%nat
  | Err _ => False
  end.
Proof.
  destruct ex_mg as [g0|] eqn:E; [|vm_compute in E; discriminate E]. cbv zeta.
  assert (X : rbind ex_mg (fun g => Ok (savable_b true 0 4 Controllable (mg_mods (after ran_once g)),
                 match mg_traj (after ran_once g) with None => true | Some _ => false end,
                 length (named "battery" (after ran_once g)))) = Ok (true, true, 1%nat))
    by (vm_compute; reflexivity).
  rewrite E in X. cbn [rbind] in X.
  assert (L : match mg_traj (after ran_once g0) with None => true | Some _ => false end = true)
    by exact (f_equal (fun r => match r with Ok (_, b, _) => b | Err _ => false end) X).
  injection X as X _ N.
  split; [exact (ex_from g0 ran_once E)|]. split; [exact ex_separate|].
  destruct (savable_b_ok _ _ _ _ _ X) as (W & _). split; [exact W|]. split; [|exact N].
  destruct (mg_traj (after ran_once g0)); [discriminate L|reflexivity].
Qed.
