(** * Properties C17 (microgrid part), C27 - C29, C32 - C35, C37, C46

    [from_modules D g]: [g] is a microgrid built from the module list [D] after
    any sequence of [run], [reset] and step setter calls, failed ones included.
    [did g es g']: the module steps [es] are what happened between [g] and [g'].
    [mg_mods], [m_cur], [m_init], [m_log] are the modules, [current_step],
    [initial_step] and the log of a module.  Exact rationals. *)

From Coq Require Import ZArith QArith Qabs Bool String List Lqa Lia Permutation.
From Verif Require Import Num Py Space Logger Forecast Module Container Microgrid
  Spec_Module Spec_Reach Spec_Microgrid Proofs_Logger
  Proofs_MgProps Proofs_MgProps2 Proofs_Build Proofs_Episode Examples_Mg.
Import ListNotations.
Local Open Scope string_scope.
Local Open Scope list_scope.
Local Open Scope Q_scope.

(** C27. *)
Theorem C27_run_balances D (g g' : mgrid Q) (c : control Q) n obs rw d inf :
  from_modules D g -> run c n g = (g', Ok (obs, rw, d, inf)) ->
  exists es, did g es g'
    /\ nearly (sum_of ev_provided es) (sum_of ev_absorbed es)
    /\ (has_unbalanced g -> sum_of ev_provided es == sum_of ev_absorbed es).
Proof. exact (run_balances D g g' c n obs rw d inf). Qed.
Print Assumptions C27_run_balances.

(** The imbalance error is raised after the balance row has been logged; with
    an unbalanced-energy module no failing run gets that far. *)
Theorem C27_never_unbalanced D (g g' : mgrid Q) (c : control Q) n e :
  from_modules D g -> has_unbalanced g -> run c n g = (g', Err e) ->
  mg_balance g' = mg_balance g.
Proof. exact (run_never_unbalanced D g g' c n e). Qed.
Print Assumptions C27_never_unbalanced.

(** Without that module an imbalance is reported, after everything was
    stepped and logged. *)
Definition ex_bare : res (mgrid Q) := new_microgrid [(None, mg_load); (None, mg_battery)] false 10 2 None None.
Theorem C27_imbalance_raised_late :
  match ex_bare with
  | Ok g => let r := run [("battery", CList [VS 0])] false g in
            raises RuntimeError (snd r) /\ lg_len (mg_balance (fst r)) = 1%nat
            /\ map m_cur (mg_mods (fst r)) = [1; 1]%Z
  | Err _ => False
  end.
Proof. vm_compute. split; [eexists; split; reflexivity|split; reflexivity]. Qed.
Print Assumptions C27_imbalance_raised_late.

Example C27_example :
  match ex_mg with
  | Ok g => from_modules ex_all g /\ has_unbalanced g
            /\ (exists g' out, run (ex_control (-1)) false g = (g', Ok out))
            /\ exists g' e, run [("battery", CList [VS 1])] false g = (g', Err e)
  | Err _ => False
  end.
Proof.
  destruct ex_mg as [g|e] eqn:E; [|vm_compute in E; discriminate E].
  split; [exact (ex_from g [] E)|]. vm_compute in E. injection E as <-.
  split; [exists 5%nat; eexists; split; [reflexivity|eexists; reflexivity]|].
  split; do 2 eexists; vm_compute; reflexivity.
Qed.

(** C28.  [under f nm es]: the results of the steps of modules named [nm].  A
    module called like an info entry ([energy_keys]) gets its info list mixed up. *)
Theorem C28_run_reports_its_modules D (g g' : mgrid Q) (c : control Q) n obs rw d inf :
  from_modules D g -> run c n g = (g', Ok (obs, rw, d, inf)) ->
  exists es ci, did g es g' /\ get_cost_info g = Ok ci
    /\ d = existsb (fun e => done_of (ev_out e)) es
    /\ match mg_shaper g with
       | None => rw == sum_of ev_reward es
       | Some f => f inf ci = Ok rw
       end
    /\ (forall nm, dget nm obs = entry_for (under (fun e => obs_of (ev_out e)) nm es))
    /\ (forall nm, ~ In nm energy_keys ->
          dget nm inf = entry_for (under (fun e => EInfo (info_of (ev_out e))) nm es))
    /\ (forall e, In e es -> exists df, nth_error D (ev_id e) = Some df /\ mdef_name df = ev_name e).
Proof. exact (run_reports D g g' c n obs rw d inf). Qed.
Print Assumptions C28_run_reports_its_modules.

Example C28_example :
  match ex_mg with
  | Ok g => from_modules ex_all g
            /\ exists g' obs rw d inf, run (ex_control (-1)) false g = (g', Ok (obs, rw, d, inf))
                 /\ rw < 0 /\ map fst inf = ["load"; "genset"; "battery"; "grid"; "pv"; "balancing"]
                 (* fixed, then controllable, then flex *)
  | Err _ => False
  end.
Proof.
  destruct ex_mg as [g|e] eqn:E; [|vm_compute in E; discriminate E].
  split; [exact (ex_from g [] E)|]. vm_compute in E. injection E as <-.
  do 5 eexists. split; [vm_compute; reflexivity|]. vm_compute. split; reflexivity.
Qed.

(** C29. *)
Theorem C29_lockstep D (g g' : mgrid Q) (c : control Q) n obs rw d inf :
  from_modules D g -> names_separate D -> complete D c -> run c n g = (g', Ok (obs, rw, d, inf)) ->
  Forall2 stepped_once (mg_mods g) (mg_mods g')
  /\ exists es, did g es g' /\ Permutation (event_ids es) (seq 0 (length D))
       /\ forall nm, under ev_id nm es = positions nm D.
Proof. exact (run_lockstep D g g' c n obs rw d inf). Qed.
Print Assumptions C29_lockstep.

(** Whatever the names and the controls. *)
Theorem C29_at_most_one_step D (g g' : mgrid Q) (c : control Q) n obs rw d inf :
  from_modules D g -> run c n g = (g', Ok (obs, rw, d, inf)) ->
  Forall2 (fun m m' => stepped_once m m' \/ m' = m) (mg_mods g) (mg_mods g').
Proof. exact (run_steps_at_most_once D g g' c n obs rw d inf). Qed.
Print Assumptions C29_at_most_one_step.

Example C29_example :
  match ex_mg with
  | Ok g => from_modules ex_all g /\ names_separate ex_all /\ complete ex_all (ex_control 4)
            /\ exists g' out, run (ex_control 4) false g = (g', Ok out)
                 /\ map m_cur (mg_mods g') = [1; 1; 1; 1; 1; 1]%Z
  | Err _ => False
  end.
Proof.
  destruct ex_mg as [g|e] eqn:E; [|vm_compute in E; discriminate E].
  split; [exact (ex_from g [] E)|]. split; [exact ex_separate|]. split; [exact (ex_complete 4)|].
  vm_compute in E. injection E as <-. do 2 eexists. split; vm_compute; reflexivity.
Qed.

(** C17, C29: a microgrid built from fresh modules, without trajectory
    function.  [episode D g0 k g]: since it was built or last reset, [k] runs
    with complete controls have returned. *)
Theorem C17_microgrid_clock ds add lossc overc sh g0 k g :
  mbuilt ds add lossc overc sh None g0 -> names_separate (all_defs ds add lossc overc) ->
  Forall (fun d => fresh (snd d)) ds -> episode (all_defs ds add lossc overc) g0 k g ->
  Forall (fun m => m_cur m = (mg_initial g0 + Z.of_nat k)%Z) (mg_mods g)
  /\ (all_defs ds add lossc overc <> [] -> mg_current_step g = Ok (mg_initial g0 + Z.of_nat k)%Z).
Proof. intros B S F. exact (episode_clock ds add lossc overc sh g0 B S F k g). Qed.
Print Assumptions C17_microgrid_clock.

(** The (k+1)-th run is done iff k+1 reaches the length of the window. *)
Theorem C17_microgrid_done ds add lossc overc sh g0 k g g' c n obs rw d inf f :
  mbuilt ds add lossc overc sh None g0 -> names_separate (all_defs ds add lossc overc) ->
  Forall (fun d => fresh (snd d)) ds -> episode (all_defs ds add lossc overc) g0 k g ->
  complete (all_defs ds add lossc overc) c -> run c n g = (g', Ok (obs, rw, d, inf)) ->
  mg_final g0 = Some f ->
  (d = true <-> (f - mg_initial g0 <= Z.of_nat (S k))%Z).
Proof. intros B S F. exact (episode_done ds add lossc overc sh g0 B S F k g g' c n obs rw d inf f). Qed.
Print Assumptions C17_microgrid_done.

(** Three runs, a reset, four runs; the last is done. *)
Fixpoint runs (k : nat) (g : mgrid Q) : mgrid Q :=
  match k with O => g | S k' => fst (run (ex_control 4) false (runs k' g)) end.
Definition ok_run (g : mgrid Q) : bool := is_ok (snd (run (ex_control 4) false g)).
Lemma ok_run_episode g0 h k j : episode ex_all g0 k (runs j h) -> ok_run (runs j h) = true ->
  episode ex_all g0 (S k) (runs (S j) h).
Proof.
  unfold ok_run. cbn [runs]. generalize (runs j h). clear h j. intros g H O.
  destruct (run (ex_control 4) false g) as [g' [o|e]] eqn:RR; [|discriminate O].
  eapply ep_run; [exact H|exact (ex_complete 4)|exact RR].
Qed.
Lemma ok_reset_episode g0 k g : episode ex_all g0 k g -> is_ok (snd (mg_reset g)) = true ->
  episode ex_all g0 0 (fst (mg_reset g)).
Proof.
  intros H O. destruct (mg_reset g) as [g' [o|e]] eqn:RR; [|discriminate O]. eapply ep_reset; [exact H|exact RR].
Qed.
Definition ex_ok : bool :=
  match ex_mg with
  | Ok g => let h := fst (mg_reset (runs 3 g)) in
            ok_run g && ok_run (runs 1 g) && ok_run (runs 2 g) && is_ok (snd (mg_reset (runs 3 g)))
            && ok_run h && ok_run (runs 1 h) && ok_run (runs 2 h)
  | Err _ => false
  end.
Lemma ex_episode g : ex_mg = Ok g ->
  episode ex_all g 3 (runs 3 (fst (mg_reset (runs 3 g)))).
Proof.
  intros E. assert (O : ex_ok = true) by (vm_compute; reflexivity). unfold ex_ok in O. rewrite E in O.
  set (h := fst (mg_reset (runs 3 g))) in *. cbv zeta in O. repeat rewrite andb_true_iff in O.
  destruct O as [[[[[[O1 O2] O3] O4] O5] O6] O7].
  assert (H : episode ex_all g 0 h).
  { unfold h. apply (ok_reset_episode g 3); [|exact O4]. apply (ok_run_episode g g 2 2); [|exact O3].
    apply (ok_run_episode g g 1 1); [|exact O2]. apply (ok_run_episode g g 0 0); [|exact O1]. apply ep_start. }
  apply (ok_run_episode g h 2 2); [|exact O7]. apply (ok_run_episode g h 1 1); [|exact O6].
  apply (ok_run_episode g h 0 0); [exact H|exact O5].
Qed.
Example C17_microgrid_example :
  match ex_mg with
  | Ok g => mbuilt ex_defs true 10 2 None None g /\ names_separate ex_all
            /\ Forall (fun d => fresh (snd d)) ex_defs /\ mg_final g = Some 4%Z /\ mg_initial g = 0%Z
            /\ episode ex_all g 3 (runs 3 (fst (mg_reset (runs 3 g))))
            /\ exists obs rw inf,
                 snd (run (ex_control 4) false (runs 3 (fst (mg_reset (runs 3 g))))) = Ok (obs, rw, true, inf)
  | Err _ => False
  end.
Proof.
  destruct ex_mg as [g|e] eqn:E; [|vm_compute in E; discriminate E].
  split; [exact (ex_built g E)|]. split; [exact ex_separate|]. split; [exact ex_defs_fresh|].
  split; [vm_compute in E; injection E as <-; reflexivity|].
  split; [vm_compute in E; injection E as <-; reflexivity|].
  split; [exact (ex_episode g E)|]. vm_compute in E. injection E as <-.
  do 3 eexists. vm_compute. reflexivity.
Qed.

(** C32. *)
Theorem C32_reset_rewinds D (g g' : mgrid Q) obs :
  from_modules D g -> names_separate D -> mg_reset g = (g', Ok obs) ->
  Forall fresh (mg_mods g') /\ mg_balance g' = logger_empty /\ mg_other g' = logger_empty
  /\ Forall2 physical_same (mg_mods g) (mg_mods g').
Proof. exact (reset_rewinds D g g' obs). Qed.
Print Assumptions C32_reset_rewinds.

(** Also when it raises, and whatever the names. *)
Theorem C32_reset_keeps_charge_and_status (g g' : mgrid Q) r :
  mg_reset g = (g', r) -> Forall2 physical_same (mg_mods g) (mg_mods g').
Proof. exact (mg_reset_physical g g' r). Qed.
Print Assumptions C32_reset_keeps_charge_and_status.

Theorem C32_reset_succeeds D (g : mgrid Q) :
  from_modules D g -> mg_traj g = None -> (forall m, In m (mg_mods g) -> ~ user_forecaster m) ->
  exists g' obs, mg_reset g = (g', Ok obs).
Proof. exact (reset_succeeds D g). Qed.
Print Assumptions C32_reset_succeeds.

(** With a trajectory function: the window it returned. *)
Theorem C32_reset_follows_trajectory D (g g' : mgrid Q) obs f i e :
  from_modules D g -> names_separate D ->
  mg_traj g = Some f -> f (mg_calls g) (mg_initial g) (mg_final g) = Ok (i, e) -> (0 < e)%Z ->
  mg_reset g = (g', Ok obs) ->
  Forall (fun m => m_init m = i /\ m_cur m = i
                   /\ forall x, final_step m = Some x -> x = e /\ (i < e)%Z) (mg_mods g').
Proof. exact (reset_trajectory D g g' obs f i e). Qed.
Print Assumptions C32_reset_follows_trajectory.

(** "Reset after a run is the freshly built microgrid" is false: the battery
    keeps what it was charged. *)
Theorem C32_reset_is_not_fresh_refuted :
  match ex_mg with
  | Ok g => let g1 := fst (run (ex_control 4) false g) in
            let g2 := fst (mg_reset g1) in
            (exists obs, snd (mg_reset g1) = Ok obs)
            /\ (exists b b2, nth_error (mg_mods g) 2 = Some b /\ nth_error (mg_mods g2) 2 = Some b2
                  /\ charge b == 5 /\ 6 < charge b2)
  | Err _ => False
  end.
Proof.
  vm_compute. split; [eexists; reflexivity|]. do 2 eexists. split; [reflexivity|]. split; [reflexivity|].
  split; reflexivity.
Qed.
Print Assumptions C32_reset_is_not_fresh_refuted.

Definition ex_traj : traj_fn := fun _ i _ => Ok (i + 1, i + 3)%Z.
Example C32_example :
  match ex_mg, new_microgrid ex_defs true 10 2 None (Some ex_traj) with
  | Ok g, Ok h =>
      from_modules ex_all (mplay [MRun (ex_control 4) false] g)
      /\ (forall m, In m (mg_mods g) -> ~ user_forecaster m) /\ mg_traj g = None
      /\ from_modules ex_all h /\ mg_traj h = Some ex_traj /\ ex_traj (mg_calls h) (mg_initial h) (mg_final h) = Ok (1, 3)%Z
      /\ exists h' obs, mg_reset h = (h', Ok obs)
  | _, _ => False
  end.
Proof.
  destruct ex_mg as [g|e] eqn:E; [|vm_compute in E; discriminate E].
  destruct (new_microgrid ex_defs true 10 2 None (Some ex_traj)) as [h|e] eqn:E2; [|vm_compute in E2; discriminate E2].
  split; [exact (ex_from g _ E)|]. split.
  { vm_compute in E. injection E as <-. intros m I (t & vec & f & T & K). simpl in I.
    repeat (destruct I as [I|I]; [subst m; inversion T; subst; discriminate K|]). destruct I. }
  split; [vm_compute in E; injection E as <-; reflexivity|].
  split. { exists ex_defs, true, 10, 2, None, (Some ex_traj), h, []. split; [split; [exact ex_defs_reachable|exact E2]|].
           split; reflexivity. }
  vm_compute in E2. injection E2 as <-. split; [reflexivity|]. split; [reflexivity|].
  do 2 eexists. vm_compute. reflexivity.
Qed.

(** C33.  [lg_len] counts the rows logged since the log was last emptied. *)
Theorem C33_columns_have_one_cell_per_row D (g : mgrid Q) : from_modules D g ->
  forall lg, lg = mg_balance g \/ (exists m, In m (mg_mods g) /\ lg = m_log m) ->
  (forall k c, dget k (lg_data lg) = Some c -> exists cells, c = ColList cells /\ length cells = lg_len lg)
  /\ exists df, logger_to_frame lg = Ok df /\ map fst df = map fst (lg_data lg).
Proof.
  intros F lg L. destruct (logs_rectangular D g F) as [A B].
  assert (R : log_rect lg) by (destruct L as [->|(m & I & ->)]; auto). split; [exact (proj2 R)|].
  destruct (log_rect_frame lg R) as (df & E & K & _). eauto.
Qed.
Print Assumptions C33_columns_have_one_cell_per_row.

(** In an episode the logs have one row per run, and [get_log] returns every
    column of every module, and the balance, with that many cells. *)
Theorem C33_get_log ds add lossc overc sh g0 k g :
  mbuilt ds add lossc overc sh None g0 -> names_separate (all_defs ds add lossc overc) ->
  Forall (fun d => fresh (snd d)) ds -> episode (all_defs ds add lossc overc) g0 k g ->
  all_defs ds add lossc overc <> [] ->
  exists cols, get_log g = Ok cols
    /\ (forall h cells, In (h, cells) cols -> length cells = k)
    /\ (forall nm j key cells, In ((nm, j, key), cells) cols <->
         (exists i m, nth_error (positions nm (all_defs ds add lossc overc)) j = Some i /\ at_index g i m
            /\ dget key (lg_data (m_log m)) = Some (ColList cells))
         \/ (nm = "balance" /\ j = 0%nat /\ dget key (lg_data (mg_balance g)) = Some (ColList cells))).
Proof. intros B S F. exact (episode_log ds add lossc overc sh g0 B S F k g). Qed.
Print Assumptions C33_get_log.

(** A log by itself: a new key is padded in front ... *)
Theorem C33_new_column_is_padded {T} (lg lg' : logger T) kvs k v :
  logger_log kvs lg = (lg', Ok tt) -> NoDup (map fst kvs) ->
  dget k (lg_data lg) = None -> dget k kvs = Some v ->
  dget k (lg_data lg') = Some (ColList (repeat None (lg_len lg) ++ [Some v])).
Proof. exact (log_pads lg lg' kvs k v). Qed.
Print Assumptions C33_new_column_is_padded.

(** ... and a key left out of a row makes the conversion fail. *)
Theorem C33_missing_key_breaks_frame {T} (lg lg' : logger T) kvs k c :
  NoDup (map fst (lg_data lg)) ->
  (forall k c, dget k (lg_data lg) = Some c -> exists l, c = ColList l /\ length l = lg_len lg) ->
  logger_log kvs lg = (lg', Ok tt) -> NoDup (map fst kvs) -> kvs <> [] ->
  dget k (lg_data lg) = Some c -> dget k kvs = None -> raises ValueError (logger_to_frame lg').
Proof. intros N R E NK NE G K. exact (log_skips lg lg' kvs k c (conj N R) E NK G K NE). Qed.
Print Assumptions C33_missing_key_breaks_frame.

Example C33_example :
  match ex_mg with
  | Ok g => episode ex_all g 3 (runs 3 (fst (mg_reset (runs 3 g)))) /\ ex_all <> []
            /\ match get_log (runs 3 (fst (mg_reset (runs 3 g)))) with Ok cols => length cols = 40%nat | Err _ => False end
            /\ forallb (fun m => negb (Nat.eqb (length (lg_data (m_log m))) 0))
                       (mg_mods (runs 3 (fst (mg_reset (runs 3 g))))) = true
  | Err _ => False
  end
  /\ let lg1 := fst (logger_log [("a", 1); ("b", 2)] (@logger_empty Q)) in
     snd (logger_log [("a", 3); ("c", 4)] lg1) = Ok tt.
Proof.
  split; [|reflexivity]. destruct ex_mg as [g|e] eqn:E; [|vm_compute in E; discriminate E].
  split; [exact (ex_episode g E)|]. split; [discriminate|]. vm_compute in E. injection E as <-. split.
  - vm_compute. reflexivity.
  - vm_compute. reflexivity.
Qed.

(** C34. *)
Theorem C34_distinct_names_all_shown D g :
  from_modules D g -> names_separate D ->
  (forall nm, dget nm (all_dict g) = entry_for (positions nm D))
  /\ Permutation (dict_ids g) (seq 0 (length D)).
Proof. exact (views_sep D g). Qed.
Print Assumptions C34_distinct_names_all_shown.

Theorem C34_collision_hides_a_module D g i j df df' :
  from_modules D g -> nth_error D i = Some df -> nth_error D j = Some df' ->
  mdef_name df = mdef_name df' -> category_of (snd df) <> category_of (snd df') ->
  ~ (In i (dict_ids g) /\ In j (dict_ids g)) /\ In i (all_ids g) /\ In j (all_ids g).
Proof. exact (views_collide D g i j df df'). Qed.
Print Assumptions C34_collision_hides_a_module.

(** A load and a battery, both called "x": accepted, the load disappears from
    the flat view and a reset does not rewind it. *)
Definition ex_collide : res (mgrid Q) :=
  new_microgrid [(Some "x", mg_load); (Some "x", mg_battery); (None, mg_pv)] false 10 2 None None.
Theorem C34_collision_accepted :
  match ex_collide with
  | Ok g => all_dict g = [("x", [1]); ("renewable", [2])]%nat
            /\ let g1 := fst (run [("x", CList [VS 3])] false g) in
               map m_cur (mg_mods g1) = [1; 1; 1]%Z /\ map m_cur (mg_mods (fst (mg_reset g1))) = [1; 0; 0]%Z
  | Err _ => False
  end.
Proof. vm_compute. repeat split. Qed.
Print Assumptions C34_collision_accepted.

Example C34_example :
  match ex_mg, ex_collide with
  | Ok g, Ok h => from_modules ex_all g /\ names_separate ex_all
      /\ positions "battery" ex_all = [2%nat]
      /\ from_modules [(Some "x", mg_load); (Some "x", mg_battery); (None, mg_pv)] h
      /\ category_of mg_load <> category_of mg_battery
  | _, _ => False
  end.
Proof.
  destruct ex_mg as [g|e] eqn:E; [|vm_compute in E; discriminate E]. destruct ex_collide as [h|e] eqn:E2; [|vm_compute in E2; discriminate E2].
  split; [exact (ex_from g [] E)|]. split; [exact ex_separate|]. split; [reflexivity|].
  split; [|vm_compute; discriminate].
  exists [(Some "x", mg_load); (Some "x", mg_battery); (None, mg_pv)], false, 10, 2, None, None, h, [].
  split; [|split; reflexivity]. split; [|exact E2].
  pose proof ex_defs_reachable as R. unfold ex_defs in R. rewrite Forall_forall in R.
  repeat constructor; [apply (R (Some "load", mg_load))|apply (R (None, mg_battery))|apply (R (Some "pv", mg_pv))]; simpl; auto.
Qed.

(** C35. *)
Theorem C35_windows_agree ds add lossc overc sh tr g :
  Forall (fun d => reachable (snd d)) ds -> names_separate (all_defs ds add lossc overc) ->
  new_microgrid ds add lossc overc sh tr = Ok g ->
  forall d, In d (all_defs ds add lossc overc) -> m_init (snd d) = mg_initial g
    /\ forall f, final_step (snd d) = Some f -> mg_final g = Some f.
Proof. intros R S. exact (built_agree ds add lossc overc sh R S tr g). Qed.
Print Assumptions C35_windows_agree.

Theorem C35_disagreement_refused ds add lossc overc sh tr :
  let D := all_defs ds add lossc overc in
  Forall (fun d => reachable (snd d)) ds -> names_separate D ->
  (forall d d', In d D -> In d' D -> m_init (snd d) <> m_init (snd d') ->
     raises ValueError (new_microgrid ds add lossc overc sh tr))
  /\ (forall d d' f f', In d D -> In d' D -> (forall d1 d2, In d1 D -> In d2 D -> m_init (snd d1) = m_init (snd d2)) ->
     final_step (snd d) = Some f -> final_step (snd d') = Some f' -> f <> f' ->
     raises ValueError (new_microgrid ds add lossc overc sh tr))
  /\ (D <> [] -> (forall d1 d2, In d1 D -> In d2 D -> m_init (snd d1) = m_init (snd d2)) ->
      (forall d, In d D -> final_step (snd d) = None) ->
     raises AttributeError (new_microgrid ds add lossc overc sh tr)).
Proof. intros D R S. exact (built_raises ds add lossc overc sh R S tr). Qed.
Print Assumptions C35_disagreement_refused.

(** The default unbalanced-energy module starts at step 0. *)
Theorem C35_default_module_needs_step_zero ds lossc overc sh tr d :
  Forall (fun d => reachable (snd d)) ds -> names_separate (all_defs ds true lossc overc) ->
  In d ds -> m_init (snd d) <> 0%Z -> raises ValueError (new_microgrid ds true lossc overc sh tr).
Proof.
  intros R S I N. destruct (built_raises ds true lossc overc sh R S tr) as [H _].
  apply (H d (None, new_unbalanced false 0 lossc overc)); [| |exact N]; unfold all_defs; apply in_or_app; simpl; auto.
Qed.
Print Assumptions C35_default_module_needs_step_zero.

Theorem C35_agreement_accepted ds add lossc overc sh :
  let D := all_defs ds add lossc overc in
  Forall (fun d => reachable (snd d)) ds -> names_separate D ->
  (forall d1 d2, In d1 D -> In d2 D -> m_init (snd d1) = m_init (snd d2)) ->
  (forall d1 d2 f1 f2, In d1 D -> In d2 D -> final_step (snd d1) = Some f1 -> final_step (snd d2) = Some f2 -> f1 = f2) ->
  (exists d, In d D /\ final_step (snd d) <> None) ->
  exists g, new_microgrid ds add lossc overc sh None = Ok g.
Proof. intros D R S. exact (built_accepts ds add lossc overc sh R S). Qed.
Print Assumptions C35_agreement_accepted.

(** [current_step]: defined exactly when all modules agree. *)
Theorem C35_current_step D g : from_modules D g -> names_separate D ->
  (forall c, mg_current_step g = Ok c <-> (mg_mods g <> [] /\ forall m, In m (mg_mods g) -> m_cur m = c))
  /\ (forall m m', In m (mg_mods g) -> In m' (mg_mods g) -> m_cur m <> m_cur m' ->
        raises ValueError (mg_current_step g)).
Proof. exact (current_step_cases D g). Qed.
Print Assumptions C35_current_step.

(** Modules that were already stepped are accepted; colliding names hide a
    disagreement. *)
Definition late_load (i : Z) : module Q :=
  or_balancing (new_load [[5]; [7]; [1]; [3]] FPNone 0 false i 4 false mg_rnd).
Theorem C35_unchecked :
  match new_microgrid [(None, fst (step (VA []) false mg_load)); (None, mg_battery)] true 10 2 None None with
  | Ok g => raises ValueError (mg_current_step g)
  | Err _ => False
  end
  /\ match new_microgrid [(Some "x", late_load 2); (Some "x", mg_battery); (None, mg_pv)] true 10 2 None None with
     | Ok g => map m_init (mg_mods g) = [2; 0; 0; 0]%Z
     | Err _ => False
     end.
Proof. vm_compute. split; [eexists; split; reflexivity|reflexivity]. Qed.
Print Assumptions C35_unchecked.

Example C35_example :
  Forall (fun d => reachable (snd d)) ex_defs /\ names_separate ex_all
  /\ (exists g, new_microgrid ex_defs true 10 2 None None = Ok g)
  /\ (forall d1 d2, In d1 ex_all -> In d2 ex_all -> m_init (snd d1) = m_init (snd d2))
  /\ m_init (late_load 2) <> 0%Z.
Proof.
  split; [exact ex_defs_reachable|]. split; [exact ex_separate|]. split; [eexists; vm_compute; reflexivity|].
  split; [|vm_compute; discriminate].
  assert (Z : Forall (fun d => m_init (snd d) = 0%Z) ex_all) by (repeat constructor).
  rewrite Forall_forall in Z. intros d1 d2 I1 I2. rewrite (Z _ I1), (Z _ I2). reflexivity.
Qed.

(** C37. *)
Theorem C37_containers_partition D g : from_modules D g ->
  length (mg_mods g) = length D
  /\ Permutation (all_ids g) (seq 0 (length D))
  /\ (forall f s nm i, In i (match dget nm (ct_get (mg_ct g) f s) with Some l => l | None => [] end) <->
        exists d, nth_error D i = Some d /\ mdef_name d = nm /\ category_of (snd d) = (f, s))
  /\ (forall i d m, nth_error D i = Some d -> nth_error (mg_mods g) i = Some m -> category_of m = category_of (snd d)).
Proof. exact (containers_partition D g). Qed.
Print Assumptions C37_containers_partition.

(** The number given to a module: how many of its name and category came before. *)
Theorem C37_numbering ds add lossc overc sh tr g :
  new_microgrid ds add lossc overc sh tr = Ok g ->
  forall k d m, nth_error (all_defs ds add lossc overc) k = Some d -> nth_error (mg_mods g) k = Some m ->
  m_name m = (Some (mdef_name d),
              Some (length (members (mdef_name d) (category_of (snd d)) 0 (firstn k (all_defs ds add lossc overc))))).
Proof. exact (containers_numbering ds add lossc overc sh tr g). Qed.
Print Assumptions C37_numbering.

(** The category of each class. *)
Theorem C37_category_by_class (m : module Q) :
  category_of m = match m_kind m with
                  | KBattery _ => (Controllable, SourceAndSinks)
                  | KGenset _ => (Controllable, Sources)
                  | KGrid g _ => (gr_type g, SourceAndSinks)
                  | KLoad _ => (Fixed, Sinks)
                  | KRenewable _ => (Flex, Sources)
                  | KUnbalanced _ => (Flex, SourceAndSinks)
                  end.
Proof. destruct m as [[] ? ? ? ? ? ? ? ? ?]; reflexivity. Qed.
Print Assumptions C37_category_by_class.

Example C37_example :
  match new_microgrid [(None, mg_battery); (None, mg_load); (None, mg_battery)] true 10 2 None None with
  | Ok g => map m_name (mg_mods g) = [(Some "battery", Some 0%nat); (Some "load", Some 0%nat);
                                       (Some "battery", Some 1%nat); (Some "balancing", Some 0%nat)]
            /\ ct_get (mg_ct g) Controllable SourceAndSinks = [("battery", [0; 2]%nat)]
  | Err _ => False
  end.
Proof. vm_compute. split; reflexivity. Qed.

(** C46. *)
Theorem C46_set_module_attr D (g : mgrid Q) has set : from_modules D g ->
  (forall m, In m (mg_mods g) -> has m = true -> snd (set m) = Ok tt) ->
  set_module_attr has set g
  = if existsb has (mg_mods g)
    then (mg_set_mods g (map (fun m => if has m then fst (set m) else m) (mg_mods g)), Ok tt)
    else (g, raise AttributeError "No module has attribute").
Proof. exact (set_attr_theorem D g has set). Qed.
Print Assumptions C46_set_module_attr.

(** [final_step] exists on the time-series modules only. *)
Example C46_example :
  match ex_mg with
  | Ok g => from_modules ex_all g
      /\ (forall m, In m (mg_mods g) -> has_final m = true -> snd (module_set_final 3 m) = Ok tt)
      /\ map final_step (mg_mods (fst (set_module_attr has_final (module_set_final 3) g)))
         = [Some 3; Some 3; None; None; Some 3; None]%Z
  | Err _ => False
  end.
Proof.
  destruct ex_mg as [g|e] eqn:E; [|vm_compute in E; discriminate E]. split; [exact (ex_from g [] E)|].
  vm_compute in E. injection E as <-. split; [|vm_compute; reflexivity].
  intros m I H. simpl in I. repeat (destruct I as [I|I]; [subst m; first [discriminate H|reflexivity]|]). destruct I.
Qed.
