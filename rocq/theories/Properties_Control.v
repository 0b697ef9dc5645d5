(** * Properties C02 (membership), C30, C31, C38, C47, C52, C53

    [from_modules D g]: [g] is a microgrid built from the module list [D] after
    any sequence of [run], [reset] and step setter calls, failed ones included.
    [did g es g']: the module steps [es], in this order, are what happened between
    [g] and [g'].  [positions nm D]: the indices of the modules named [nm].
    Exact rationals. *)

From Coq Require Import ZArith QArith Qabs Bool String List Lqa Lia.
From Verif Require Import Num Py Space Logger Forecast Module Container Microgrid
  Spec_Module Spec_Reach Spec_Microgrid Spec_Sane Proofs_Logger
  Proofs_Progress Proofs_Control Proofs_MgProps Proofs_Convert Examples_Mg.
Import ListNotations.
Local Open Scope string_scope.
Local Open Scope list_scope.
Local Open Scope Q_scope.

(** C02: [value in space] is membership in the declared box. *)
Theorem C02_contains (sp : space Q) v : sp_contains sp (entries v) = true <-> in_range sp v.
Proof. exact (contains_iff sp v). Qed.
Print Assumptions C02_contains.
Example C02_contains_example :
  sp_contains (mkSpace [0; 0] [1; 5]) [1; 5] = true /\ sp_contains (mkSpace [0; 0] [1; 5]) [1; 6] = false.
Proof. vm_compute. split; reflexivity. Qed.

(** C30.  The j-th entry of a control goes to the j-th module of that name; surplus
    entries go nowhere and modules beyond the list are left out.  Fixed and flex
    modules are stepped whatever the control says. *)
Theorem C30_controls_executed D (g g' : mgrid Q) (c : control Q) n obs rw d inf :
  from_modules D g -> names_separate D -> run c n g = (g', Ok (obs, rw, d, inf)) ->
  exists es, did g es g'
    /\ (forall d, In d D -> module_type (m_kind (snd d)) = Controllable ->
          exists v, dget (mdef_name d) c = Some v
            /\ under (fun e => (ev_id e, ev_act e, ev_norm e)) (mdef_name d) es
               = map (fun ia => (fst ia, snd ia, n)) (combine (positions (mdef_name d) D) (ctrl_list v)))
    /\ (forall d, In d D -> module_type (m_kind (snd d)) = Fixed ->
          under (fun e => (ev_id e, ev_act e, ev_norm e)) (mdef_name d) es
          = map (fun i => (i, VS 0, false)) (positions (mdef_name d) D))
    /\ (forall d, In d D -> module_type (m_kind (snd d)) = Flex ->
          under (fun e => (ev_id e, ev_norm e)) (mdef_name d) es
          = map (fun i => (i, false)) (positions (mdef_name d) D)).
Proof. exact (run_executes D g g' c n obs rw d inf). Qed.
Print Assumptions C30_controls_executed.

(** A control with no entry for some controllable module makes [run] raise... *)
Theorem C30_missing_control_raises D (g g' : mgrid Q) (c : control Q) n r d :
  from_modules D g -> In d D -> module_type (m_kind (snd d)) = Controllable -> dget (mdef_name d) c = None ->
  run c n g = (g', r) -> exists e, r = Err e /\ mg_balance g' = mg_balance g.
Proof. exact (run_missing D g g' c n r d). Qed.
Print Assumptions C30_missing_control_raises.

(** ... but not before the fixed modules have been stepped. *)
Theorem C30_missing_control_not_atomic D (g : mgrid Q) (c : control Q) n d0 :
  from_modules D g -> Forall (fun d => sane_reachable (snd d)) D -> Forall (fun d => lenient (snd d)) D ->
  no_reserved_name D -> total_shaper (mg_shaper g) -> Forall in_data (mg_mods g) -> well_shaped D c ->
  In d0 D -> module_type (m_kind (snd d0)) = Controllable -> dget (mdef_name d0) c = None ->
  exists g' e, run c n g = (g', Err e) /\ ex_class e = ValueError
    /\ mg_balance g' = mg_balance g
    /\ (forall i m, at_index g i m -> is_flex m -> at_index g' i m)
    /\ (names_separate D -> forall i m, at_index g i m -> module_type (m_kind m) = Fixed ->
          exists m', at_index g' i m' /\ stepped_once m m')
    /\ (forall i m df, nth_error D i = Some df -> at_index g i m ->
          module_type (m_kind m) = Controllable -> dget (mdef_name df) c = None -> at_index g' i m).
Proof.
  exact (fun F SR LE NM SH ID WS => run_missing_effects D g c n d0 F SH NM (from_good D g F SR LE ID) WS).
Qed.
Print Assumptions C30_missing_control_not_atomic.

(** Entries for anything but controllable modules make no difference. *)
Theorem C30_superfluous_ignored D (g : mgrid Q) (c c' : control Q) n :
  from_modules D g ->
  (forall d, In d D -> module_type (m_kind (snd d)) = Controllable -> dget (mdef_name d) c = dget (mdef_name d) c') ->
  run c n g = run c' n g.
Proof. exact (run_superfluous D g c c' n). Qed.
Print Assumptions C30_superfluous_ignored.

(** C31.  [exhausts g e']: in step [e'] a flex module gave all it could;
    [saturates g e']: it took all it could.  Flex modules come into play one after
    the other, a later one only when the earlier ones are used up, and not both
    for giving and for taking. *)
Theorem C31_merit_order D (g g' : mgrid Q) (c : control Q) n obs rw d inf :
  from_modules D g -> run c n g = (g', Ok (obs, rw, d, inf)) ->
  exists es, did g es g'
    /\ (forall es1 e es2 m, es = es1 ++ e :: es2 -> at_index g (ev_id e) m -> is_flex m ->
     0 <= ev_provided e /\ 0 <= ev_absorbed e
     /\ (0 < ev_provided e -> Forall (exhausts g) es1
          /\ forall e' m', In e' es -> at_index g (ev_id e') m' -> is_flex m' -> ev_absorbed e' == 0)
     /\ (0 < ev_absorbed e -> Forall (saturates g) es1
          /\ forall e' m', In e' es -> at_index g (ev_id e') m' -> is_flex m' -> ev_provided e' == 0)).
Proof. exact (run_merit D g g' c n obs rw d inf). Qed.
Print Assumptions C31_merit_order.

(** The default unbalanced-energy module is the last resort: load is lost only when
    every flex source gives all it can; energy is curtailed only when every flex
    sink takes all it can and no flex source gives anything; never both. *)
Theorem C31_last_resort ds lossc overc sh tr g0 cs (g g' : mgrid Q) (c : control Q) n obs rw d inf :
  mbuilt ds true lossc overc sh tr g0 -> g = mplay cs g0 -> (forall d, In d ds -> mdef_name d <> "balancing") ->
  run c n g = (g', Ok (obs, rw, d, inf)) ->
  exists es e, did g (es ++ [e]) g' /\ ev_id e = length ds /\ ev_name e = "balancing"
    /\ (0 < ev_provided e -> Forall (exhausts g) es)
    /\ (0 < ev_absorbed e -> Forall (saturates g) es
         /\ forall e' m', In e' es -> at_index g (ev_id e') m' -> is_flex m' -> ev_provided e' == 0)
    /\ ~ (0 < ev_provided e /\ 0 < ev_absorbed e).
Proof. exact (run_last_resort ds lossc overc sh tr g0 cs g g' c n obs rw d inf). Qed.
Print Assumptions C31_last_resort.

(** An unbalanced-energy module the caller puts first is used first: load is lost
    although the flex grid stands by. *)
Definition flex_grid : module Q :=
  or_balancing (new_grid 10 20 [[1; 2; 3]; [4; 5; 6]; [7; 8; 9]; [1; 1; 1]]%Q FPNone 0 false 0 4 (1#10) false Flex mg_rnd).
Theorem C31_user_placed_module_refuted :
  match new_microgrid [(None, mg_load); (None, new_unbalanced false 0 10 2); (None, flex_grid)] false 10 2 None None with
  | Ok g => match run [] false g with
            | (_, Ok (_, _, _, inf)) =>
                exists i, dget "balancing" inf = Some [EInfo i] /\ provided i == 5
            | _ => False
            end /\ max_production flex_grid = Ok (BFin 10)
  | Err _ => False
  end.
Proof. vm_compute. split; [eexists; split; reflexivity|reflexivity]. Qed.
Print Assumptions C31_user_placed_module_refuted.

(** C38.  One [None] slot per module that takes an action, none for the others. *)
Theorem C38_empty_action D (g : mgrid Q) flex : from_modules D g -> names_separate D ->
  (forall d, In d D -> takes_action flex (snd d) ->
     dget (mdef_name d) (get_empty_action g flex) = Some (repeat None (length (positions (mdef_name d) D))))
  /\ (forall nm, (forall d, In d D -> mdef_name d = nm -> ~ takes_action flex (snd d)) ->
        dget nm (get_empty_action g flex) = None).
Proof.
  exact (fun F S => conj (empty_slots D g (from_modules_inv D g F) S flex) (empty_absent D g (from_modules_inv D g F) S flex)).
Qed.
Print Assumptions C38_empty_action.

(** A sampled action is accepted. *)
Theorem C38_sampled_action_runs D (g : mgrid Q) draw :
  from_modules D g -> Forall (fun d => sane_reachable (snd d)) D -> Forall (fun d => lenient (snd d)) D ->
  no_reserved_name D -> has_unbalanced g -> total_shaper (mg_shaper g) -> Forall in_data (mg_mods g) ->
  (forall k, 0 <= draw k /\ draw k <= 1) ->
  exists c, mg_sample_action g false false draw = Ok c
    /\ (forall n, exists g' out, run c n g = (g', Ok out))
    /\ (names_separate D -> forall d, In d D -> module_type (m_kind (snd d)) = Controllable ->
          exists v, dget (mdef_name d) c = Some v /\ length (ctrl_list v) = length (positions (mdef_name d) D)).
Proof. exact (sample_runs D g draw). Qed.
Print Assumptions C38_sampled_action_runs.

(** With [strict_bound] the sampled action of a battery or grid, denormalized, is
    within its current limits... *)
Theorem C38_strict_sample_within_limits (m : module Q) r0 r1 p q sp :
  reachable m -> is_genset (m_kind m) = false -> is_source (m_kind m) = true -> is_sink (m_kind m) = true ->
  m_act m = Some sp -> 0 <= r0 -> r0 <= 1 ->
  max_production m = Ok (BFin p) -> max_consumption m = Ok (BFin q) -> 0 <= p -> 0 <= q ->
  exists a x, sample_action true r0 r1 m = Ok (VS a) /\ denormalize sp (VS a) = Ok (VS x) /\ - q <= x /\ x <= p.
Proof. exact (strict_sample m r0 r1 p q sp). Qed.
Print Assumptions C38_strict_sample_within_limits.

(** ... but a genset cannot be sampled that way at all. *)
Theorem C38_strict_sample_genset_refuted (m : module Q) g r0 r1 :
  reachable m -> m_kind m = KGenset g -> raises TypeError (sample_action true r0 r1 m).
Proof. exact (strict_genset m g r0 r1). Qed.
Print Assumptions C38_strict_sample_genset_refuted.

(** C47.  Module by module, by position; names of no module and entries beyond
    the last module of a name are dropped without notice. *)
Theorem C47_module_by_module D (g : mgrid Q) to obs d d' : from_modules D g -> names_separate D ->
  mg_convert to obs g d = Ok d' -> forall nm,
  match dget nm d, positions nm D with
  | Some l, (_ :: _) as ps =>
      exists l', dget nm d' = Some l'
        /\ Forall2 (fun iv w => exists m, at_index g (fst iv) m /\ convert1 to obs m (snd iv) = Ok w) (combine ps l) l'
  | _, _ => dget nm d' = None
  end.
Proof. exact (fun F S => conv_spec D g (from_modules_inv D g F) S to obs d d'). Qed.
Print Assumptions C47_module_by_module.

(** Converting back gives the same numbers. *)
Theorem C47_round_trip D (g : mgrid Q) to obs d d1 : from_modules D g -> names_separate D ->
  mg_convert to obs g d = Ok d1 ->
  exists d2, mg_convert (negb to) obs g d1 = Ok d2
    /\ forall nm, match dget nm d, positions nm D with
                  | Some l, (_ :: _) as ps =>
                      exists l2, dget nm d2 = Some l2 /\ Forall2 same_value l2 (firstn (length ps) l)
                  | _, _ => dget nm d2 = None
                  end.
Proof. exact (fun F S => conv_round D g (from_modules_inv D g F) S to obs d d1). Qed.
Print Assumptions C47_round_trip.

(** C52.  A microgrid of sensible lenient modules with an unbalanced-energy module
    cannot fail while there is data. *)
Theorem C52_run_cannot_fail D (g : mgrid Q) (c : control Q) n :
  from_modules D g -> Forall (fun d => sane_reachable (snd d)) D -> Forall (fun d => lenient (snd d)) D ->
  no_reserved_name D -> has_unbalanced g -> total_shaper (mg_shaper g) -> Forall in_data (mg_mods g) ->
  controls_given D c -> well_shaped D c ->
  exists g' out, run c n g = (g', Ok out).
Proof. exact (run_cannot_fail D g c n). Qed.
Print Assumptions C52_run_cannot_fail.

Theorem C52_episode_cannot_fail D n cs (g : mgrid Q) :
  from_modules D g -> Forall (fun d => sane_reachable (snd d)) D -> Forall (fun d => lenient (snd d)) D ->
  no_reserved_name D -> has_unbalanced g -> total_shaper (mg_shaper g) ->
  Forall (data_left (length cs)) (mg_mods g) ->
  Forall (fun c => controls_given D c /\ well_shaped D c) cs ->
  exists g', all_run n g cs g'.
Proof. exact (episode_cannot_fail D n cs g). Qed.
Print Assumptions C52_episode_cannot_fail.

(** C53. *)
Theorem C53_batteries_within_capacity D (g : mgrid Q) :
  from_modules D g -> Forall (fun d => sane_reachable (snd d)) D -> Forall within_capacity (mg_mods g).
Proof. exact (batteries_in_capacity D g). Qed.
Print Assumptions C53_batteries_within_capacity.

(** ** The hypotheses can be met *)
Lemma ok_sane_reachable (m : module Q) : sane m -> sane_reachable m.
Proof. intros S. exists m, []. split; [exact S|reflexivity]. Qed.
Lemma ex_sane : Forall (fun d => sane_reachable (snd d)) ex_all.
Proof.
  repeat constructor; apply ok_sane_reachable; cbn [snd].
  - eapply (sane_load [[5]; [7]; [1]; [3]] FPOracle 2 false 0 4 false mg_rnd); [vm_compute; repeat (constructor; [reflexivity|]); constructor|intros (? & H); discriminate H|vm_compute; reflexivity].
  - eapply (sane_renewable [[3]; [0]; [9]; [2]] FPNone 0 false 0 4 false "renewable_used" mg_rnd); [vm_compute; repeat (constructor; [reflexivity|]); constructor|intros (? & H); discriminate H|vm_compute; reflexivity].
  - eapply (sane_battery 2 10 4 3 (9#10) (1#50) (Some 5%Q) None 0 false); vm_compute; first [reflexivity | congruence].
  - eapply (sane_genset 1 20 (FuelLin (2#5)) (1#10) 3 0 0 true true 0 false "genset_production"); vm_compute; first [reflexivity | congruence].
  - eapply (sane_grid 10 20 [[1; 2; 3]; [4; 5; 6]; [7; 8; 9]; [1; 1; 1]]%Q FPNone 0 false 0 4 (1#10) false Controllable mg_rnd); [discriminate|intros (? & H); discriminate H|vm_compute; reflexivity].
  - apply sane_unbalanced; vm_compute; congruence.
Qed.
Lemma ex_lenient : Forall (fun d => lenient (snd d)) ex_all.
Proof. repeat constructor. Qed.
Lemma ex_names : no_reserved_name ex_all.
Proof. intros d I. simpl in I. repeat (destruct I as [<-|I]; [vm_compute; split; discriminate|]). destruct I. Qed.
Lemma ex_given x : controls_given ex_all (ex_control x).
Proof. intros d I. simpl in I. repeat (destruct I as [<-|I]; [intros T; vm_compute; discriminate|]). destruct I. Qed.
Lemma ex_shaped x : well_shaped ex_all (ex_control x).
Proof.
  intros d v I T G. simpl in I. destruct I as [<-|[<-|[<-|[<-|[<-|[<-|[]]]]]]]; try discriminate T;
    vm_compute in G; injection G as <-; (apply Forall_cons; [|apply Forall_nil]).
  1, 3: reflexivity.
  exists 1, 3. split; [reflexivity|]. repeat split; vm_compute; congruence.
Qed.

Example C52_example :
  match ex_mg with
  | Ok g => from_modules ex_all g /\ has_unbalanced g /\ total_shaper (mg_shaper g)
      /\ Forall (data_left 4) (mg_mods g)
      /\ exists g', all_run false g [ex_control 1; ex_control (-1); ex_control 0; ex_control 2] g'
  | Err _ => False
  end.
Proof.
  destruct ex_mg as [g|e] eqn:E; [|vm_compute in E; discriminate E].
  pose proof (ex_from g [] E) as F. change (mplay [] g) with g in F.
  assert (U : has_unbalanced g) by (vm_compute in E; injection E as <-; exists 5%nat; eexists; split; [reflexivity|eexists; reflexivity]).
  assert (S : total_shaper (mg_shaper g)) by (vm_compute in E; injection E as <-; exact I).
  assert (DL : Forall (data_left 4) (mg_mods g)).
  { vm_compute in E. injection E as <-. repeat constructor; intros T; try (exfalso; apply T; reflexivity);
      exists 0%nat; split; [reflexivity|vm_compute; lia|reflexivity|vm_compute; lia|reflexivity|vm_compute; lia]. }
  split; [exact F|]. split; [exact U|]. split; [exact S|]. split; [exact DL|].
  apply (C52_episode_cannot_fail ex_all); auto using ex_sane, ex_lenient, ex_names.
  repeat constructor; auto using ex_given, ex_shaped.
Qed.

(** Two batteries and one surplus entry; then no entry for the grid. *)
Example C30_example :
  match ex_mg with
  | Ok g => from_modules ex_all g
      /\ (match run (("load", CList [VS 3]) :: ex_control 1) false g with (_, Ok _) => True | _ => False end)
      /\ (let r := run [("battery", CList [VS 1]); ("genset", CList [VA [1; 3]%Q])] false g in
          (match snd r with Err e => ex_class e = ValueError | Ok _ => False end)
          /\ map m_cur (mg_mods (fst r)) = [1; 0; 1; 1; 0; 0]%Z)
  | Err _ => False
  end.
Proof.
  destruct ex_mg as [g|e] eqn:E; [|vm_compute in E; discriminate E].
  split; [exact (ex_from g [] E)|]. vm_compute in E. injection E as <-.
  split; [vm_compute; exact I|]. vm_compute. split; reflexivity.
Qed.

(** A load of 5, a renewable giving 3 and nothing else: 2 are lost.  Selling
    nothing while the genset gives 9 curtails 4 and the renewable altogether. *)
Example C31_example :
  match ex_mg with
  | Ok g => mbuilt ex_defs true 10 2 None None g
      /\ (forall d, In d ex_defs -> mdef_name d <> "balancing")
      /\ (match run [("battery", CList [VS 0]); ("genset", CList [VA [0; 0]%Q]); ("grid", CList [VS 0])] false g with
          | (_, Ok (_, _, _, inf)) => exists i, dget "balancing" inf = Some [EInfo i] /\ provided i == 2
          | _ => False end)
      /\ (match run [("battery", CList [VS 0]); ("genset", CList [VA [1; 9]%Q]); ("grid", CList [VS 0])] false g with
          | (_, Ok (_, _, _, inf)) => exists i j, dget "balancing" inf = Some [EInfo i] /\ absorbed i == 4
              /\ dget "pv" inf = Some [EInfo j] /\ provided j == 0
          | _ => False end)
  | Err _ => False
  end.
Proof.
  destruct ex_mg as [g|e] eqn:E; [|vm_compute in E; discriminate E].
  split; [exact (ex_built g E)|]. vm_compute in E. injection E as <-.
  split; [intros d H; simpl in H; repeat (destruct H as [<-|H]; [vm_compute; discriminate|]); destruct H|].
  split; vm_compute; [eexists; split; reflexivity|].
  do 2 eexists. split; [reflexivity|]. split; [reflexivity|]. split; reflexivity.
Qed.

Example C38_example :
  match ex_mg with
  | Ok g => from_modules ex_all g
      /\ get_empty_action g false = [("genset", [None]); ("battery", [None]); ("grid", [None])]
      /\ length (get_empty_action g true) = 5%nat
      /\ mg_sample_action g false false (fun k => 1#2)
         = Ok [("genset", CList [VA [1#2; 1#2]]); ("battery", CList [VS (1#2)]); ("grid", CList [VS (1#2)])]
      /\ max_production mg_battery = Ok (BFin (27#10)) /\ max_consumption mg_battery = Ok (BFin (40#9))
  | Err _ => False
  end.
Proof.
  destruct ex_mg as [g|e] eqn:E; [|vm_compute in E; discriminate E].
  split; [exact (ex_from g [] E)|]. vm_compute in E. injection E as <-. vm_compute. auto 10.
Qed.

(** An unknown name and a surplus entry disappear. *)
Example C47_example :
  match ex_mg with
  | Ok g => from_modules ex_all g
      /\ (exists d, mg_convert true false g [("nobody", [VS 1]); ("battery", [VS 1; VS 2])] = Ok [("battery", d)] /\ length d = 1%nat)
  | Err _ => False
  end.
Proof.
  destruct ex_mg as [g|e] eqn:E; [|vm_compute in E; discriminate E].
  split; [exact (ex_from g [] E)|]. vm_compute in E. injection E as <-. vm_compute. eexists. split; reflexivity.
Qed.
