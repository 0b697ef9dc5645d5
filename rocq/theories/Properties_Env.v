(** * Properties C42, C43, C48: environments

    [discrete_env D e]: a discrete environment built from the modules [D], after any
    calls, failing ones included; [base_env], [continuous_env] likewise.
    [grid_of e]: its microgrid, the log of actions left out.  [answers D e e' o]: a
    call on [e] returned the observation [o] and left [e'].  Exact rationals. *)

From Coq Require Import ZArith QArith Qabs Bool String List Lia Lqa Permutation Sorted.
From Verif Require Import Num Py Space Logger Forecast Module Container Microgrid PriorityList Env
  Spec_Module Spec_Reach Spec_Genset Spec_Microgrid Spec_Sane Spec_Priority Spec_Env
  Proofs_Any Proofs_MgProps Proofs_Convert Proofs_Priority Proofs_Deploy Proofs_Rbc Proofs_Env Proofs_Obs Proofs_Cont
  Examples_Mg Properties_Priority.
Import ListNotations.
Local Open Scope string_scope.
Local Open Scope list_scope.
Local Open Scope Q_scope.

(** C42.  The actions of a new environment are all deployment orders, each once. *)
Theorem C42_actions ds add lossc overc sh tr (g0 : mgrid Q) flat keys rr e0 :
  let D := all_defs ds add lossc overc in
  mbuilt ds add lossc overc sh tr g0 -> names_separate D -> new_discrete_env g0 flat keys rr = Ok e0 ->
  ev_n e0 = length (ev_lists e0) /\ NoDup (ev_lists e0)
  /\ forall pl, In pl (ev_lists e0) <->
       deployment_order D g0 pl /\ (rr = true -> ~ idles_free_genset D g0 pl).
Proof. exact (discrete_actions ds add lossc overc sh tr g0 flat keys rr e0). Qed.
Print Assumptions C42_actions.

(** An action in range is one step of the rule-based controller with that list. *)
Theorem C42_step_is_list D (e : env Q) a : discrete_env D e -> in_action_space e a ->
  exists pl, nth_error (ev_lists e) (Z.to_nat a) = Some pl
    /\ (names_separate D -> drives D (grid_of e) pl)
    /\ exists g' r e', rbc_step pl (grid_of e) = (g', r) /\ grid_of e' = g'
       /\ ev_lists e' = ev_lists e
       /\ match r with
          | Ok (obs, rw, dn, inf) =>
              match get_obs e' obs with
              | Ok o => discrete_step a e = (e', Ok (o, rw, dn, inf))
              | Err x => discrete_step a e = (e', Err x)
              end
          | Err x => discrete_step a e = (e', Err x)
          end.
Proof. exact (step_is_list D e a). Qed.
Print Assumptions C42_step_is_list.

(** What that does, in terms of the modules. *)
Theorem C42_step_delivers D (e e' : env Q) a o rw dn inf : discrete_env D e -> names_separate D ->
  Forall (fun d => sane_reachable (snd d)) D -> Forall in_data (mg_mods (ev_mg e)) -> in_action_space e a ->
  discrete_step a e = (e', Ok (o, rw, dn, inf)) ->
  exists pl xs rest es, nth_error (ev_lists e) (Z.to_nat a) = Some pl
    /\ dispatched D (ev_mg e) pl (total demand (ev_mg e) - total renewable (ev_mg e)) xs rest
    /\ did (ev_mg e) es (ev_mg e')
    /\ Forall2 (fun el x => forall i m, refers D (el_module el) i -> at_index (ev_mg e) i m ->
         exists ev, In ev es /\ ev_id ev = i /\ ev_act ev = command m el x /\ ev_norm ev = false
           /\ match m_kind m with
              | KGenset _ => forall lo hi, production_limits m (el_action el) lo (BFin hi) ->
                               ev_absorbed ev == 0 /\ ev_provided ev == clip lo hi x
              | _ => ev_provided ev - ev_absorbed ev == x
              end) pl xs.
Proof. exact (discrete_delivers D e e' a o rw dn inf). Qed.
Print Assumptions C42_step_delivers.

(** In range nothing fails while data are left. *)
Theorem C42_cannot_fail D e a : discrete_env D e -> names_separate D ->
  Forall (fun d => sane_reachable (snd d)) D -> Forall (fun d => lenient (snd d)) D -> no_reserved_name D ->
  has_unbalanced (grid_of e) -> total_shaper (mg_shaper (grid_of e)) -> Forall in_data (mg_mods (grid_of e)) ->
  ev_keys e = [] \/ (forall d, In d D -> ~ one_entry (snd d)) -> in_action_space e a ->
  exists e' out, discrete_step a e = (e', Ok out).
Proof. exact (discrete_cannot_fail D e a). Qed.
Print Assumptions C42_cannot_fail.

(** Out of range: ValueError, the modules untouched, but one more row in the log
    of actions... *)
Theorem C42_refused D (e : env Q) a : discrete_env D e -> ~ in_action_space e a ->
  exists e', discrete_step a e = (e', raise ValueError "Action not in action space")
    /\ mg_mods (ev_mg e') = mg_mods (ev_mg e) /\ grid_of e' = grid_of e /\ ev_lists e' = ev_lists e
    /\ lg_len (mg_other (ev_mg e')) = S (lg_len (mg_other (ev_mg e))).
Proof. exact (step_refused D e a). Qed.
Print Assumptions C42_refused.

(** ... so that from then on the log cannot be read until the next reset. *)
Theorem C42_log ds add lossc overc sh g0 flat keys rr e0 :
  mbuilt ds add lossc overc sh None g0 -> names_separate (all_defs ds add lossc overc) ->
  Forall (fun d => fresh (snd d)) ds -> all_defs ds add lossc overc <> [] ->
  new_discrete_env g0 flat keys rr = Ok e0 ->
  forall k r e, env_episode e0 k r e ->
  (r = 0%nat -> exists cols, get_log (ev_mg e) = Ok cols /\ (forall h cells, In (h, cells) cols -> length cells = k)
     /\ (k <> 0%nat -> exists cells, In (("action", 0%nat, ""), cells) cols))
  /\ (r <> 0%nat -> raises ValueError (get_log (ev_mg e))).
Proof.
  intros B SEP FR NE N. exact (env_log ds add lossc overc sh g0 flat keys rr e0 B SEP N FR NE).
Qed.
Print Assumptions C42_log.

(** [remove_action] takes out one list, the later ones move up; the microgrid is
    untouched.  Out of range it raises and changes nothing. *)
Theorem C42_remove_action D (e : env Q) a : discrete_env D e ->
  (in_action_space e a -> exists e', remove_action a e = (e', Ok tt) /\ ev_mg e' = ev_mg e
     /\ ev_n e' = length (ev_lists e') /\ length (ev_lists e') = (length (ev_lists e) - 1)%nat
     /\ forall i, nth_error (ev_lists e') i
                  = nth_error (ev_lists e) (if Nat.ltb i (Z.to_nat a) then i else S i))
  /\ (~ in_action_space e a -> exists s, remove_action a e = (e, raise ValueError s)).
Proof. exact (remove_ok D e a). Qed.
Print Assumptions C42_remove_action.

(** C43.  With a load no action of the continuous environment is ever executed;
    without one, none if there is a controllable module. *)
Theorem C43_never D e a : continuous_env D e -> has_load D \/ (names_separate D /\ has_controllable D) ->
  exists e' x, continuous_step a e = (e', Err x) /\ (has_load D -> e' = e).
Proof. exact (continuous_never D e a). Qed.
Print Assumptions C43_never.

(** An action of the action space raises TypeError, any other AssertionError. *)
Theorem C43_exceptions D e a : continuous_env D e -> has_load D ->
  (in_nested (ev_mg e) a = false -> raises AssertionError (snd (continuous_step a e)))
  /\ (in_nested (ev_mg e) a = true -> Forall in_data (mg_mods (ev_mg e)) -> raises TypeError (snd (continuous_step a e))).
Proof. exact (continuous_load_class D e a). Qed.
Print Assumptions C43_exceptions.

(** Unless a grid has been made a fixed module, the action space is empty, and with
    flat spaces the environment cannot even be built. *)
Theorem C43_action_space D e a : continuous_env D e -> no_fixed_grid D ->
  in_nested (ev_mg e) a = true <-> a = CDict [].
Proof. exact (continuous_space D e a). Qed.
Print Assumptions C43_action_space.
Theorem C43_flat D (g : mgrid Q) keys e : from_modules D g -> no_fixed_grid D -> new_continuous_env g true keys <> Ok e.
Proof. exact (continuous_flat D g keys e). Qed.
Print Assumptions C43_flat.

(** C48.  A flat observation: the modules' normalized states, name after name in
    alphabetical order, and as long as the observation space says. *)
Theorem C48_flat D e e' o : any_env D e -> names_separate D -> answers D e e' o ->
  ev_keys e = [] -> ev_flat e = true ->
  exists nms xs, sorted_names D nms /\ o = OFlat xs
    /\ xs = concat (map (fun nm => concat (map (observed (ev_mg e')) (positions nm D))) nms)
    /\ length xs = flat_size (ev_space e).
Proof. exact (flat_observation D e e' o). Qed.
Print Assumptions C48_flat.
Theorem C48_nested D e e' o : any_env D e -> names_separate D -> answers D e e' o ->
  ev_keys e = [] -> ev_flat e = false ->
  exists d, o = ONested d /\ forall nm, option_map (map (@as_list Q)) (dget nm d)
                               = entry_for (map (observed (ev_mg e')) (positions nm D)).
Proof. exact (nested_observation D e e' o). Qed.
Print Assumptions C48_nested.

(** Each entry is between 0 and 1. *)
Theorem C48_unit D g i : from_modules D g -> Forall (fun d => sane_reachable (snd d)) D ->
  (forall d b, In d D -> m_kind (snd d) = KBattery b -> 0 < b_max_capacity b) ->
  Forall (fun y => 0 <= y /\ y <= 1) (observed g i).
Proof. exact (observed_unit D g i). Qed.
Print Assumptions C48_unit.

(** With keys: exactly the entries of the normalized state with these keys.  In the
    order of the state if the keys are sorted; otherwise some other order.  As many as
    the observation space says unless a key was given twice. *)
Theorem C48_keys D e e' o : any_env D e -> names_separate D -> answers D e e' o ->
  ev_keys e <> [] ->
  (forall d, In d D -> ~ one_entry (snd d))
  /\ exists s l, mg_state_series true (ev_mg e') = Ok s
      /\ (forall nm j k x, In ((nm, j, k), x) s <-> exists i m d, nth_error (positions nm D) j = Some i
            /\ nth_error (mg_mods (ev_mg e')) i = Some m /\ state_dict_normalized m = Ok d /\ In (k, x) d)
      /\ o = (if ev_flat e then OFlat (map snd l) else OEntries l)
      /\ Permutation l (requested (ev_keys e) s)
      /\ (keys_sorted (ev_keys e) = true -> l = requested (ev_keys e) s)
      /\ (length l = flat_size (ev_space e) <-> NoDup (ev_keys e)).
Proof. exact (keys_observation D e e' o). Qed.
Print Assumptions C48_keys.

(** With keys, an environment with a module whose state is one number (a load
    without forecasts, say) never returns an observation. *)
Theorem C48_keys_never D e : any_env D e -> names_separate D -> ev_keys e <> [] ->
  (exists d, In d D /\ one_entry (snd d)) -> forall e' o, ~ answers D e e' o.
Proof. exact (keys_never D e). Qed.
Print Assumptions C48_keys_never.

(** Otherwise it returns one whenever the microgrid does. *)
Theorem C48_returns D e : any_env D e -> names_separate D ->
  ev_keys e = [] \/ (forall d, In d D -> ~ one_entry (snd d)) ->
  (forall g' obs, mg_reset (grid_of e) = (g', Ok obs) ->
     exists e' o, env_reset e = (e', Ok o) /\ grid_of e' = g')
  /\ (forall c n g' obs rw dn inf, complete D c -> run c n (grid_of e) = (g', Ok (obs, rw, dn, inf)) ->
        exists e' o, env_step c n e = (e', Ok (o, rw, dn, inf)) /\ grid_of e' = g').
Proof. exact (returns_observation D e). Qed.
Print Assumptions C48_returns.

(** A key that no module has in its state is refused. *)
Theorem C48_unknown_key D (g : mgrid Q) flat keys k : from_modules D g -> names_separate D -> In k keys ->
  (forall i m d, nth_error (mg_mods g) i = Some m -> state_dict m = Ok d -> dget k d = None) ->
  raises NameError (new_base_env g flat keys).
Proof. exact (unknown_key D g flat keys k). Qed.
Print Assumptions C48_unknown_key.

(** ** Cases *)
Definition off_env (keys : list string) : res (env Q) :=
  match off_mg with Ok g => new_discrete_env g true keys false | Err x => Err x end.
Lemma off_discrete keys e cs : off_env keys = Ok e -> discrete_env off_all (eplay cs e).
Proof.
  unfold off_env. destruct off_mg as [g|] eqn:E; [|discriminate]. intros NE.
  exists off_defs, true, 10, 2, None, None, g, true, keys, false, e, cs.
  split; [|split; [reflexivity|split; [exact NE|reflexivity]]]. split; [exact off_reachable|exact E].
Qed.
(** Battery and genset: 2! orders with the genset off or on.  Action 2 runs; action 4 is
    refused and breaks the log; a reset repairs it. *)
Example C42_example :
  match off_env [] with
  | Ok e =>
      discrete_env off_all e /\ length (ev_lists e) = 4%nat /\ ev_flat e = true
      /\ let '(e1, r1) := discrete_step 2 e in
         let '(e2, r2) := discrete_step 4 e1 in
         let '(e3, r3) := env_reset e2 in
         (exists xs rw dn inf, r1 = Ok (OFlat xs, rw, dn, inf) /\ length xs = flat_size (ev_space e))
         /\ (exists c, get_log (ev_mg e1) = Ok c)
         /\ raises ValueError r2 /\ raises ValueError (get_log (ev_mg e2))
         /\ (exists c, get_log (ev_mg e3) = Ok c)
  | Err _ => False
  end.
Proof.
  destruct (off_env []) as [e|x] eqn:E; [|vm_compute in E; discriminate E].
  split; [exact (off_discrete [] e [] E)|].
  assert (X : Ok e = off_env []) by (symmetry; exact E). vm_compute in X. injection X as ->.
  split; [vm_compute; reflexivity|]. split; [reflexivity|]. vm_compute.
  split; [do 4 eexists; split; reflexivity|]. split; [eexists; reflexivity|]. split; [eexists; split; reflexivity|].
  split; [eexists; split; reflexivity|eexists; reflexivity].
Qed.
(** The hypotheses of [C42_cannot_fail]. *)
Example C42_cannot_fail_example :
  match off_env [] with
  | Ok e => has_unbalanced (grid_of e) /\ total_shaper (mg_shaper (grid_of e)) /\ Forall in_data (mg_mods (grid_of e))
            /\ ev_keys e = [] /\ in_action_space e 3
  | Err _ => False
  end.
Proof.
  unfold off_env. destruct off_mg as [g|x] eqn:E; [|vm_compute in E; discriminate E].
  destruct (new_discrete_env g true [] false) as [e|x] eqn:N; [|exfalso].
  2:{ assert (X : Ok g = off_mg) by (symmetry; exact E). vm_compute in X. injection X as ->. vm_compute in N. discriminate N. }
  pose proof C54_example as H. rewrite E in H. destruct H as (_ & HU & TS & DL & _).
  destruct (new_discrete_ok _ _ _ _ _ N) as (M & _ & _ & _ & K & _).
  unfold grid_of. rewrite M. conj; [exact HU|exact TS| |exact K|].
  - eapply Forall_impl; [|exact DL]. intros m. apply left_in_data.
  - assert (X : Ok g = off_mg) by (symmetry; exact E). vm_compute in X. injection X as ->. vm_compute in N. injection N as <-.
    vm_compute. split; [discriminate|reflexivity].
Qed.

(** A load with forecasts and a battery. *)
Definition key_defs : list (mdef Q) := [(Some "load", mg_load); (None, mg_battery)].
Definition key_all : list (mdef Q) := all_defs key_defs true 10 2.
Definition key_mg : res (mgrid Q) := new_microgrid key_defs true 10 2 None None.
Lemma key_built g : key_mg = Ok g -> mbuilt key_defs true 10 2 None None g.
Proof.
  intros E. split; [|exact E]. pose proof off_reachable as R. rewrite Forall_forall in R.
  repeat constructor; apply (R (_, _)); simpl; auto.
Qed.
Lemma key_separate : names_separate key_all.
Proof. apply separate_b_ok. vm_compute. reflexivity. Qed.
Definition key_env (flat : bool) (keys : list string) : res (env Q) :=
  match key_mg with Ok g => new_base_env g flat keys | Err x => Err x end.
Lemma key_base flat keys e cs : key_env flat keys = Ok e -> base_env key_all (bplay cs e).
Proof.
  unfold key_env. destruct key_mg as [g|] eqn:E; [|discriminate]. intros NE.
  exists key_defs, true, 10, 2, None, None, g, flat, keys, e, cs.
  split; [exact (key_built g E)|]. split; [reflexivity|split; [exact NE|reflexivity]].
Qed.
Lemma key_answers flat keys e e' o : key_env flat keys = Ok e -> env_reset e = (e', Ok o) ->
  any_env key_all e /\ answers key_all e e' o.
Proof. intros E R. split; [left; exact (key_base flat keys e [] E)|apply an_reset; exact R]. Qed.

Definition obs_len (o : observation Q) : nat :=
  match o with OFlat xs => length xs | ONested d => length d | OEntries l => length l end.
(** All, one, and one key asked for twice: the observation has 5, 1, 1 entries, the
    space says 5, 1, 2. *)
Example C48_example :
  forall keys, In keys [[]; ["soc"]; ["soc"; "soc"]] ->
  match key_env true keys with
  | Ok e => match env_reset e with
            | (e', Ok o) => any_env key_all e /\ answers key_all e e' o
                /\ (obs_len o, flat_size (ev_space e)) =
                   match keys with [] => (5, 5) | [_] => (1, 1) | _ => (1, 2) end%nat
            | _ => False
            end
  | Err _ => False
  end.
Proof.
  intros keys IN. destruct (key_env true keys) as [e|x] eqn:E.
  2:{ destruct IN as [<-|[<-|[<-|[]]]]; vm_compute in E; discriminate E. }
  destruct (env_reset e) as [e' [o|x]] eqn:R.
  - destruct (key_answers true keys e e' o E R) as [A B]. split; [exact A|]. split; [exact B|].
    assert (X : snd (env_reset e) = Ok o) by (rewrite R; reflexivity).
    destruct IN as [<-|[<-|[<-|[]]]]; vm_compute in E; injection E as <-; vm_compute in X; injection X as <-; vm_compute; reflexivity.
  - assert (X : snd (env_reset e) = Err x) by (rewrite R; reflexivity).
    destruct IN as [<-|[<-|[<-|[]]]]; vm_compute in E; injection E as <-; vm_compute in X; discriminate X.
Qed.
(** The claim that the space always gives the length of the observation is false. *)
Theorem C48_advertised_length_refuted :
  ~ (forall D e e' o, any_env D e -> names_separate D -> answers D e e' o -> ev_flat e = true ->
       obs_len o = flat_size (ev_space e)).
Proof.
  intros H. pose proof (C48_example ["soc"; "soc"] (or_intror (or_intror (or_introl eq_refl)))) as X.
  destruct (key_env true ["soc"; "soc"]) as [e|x] eqn:E; [|contradiction].
  destruct (env_reset e) as [e' [o|x]] eqn:R; [|contradiction]. destruct X as (A & B & L).
  specialize (H key_all e e' o A key_separate B). rewrite (f_equal fst L : obs_len o = 1%nat) in H.
  rewrite (f_equal snd L : flat_size (ev_space e) = 2%nat) in H.
  assert (FL : ev_flat e = true) by (vm_compute in E; injection E as <-; reflexivity). specialize (H FL). discriminate H.
Qed.
Print Assumptions C48_advertised_length_refuted.

(** With a pv without forecasts no key can be used. *)
Example C48_keys_never_example :
  exists e, off_env ["soc"] = Ok e /\ any_env off_all e /\ names_separate off_all /\ ev_keys e <> []
    /\ exists d, In d off_all /\ one_entry (snd d).
Proof.
  destruct (off_env ["soc"]) as [e|x] eqn:E; [|vm_compute in E; discriminate E].
  exists e. split; [reflexivity|]. split; [right; exact (off_discrete _ e [] E)|]. split; [exact off_separate|].
  split; [vm_compute in E; injection E as <-; discriminate|].
  exists (Some "pv", mg_pv). split; [simpl; auto|]. exists 3. vm_compute. reflexivity.
Qed.

(** The continuous environment for the load and the battery. *)
Example C43_example :
  exists g e, key_mg = Ok g /\ new_continuous_env g false [] = Ok e /\ continuous_env key_all e
    /\ has_load key_all /\ no_fixed_grid key_all /\ in_nested (ev_mg e) (CDict []) = true.
Proof.
  destruct key_mg as [g|x] eqn:G; [|vm_compute in G; discriminate G].
  destruct (new_continuous_env g false []) as [e|x] eqn:E; [|vm_compute in G; injection G as <-; vm_compute in E; discriminate E].
  exists g, e. split; [reflexivity|]. split; [exact E|].
  assert (C : continuous_env key_all e).
  { exists key_defs, true, 10, 2, None, None, g, false, [], e, [].
    split; [exact (key_built g G)|]. split; [reflexivity|split; [exact E|reflexivity]]. }
  assert (NF : no_fixed_grid key_all).
  { intros d gr t I K. exfalso. destruct I as [<-|[<-|[<-|[]]]]; vm_compute in K; discriminate K. }
  split; [exact C|]. split; [|split; [exact NF|]].
  - exists (Some "load", mg_load). eexists. split; [simpl; auto|]. vm_compute. reflexivity.
  - apply (continuous_space key_all e (CDict []) C NF). reflexivity.
Qed.
