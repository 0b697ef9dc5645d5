(** * C36: trajectory functions and the episodes they give *)

From Coq Require Import ZArith QArith Bool String List Lia.
From Verif Require Import Num Py Space Logger Forecast Module Container Microgrid Trajectory
  Spec_Module Spec_Reach Spec_Microgrid Spec_Trajectory
  Proofs_Module Proofs_Trajectory Examples_Mg.
Import ListNotations.
Local Open Scope string_scope.
Local Open Scope list_scope.
Local Open Scope Z_scope.

(** ** The functions alone, for every range and every draw *)

(** A stochastic window lies in the range, starts at least three steps before
    its end, and may be empty. *)
Theorem C36_stochastic_inside draw k initial final w :
  stochastic_trajectory draw k initial (Some final) = Ok w ->
  inside initial final w /\ initial <= fst w < final - 2 /\ fst w <= snd w < final.
Proof. exact (stochastic_in draw k initial final w). Qed.
Print Assumptions C36_stochastic_inside.

(** Exactly the ranges of at most two steps are refused. *)
Theorem C36_stochastic_refuses draw k initial final :
  (raises ValueError (stochastic_trajectory draw k initial (Some final)) <-> final - initial <= 2)
  /\ (2 < final - initial -> exists w, stochastic_trajectory draw k initial (Some final) = Ok w).
Proof. exact (stochastic_refuses draw k initial final). Qed.
Print Assumptions C36_stochastic_refuses.

(** Each of those windows is drawn sometimes, the empty ones included. *)
Theorem C36_stochastic_all initial final a b : initial <= a < final - 2 -> a <= b < final ->
  exists d, forall draw k, draw k = d -> stochastic_trajectory draw k initial (Some final) = Ok (a, b).
Proof. exact (stochastic_all initial final a b). Qed.
Print Assumptions C36_stochastic_all.

Theorem C36_fixed_length_inside len draw k initial final w :
  fixed_length_trajectory len draw k initial (Some final) = Ok w ->
  inside initial final w /\ snd w - fst w = len /\ snd w < final.
Proof. exact (fixed_in len draw k initial final w). Qed.
Print Assumptions C36_fixed_length_inside.

(** Not only longer windows than the range are refused, the range itself is. *)
Theorem C36_fixed_length_refuses len draw k initial final :
  (raises ValueError (fixed_length_trajectory len draw k initial (Some final)) <-> final - initial <= len)
  /\ (len < final - initial -> exists w, fixed_length_trajectory len draw k initial (Some final) = Ok w).
Proof. exact (fixed_refuses len draw k initial final). Qed.
Print Assumptions C36_fixed_length_refuses.

Theorem C36_fixed_length_all len initial final a : initial <= a < final - len ->
  exists d, forall draw k, draw k = d -> fixed_length_trajectory len draw k initial (Some final) = Ok (a, a + len).
Proof. exact (fixed_all len initial final a). Qed.
Print Assumptions C36_fixed_length_all.

Example C36_functions_example :
  stochastic_trajectory (fun _ => (5, 7)) 0%nat 1 (Some 6) = Ok (3, 4)
  /\ fixed_length_trajectory 3 (fun _ => 3) 0%nat 1 (Some 6) = Ok (2, 5)
  /\ raises ValueError (fixed_length_trajectory 5 (fun _ => 3) 0%nat 1 (Some 6))
  /\ raises ValueError (stochastic_trajectory (fun _ => (5, 7)) 0%nat 4 (Some 6)).
Proof.
  split; [reflexivity|]. split; [reflexivity|].
  split; eexists; split; reflexivity.
Qed.

(** ** Construction asks the function once and refuses a bad answer *)
Theorem C36_construction ds add lossc overc sh (f : traj_fn) (g0 : mgrid Q) :
  new_microgrid ds add lossc overc sh None = Ok g0 ->
  let r := f 0%nat (mg_initial g0) (mg_final g0) in
  (forall w, r = Ok w -> mg_initial g0 <= fst w -> (forall x, mg_final g0 = Some x -> snd w <= x) -> fst w < snd w ->
     exists g, new_microgrid ds add lossc overc sh (Some f) = Ok g /\ mg_traj g = Some f
       /\ mg_mods g = mg_mods g0 /\ mg_initial g = mg_initial g0 /\ mg_final g = mg_final g0)
  /\ (forall w, r = Ok w -> fst w < mg_initial g0 \/ (exists x, mg_final g0 = Some x /\ x < snd w) \/ snd w <= fst w ->
     raises ValueError (new_microgrid ds add lossc overc sh (Some f)))
  /\ (forall e, r = Err e -> new_microgrid ds add lossc overc sh (Some f) = Err e).
Proof.
  intros N. destruct (construction_checks ds add lossc overc sh f g0 N) as (A & B & C). split; [|exact (conj B C)].
  intros w R H1 H2 H3. eexists. split; [exact (A w R H1 H2 H3)|]. repeat split; reflexivity.
Qed.
Print Assumptions C36_construction.

(** ** What a reset does with the window *)
Theorem C36_reset_uses_window D (g g' : mgrid Q) obs i e : from_modules D g -> names_separate D ->
  next_window g (Ok (i, e)) -> mg_reset g = (g', Ok obs) ->
  Forall (fun m => m_init m = i /\ m_cur m = i
                   /\ (is_ts m -> final_step m = Some (ends e m) /\ i < ends e m)) (mg_mods g').
Proof. exact (reset_window_steps D g g' obs i e). Qed.
Print Assumptions C36_reset_uses_window.

Theorem C36_reset_accepts D (g : mgrid Q) i e : from_modules D g -> has_series g ->
  (forall m, In m (mg_mods g) -> ~ user_forecaster m) ->
  next_window g (Ok (i, e)) -> (forall m, In m (mg_mods g) -> is_ts m -> i < ends e m) ->
  exists g' obs, mg_reset g = (g', Ok obs).
Proof. exact (reset_window_succeeds D g i e). Qed.
Print Assumptions C36_reset_accepts.

Theorem C36_reset_refuses D (g : mgrid Q) i e : from_modules D g -> next_window g (Ok (i, e)) ->
  (exists m, In m (mg_mods g) /\ is_ts m /\ ends e m <= i) -> raises ValueError (snd (mg_reset g)).
Proof. exact (reset_window_refused D g i e). Qed.
Print Assumptions C36_reset_refuses.

(** The episode lasts as long as the window. *)
Theorem C36_window_episode D (g g1 g2 g3 : mgrid Q) i e k obs c n o rw d inf :
  from_modules D g -> names_separate D -> has_series g -> next_window g (Ok (i, e)) -> 0 < e ->
  mg_reset g = (g1, Ok obs) -> after_runs D g1 k g2 ->
  Forall (fun m => m_cur m = i + Z.of_nat k) (mg_mods g2)
  /\ (complete D c -> run c n g2 = (g3, Ok (o, rw, d, inf)) -> (d = true <-> e - i <= Z.of_nat (S k))).
Proof. exact (window_episode D g g1 g2 g3 i e k obs c n o rw d inf). Qed.
Print Assumptions C36_window_episode.

(** With a fixed-length trajectory every reset succeeds and every episode is
    done at its [len]-th run, not before. *)
Theorem C36_fixed_length_episode D (g : mgrid Q) len draw f :
  from_modules D g -> names_separate D -> has_series g -> (forall m, In m (mg_mods g) -> ~ user_forecaster m) ->
  mg_traj g = Some (fixed_length_trajectory len draw) -> mg_final g = Some f ->
  0 <= mg_initial g -> 0 < len < f - mg_initial g ->
  exists g1 obs i, mg_reset g = (g1, Ok obs) /\ mg_initial g <= i /\ i + len < f
    /\ forall k g2, after_runs D g1 k g2 ->
         Forall (fun m => m_cur m = i + Z.of_nat k) (mg_mods g2)
         /\ forall c n g3 o rw d inf, complete D c -> run c n g2 = (g3, Ok (o, rw, d, inf)) ->
              (d = true <-> len <= Z.of_nat (S k)).
Proof. exact (fixed_length_episode D g len draw f). Qed.
Print Assumptions C36_fixed_length_episode.

(** With a deterministic trajectory every reset succeeds and starts the same
    window, whatever was done before (also after the microgrid's own initial and
    final step were changed). *)
Theorem C36_deterministic_reset D (g : mgrid Q) i e :
  from_modules D g -> names_separate D -> has_series g -> (forall m, In m (mg_mods g) -> ~ user_forecaster m) ->
  mg_traj g = Some (deterministic_trajectory i e) -> 0 < e -> i < e ->
  exists g1 obs, mg_reset g = (g1, Ok obs)
    /\ Forall (fun m => m_init m = i /\ m_cur m = i /\ (is_ts m -> final_step m = Some e)) (mg_mods g1).
Proof. exact (deterministic_reset D g i e). Qed.
Print Assumptions C36_deterministic_reset.

(** With a stochastic trajectory a reset succeeds or fails with the draw. *)
Theorem C36_stochastic_reset D (g : mgrid Q) draw f :
  from_modules D g -> has_series g -> (forall m, In m (mg_mods g) -> ~ user_forecaster m) ->
  mg_traj g = Some (stochastic_trajectory draw) -> mg_final g = Some f ->
  0 <= mg_initial g -> 2 < f - mg_initial g ->
  exists i e, stochastic_trajectory draw (mg_calls g) (mg_initial g) (Some f) = Ok (i, e)
    /\ (i < e -> exists g1 obs, mg_reset g = (g1, Ok obs))
    /\ (0 < i -> i = e -> raises ValueError (snd (mg_reset g))).
Proof. exact (stochastic_reset D g draw f). Qed.
Print Assumptions C36_stochastic_reset.

(** *** Examples *)
Definition ex_traj (f : traj_fn) : res (mgrid Q) := new_microgrid ex_defs true 10%Q 2%Q None (Some f).
Lemma ex_traj_from f g : ex_traj f = Ok g -> from_modules ex_all g.
Proof.
  intros E. exists ex_defs, true, 10%Q, 2%Q, None, (Some f), g, [].
  split; [split; [exact ex_defs_reachable|exact E]|]. split; reflexivity.
Qed.
Definition ex_two : traj_fn := fixed_length_trajectory 2 (fun k => Z.of_nat k).

(** A microgrid with four steps and episodes of two: the second reset starts at
    step 1 (the draw is 1); the first run is not done, the second is. *)
Example C36_episode_example :
  match ex_traj ex_two with
  | Ok g => from_modules ex_all g /\ has_series g /\ (forall m, In m (mg_mods g) -> ~ user_forecaster m)
      /\ mg_traj g = Some ex_two /\ mg_final g = Some 4 /\ mg_initial g = 0
      /\ next_window g (Ok (1, 3))
      /\ let g1 := fst (mg_reset g) in
         let g2 := fst (run (ex_control 4%Q) false g1) in
         (exists o rw inf, snd (run (ex_control 4%Q) false g1) = Ok (o, rw, false, inf))
         /\ (exists o rw inf, snd (run (ex_control 4%Q) false g2) = Ok (o, rw, true, inf))
         /\ after_runs ex_all g1 1 g2
  | Err _ => False
  end.
Proof.
  destruct (ex_traj ex_two) as [g|e] eqn:E; [|vm_compute in E; discriminate E].
  split; [exact (ex_traj_from _ _ E)|]. split.
  { vm_compute in E. injection E as <-. do 2 eexists. split; [left; reflexivity|reflexivity]. }
  split.
  { vm_compute in E. injection E as <-. intros m I (t & vec & f & K & U). simpl in I.
    repeat (destruct I as [<-|I]; [vm_compute in K; try discriminate K; injection K as <-; vm_compute in U; discriminate U|]).
    destruct I. }
  assert (T : mg_traj g = Some ex_two) by (unfold ex_traj, ex_two in *; vm_compute in E; injection E as <-; reflexivity).
  split; [exact T|].
  assert (R : is_ok (snd (run (ex_control 4%Q) false (fst (mg_reset g)))) = true) by (vm_compute in E; injection E as <-; vm_compute; reflexivity).
  split; [vm_compute in E; injection E as <-; reflexivity|].
  split; [vm_compute in E; injection E as <-; reflexivity|].
  split; [exists ex_two; split; [exact T|vm_compute in E; injection E as <-; vm_compute; reflexivity]|].
  cbv zeta. split; [vm_compute in E; injection E as <-; vm_compute; do 3 eexists; reflexivity|].
  split; [vm_compute in E; injection E as <-; vm_compute; do 3 eexists; reflexivity|].
  clear E T. revert R. generalize (fst (mg_reset g)). intros g1 R.
  destruct (run (ex_control 4%Q) false g1) as [g2 [o|e]] eqn:RN; [|discriminate R].
  eapply after_run; [apply after_none|exact (ex_complete 4%Q)|exact RN].
Qed.

(** "A microgrid that was built with a StochasticTrajectory can be reset" is
    false: the window drawn at construction is fine, the next one is empty. *)
Theorem C36_stochastic_reset_refuted :
  match ex_traj (stochastic_trajectory (fun k => match k with O => (0, 3) | _ => (1, 0) end)) with
  | Ok g => from_modules ex_all g /\ next_window g (Ok (1, 1)) /\ raises ValueError (snd (mg_reset g))
  | Err _ => False
  end.
Proof.
  destruct (ex_traj _) as [g|e] eqn:E; [|vm_compute in E; discriminate E].
  split; [exact (ex_traj_from _ _ E)|]. vm_compute in E. injection E as <-.
  split; [eexists; split; [reflexivity|vm_compute; reflexivity]|]. vm_compute. eexists. split; reflexivity.
Qed.
Print Assumptions C36_stochastic_reset_refuted.

(** "An empty window is refused" is false for the window (0, 0): a final step of
    0 stands for the end of the data, and the episode has all four steps. *)
Theorem C36_empty_window_at_zero_refuted :
  match ex_traj (stochastic_trajectory (fun k => match k with O => (0, 3) | _ => (0, 0) end)) with
  | Ok g => from_modules ex_all g /\ next_window g (Ok (0, 0))
      /\ (exists obs, snd (mg_reset g) = Ok obs)
      /\ (exists m, nth_error (mg_mods (fst (mg_reset g))) 0 = Some m /\ final_step m = Some 4)
  | Err _ => False
  end.
Proof.
  destruct (ex_traj _) as [g|e] eqn:E; [|vm_compute in E; discriminate E].
  split; [exact (ex_traj_from _ _ E)|]. vm_compute in E. injection E as <-.
  split; [eexists; split; [reflexivity|vm_compute; reflexivity]|]. vm_compute.
  split; [eexists; reflexivity|]. eexists. split; reflexivity.
Qed.
Print Assumptions C36_empty_window_at_zero_refuted.

(** The construction example: accepted and refused. *)
Example C36_construction_example :
  (exists g0, ex_mg = Ok g0 /\ mg_initial g0 = 0 /\ mg_final g0 = Some 4)
  /\ is_ok (ex_traj (deterministic_trajectory 1 3)) = true
  /\ raises ValueError (ex_traj (deterministic_trajectory 1 5))
  /\ raises ValueError (ex_traj (deterministic_trajectory (-1) 3))
  /\ raises ValueError (ex_traj (deterministic_trajectory 2 2)).
Proof.
  split; [vm_compute; eexists; split; [reflexivity|split; reflexivity]|].
  split; [vm_compute; reflexivity|].
  repeat split; vm_compute; eexists; split; reflexivity.
Qed.
