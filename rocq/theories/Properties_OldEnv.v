(** * Properties C87-C89: the environments around non-modular microgrids

    [action_priority g k], [action_continuous g a], [action_discrete g a]: the control that an
    environment makes of an action (a number, a list of fractions, a list of amounts).
    [meaning], [asks]: what the numbers stand for, with the quantities (Spec_OldEnv).
    [new_old_env]: the constructor around a microgrid; [env_step], [env_reset] with any way
    [control_of] of making controls; [env_plays e l os e']: steps with the actions [l], all
    returning, with the results [os].  Exact rationals; sine, cosine and root are any functions. *)

From Coq Require Import ZArith QArith Qminmax Qabs Bool String List Permutation Lia Lqa.
From Verif Require Import Num Py NonModular OldEnv Spec_Module Spec_NonModular Spec_OldEnv Proofs_Num Proofs_NonModular Proofs_NmRun
  Proofs_NmHistory Proofs_NmBattery Proofs_NmEpisode Proofs_NmTotal Proofs_NmProgress Proofs_NmRbcRun Proofs_OldEnv Proofs_OldEnv2
  Proofs_OldEnv3 Proofs_OldEnv4 Proofs_OldEnv5 Properties_NonModular.
Import ListNotations.
Local Open Scope string_scope.
Local Open Scope list_scope.
Local Open Scope Q_scope.

(** ** Microgrids whose battery shows its room *)

Definition oe_status0 (ar : arch) : record Q :=
  [("load", [CNum 10]); ("hour", [CNum 0]); ("pv", [CNum 5])]
  ++ [("battery_soc", [CNum (1 # 2)]); ("capa_to_charge", [CNum 45]); ("capa_to_discharge", [CNum 27])]
  ++ (if has_grid ar then [("grid_status", [CNum 1]); ("grid_co2", [CNum (1 # 2)]);
        ("grid_price_import", [CNum (3 # 10)]); ("grid_price_export", [CNum (1 # 10)])] else []).
Definition oe_example (ar : arch) (load pv : list Q) : nm_spec Q :=
  mkSpec (nm_parameters ++ [("load", 50); ("PV_rated_power", 60)]) ar (Some load) (Some pv)
    (Some [1; 1; 0; 1; 1]) (Some [3 # 10; 2 # 10; 3 # 10; 5 # 10; 3 # 10]) (Some [1 # 10; 1 # 10; 2 # 10; 1 # 10; 1 # 10])
    (Some [1 # 2; 1 # 2; 1 # 4; 1 # 2; 1 # 2])
    (empties ["load"; "pv_consummed"; "pv_curtailed"; "pv"; "battery_charge"; "battery_discharge"; "grid_import";
              "grid_export"; "genset"])
    (oe_status0 ar) (empties (production_columns ar)) (empties (cost_columns ar)) (empties ["co2"]).
Definition plain_arch : arch := mkArch true true false true.
Definition oe_grid0 (ar : arch) : nonmod Q := nm_get (new_nonmodular (oe_example ar nm_load nm_pv) 2).

Lemma oe_wired ar load pv : has_battery ar = true -> wired (oe_example ar load pv).
Proof.
  intros HB. constructor; cbn [oe_example sp_parameters sp_arch sp_generation sp_cost sp_df_co2 sp_status sp_actions].
  - intros k I. unfold parameter_names in I. rewrite HB in I.
    destruct (has_grid ar), (has_genset ar); simpl in I; intuition (subst; eexists; reflexivity).
  - unfold columns, empties. rewrite map_map. simpl. rewrite map_id. apply Permutation_refl.
  - unfold columns, empties. rewrite map_map. simpl. rewrite map_id. apply Permutation_refl.
  - apply Permutation_refl.
  - unfold columns, oe_status0, status_columns. rewrite HB. destruct (has_grid ar); apply Permutation_refl.
  - unfold oe_status0. destruct (has_grid ar); repeat (constructor; [eexists; reflexivity|]); constructor.
  - unfold empties. apply Forall_forall. intros kl I. apply in_map_iff in I. destruct I as (k & <- & _). reflexivity.
  - unfold empties. apply Forall_forall. intros kl I. apply in_map_iff in I. destruct I as (k & <- & _). reflexivity.
  - unfold empties. apply Forall_forall. intros kl I. apply in_map_iff in I. destruct I as (k & <- & _). reflexivity.
  - unfold empties. apply Forall_forall. intros kl I. apply in_map_iff in I. destruct I as (k & <- & _). reflexivity.
  - intros _. exists (1 # 2). reflexivity.
Qed.
Lemma oe_new ar : ar = full_arch \/ ar = island_arch \/ ar = plain_arch -> new_nonmodular (oe_example ar nm_load nm_pv) 2 = Ok (oe_grid0 ar).
Proof. intros [-> | [-> | ->]]; vm_compute; reflexivity. Qed.
Lemma oe_shows g : nm_par g = nm_parameters ++ [("load", 50); ("PV_rated_power", 60)] ->
  latest (nm_state g) "battery_soc" (CNum (1 # 2)) -> bv_charge (nm_battery g) = CNum 45 -> bv_discharge (nm_battery g) = CNum 27 ->
  shows_room g.
Proof.
  intros P L B C. exists (1 # 2), 45, 45, 27, 27. unfold charge_room, discharge_room, parameter. rewrite P.
  split; [exact L|]. split; [exact B|]. split; [exists 1, 100, (9 # 10); repeat split; reflexivity|]. split; [lra|].
  split; [exact C|]. split; [exists (1 # 5), 100, (9 # 10); repeat split; reflexivity|]. lra.
Qed.
Lemma oe_powers g : nm_par g = nm_parameters ++ [("load", 50); ("PV_rated_power", 60)] -> powers_ok g.
Proof.
  intros P k x I H. unfold parameter in H. rewrite P in H. simpl in I.
  intuition (subst; vm_compute in H; injection H as <-; vm_compute; discriminate).
Qed.

(** ** C87: the choices of the priority list *)

Theorem C87_choices (g : nonmod Q) k x y : has_battery (nm_arch g) = true -> can_charge g x -> can_discharge g y ->
  (has_genset (nm_arch g) = true -> (exists a, parameter g "genset_rated_power" a) /\ exists b, parameter g "genset_pmax" b) ->
  match meaning (nm_arch g) k with
  | Some _ => exists c, action_priority g k = Ok c
  | None => raises NameError (action_priority g k)
  end.
Proof. exact (priority_verdict g k x y). Qed.
Print Assumptions C87_choices.

(** The discrete environments offer exactly the numbers that have a meaning. *)
Theorem C87_offered (ar : arch) k : has_grid ar || has_genset ar = true ->
  ((exists i, meaning ar k = Some i) <-> (0 <= k < choices ar)%Z).
Proof.
  intros H. unfold meaning, nth_intent, choices. destruct (Z.ltb_spec k 0) as [L|L].
  - split; [intros (i & X); discriminate X|lia].
  - assert (X : forall l : list intent, (exists i, nth_error l (Z.to_nat k) = Some i) <-> (k < Z.of_nat (length l))%Z).
    { intros l. split.
      - intros (i & E). assert (Z.to_nat k < length l)%nat by (apply nth_error_Some; congruence). lia.
      - intros K. destruct (nth_error l (Z.to_nat k)) eqn:E; [eauto|]. apply nth_error_None in E. lia. }
    rewrite X. destruct (has_genset ar), (has_grid ar); try discriminate H; cbn; lia.
Qed.
Print Assumptions C87_offered.
(** Without both, two numbers are offered though five have a meaning. *)
Theorem C87_offered_bare_refuted : ~ (forall (ar : arch) k, (exists i, meaning ar k = Some i) -> (0 <= k < choices ar)%Z).
Proof. intros H. specialize (H (mkArch true true false false) 4%Z ltac:(eexists; reflexivity)). cbn in H. lia. Qed.
Print Assumptions C87_offered_bare_refuted.

Theorem C87_asks (g : nonmod Q) k c : action_priority g k = Ok c ->
  exists i x y a, meaning (nm_arch g) k = Some i /\ can_charge g x /\ can_discharge g y /\ controls c a /\ asks g i x y a.
Proof. exact (priority_asks g k c). Qed.
Print Assumptions C87_asks.
(** At the second step, with 30 of PV left over: charging with it, or with the grid *)
Example C87_asks_example : let g := nm_after [HRun some_control] (oe_grid0 full_arch) in
  (exists c, action_priority g 0 = Ok c /\ exists x, dget "battery_charge" c = Some x /\ x == 25)
  /\ (exists c, action_priority g 5 = Ok c /\ exists x y, dget "battery_charge" c = Some x /\ x == 25 /\ dget "grid_export" c = Some y /\ y == 0)
  /\ meaning full_arch 5 = Some ChargeGrid /\ meaning full_arch 7 = None /\ raises NameError (action_priority g 7)
  /\ meaning plain_arch 4 = Some ChargeGrid.
Proof.
  repeat split; try reflexivity.
  - eexists. split; [vm_compute; reflexivity|]. eexists. split; [vm_compute; reflexivity|vm_compute; reflexivity].
  - eexists. split; [vm_compute; reflexivity|]. do 2 eexists. repeat split; vm_compute; reflexivity.
  - eexists. split; vm_compute; reflexivity.
Qed.

Theorem C87_served (g g' : nonmod Q) k c v i a : action_priority g k = Ok c -> meaning (nm_arch g) k = Some i -> controls c a ->
  shows_room g -> powers_ok g -> nm_run c g = (g', Ok v) ->
  0 <= now_pv (nm_now g) -> 0 <= now_status (nm_now g) <= 1 ->
  exists o, produced g g' o
    /\ oc_charge o == am_charge a /\ oc_discharge o == am_discharge a
    /\ (enough g i a -> oc_loss o == 0)
    /\ (i = ChargePv \/ i = Export -> oc_loss o == missing g \/ oc_loss o == 0 /\ missing g < 1 # 1000)
    /\ (i = ChargePv \/ i = Export -> taken g a -> oc_curtailed o == 0).
Proof. intros. eapply choice_served; eassumption. Qed.
Print Assumptions C87_served.
Example C87_served_example : let g := oe_grid0 full_arch in shows_room g /\ powers_ok g
  /\ (forall k, In k [0; 1; 2; 3; 4; 5; 6]%Z -> exists c a, action_priority g k = Ok c /\ controls c a /\ returns (nm_run c g) = true)
  /\ (exists c a, action_priority g 1 = Ok c /\ controls c a /\ enough g Discharge a /\ 0 < am_discharge a)
  /\ (exists c a, action_priority g 0 = Ok c /\ controls c a /\ taken g a).
Proof.
  cbv zeta. split; [apply oe_shows; [reflexivity|eexists []; reflexivity|reflexivity|reflexivity]|].
  split; [apply oe_powers; reflexivity|].
  split.
  - intros k I. simpl in I. intuition subst; eexists; eexists (mkAmounts _ _ _ _ _); (split; [vm_compute; reflexivity|]);
      (split; [repeat split; vm_compute; reflexivity|vm_compute; reflexivity]).
  - split; eexists; eexists (mkAmounts _ _ _ _ _); (split; [vm_compute; reflexivity|]); (split; [repeat split; vm_compute; reflexivity|]).
    + split; [|vm_compute; reflexivity]. split; [reflexivity|]. split; [vm_compute; reflexivity|]. exists 60. split; [reflexivity|vm_compute; discriminate].
    + split; [reflexivity|]. split; [vm_compute; reflexivity|]. exists 60. split; [reflexivity|vm_compute; discriminate].
Qed.

Theorem C87_returns sp h g0 cs k c i a : wired sp -> new_nonmodular sp h = Ok g0 -> aligned g0 ->
  Forall (proper (all_rows g0)) cs ->
  let g := nm_after cs g0 in
  action_priority g k = Ok c -> meaning (nm_arch g) k = Some i -> controls c a -> generates i = false ->
  shows_room g -> powers_ok g -> 0 <= now_status (nm_now g) <= 1 -> 0 < now_load (nm_now g) ->
  last_step g \/ nm_use g = All \/ (nm_t g + 2 < nm_len g)%Z ->
  exists v, snd (nm_run c g) = Ok v.
Proof.
  intros W N AL P g AP ME CA GN SR OK ST LD CK.
  apply (C61_run sp h g0 cs c W N AL P); [|eapply choice_unbalanced; eassumption|exact CK].
  destruct CA as (C1 & C2 & C3 & C4 & C5). intros key I. unfold control_names in I.
  destruct (has_battery _), (has_grid _), (has_genset _); simpl in I; intuition (subst; eauto).
Qed.
Print Assumptions C87_returns.
Example C87_returns_example : let g := oe_grid0 full_arch in aligned g /\ 0 < now_load (nm_now g)
  /\ (0 <= now_status (nm_now g) <= 1) /\ nm_use g = All
  /\ (forall i, In i [ChargePv; Discharge; Import; Export; ChargeGrid] -> generates i = false).
Proof.
  cbv zeta. split; [split; [vm_compute; repeat constructor|intros _; repeat constructor; vm_compute; repeat constructor]|].
  split; [reflexivity|]. split; [split; vm_compute; discriminate|]. split; [reflexivity|].
  intros i I. simpl in I. intuition (subst; reflexivity).
Qed.

(** The genset can be driven into an error: its least power is all of the load. *)
Theorem C87_genset_refuted : ~ (forall sp h g0 k c, wired sp -> new_nonmodular sp h = Ok g0 -> aligned g0 ->
  action_priority g0 k = Ok c -> shows_room g0 -> powers_ok g0 -> 0 < now_load (nm_now g0) -> nm_use g0 = All ->
  exists v, snd (nm_run c g0) = Ok v).
Proof.
  intros H. pose (sp := oe_example island_arch [2; 2; 2; 2; 2] [1 # 2; 1 # 2; 1 # 2; 1 # 2; 1 # 2]).
  destruct (new_nonmodular sp 2) as [g|] eqn:N; [|vm_compute in N; discriminate N].
  assert (G : g = nm_get (new_nonmodular sp 2)) by (rewrite N; reflexivity).
  destruct (action_priority g 2) as [c|] eqn:AP; [|rewrite G in AP; vm_compute in AP; discriminate AP].
  assert (C : c = match action_priority (nm_get (new_nonmodular sp 2)) 2 with Ok c => c | Err _ => [] end) by (rewrite <- G, AP; reflexivity).
  destruct (H sp 2%Z g 2%Z c (oe_wired island_arch _ _ eq_refl) N) as (v & V); try assumption.
  - rewrite G. split; [vm_compute; repeat constructor|]. vm_compute. discriminate.
  - rewrite G. apply oe_shows; [reflexivity|eexists []; reflexivity|reflexivity|reflexivity].
  - rewrite G. apply oe_powers. reflexivity.
  - rewrite G. reflexivity.
  - rewrite G. reflexivity.
  - rewrite C, G in V. vm_compute in V. discriminate V.
Qed.
Print Assumptions C87_genset_refuted.

(** The charge stays within its limits, also without a grid. *)
Theorem C87_charge_within ts tc root e ks os e' smin smax cap eff : 
  let g := oe_grid e in
  env_plays ts tc root action_priority e ks os e' ->
  parameter g "battery_soc_min" smin -> parameter g "battery_soc_max" smax ->
  parameter g "battery_capacity" cap -> parameter g "battery_efficiency" eff -> 0 < eff <= 1 -> 0 < cap ->
  powers_ok g -> has_battery (nm_arch g) = true -> shows_room g ->
  (exists l m, dget "capa_to_charge" (nm_state g) = Some l /\ dget "capa_to_discharge" (nm_state g) = Some m) ->
  (forall l, dget "battery_soc" (nm_state g) = Some l -> Forall (fun c => exists s, c = CNum s /\ smin <= s /\ s <= smax) l) ->
  forall l, dget "battery_soc" (nm_state (oe_grid e')) = Some l -> Forall (fun c => exists s, c = CNum s /\ smin <= s /\ s <= smax) l.
Proof.
  intros g P P1 P2 P3 P4 E C OK HB SR (l1 & l2 & L1 & L2) I.
  assert (SO : sound smin smax cap eff g) by (constructor; eauto).
  exact (so_soc _ _ _ _ _ (plays_within ts tc root smin smax cap eff E C e ks os e' P SO (or_intror SR))).
Qed.
Print Assumptions C87_charge_within.

(** Charging from the grid wastes PV that the grid could take. *)
Theorem C87_waste_refuted : ~ (forall (g g' : nonmod Q) k c v o me, action_priority g k = Ok c -> meaning (nm_arch g) k = Some ChargeGrid ->
  shows_room g -> powers_ok g -> nm_run c g = (g', Ok v) -> now_status (nm_now g) == 1 ->
  parameter g "grid_power_export" me -> left_over g <= me -> produced g g' o -> oc_curtailed o == 0).
Proof.
  intros H. pose (sp := oe_example full_arch [20; 20; 30; 40; 50] [50; 50; 0; 10; 20]).
  pose (g := nm_get (new_nonmodular sp 2)).
  destruct (action_priority g 5) as [c|] eqn:AP; [|vm_compute in AP; discriminate AP].
  assert (C : c = match action_priority g 5 with Ok c => c | Err _ => [] end) by (rewrite AP; reflexivity).
  destruct (nm_run c g) as [g' [v|e]] eqn:R; [|rewrite C in R; vm_compute in R; discriminate R].
  destruct (C56_balance c g g' v R) as (o & P & _).
  assert (Z : oc_curtailed o == 0).
  { apply (H g g' 5%Z c v o 60 AP); try assumption; try (vm_compute; (reflexivity || discriminate)).
    - apply oe_shows; [reflexivity|eexists []; reflexivity|reflexivity|reflexivity].
    - apply oe_powers; reflexivity. }
  assert (X : g' = fst (nm_run c g)) by (rewrite R; reflexivity).
  destruct P as (_ & _ & _ & _ & _ & (l & A & B) & _).
  set (q := oc_curtailed o) in *. clearbody q. rewrite X, C in B. vm_compute in A. injection A as <-. vm_compute in B.
  injection B as B. rewrite <- B in Z. discriminate Z.
Qed.
Print Assumptions C87_waste_refuted.

(** With a grid and no genset, an outage is not noticed. *)
Theorem C87_outage_refuted : ~ (forall (g : nonmod Q) k c a, action_priority g k = Ok c -> controls c a ->
  has_grid (nm_arch g) = true -> now_status (nm_now g) == 0 -> am_import a == 0).
Proof.
  intros H. pose (g := nm_after [HRun some_control; HRun some_control] (oe_grid0 plain_arch)).
  destruct (action_priority g 2) as [c|] eqn:AP; [|vm_compute in AP; discriminate AP].
  destruct (priority_asks g 2 c AP) as (i & x & y & a & ME & _ & _ & CA & A).
  assert (Z : am_import a == 0) by (apply (H g 2%Z c a AP CA); vm_compute; reflexivity).
  vm_compute in ME. injection ME as <-. destruct A as (_ & _ & A & _). rewrite A in Z. vm_compute in Z. discriminate Z.
Qed.
Print Assumptions C87_outage_refuted.

(** An episode on an island: charging, generating, discharging *)
Definition oe_env (ar : arch) (smoothing : string) : old_env Q :=
  match snd (new_old_env (fun x => x) (fun x => x) 4 (Some smoothing) None (Ok tt) None (oe_grid0 ar)) with
  | Ok e => e
  | Err _ => mkOldEnv (oe_grid0 ar) [] true "" false None [] NoReal true 0
  end.
Definition oe_after {A} (control_of : nonmod Q -> A -> res (dict Q)) (l : list A) (e : old_env Q) : old_env Q :=
  env_after (fun x => x) (fun x => x) (fun x => x) control_of (map EStep l) e.
Example C87_charge_example : let e := oe_env island_arch "sqrt" in shows_room (oe_grid e) /\ powers_ok (oe_grid e) /\ oe_done e = false
  /\ map (fun c => match c with CNum x => Qred x | _ => 0 end) (column (nm_state (oe_grid (oe_after action_priority [2; 0; 1]%Z e))) "battery_soc")
     = [1 # 2; 1 # 2; 29 # 40; 161 # 360]
  /\ oe_done (oe_after action_priority [2; 0; 1]%Z e) = true.
Proof.
  cbv zeta. split; [apply oe_shows; [vm_compute; reflexivity|eexists []; vm_compute; reflexivity|vm_compute; reflexivity|vm_compute; reflexivity]|].
  split; [apply oe_powers; vm_compute; reflexivity|]. split; [vm_compute; reflexivity|]. split; vm_compute; reflexivity.
Qed.

(** ** C88: episodes *)

Section Episodes.
Context {A : Type}.
Variables (ts tc root : Q -> Q).
Variable control_of : nonmod Q -> A -> res (dict Q).

(** What a step returns while the episode lasts *)
Theorem C88_step sp g0 e a e' obs r d : wired sp -> env_reached ts tc root control_of sp g0 e -> oe_done e = false ->
  env_step ts tc root control_of a e = (e', Ok (obs, r, d)) ->
  exists control v cost, control_of (oe_grid e) a = Ok control /\ nm_run control (oe_grid e) = (oe_grid e', Ok v)
    /\ displays ts tc (oe_norm e) v obs
    /\ gained (nm_cost (oe_grid e)) (nm_cost (oe_grid e')) "total_cost" (CNum cost)
    /\ rewards root (oe_train e) (oe_smoothing e) (oe_grid e) cost r
    /\ d = nm_done (oe_grid e') /\ oe_done e' = d.
Proof. intros W R. exact (step_spec ts tc root control_of a e e' obs r d (reached_equipped ts tc root control_of sp g0 e W R)). Qed.

Theorem C88_scales sp g0 e : wired sp -> env_reached ts tc root control_of sp g0 e ->
  Permutation (map fst (oe_norm e)) (status_columns (nm_arch (oe_grid e)))
  /\ forall k x, dget k (oe_norm e) = Some x -> scale g0 k x.
Proof. exact (reached_scales ts tc root control_of sp g0 e). Qed.

(** A reset *)
Theorem C88_reset sp g0 e testing e' obs : wired sp -> env_reached ts tc root control_of sp g0 e ->
  env_reset ts tc testing e = (e', Ok obs) ->
  let t := match oe_testing e with Some b => b | None => testing end in
  nm_reset t (oe_grid e) = (oe_grid e', Ok tt) /\ oe_done e' = false /\ nm_t (oe_grid e') = 0%Z
  /\ oe_train e' = (if t then false else oe_train e)
  /\ (exists v, get_updated_values (oe_grid e') = Ok v /\ displays ts tc (oe_norm e) v obs).
Proof.
  intros W R H t. destruct (reached_grid ts tc root control_of sp g0 e R) as (h & cs & N & P & GE).
  apply reset_ok in H. destruct H as (g' & NR & TR & _ & ->). fold t in NR.
  cbn [oe_grid oe_done oe_train set_result set_train set_grid]. rewrite GE in NR.
  destruct (C60_episode sp h g0 cs t g' [] g' W N P NR (NQ0 g')) as (T & _).
  rewrite GE. repeat (split; [assumption || reflexivity|]).
  destruct (get_updated_values g') as [v|x] eqn:V.
  - exists v. split; [reflexivity|]. eapply transition_ok; eassumption.
  - exfalso. unfold transition in TR. rewrite V in TR. discriminate TR.
Qed.

(** Once the episode is over, steps change and do nothing. *)
Theorem C88_over l (e : old_env Q) os e' : oe_done e = true -> env_plays ts tc root control_of e l os e' ->
  e' = e /\ Forall (fun o => o = (oe_state e, oe_reward e, true)) os.
Proof. exact (plays_over ts tc root control_of l e os e'). Qed.

(** What an episode costs is what it does not give as rewards. *)
Theorem C88_return sp g0 e l os e' : wired sp -> env_reached ts tc root control_of sp g0 e -> oe_done e = false ->
  env_plays ts tc root control_of e l os e' -> live os ->
  exists col costs, dget "total_cost" (nm_cost (oe_grid e)) = Some col
    /\ dget "total_cost" (nm_cost (oe_grid e')) = Some (col ++ map CNum costs) /\ length costs = length l
    /\ Forall2 (fun o cost => rewards root (oe_train e) (oe_smoothing e) (oe_grid e) cost (snd (fst o))) os costs
    /\ (oe_train e = false \/ oe_smoothing e <> "sqrt" /\ oe_smoothing e <> "peak_load" ->
        map (fun o => snd (fst o)) os = map (fun cost => Reward (- cost)) costs).
Proof.
  intros W R D P L.
  destruct (live_plays ts tc root control_of l e os e' (reached_equipped ts tc root control_of sp g0 e W R) D L P)
    as (cs & costs & _ & N & _ & _ & (col & C1 & C2) & F).
  exists col, costs. split; [exact C1|]. split; [exact C2|]. split; [exact N|]. split; [exact F|].
  intros NS. clear - F NS. induction F as [|o x os costs H F IH]; [reflexivity|]. cbn [map]. f_equal; [|exact IH].
  destruct H as (_ & _ & H). exact (H NS).
Qed.

(** An episode that starts with a reset is over after a fixed number of steps. *)
Theorem C88_length sp g0 e testing e1 obs l os e2 : wired sp -> env_reached ts tc root control_of sp g0 e ->
  env_reset ts tc testing e = (e1, Ok obs) -> env_plays ts tc root control_of e1 l os e2 -> live os ->
  (existsb (fun o => snd o) os = true <-> (episode_end (oe_grid e1) < Z.of_nat (length l))%Z)
  /\ (Z.of_nat (length l) <= episode_end (oe_grid e1) + 1)%Z.
Proof.
  intros W R H P L. destruct (reached_grid ts tc root control_of sp g0 e R) as (h & cs & N & PR & GE).
  pose proof (reset_ok ts tc testing e e1 obs H) as (g' & NR & _ & _ & E1).
  set (t := match oe_testing e with Some b => b | None => testing end) in *. rewrite GE in NR.
  assert (G1 : oe_grid e1 = g') by (rewrite E1; reflexivity).
  assert (D1 : oe_done e1 = false) by (rewrite E1; reflexivity).
  assert (EQ : equipped (oe_grid e1)).
  { rewrite G1. replace g' with (nm_after [HReset t] (nm_after cs g0)) by (unfold nm_after at 1; cbn [fold_left nm_do]; rewrite NR; reflexivity).
    apply equipped_after, equipped_after. eapply equipped_new; eassumption. }
  assert (EP : forall l os e2, env_plays ts tc root control_of e1 l os e2 -> live os ->
    (existsb (fun o => snd o) os = true <-> (episode_end g' < Z.of_nat (length l))%Z)).
  { clear l os e2 P L. intros l os e2 P L.
    rewrite <- (plays_done ts tc root control_of l e1 os e2 D1 P).
    destruct (live_plays ts tc root control_of l e1 os e2 EQ D1 L P) as (ctl & costs & NC & _ & QT & DN & _).
    rewrite G1 in QT. destruct (C60_episode sp h g0 cs t g' ctl (oe_grid e2) W N PR NR QT) as (_ & D0 & _ & K).
    rewrite NC in K. destruct l as [|a l].
    - assert (G2 : oe_grid e2 = g') by (inversion P; congruence). assert (D2 : oe_done e2 = false) by (inversion P; congruence).
      rewrite D2. rewrite G2, D0 in K. exact K.
    - rewrite (DN ltac:(discriminate)). exact K. }
  rewrite G1. split; [exact (EP l os e2 P L)|].
  destruct l as [|x l'] using rev_ind; [|clear IHl'].
  - assert (0 <= episode_end g')%Z; [|cbn; lia]. 
    pose proof (EP [] [] e1 (EPnil _ _ _ _ e1) (Forall_nil _)) as K. cbn in K. destruct (Z_lt_le_dec (episode_end g') 0) as [Z|Z]; [|exact Z].
    apply K in Z. discriminate Z.
  - destruct (plays_snoc ts tc root control_of l' x e1 os e2 P) as (os' & o & em & -> & P').
    unfold live in L. rewrite removelast_last in L.
    assert (F : existsb (fun o => snd o) os' = false).
    { clear - L. induction L as [|y ys H L IH]; [reflexivity|]. cbn. rewrite H. exact IH. }
    assert (L' : live os').
    { unfold live. clear - L. induction os' as [|y ys IH]; [constructor|]. inversion L as [|? ? K1 K2]; subst. cbn [removelast].
      destruct ys; [constructor|]. constructor; [assumption|]. apply IH. assumption. }
    pose proof (EP l' os' em P' L') as K. rewrite F in K. rewrite app_length. cbn [length].
    destruct (Z_lt_le_dec (episode_end g') (Z.of_nat (length l'))) as [Z|Z]; [apply K in Z; discriminate Z|lia].
Qed.

(** After one reset for testing, rewards stay unsmoothed, also after resets for training. *)
Theorem C88_testing_sticks (e : old_env Q) e1 obs cs : env_reset ts tc true e = (e1, Ok obs) -> oe_testing e = None ->
  oe_train (env_after ts tc root control_of cs e1) = false.
Proof.
  intros H T. apply testing_sticks. apply reset_ok in H. rewrite T in H. destruct H as (g' & _ & _ & _ & ->). reflexivity.
Qed.
End Episodes.
Print Assumptions C88_step.
Print Assumptions C88_scales.
Print Assumptions C88_reset.
Print Assumptions C88_over.
Print Assumptions C88_return.
Print Assumptions C88_length.
Print Assumptions C88_testing_sticks.

(** An environment that is to resample on reset cannot be made, except for testing. *)
Theorem C88_resampling_never ts tc limit smoothing sampler testing (g g1 : nonmod Q) e :
  new_old_env ts tc limit smoothing (Some true) sampler testing g = (g1, Ok e) -> testing = Some true.
Proof. intros H. apply new_env_ok in H. apply H. reflexivity. Qed.
Print Assumptions C88_resampling_never.

(** The total cost cannot be asked for. *)
Theorem C88_get_cost_never sp h g0 cs : wired sp -> new_nonmodular sp h = Ok g0 ->
  raises KeyError (env_get_cost (nm_after cs g0)).
Proof.
  intros W N. pose proof (eq_cost _ (equipped_after cs _ (equipped_new _ _ _ W N))) as E.
  unfold env_get_cost. assert (D : dget "cost" (nm_cost (nm_after cs g0)) = None).
  { apply Proofs_Num.dget_None. intros X. pose proof (Permutation_in _ E X) as Y.
    unfold cost_columns in Y. destruct (has_battery _), (has_grid _), (has_genset _); simpl in Y; intuition discriminate. }
  unfold dfind. rewrite D. eexists. split; reflexivity.
Qed.
Print Assumptions C88_get_cost_never.

(** Three steps to the end, and one more *)
Definition oe_results {A} (control_of : nonmod Q -> A -> res (dict Q)) (l : list A) (e : old_env Q) : list (option (Q * bool)) :=
  snd (fold_left (fun '(e, os) a =>
         match env_step (fun x => x) (fun x => x) (fun x => x) control_of a e with
         | (e', Ok (_, Reward x, d)) => (e', os ++ [Some (Qred x, d)])
         | (e', _) => (e', os ++ [None])
         end) l (e, [])).
Example C88_example : let e := oe_env full_arch "none" in
  env_reached (fun x => x) (fun x => x) (fun x => x) action_priority (oe_example full_arch nm_load nm_pv) (oe_grid0 full_arch) e
  /\ oe_results action_priority [2; 0; 6; 1]%Z e = [Some (- (7 # 4), false); Some (0, false); Some (-(7 # 2), true); Some (-(7 # 2), true)]
  /\ episode_end (oe_grid e) = 2%Z
  /\ dget "load" (oe_norm e) = Some 50 /\ dget "grid_price_export" (oe_norm e) = Some (3 # 10).
Proof.
  cbv zeta. split.
  - exists 2%Z, [], 4%nat, (Some "none"), None, (Ok tt), None, (oe_grid (oe_env full_arch "none")), (oe_env full_arch "none"), [].
    split; [apply oe_new; auto|]. split; [constructor|]. split; [vm_compute; repeat constructor|]. split; [vm_compute; reflexivity|]. unfold env_after. cbn [fold_left]. reflexivity.
  - repeat split; vm_compute; reflexivity.
Qed.

(** With the default smoothing, a step that earns money gives no reward. *)
Theorem C88_root_refuted : ~ (forall (root : Q -> Q) (e : old_env Q) k e' obs r d,
  env_step (fun x => x) (fun x => x) root action_priority k e = (e', Ok (obs, r, d)) -> exists x, r = Reward x).
Proof.
  intros H. pose (e := oe_after action_priority [2]%Z (oe_env full_arch "sqrt")).
  destruct (env_step (fun x => x) (fun x => x) (fun x => x) action_priority 3%Z e) as [e' [((obs & r) & d)|x]] eqn:E; [|vm_compute in E; discriminate E].
  destruct (H _ _ _ _ _ _ _ E) as (x & X).
  assert (R : match env_step (fun x => x) (fun x => x) (fun x => x) action_priority 3%Z e with (_, Ok (_, r, _)) => Some r | _ => None end = Some r) by (rewrite E; reflexivity).
  vm_compute in R. injection R as <-. discriminate X.
Qed.
Print Assumptions C88_root_refuted.

(** ** C89: fractions and amounts *)

Theorem C89_continuous (g : nonmod Q) a c : action_continuous g a = Ok c -> fractions a -> powers_ok g ->
  (exists x, can_charge g x /\ asks_within c "battery_charge" x)
  /\ (exists y, can_discharge g y /\ asks_within c "battery_discharge" y)
  /\ (has_grid (nm_arch g) = true ->
      (now_status (nm_now g) == 1 -> exists mi me, parameter g "grid_power_import" mi /\ asks_within c "grid_import" mi
         /\ parameter g "grid_power_export" me /\ asks_within c "grid_export" me)
      /\ (~ now_status (nm_now g) == 1 -> dget "grid_import" c = Some 0 /\ dget "grid_export" c = Some 0))
  /\ (has_genset (nm_arch g) = true -> exists rated, parameter g "genset_rated_power" rated /\ asks_within c "genset" rated).
Proof. exact (continuous_ok g a c). Qed.
Print Assumptions C89_continuous.

(** What the fractions are fractions of *)
Theorem C89_shares (g : nonmod Q) a c cap : action_continuous g a = Ok c -> fractions a -> powers_ok g ->
  parameter g "battery_capacity" cap -> 0 <= cap ->
  (exists x y cc cd, nth_error a 0 = Some x /\ nth_error a 1 = Some y /\ can_charge g cc /\ can_discharge g cd
     /\ asks_for c "battery_charge" (x * Qmin (y * cap) cc) /\ asks_for c "battery_discharge" ((1 - x) * Qmin (y * cap) cd))
  /\ (has_grid (nm_arch g) = true -> now_status (nm_now g) == 1 -> exists x y mi me, nth_error a 2 = Some x /\ nth_error a 3 = Some y
     /\ parameter g "grid_power_import" mi /\ parameter g "grid_power_export" me
     /\ asks_for c "grid_import" (x * y * mi) /\ asks_for c "grid_export" ((1 - x) * y * me))
  /\ (has_genset (nm_arch g) = true -> exists x y rated, nth_error a 4 = Some x /\ nth_error a 5 = Some y
     /\ parameter g "genset_rated_power" rated /\ asks_for c "genset" (x * y * rated)).
Proof. exact (continuous_shares g a c cap). Qed.
Print Assumptions C89_shares.

Theorem C89_followed (g g' : nonmod Q) a c v : action_continuous g a = Ok c -> fractions a -> powers_ok g -> shows_room g ->
  nm_run c g = (g', Ok v) ->
  exists o, produced g g' o
    /\ (exists x y, dget "battery_charge" c = Some x /\ dget "battery_discharge" c = Some y /\ oc_charge o == x /\ oc_discharge o == y)
    /\ (has_grid (nm_arch g) = true ->
        exists x y, dget "grid_import" c = Some x /\ dget "grid_export" c = Some y /\ oc_import o == x /\ oc_export o == y).
Proof.
  intros AC FR OK SR R. destruct (run_follows c g g' v R) as (o & P & F). exists o. split; [exact P|].
  exact (continuous_followed g a c o AC FR OK SR F).
Qed.
Print Assumptions C89_followed.
Example C89_continuous_example : let g := oe_grid0 full_arch in
  fractions [1; 1 # 5; 1 # 2; 1 # 2; 1; 1 # 4] /\ shows_room g /\ powers_ok g
  /\ exists c, action_continuous g [1; 1 # 5; 1 # 2; 1 # 2; 1; 1 # 4] = Ok c
    /\ map (fun kv => (fst kv, Qred (snd kv))) c
       = [("battery_charge", 20); ("battery_discharge", 0); ("grid_import", 15); ("grid_export", 15); ("genset", 10)]
    /\ returns (nm_run c g) = true.
Proof.
  cbv zeta. split; [repeat constructor; vm_compute; discriminate|].
  split; [apply oe_shows; [reflexivity|eexists []; reflexivity|reflexivity|reflexivity]|].
  split; [apply oe_powers; reflexivity|]. eexists. split; [vm_compute; reflexivity|]. split; vm_compute; reflexivity.
Qed.

(** Fractions can ask to charge and to discharge at once. *)
Theorem C89_both_refuted : ~ (forall (g : nonmod Q) a c x y, action_continuous g a = Ok c -> fractions a ->
  dget "battery_charge" c = Some x -> dget "battery_discharge" c = Some y -> x == 0 \/ y == 0).
Proof.
  intros H. pose (a := [1 # 2; 1 # 5; 1 # 2; 1 # 2; 1; 1 # 4]).
  destruct (action_continuous (oe_grid0 full_arch) a) as [c|] eqn:E; [|vm_compute in E; discriminate E].
  assert (F : fractions a) by (repeat constructor; vm_compute; discriminate).
  vm_compute in E. injection E as <-.
  destruct (H (oe_grid0 full_arch) a _ _ _ ltac:(vm_compute; reflexivity) F eq_refl eq_refl) as [K|K]; vm_compute in K; discriminate K.
Qed.
Print Assumptions C89_both_refuted.

(** A switch decides between charging and discharging, importing and exporting. *)
Theorem C89_discrete (g : nonmod Q) a c : action_discrete g a = Ok c ->
  (has_battery (nm_arch g) = true -> exists x y s, nth_error a 1 = Some x /\ nth_error a 2 = Some y /\ nth_error a 3 = Some s
     /\ switched c "battery_charge" "battery_discharge" x y s)
  /\ (has_genset (nm_arch g) = true -> exists x, nth_error a 4 = Some x /\ dget "genset" c = Some x)
  /\ (has_grid (nm_arch g) = true -> exists x y s,
        let i := if has_genset (nm_arch g) then 5%nat else 4%nat in
        nth_error a i = Some x /\ nth_error a (i + 1) = Some y /\ nth_error a (i + 2) = Some s
        /\ switched c "grid_import" "grid_export" x y s).
Proof. exact (discrete_ok g a c). Qed.
Print Assumptions C89_discrete.
Example C89_discrete_example : exists c, action_discrete (oe_grid0 full_arch) [5; 7; 3; 0; 8; 6; 4; 1] = Ok c
  /\ map (fun kv => (fst kv, Qred (snd kv))) c
     = [("pv_consumed", 5); ("battery_charge", 0); ("battery_discharge", 3); ("genset", 8); ("grid_import", 6); ("grid_export", 0)].
Proof. eexists. split; vm_compute; reflexivity. Qed.
