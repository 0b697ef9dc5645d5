(** * C44: the reward shaping functions *)

From Coq Require Import ZArith QArith Bool String List Lia.
From Verif Require Import Num Py Space Logger Forecast Module Container Microgrid Shaping
  Spec_Module Spec_Reach Spec_Microgrid Spec_Shaping Proofs_Mgrid Proofs_Shaping Examples_Mg.
Import ListNotations.
Local Open Scope string_scope.
Local Open Scope list_scope.
Local Open Scope Q_scope.

(** With PVCurtailmentShaper, if the modules named 'pv' are renewables, the
    reward of every run is minus the energy they curtailed in it. *)
Theorem C44_pv_curtailment D (g g' : mgrid Q) (c : control Q) n obs rw d inf :
  from_modules D g -> mg_shaper g = Some pv_curtailment_shaper -> all_named "pv" D is_renewable ->
  run c n g = (g', Ok (obs, rw, d, inf)) ->
  exists es, did g es g' /\ rw == - sum_named (ev_entry "curtailment") "pv" es
    /\ (forall e, In e es -> exists df, nth_error D (ev_id e) = Some df /\ mdef_name df = ev_name e).
Proof. exact (pv_reward_sum D g g' c n obs rw d inf). Qed.
Print Assumptions C44_pv_curtailment.

(** Whatever is named 'pv': one of them that reports no curtailment makes the
    reward 0. *)
Theorem C44_pv_any D (g g' : mgrid Q) (c : control Q) n obs rw d inf :
  from_modules D g -> mg_shaper g = Some pv_curtailment_shaper -> run c n g = (g', Ok (obs, rw, d, inf)) ->
  exists es x, did g es g' /\ counted "curtailment" "pv" es x /\ rw == - x
    /\ (forall e, In e es -> exists df, nth_error D (ev_id e) = Some df /\ mdef_name df = ev_name e).
Proof. exact (pv_reward D g g' c n obs rw d inf). Qed.
Print Assumptions C44_pv_any.

(** The name counts, not the class: without a module named 'pv' the reward is
    always 0, however much is curtailed. *)
Theorem C44_pv_needs_the_name D (g g' : mgrid Q) (c : control Q) n obs rw d inf :
  from_modules D g -> mg_shaper g = Some pv_curtailment_shaper -> (forall d, In d D -> mdef_name d <> "pv") ->
  run c n g = (g', Ok (obs, rw, d, inf)) -> rw == 0.
Proof. exact (pv_reward_without_pv D g g' c n obs rw d inf). Qed.
Print Assumptions C44_pv_needs_the_name.

(** With BatteryDischargeShaper: the share of the load met by batteries, less the
    share that was lost; 0 without load (or no reward at all, if the division is
    numpy's). *)
Theorem C44_battery_any D (g g' : mgrid Q) (c : control Q) n np obs rw d inf :
  from_modules D g -> mg_shaper g = Some (battery_discharge_shaper np) -> run c n g = (g', Ok (obs, rw, d, inf)) ->
  exists es disch load loss, did g es g'
    /\ counted "provided_energy" "battery" es disch /\ counted "absorbed_energy" "load" es load
    /\ counted "provided_energy" "unbalanced_energy" es loss
    /\ (load == 0 -> np = false /\ rw == 0)
    /\ (~ load == 0 -> rw * load == disch - loss /\ -1 <= rw /\ rw <= 1 + (1001#100000000))
    /\ (forall e, In e es -> exists df, nth_error D (ev_id e) = Some df /\ mdef_name df = ev_name e).
Proof. exact (discharge_reward D g g' c n np obs rw d inf). Qed.
Print Assumptions C44_battery_any.

(** The usual composition: loads named 'load', the automatic balancing module.
    The lost load is then never subtracted, and one charging battery hides what
    the others discharged. *)
Theorem C44_battery_discharge D (g g' : mgrid Q) (c : control Q) n np obs rw d inf :
  from_modules D g -> mg_shaper g = Some (battery_discharge_shaper np) -> all_named "load" D is_load ->
  (forall d, In d D -> mdef_name d <> "unbalanced_energy") ->
  run c n g = (g', Ok (obs, rw, d, inf)) ->
  exists es, did g es g' /\
    let load := sum_named (ev_entry "absorbed_energy") "load" es in
    let discharged := sum_named (ev_entry "provided_energy") "battery" es in
    (load == 0 -> rw == 0)
    /\ (~ load == 0 -> all_report "provided_energy" "battery" es ->
          rw * load == discharged /\ -1 <= rw /\ rw <= 1 + (1001#100000000))
    /\ (~ all_report "provided_energy" "battery" es -> rw == 0).
Proof. exact (discharge_reward_load D g g' c n np obs rw d inf). Qed.
Print Assumptions C44_battery_discharge.

(** ** A microgrid with two batteries *)
Definition sh_defs : list (mdef Q) :=
  [(Some "load", mg_load); (Some "pv", mg_pv); (None, mg_battery); (None, mg_battery); (None, mg_grid)].
Definition sh_all : list (mdef Q) := all_defs sh_defs true 10 2.
Definition sh_mg (sh : shaper Q) : res (mgrid Q) := new_microgrid sh_defs true 10 2 (Some sh) None.
Definition sh_control (b1 b2 x : Q) : control Q := [("battery", CList [VS b1; VS b2]); ("grid", CList [VS x])].
Lemma sh_from sh g : sh_mg sh = Ok g -> from_modules sh_all g.
Proof.
  intros E. exists sh_defs, true, 10, 2, (Some sh), None, g, []. split; [|split; reflexivity]. split; [|exact E].
  repeat constructor; apply or_balancing_reachable; intros m EM.
  - eapply built_load; [|exact EM]. repeat constructor.
  - eapply built_renewable; [|exact EM]. repeat constructor.
  - eapply built_battery; exact EM.
  - eapply built_battery; exact EM.
  - eapply built_grid; exact EM.
Qed.
Lemma sh_shaper sh g : sh_mg sh = Ok g -> mg_shaper g = Some sh.
Proof. intros E. destruct (new_microgrid_inv _ _ _ _ _ _ _ E) as (c & ms & _ & _ & _ & X & _). exact X. Qed.
(** A fact about the microgrid, by computation. *)
Definition sh_then {A} (sh : shaper Q) (f : mgrid Q -> A) : res A := rbind (sh_mg sh) (fun g => Ok (f g)).
Lemma sh_check {A} sh (f : mgrid Q -> A) v g : sh_mg sh = Ok g -> sh_then sh f = Ok v -> f g = v.
Proof. intros E X. unfold sh_then in X. rewrite E in X. cbn [rbind] in X. congruence. Qed.
Definition reward_of {S A B C} (r : S * res (A * Q * B * C)) : res Q :=
  match snd r with Ok (_, rw, _, _) => Ok (Qred rw) | Err e => Err e end.
Definition info_in {S A B} (nm : string) (r : S * res (A * Q * B * infos Q)) : option (list (entry Q)) :=
  match snd r with Ok (_, _, _, i) => dget nm i | Err e => None end.
Definition try_run (sh : shaper Q) (c : control Q) := rbind (sh_mg sh) (fun g => reward_of (run c false g)).

Example C44_example :
  all_named "pv" sh_all is_renewable /\ all_named "load" sh_all is_load
  /\ (forall d, In d sh_all -> mdef_name d <> "unbalanced_energy")
  (* 5 of the load's 5 are bought, the panels' 3 are left: one of them sold *)
  /\ try_run pv_curtailment_shaper (sh_control 0 0 5) = Ok (-3)
  (* the batteries give 1 and 2 of the 5 *)
  /\ try_run (battery_discharge_shaper false) (sh_control 1 2 0) = Ok (3#5).
Proof.
  split; [|split; [|split; [|split]]].
  - intros d I N. simpl in I. repeat (destruct I as [<-|I]; [try discriminate N|]); [eexists; reflexivity|destruct I].
  - intros d I N. simpl in I. repeat (destruct I as [<-|I]; [try discriminate N|]); [eexists; reflexivity|destruct I].
  - intros d I N. simpl in I. repeat (destruct I as [<-|I]; [discriminate N|]). destruct I.
  - vm_compute. reflexivity.
  - vm_compute. reflexivity.
Qed.

(** ** Claims of the documentation that fail *)

(** "The reward is the proportion of load met by battery discharge" fails as soon
    as one battery charges: here another one met two fifths of the load. *)
Theorem C44_share_of_batteries_refuted :
  exists g, from_modules sh_all g /\ mg_shaper g = Some (battery_discharge_shaper false)
    /\ reward_of (run (sh_control 2 (-1) 5) false g) = Ok 0
    /\ info_in "battery" (run (sh_control 2 (-1) 5) false g)
       = Some [EInfo [("provided_energy", 2)]; EInfo [("absorbed_energy", 1)]]
    /\ info_in "load" (run (sh_control 2 (-1) 5) false g) = Some [EInfo [("absorbed_energy", 5)]].
Proof.
  destruct (sh_mg (battery_discharge_shaper false)) as [g|e] eqn:E.
  2:{ assert (X : sh_then (battery_discharge_shaper false) (fun _ => tt) = Ok tt) by (vm_compute; reflexivity).
      unfold sh_then in X. rewrite E in X. discriminate X. }
  exists g. split; [eapply sh_from; exact E|]. split; [exact (sh_shaper _ _ E)|].
  split; [eapply (sh_check _ (fun g => reward_of (run (sh_control 2 (-1) 5) false g))); [exact E|vm_compute; reflexivity]|].
  split; [eapply (sh_check _ (fun g => info_in "battery" (run (sh_control 2 (-1) 5) false g))); [exact E|vm_compute; reflexivity]|].
  eapply (sh_check _ (fun g => info_in "load" (run (sh_control 2 (-1) 5) false g))); [exact E|vm_compute; reflexivity].
Qed.
Print Assumptions C44_share_of_batteries_refuted.

(** "Lost load counts against the batteries" fails with the automatic balancing
    module: it is named 'balancing'. *)
Theorem C44_lost_load_refuted :
  exists g, from_modules sh_all g /\ mg_shaper g = Some (battery_discharge_shaper false)
    /\ reward_of (run (sh_control 0 0 0) false g) = Ok 0
    /\ info_in "balancing" (run (sh_control 0 0 0) false g) = Some [EInfo [("provided_energy", 2)]].
Proof.
  destruct (sh_mg (battery_discharge_shaper false)) as [g|e] eqn:E.
  2:{ assert (X : sh_then (battery_discharge_shaper false) (fun _ => tt) = Ok tt) by (vm_compute; reflexivity).
      unfold sh_then in X. rewrite E in X. discriminate X. }
  exists g. split; [eapply sh_from; exact E|]. split; [exact (sh_shaper _ _ E)|].
  split; [eapply (sh_check _ (fun g => reward_of (run (sh_control 0 0 0) false g))); [exact E|vm_compute; reflexivity]|].
  eapply (sh_check _ (fun g => info_in "balancing" (run (sh_control 0 0 0) false g))); [exact E|vm_compute; reflexivity].
Qed.
Print Assumptions C44_lost_load_refuted.

(** "A shaping function changes only the reward" fails: selling from the batteries
    more than the load makes [run] raise, with the modules stepped so far
    one step ahead of the others. *)
Theorem C44_shaping_is_harmless_refuted :
  exists g c, from_modules sh_all g /\ mg_shaper g = Some (battery_discharge_shaper false)
    /\ (exists e, reward_of (run c false g) = Err e /\ ex_class e = AssertionError)
    /\ (exists rw, reward_of (run c false (mkMgrid (mg_mods g) (mg_ct g) (mg_initial g) (mg_final g) None (mg_traj g)
          (mg_calls g) (mg_balance g) (mg_other g))) = Ok rw)
    /\ map m_cur (mg_mods (fst (run c false g))) = [1; 0; 1; 1; 1; 0]%Z.
Proof.
  destruct (sh_mg (battery_discharge_shaper false)) as [g|e] eqn:E.
  2:{ assert (X : sh_then (battery_discharge_shaper false) (fun _ => tt) = Ok tt) by (vm_compute; reflexivity).
      unfold sh_then in X. rewrite E in X. discriminate X. }
  exists g, (sh_control 3 3 (-4)). split; [eapply sh_from; exact E|]. split; [exact (sh_shaper _ _ E)|].
  set (c := sh_control 3 3 (-4)).
  split; [|split].
  - assert (X : match reward_of (run c false g) with Err e => match ex_class e with AssertionError => true | _ => false end | Ok _ => false end = true).
    { eapply (sh_check _ (fun g => match reward_of (run c false g) with
        Err e => match ex_class e with AssertionError => true | _ => false end | Ok _ => false end)); [exact E|vm_compute; reflexivity]. }
    destruct (reward_of (run c false g)) as [rw|e]; [discriminate X|]. exists e. split; [reflexivity|].
    destruct (ex_class e); try discriminate X. reflexivity.
  - set (bare := fun g : mgrid Q => mkMgrid (mg_mods g) (mg_ct g) (mg_initial g) (mg_final g) None (mg_traj g)
          (mg_calls g) (mg_balance g) (mg_other g)).
    change (exists rw, reward_of (run c false (bare g)) = Ok rw).
    assert (X : match reward_of (run c false (bare g)) with Ok _ => true | Err _ => false end = true).
    { eapply (sh_check _ (fun g => match reward_of (run c false (bare g)) with Ok _ => true | Err _ => false end)); [exact E|vm_compute; reflexivity]. }
    destruct (reward_of (run c false (bare g))) as [rw|e0]; [exists rw; reflexivity|discriminate X].
  - eapply (sh_check _ (fun g => map m_cur (mg_mods (fst (run c false g))))); [exact E|vm_compute; reflexivity].
Qed.
Print Assumptions C44_shaping_is_harmless_refuted.
