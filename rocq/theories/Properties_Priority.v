(** * Properties C39, C40, C41, C54: priority lists and rule-based control

    [refers D r i]: the pair [(name, number)] is the module with index [i].
    [deployment_order D g pl]: [pl] mentions each controllable source once.
    [drives D g pl]: the same with costs of any earlier moment, which is what a list
    is after the first step.  [dispatched D g pl r xs rest]: going through [pl] each
    module gets its share of what is left of [r]; [rest] remains.  Exact rationals. *)

From Coq Require Import ZArith QArith Qabs Bool String List Lia Lqa Permutation Sorted.
From Verif Require Import Num Py Space Logger Forecast Module Container Microgrid PriorityList
  Spec_Module Spec_Reach Spec_Genset Spec_Microgrid Spec_Sane Spec_Priority
  Proofs_MgProps Proofs_Convert Proofs_Priority Proofs_Deploy Proofs_Rbc Examples_Mg.
Import ListNotations.
Local Open Scope string_scope.
Local Open Scope list_scope.
Local Open Scope Q_scope.

(** C39 *)
Theorem C39_priority_lists D (g : mgrid Q) (remove_redundant : bool) :
  from_modules D g -> names_separate D ->
  exists pls, get_priority_lists g remove_redundant = Ok pls
    /\ NoDup pls
    /\ forall pl, In pl pls <->
         deployment_order D g pl /\ (remove_redundant = true -> ~ idles_free_genset D g pl).
Proof. intros F S. exact (priority_lists_ok D g F S remove_redundant). Qed.
Print Assumptions C39_priority_lists.
(** Battery, genset and grid: 3! orders with the genset off or on. *)
Example C39_example :
  match ex_mg with
  | Ok g => match get_priority_lists g false with Ok pls => length pls = 12%nat | Err _ => False end
  | Err _ => False
  end.
Proof. vm_compute. reflexivity. Qed.

(** C40.  What is sent: the demand less the renewables is shared out, and each
    module's entry of the action is its share (with the status for a genset). *)
Theorem C40_action_is_dispatch D (g : mgrid Q) pl a :
  from_modules D g -> names_separate D -> drives D g pl -> populate_action g pl = Ok a ->
  0 <= total demand g /\ 0 <= total renewable g
  /\ exists xs rest c, dispatched D g pl (total demand g - total renewable g) xs rest
    /\ as_control a = Ok c
    /\ Forall2 (fun e x => forall i m, refers D (el_module e) i -> at_index g i m ->
          slot_get a (el_module e) = Ok (Some (command m e x)) /\ commands D c i (command m e x)) pl xs
    /\ (forall nm w, dget nm c = Some w -> exists d, In d D /\ mdef_name d = nm
          /\ module_type (m_kind (snd d)) = Controllable
          /\ length (ctrl_list w) = length (positions nm D)).
Proof. intros F S. exact (populate_ok D g F S pl a). Qed.
Print Assumptions C40_action_is_dispatch.

(** Shares of modules other than gensets are within their limits. *)
Theorem C40_within_limits D (g : mgrid Q) pl r xs rest : from_modules D g ->
  Forall (fun d => sane_reachable (snd d)) D -> Forall in_data (mg_mods g) -> drives D g pl ->
  dispatched D g pl r xs rest ->
  Forall2 (fun e x => forall i m, refers D (el_module e) i -> at_index g i m -> is_genset (m_kind m) = false ->
    (0 <= x -> exists hi, max_production m = Ok hi /\ below x hi)
    /\ (x < 0 -> exists hi, max_consumption m = Ok hi /\ below (- x) hi)) pl xs.
Proof. exact (dispatched_within D g pl r xs rest). Qed.
Print Assumptions C40_within_limits.

(** Load is left only if every module in the list is at its maximum. *)
Theorem C40_unserved_only_at_maximum D (g : mgrid Q) pl r xs rest :
  dispatched D g pl r xs rest -> 1 # 10000 < rest ->
  rest <= r /\ Forall2 (fun e x => forall i m, refers D (el_module e) i -> at_index g i m ->
    exists lo y, production_limits m (el_action e) lo (BFin y) /\ x == y) pl xs.
Proof. exact (short_all_at_maximum D g pl r xs rest). Qed.
Print Assumptions C40_unserved_only_at_maximum.

(** More than the load is produced only by a genset at its minimum. *)
Theorem C40_over_only_by_minimum D (g : mgrid Q) pl r xs rest :
  dispatched D g pl r xs rest -> 0 <= r -> rest < 0 ->
  exists k e x i m s, nth_error pl k = Some e /\ nth_error xs k = Some x /\ refers D (el_module e) i /\ at_index g i m
    /\ m_kind m = KGenset s /\ x == next_min_production s (negb (Nat.eqb (el_action e) 0)) /\ 0 < x.
Proof. exact (over_by_minimum D g pl r xs rest). Qed.
Print Assumptions C40_over_only_by_minimum.

(** A surplus is absorbed as far as the modules can, and never overdrawn. *)
Theorem C40_surplus D (g : mgrid Q) pl r xs rest :
  dispatched D g pl r xs rest -> r <= 0 ->
  rest <= 0 /\ (rest < - (1 # 10000) ->
    Forall2 (fun e x => forall i m, refers D (el_module e) i -> at_index g i m ->
      if is_sink (m_kind m) then exists y, max_consumption m = Ok (BFin y) /\ x == - y else x == 0) pl xs).
Proof. exact (surplus_absorbed D g pl r xs rest). Qed.
Print Assumptions C40_surplus.

(** One step of the controller: every module in the list is stepped with its
    command; a battery or grid delivers exactly its share, a genset its share
    clipped to what it can do after the status change. *)
Theorem C40_step_delivers D (g g' : mgrid Q) pl obs rw dn inf : from_modules D g -> names_separate D ->
  Forall (fun d => sane_reachable (snd d)) D -> Forall in_data (mg_mods g) -> drives D g pl ->
  rbc_step pl g = (g', Ok (obs, rw, dn, inf)) ->
  exists xs rest es, dispatched D g pl (total demand g - total renewable g) xs rest /\ did g es g'
    /\ Forall2 (fun e x => forall i m, refers D (el_module e) i -> at_index g i m ->
         exists ev, In ev es /\ ev_id ev = i /\ ev_act ev = command m e x /\ ev_norm ev = false
           /\ match m_kind m with
              | KGenset _ => forall lo hi, production_limits m (el_action e) lo (BFin hi) ->
                               ev_absorbed ev == 0 /\ ev_provided ev == clip lo hi x
              | _ => ev_provided ev - ev_absorbed ev == x
              end) pl xs.
Proof. exact (rbc_delivers D g g' pl obs rw dn inf). Qed.
Print Assumptions C40_step_delivers.

(** C41.  The default list has every deployable module once, gensets off (or, when
    redundant lists are removed, on if they can run at zero); cheapest first; among
    equals gensets first. *)
Theorem C41_default_list D (g : mgrid Q) rr : from_modules D g -> names_separate D ->
  exists ids first pl, rbc_priority_list g None rr = Ok pl
    /\ NoDup ids /\ (forall i, In i ids <-> exists m, at_index g i m /\ deployable m)
    /\ (exists l1 l2, ids = l1 ++ l2 /\ (forall i m, In i l1 -> at_index g i m -> is_genset (m_kind m) = true)
                     /\ (forall i m, In i l2 -> at_index g i m -> is_genset (m_kind m) = false))
    /\ Forall2 (fun i e => exists m, at_index g i m /\ deployable m /\ stands_for D e i m
                             /\ el_action e = default_action rr m) ids first
    /\ Permutation pl first /\ StronglySorted in_cost_order pl
    /\ (forall k, filter (same_rank k) pl = filter (same_rank k) first)
    /\ deployment_order D g pl.
Proof.
  intros F S. destruct (default_list D g F S rr) as (first & pl & E & DF & PM & SO & ST).
  exists (controllable_source_ids g), first, pl. split; [exact E|].
  split; [exact (csi_nodup D g F)|]. split; [exact (csi_in D g F)|]. split; [exact (csi_gensets_first D g F)|].
  split; [exact DF|]. split; [exact PM|]. split; [exact SO|]. split; [exact ST|].
  exact (default_order D g F rr first pl DF PM).
Qed.
Print Assumptions C41_default_list.

(** Lists given by the caller: a tuple equal to one of the generated lists is
    accepted; a list never is. *)
Theorem C41_given_list D (g : mgrid Q) rr l : from_modules D g -> names_separate D ->
  raises ValueError (rbc_priority_list g (Some (PLList l)) rr)
  /\ (forall pl, rbc_priority_list g (Some (PLTuple l)) rr = Ok pl <->
        pl = l /\ exists pl', Forall2 same_element l pl' /\ deployment_order D g pl'
                               /\ (rr = true -> ~ idles_free_genset D g pl'))
  /\ (forall e, rbc_priority_list g (Some (PLTuple l)) rr = Err e -> ex_class e = ValueError).
Proof. exact (given_list D g rr l). Qed.
Print Assumptions C41_given_list.

(** A genset the list keeps off and that is off stays off, and gives nothing. *)
Theorem C41_genset_stays_off D (g g' : mgrid Q) pl obs rw dn inf el i m : from_modules D g -> names_separate D ->
  Forall (fun d => sane_reachable (snd d)) D -> drives D g pl ->
  rbc_step pl g = (g', Ok (obs, rw, dn, inf)) ->
  In el pl -> refers D (el_module el) i -> el_action el = 0%nat ->
  at_index g i m -> is_genset (m_kind m) = true -> running m = false -> goal_on m = false ->
  exists es m', did g es g' /\ at_index g' i m' /\ is_genset (m_kind m') = true /\ running m' = false /\ goal_on m' = false
    /\ forall ev, In ev es -> ev_id ev = i -> ev_provided ev == 0.
Proof. exact (rbc_step_off D g g' pl obs rw dn inf el i m). Qed.
Print Assumptions C41_genset_stays_off.
Theorem C41_genset_never_started D pl n (g g' : mgrid Q) el i m : from_modules D g -> names_separate D ->
  Forall (fun d => sane_reachable (snd d)) D -> drives D g pl ->
  rbc_loop n pl g = (g', Ok tt) ->
  In el pl -> refers D (el_module el) i -> el_action el = 0%nat ->
  at_index g i m -> is_genset (m_kind m) = true -> running m = false -> goal_on m = false ->
  exists m', at_index g' i m' /\ running m' = false /\ goal_on m' = false.
Proof. exact (rbc_loop_off D pl n g g' el i m). Qed.
Print Assumptions C41_genset_never_started.

(** C54.  The controller never fails on modules within their data that do not raise. *)
Theorem C54_controller_cannot_fail D pl n (g : mgrid Q) : from_modules D g -> names_separate D ->
  Forall (fun d => sane_reachable (snd d)) D -> Forall (fun d => lenient (snd d)) D -> no_reserved_name D ->
  has_unbalanced g -> total_shaper (mg_shaper g) -> Forall (data_left n) (mg_mods g) -> drives D g pl ->
  exists g', rbc_loop n pl g = (g', Ok tt).
Proof. exact (rbc_loop_total D pl n g). Qed.
Print Assumptions C54_controller_cannot_fail.

(** ** A case: load, pv, battery, a genset that is off and has a minimum of 1 *)
Definition off_genset : module Q :=
  or_balancing (new_genset 1 20 (FuelLin (2#5)) (1#10) 3 0 0 true false 0 false "genset_production").
Definition off_defs : list (mdef Q) :=
  [(Some "load", mg_load); (Some "pv", mg_pv); (None, mg_battery); (None, off_genset)].
Definition off_all : list (mdef Q) := all_defs off_defs true 10 2.
Definition off_mg : res (mgrid Q) := new_microgrid off_defs true 10 2 None None.
Lemma off_reachable : Forall (fun d => reachable (snd d)) off_defs.
Proof.
  repeat constructor; apply or_balancing_reachable; intros m E.
  - eapply built_load; [|exact E]. repeat constructor.
  - eapply built_renewable; [|exact E]. repeat constructor.
  - eapply built_battery; exact E.
  - eapply built_genset; exact E.
Qed.
Lemma off_from g : off_mg = Ok g -> from_modules off_all g.
Proof.
  intros E. exists off_defs, true, 10%Q, 2%Q, None, None, g, []. split; [split; [exact off_reachable|exact E]|]. split; reflexivity.
Qed.
Lemma off_separate : names_separate off_all.
Proof. apply separate_b_ok. vm_compute. reflexivity. Qed.
Lemma off_sane : Forall (fun d => sane_reachable (snd d)) off_all.
Proof.
  repeat constructor; (eexists; exists []; split; [|reflexivity]); cbn [snd].
  - eapply (sane_load [[5]; [7]; [1]; [3]] FPOracle 2 false 0 4 false mg_rnd); [vm_compute; repeat (constructor; [reflexivity|]); constructor|intros (? & H); discriminate H|vm_compute; reflexivity].
  - eapply (sane_renewable [[3]; [0]; [9]; [2]] FPNone 0 false 0 4 false "renewable_used" mg_rnd); [vm_compute; repeat (constructor; [reflexivity|]); constructor|intros (? & H); discriminate H|vm_compute; reflexivity].
  - eapply (sane_battery 2 10 4 3 (9#10) (1#50) (Some 5%Q) None 0 false); vm_compute; first [reflexivity | congruence].
  - eapply (sane_genset 1 20 (FuelLin (2#5)) (1#10) 3 0 0 true false 0 false "genset_production"); vm_compute; first [reflexivity | congruence].
  - apply sane_unbalanced; vm_compute; congruence.
Qed.
Lemma off_lenient : Forall (fun d => lenient (snd d)) off_all.
Proof. repeat constructor. Qed.
Lemma off_names : no_reserved_name off_all.
Proof. intros d I. simpl in I. repeat (destruct I as [<-|I]; [vm_compute; split; discriminate|]). destruct I. Qed.
Example C54_example :
  match off_mg with
  | Ok g => from_modules off_all g /\ has_unbalanced g /\ total_shaper (mg_shaper g)
      /\ Forall (data_left 4) (mg_mods g)
      /\ exists pl, rbc_priority_list g None true = Ok pl /\ drives off_all g pl
          /\ exists g', rbc_loop 4 pl g = (g', Ok tt)
  | Err _ => False
  end.
Proof.
  destruct off_mg as [g|e] eqn:E; [|vm_compute in E; discriminate E].
  pose proof (off_from g E) as F.
  assert (U : has_unbalanced g) by (vm_compute in E; injection E as <-; exists 4%nat; eexists; split; [reflexivity|eexists; reflexivity]).
  assert (S : total_shaper (mg_shaper g)) by (vm_compute in E; injection E as <-; exact I).
  assert (DL : Forall (data_left 4) (mg_mods g)).
  { vm_compute in E. injection E as <-. repeat constructor; intros T; try (exfalso; apply T; reflexivity);
      exists 0%nat; split; [reflexivity|vm_compute; lia|reflexivity|vm_compute; lia]. }
  split; [exact F|]. split; [exact U|]. split; [exact S|]. split; [exact DL|].
  destruct (C41_default_list off_all g true F off_separate) as (ids & first & pl & P & _ & _ & _ & _ & _ & _ & _ & O).
  exists pl. split; [exact P|]. pose proof (order_drives off_all g pl O) as DR. split; [exact DR|].
  apply (C54_controller_cannot_fail off_all); auto using off_sane, off_lenient, off_names, off_separate.
Qed.
(** The default list puts the battery first and the genset, off, second.  In the
    second step 63/10 of the load of 7 is lost although the genset could give 20. *)
Example C41_example :
  match off_mg with
  | Ok g =>
      match rbc_priority_list g None true with
      | Ok pl =>
          map (fun e => (el_module e, el_action e)) pl = [(("battery", 0), 0); (("genset", 0), 0)]%nat
          /\ (let '(g1, _) := rbc_step pl g in
              match rbc_step pl g1 with
              | (g2, Ok (_, _, _, inf)) =>
                  (exists i, dget "balancing" inf = Some [EInfo i] /\ provided i == 63 # 10)
                  /\ map running (mg_mods g2) = [false; false; false; false; false]
              | _ => False end)
      | Err _ => False
      end
  | Err _ => False
  end.
Proof.
  vm_compute. split; [reflexivity|]. split; [eexists; split; reflexivity|reflexivity].
Qed.
(** The same microgrid driven by the list with the genset on: nothing is lost. *)
Example C40_example :
  match off_mg with
  | Ok g =>
      let pl := [mkElement ("genset", 0%nat) 2 1 (7#10); mkElement ("battery", 0%nat) 1 0 (1#50)] in
      rbc_priority_list g (Some (PLTuple pl)) false = Ok pl
      /\ match rbc_step pl g with
         | (_, Ok (_, _, _, inf)) =>
             (exists i, dget "balancing" inf = Some [EInfo i] /\ provided i == 0)
             /\ (exists i, dget "genset" inf = Some [EInfo i] /\ provided i == 2)
         | _ => False end
  | Err _ => False
  end.
Proof.
  vm_compute. split; [reflexivity|]. split; eexists; split; reflexivity.
Qed.

(** C37, after any history: the name of a module is the name it was given and its
    number among the modules of that name and category. *)
Theorem C37_numbering_kept D (g : mgrid Q) : from_modules D g ->
  forall i d m, nth_error D i = Some d -> nth_error (mg_mods g) i = Some m ->
  m_name m = (Some (mdef_name d), Some (length (members (mdef_name d) (category_of (snd d)) 0 (firstn i D)))).
Proof. exact (names_kept D g). Qed.
Print Assumptions C37_numbering_kept.
