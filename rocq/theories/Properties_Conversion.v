(** * Converting microgrids *)

From Coq Require Import ZArith QArith Qabs Qminmax Bool String List Lia Lqa.
From Verif Require Import Num Py Space Logger Forecast Module Container Microgrid NonModular Conversion
  Spec_Module Spec_Reach Spec_Microgrid Spec_Shaping Spec_NonModular Spec_Conversion
  Proofs_Num Proofs_Any Proofs_Twin Proofs_NonModular Proofs_MgProps Proofs_Conversion Proofs_Twin3 Proofs_Copy5 Proofs_Round Properties_NonModular.
Import ListNotations.
Local Open Scope string_scope.
Local Open Scope list_scope.
Local Open Scope Q_scope.

(** ** C62: the modular copy of a non-modular microgrid *)

Theorem C62_copy re (g : nonmod Q) (mg : mgrid Q) : to_modular re g = Ok mg -> modular_copy re g mg.
Proof. exact (modular_copied re g mg). Qed.
Print Assumptions C62_copy.

Theorem C62_accepted re (g : nonmod Q) : plausible g -> exists mg, to_modular re g = Ok mg.
Proof. exact (modular_accepted re g). Qed.
Print Assumptions C62_accepted.
Lemma full_plausible : plausible full_grid.
Proof.
  constructor.
  - vm_compute. repeat constructor.
  - vm_compute. repeat constructor; discriminate.
  - intros _. split; [vm_compute; reflexivity|]. vm_compute. repeat constructor; discriminate.
  - exists 10, 1. repeat apply conj; vm_compute; try reflexivity; discriminate.
  - intros _. exists 100, (1#5), 25, 25, (9#10), (1#50), (1#2). repeat apply conj; vm_compute; try reflexivity; discriminate.
  - intros _. exists 40, (1#20), (9#10), (2#5), 2, (1#10). repeat apply conj; vm_compute; try reflexivity; discriminate.
  - intros _. exists 60, 60, (1#10). repeat apply conj; try (vm_compute; try reflexivity; discriminate).
    + vm_compute. repeat constructor; try discriminate.
    + vm_compute. repeat (constructor; [first [left; reflexivity | right; reflexivity]|]). constructor.
Qed.
(** A microgrid with everything: six modules, among them a battery between 20 and
    100 kWh that holds 50 *)
Example C62_example :
  match to_modular false full_grid with
  | Ok mg => length (mg_mods mg) = 6%nat
      /\ map (fun m => match m_kind m with KBattery b => (Qred (b_min_capacity b), Qred (b_charge b)) | _ => (0, 0) end)
             (named "battery" mg) = [(20, 50)]
      /\ map (fun m => length (series m)) (named "grid" mg) = [5]%nat
      /\ map series (named "load" mg) = [[[-(10)]; [-(20)]; [-(30)]; [-(40)]; [-(50)]]]
  | Err _ => False
  end.
Proof. vm_compute. repeat split; reflexivity. Qed.

(** Nothing else of the non-modular microgrid matters: not where it is in its data,
    what it has recorded or which part of the data it uses. *)
Theorem C62_only_data re (g g' : nonmod Q) :
  nm_arch g' = nm_arch g -> nm_par g' = nm_par g -> nm_horizon g' = nm_horizon g ->
  nm_load_ts g' = nm_load_ts g -> nm_pv_ts g' = nm_pv_ts g -> nm_status_ts g' = nm_status_ts g ->
  nm_import_ts g' = nm_import_ts g -> nm_export_ts g' = nm_export_ts g -> nm_co2_ts g' = nm_co2_ts g ->
  bv_soc (nm_battery g') = bv_soc (nm_battery g) -> to_modular re g' = to_modular re g.
Proof. exact (modular_only_data re g g'). Qed.
Print Assumptions C62_only_data.
(** So a microgrid that has been run is converted to one at step 0, with the charge
    its battery has now. *)
Example C62_after_runs :
  let g := nm_after [HRun some_control; HRun some_control] full_grid in
  nm_t g = 2%Z /\
  match to_modular false g with
  | Ok mg => map m_cur (mg_mods mg) = [0; 0; 0; 0; 0; 0]%Z
      /\ map (fun m => match m_kind m with KBattery b => Qred (b_soc b) | _ => 0 end) (named "battery" mg)
         = [match bv_soc (nm_battery g) with CNum x => Qred x | _ => 0 end]
      /\ match bv_soc (nm_battery g) with CNum x => Qeq_bool x (1 # 2) | _ => true end = false
  | Err _ => False
  end.
Proof. vm_compute. repeat split; reflexivity. Qed.

(** ** C63: the copy behaves like the original *)

(** Along any history of controls that both can follow, the next such control is
    accepted by both, with the same dispatch and the same state of charge. *)
Theorem C63_same_dispatch (g0 : nonmod Q) (mg0 : mgrid Q) (g : nonmod Q) (mg : mgrid Q) control g' v :
  plausible g0 -> has_pv (nm_arch g0) = true -> starting g0 -> to_modular false g0 = Ok mg0 ->
  side_by_side g0 mg0 g mg -> agreeable g control -> nm_run control g = (g', Ok v) ->
  exists mg' out es o,
    run (modular_control g control) false mg = (mg', Ok out)
    /\ did mg es mg' /\ produced g g' o
    /\ same_dispatch g o es /\ same_rest (1 # 1000) o es
    /\ (1 # 1000 <= Qabs (pv_required g o - now_pv (nm_now g)) -> same_rest 0 o es)
    /\ (forall i m b soc, at_index mg' i m -> m_kind m = KBattery b ->
          latest (nm_state g') "battery_soc" (CNum soc) -> b_soc b == soc).
Proof.
  intros PL HP ST TM SS AG RN.
  destruct (runs_alike _ _ _ _ _ _ _ PL HP ST TM SS AG RN) as (mg' & obs & rw & dn & inf & es & o & RM & DD & P & S1 & S2 & S3 & B & _).
  exists mg', (obs, rw, dn, inf), es, o. do 6 (split; [assumption|]).
  intros i m b soc A K L. exact (proj1 (B i m b soc A K L)).
Qed.
Print Assumptions C63_same_dispatch.

(** The reward is the recorded cost with the other sign, except that the wear of the
    battery is charged for what is stored and drawn, inside the battery, instead of
    for what is charged and discharged. *)
Theorem C63_same_cost (g0 : nonmod Q) (mg0 : mgrid Q) (g : nonmod Q) (mg : mgrid Q) control g' v mg' obs rw dn inf :
  plausible g0 -> has_pv (nm_arch g0) = true -> starting g0 -> to_modular false g0 = Ok mg0 ->
  side_by_side g0 mg0 g mg -> agreeable g control -> nm_run control g = (g', Ok v) ->
  run (modular_control g control) false mg = (mg', Ok (obs, rw, dn, inf)) ->
  exists o total loss over wear,
    produced g g' o /\ gained (nm_cost g) (nm_cost g') "total_cost" (CNum total)
    /\ parameter g "cost_loss_load" loss /\ parameter g "cost_overgeneration" over
    /\ (if has_battery (nm_arch g)
        then exists cyc eff, parameter g "battery_cost_cycle" cyc /\ parameter g "battery_efficiency" eff
               /\ wear == cyc * (oc_charge o * eff + oc_discharge o / eff) - cyc * (oc_charge o + oc_discharge o)
        else wear == 0)
    /\ Qabs (- rw - (total + wear)) <= (loss + over) * (1 # 1000)
    /\ (1 # 1000 <= Qabs (pv_required g o - now_pv (nm_now g)) -> - rw == total + wear).
Proof.
  intros PL HP ST TM SS AG RN RM0.
  destruct (runs_alike _ _ _ _ _ _ _ PL HP ST TM SS AG RN) as (mg1 & obs1 & rw1 & dn1 & inf1 & es & o & RM & DD & P & S1 & S2 & S3 & B
    & total & l & ov & extra & GT & P1 & P2 & Z1 & Z2 & EX & LIM).
  rewrite RM in RM0. injection RM0 as -> -> -> -> ->.
  exists o, total, l, ov, extra. do 4 (split; [assumption|]). split; [|split].
  - destruct (has_battery (nm_arch g)); [|exact EX]. destruct EX as (cyc & eff & Q1 & Q2 & EX). exists cyc, eff.
    split; [exact Q1|]. split; [exact Q2|]. rewrite EX. unfold Qdiv. ring.
  - apply LIM. exact S2.
  - intros F. pose proof (LIM 0 (S3 F)) as X. apply Qabs_Qle_condition in X. destruct X as [X Y].
    assert (E : (l + ov) * 0 == 0) by ring. rewrite E in X, Y. lra.
Qed.
Print Assumptions C63_same_cost.

Lemma full_starting : starting full_grid.
Proof.
  split.
  - exists (nm_example full_arch nm_load nm_pv), 2%Z. split; [apply example_wired; reflexivity|exact full_new].
  - intros _. exists []. vm_compute. reflexivity.
Qed.
Ltac decided := first [reflexivity | discriminate].
Lemma some_agreeable g : nm_arch g = full_arch -> nm_par g = nm_par full_grid ->
  forall soc, latest (nm_state g) "battery_soc" (CNum soc) -> 4 <= (soc - (1 # 5)) * 100 * (9 # 10) -> soc <= 1 -> agreeable g some_control.
Proof.
  intros EA EP soc LS L1 L2. unfold agreeable, parameter. rewrite EA, EP. repeat apply conj; intros _.
  - exists 0, 4, soc, 100, (1 # 5), 1, (9 # 10), 25, 25.
    repeat apply conj; try exact LS; try exact L1; try (vm_compute; decided).
    + lra.
    + left; reflexivity.
  - exists 0, 0, 60, 60. repeat apply conj; try (vm_compute; decided); [left; reflexivity|right; split; reflexivity].
  - exists 0, 40, (1 # 20), (9 # 10). repeat apply conj; try (vm_compute; decided). left. reflexivity.
Qed.
Lemma returns_here {A} (m : M (nonmod Q) A) g : returns (m g) = true -> exists v, m g = (fst (m g), Ok v).
Proof. unfold returns. destruct (m g) as [g' [v|e]]; simpl; [eauto|discriminate]. Qed.
(** Two steps, then a third with the grid down *)
Example C63_example : exists mg0 g mg g' v, to_modular false full_grid = Ok mg0
  /\ side_by_side full_grid mg0 g mg /\ nm_t g = 2%Z /\ now_status (nm_now g) == 0
  /\ agreeable g some_control /\ nm_run some_control g = (g', Ok v).
Proof.
  destruct (C62_accepted false full_grid full_plausible) as (mg0 & TM). exists mg0.
  pose (g1 := fst (nm_run some_control full_grid)). pose (g2 := fst (nm_run some_control g1)).
  assert (A0 : agreeable full_grid some_control).
  { refine (some_agreeable full_grid _ _ (1 # 2) _ _ _);
      [vm_compute; reflexivity|vm_compute; reflexivity|exists []; vm_compute; reflexivity|vm_compute; decided|vm_compute; decided]. }
  assert (T1 : returns (nm_run some_control full_grid) = true) by (vm_compute; reflexivity).
  destruct (returns_here (nm_run some_control) full_grid T1) as (v1 & R1). fold g1 in R1.
  assert (L1 : exists soc, latest (nm_state g1) "battery_soc" (CNum soc) /\ 4 <= (soc - (1 # 5)) * 100 * (9 # 10) /\ soc <= 1).
  { eexists. split; [eexists [_]; vm_compute; reflexivity|]. split; vm_compute; decided. }
  assert (A1 : agreeable g1 some_control).
  { destruct L1 as (soc & L & B1 & B2). refine (some_agreeable g1 _ _ soc L B1 B2); vm_compute; reflexivity. }
  assert (T2 : returns (nm_run some_control g1) = true) by (vm_compute; reflexivity).
  destruct (returns_here (nm_run some_control) g1 T2) as (v2 & R2). fold g2 in R2.
  assert (A2 : agreeable g2 some_control).
  { assert (exists soc, latest (nm_state g2) "battery_soc" (CNum soc) /\ 4 <= (soc - (1 # 5)) * 100 * (9 # 10) /\ soc <= 1) as (soc & L & B1 & B2).
    { eexists. split; [eexists [_; _]; vm_compute; reflexivity|]. split; vm_compute; decided. }
    refine (some_agreeable g2 _ _ soc L B1 B2); vm_compute; reflexivity. }
  assert (T3 : returns (nm_run some_control g2) = true) by (vm_compute; reflexivity).
  destruct (returns_here (nm_run some_control) g2 T3) as (v3 & R3).
  destruct (C63_same_dispatch full_grid mg0 full_grid mg0 some_control g1 v1 full_plausible eq_refl full_starting TM (sb_start _ _) A0 R1)
    as (mg1 & out1 & _ & _ & M1 & _).
  assert (N0 : ~ last_step full_grid) by (intros [X|X]; vm_compute in X; discriminate X).
  assert (N1 : ~ last_step g1) by (intros [X|X]; vm_compute in X; discriminate X).
  pose proof (sb_run _ _ _ _ _ _ _ _ _ (sb_start full_grid mg0) A0 N0 R1 M1) as S1.
  destruct (C63_same_dispatch full_grid mg0 g1 mg1 some_control g2 v2 full_plausible eq_refl full_starting TM S1 A1 R2)
    as (mg2 & out2 & _ & _ & M2 & _).
  exists g2, mg2, (fst (nm_run some_control g2)), v3. split; [exact TM|]. split; [exact (sb_run _ _ _ _ _ _ _ _ _ S1 A1 N1 R2 M2)|].
  split; [vm_compute; reflexivity|]. split; [vm_compute; reflexivity|]. split; [exact A2|exact R3].
Qed.

(** Controls beyond those are executed differently: the power limit of a discharge
    is taken outside of the battery by one and inside by the other. *)
Definition copied_soc (control : dict Q) (g : nonmod Q) : option (list Q) :=
  match to_modular false g with
  | Ok mg => match run (modular_control g control) false mg with
             | (mg', Ok _) => Some (flat_map (fun m => match m_kind m with KBattery b => [Qred (b_soc b)] | _ => [] end) (mg_mods mg'))
             | _ => None
             end
  | Err _ => None
  end.
Definition original_soc (control : dict Q) (g : nonmod Q) : list (cell Q) :=
  map (fun c => match c with CNum x => CNum (Qred x) | _ => c end) (column (nm_state (fst (nm_run control g))) "battery_soc").
Definition deep_discharge : dict Q := dset "battery_discharge" 25 some_control.
Example C63_power_limit : returns (nm_run deep_discharge full_grid) = true
  /\ original_soc deep_discharge full_grid = [CNum (1 # 2); CNum (2 # 9)] /\ copied_soc deep_discharge full_grid = Some [1 # 4].
Proof. vm_compute. repeat split; reflexivity. Qed.
Lemma copied_soc_some control (g : nonmod Q) q : copied_soc control g = Some [q] ->
  exists mg0 mg' out i m b, to_modular false g = Ok mg0 /\ run (modular_control g control) false mg0 = (mg', Ok out)
    /\ at_index mg' i m /\ m_kind m = KBattery b /\ b_soc b == q.
Proof.
  unfold copied_soc. destruct (to_modular false g) as [mg0|e] eqn:TM; [|discriminate].
  destruct (run (modular_control g control) false mg0) as [mg' [out|e]] eqn:RM; [|discriminate]. intros C.
  assert (E : flat_map (fun m => match m_kind m with KBattery b => [Qred (b_soc b)] | _ => [] end) (mg_mods mg') = [q]) by congruence.
  assert (I : In q (flat_map (fun m => match m_kind m with KBattery b => [Qred (b_soc b)] | _ => [] end) (mg_mods mg')))
    by (rewrite E; left; reflexivity).
  apply in_flat_map in I. destruct I as (m & I & K). destruct (m_kind m) as [b|s|gr t|t|t|u] eqn:KM; try contradiction.
  destruct K as [K|[]]. apply In_nth_error in I. destruct I as (i & I).
  exists mg0, mg', out, i, m, b. repeat apply conj; auto. rewrite <- K. symmetry. apply Qred_correct.
Qed.
Lemma deep_soc : exists soc, latest (nm_state (fst (nm_run deep_discharge full_grid))) "battery_soc" (CNum soc) /\ Qeq_bool (1 # 4) soc = false.
Proof. eexists. split; [eexists [_]; vm_compute; reflexivity|]. vm_compute. reflexivity. Qed.
Theorem C63_any_control_refuted : ~ (forall (g0 : nonmod Q) mg0 control g' v mg' out,
  plausible g0 -> has_pv (nm_arch g0) = true -> starting g0 -> to_modular false g0 = Ok mg0 ->
  nm_run control g0 = (g', Ok v) -> run (modular_control g0 control) false mg0 = (mg', Ok out) ->
  forall i m b soc, at_index mg' i m -> m_kind m = KBattery b ->
    latest (nm_state g') "battery_soc" (CNum soc) -> b_soc b == soc).
Proof.
  intros H.
  destruct (copied_soc_some deep_discharge full_grid (1 # 4) ltac:(vm_compute; reflexivity)) as (mg0 & mg' & out & i & m & b & TM & RM & A & K & S).
  assert (T : returns (nm_run deep_discharge full_grid) = true) by (vm_compute; reflexivity).
  destruct (returns_here (nm_run deep_discharge) full_grid T) as (v & RN).
  destruct deep_soc as (soc & L & N).
  pose proof (H full_grid mg0 deep_discharge _ v mg' out full_plausible eq_refl full_starting TM RN RM i m b soc A K L) as X.
  rewrite S in X. apply Qeq_bool_iff in X. congruence.
Qed.
Print Assumptions C63_any_control_refuted.

(** With a battery in use, the reward is not the recorded cost. *)
Definition both_costs (control : dict Q) (g : nonmod Q) : option (Q * list (cell Q)) :=
  match to_modular false g with
  | Ok mg => match run (modular_control g control) false mg with
             | (_, Ok (_, rw, _, _)) =>
               Some (Qred (- rw), map (fun c => match c with CNum x => CNum (Qred x) | _ => c end)
                                      (column (nm_cost (fst (nm_run control g))) "total_cost"))
             | _ => None
             end
  | Err _ => None
  end.
Example C63_wear : both_costs some_control full_grid = Some (454 # 45, [CNum (252 # 25)]).
Proof. vm_compute. reflexivity. Qed.
(** During an outage one imports and the other does not. *)
Example C63_outage :
  let g := nm_after [HRun some_control; HRun some_control] full_grid in
  let c := dset "grid_import" 7 some_control in
  nm_t g = 2%Z /\ now_status (nm_now g) == 0
  /\ option_map (map (fun c => match c with CNum x => CNum (Qred x) | _ => c end))
       (dget "grid_import" (nm_production (fst (nm_run c g)))) = Some [CNum 0; CNum 0; CNum 7]
  /\ match to_modular false full_grid with
     | Ok mg =>
       let r a mg := run (modular_control full_grid a) false mg in
       let mg3 := fst (r c (fst (r some_control (fst (r some_control mg))))) in
       map (fun m => dget "grid_import" (lg_data (m_log m))) (named "grid" mg3) = [Some (ColList [Some 0; Some 0; Some 0])]
     | Err _ => False
     end.
Proof. vm_compute. repeat split; reflexivity. Qed.

(** ** C64: the non-modular copy of a modular microgrid *)

(** [round1] and [poly] stand for rounding to one decimal and for the random
    coefficients of the genset's curve: the claims hold whatever they are. *)
Section Back.
Variables (round1 : Q -> Q) (poly : nat -> Q).

(** When it can be made *)
Theorem C64_when D (mg : mgrid Q) : from_modules D mg -> names_separate D ->
  ((exists g, to_nonmodular round1 poly mg = Ok g) <-> convertible D mg /\ sufficient mg).
Proof. intros F. exact (to_nonmodular_iff round1 poly D mg (from_modules_inv D mg F)). Qed.
Theorem C64_refuses D (mg : mgrid Q) : from_modules D mg -> names_separate D ->
  ~ convertible D mg -> raises ValueError (to_nonmodular round1 poly mg).
Proof. intros F. exact (to_nonmodular_refuses round1 poly D mg (from_modules_inv D mg F)). Qed.

(** What it contains *)
Theorem C64_copy D (mg : mgrid Q) (g : nonmod Q) : from_modules D mg -> names_separate D ->
  to_nonmodular round1 poly mg = Ok g -> nonmodular_copy mg g.
Proof. intros F. exact (to_nonmodular_contents round1 poly D mg g (from_modules_inv D mg F)). Qed.

(** Whether it can be used: with an unbalanced-energy module and a grid or a genset it
    has all the data that a run needs (so that C56 to C61 apply); without, no control
    can be run. *)
Theorem C64_complete D (mg : mgrid Q) (g : nonmod Q) : from_modules D mg -> names_separate D ->
  to_nonmodular round1 poly mg = Ok g -> has_unbalanced mg -> any_module mg is_grid \/ any_module mg is_a_genset ->
  exists sp h, wired sp /\ new_nonmodular sp h = Ok g.
Proof. intros F. exact (to_nonmodular_wired round1 poly D mg g (from_modules_inv D mg F)). Qed.
Theorem C64_runs D (mg : mgrid Q) (g : nonmod Q) control g' v : from_modules D mg -> names_separate D ->
  to_nonmodular round1 poly mg = Ok g -> nm_run control g = (g', Ok v) ->
  has_unbalanced mg /\ (any_module mg is_grid \/ any_module mg is_a_genset).
Proof. intros F. exact (to_nonmodular_runs round1 poly D mg g control g' v (from_modules_inv D mg F)). Qed.

(** Its load has the sign of the modules' convention, not of its own: it is never
    positive. *)
Theorem C64_load_negative D (mg : mgrid Q) (g : nonmod Q) : from_modules D mg -> names_separate D ->
  to_nonmodular round1 poly mg = Ok g -> Forall (fun x => x <= 0) (nm_load_ts g).
Proof. intros F. exact (to_nonmodular_sign round1 poly D mg g (from_modules_inv D mg F)). Qed.

(** There and back *)
Theorem C64_round_trip re (g g2 : nonmod Q) (mg : mgrid Q) :
  to_modular re g = Ok mg -> to_nonmodular round1 poly mg = Ok g2 -> round_trip g g2.
Proof. intros T. exact (went_round round1 poly re g mg T g2). Qed.
Theorem C64_round_trip_exists re (g : nonmod Q) : plausible g -> has_pv (nm_arch g) = true -> (2 <= length (nm_load_ts g))%nat ->
  (has_genset (nm_arch g) = true -> exists rated pmax,
     parameter g "genset_rated_power" rated /\ parameter g "genset_pmax" pmax /\ ~ rated * pmax == 0) ->
  exists mg g2, to_modular re g = Ok mg /\ to_nonmodular round1 poly mg = Ok g2.
Proof.
  intros PL HP L HG. destruct (C62_accepted re g PL) as (mg & T). exists mg.
  destruct (round_goes round1 poly re g mg T HP L) as (g2 & E); [rewrite (proj1 (pl_pv _ PL HP)); exact L| |exact HG|eauto].
  intros H Z. destruct (pl_grid _ PL H) as (mi & me & cost & _ & _ & _ & _ & _ & F & _). rewrite Z in F.
  inversion F as [|? ? (X & _) _]; subst. pose proof (pl_rows _ PL). simpl in X. rewrite <- X in H0. inversion H0.
Qed.
End Back.
Print Assumptions C64_when.
Print Assumptions C64_refuses.
Print Assumptions C64_copy.
Print Assumptions C64_complete.
Print Assumptions C64_runs.
Print Assumptions C64_load_negative.
Print Assumptions C64_round_trip.
Print Assumptions C64_round_trip_exists.

Definition no_round (x : Q) : Q := x.
Definition no_poly (_ : nat) : Q := 0.
Definition there_and_back (g : nonmod Q) : res (nonmod Q) :=
  match to_modular false g with Ok mg => to_nonmodular no_round no_poly mg | Err e => Err e end.
(** The microgrid with everything *)
Example C64_example :
  match there_and_back full_grid with
  | Ok g2 => nm_arch g2 = full_arch /\ nm_load_ts g2 = [-(10); -(20); -(30); -(40); -(50)]
      /\ nm_pv_ts g2 = nm_pv_ts full_grid /\ nm_status_ts g2 = nm_status_ts full_grid
      /\ option_map Qred (dget "genset_rated_power" (nm_par g2)) = Some 40 /\ nm_horizon g2 = 2%Z
      /\ returns (nm_run some_control g2) = true
  | Err _ => False
  end.
Proof. vm_compute. repeat split; reflexivity. Qed.
(** A microgrid converted there satisfies the hypotheses of [C64_copy]. *)
Example C64_example_from : exists D mg g2, from_modules D mg /\ names_separate D /\ convertible D mg /\ sufficient mg
  /\ to_nonmodular no_round no_poly mg = Ok g2 /\ has_unbalanced mg /\ any_module mg is_grid.
Proof.
  destruct (C64_round_trip_exists no_round no_poly false full_grid full_plausible eq_refl) as (mg & g2 & T & E).
  - vm_compute. repeat constructor.
  - intros _. exists 40, (9 # 10). repeat apply conj; [vm_compute; reflexivity|vm_compute; reflexivity|vm_compute; discriminate].
  - destruct (round_built false full_grid mg T) as (D & F & N & _). exists D, mg, g2.
    pose proof (nodup_names_sep D N) as S. pose proof (proj1 (C64_when no_round no_poly D mg F S) (ex_intro _ g2 E)) as (C1 & C2).
    destruct (round_part false full_grid mg T "grid" true (get_grid_module full_grid false)) as (m & i & nn & M & A); [cbn; tauto|reflexivity|].
    destruct (round_part false full_grid mg T "unbalanced_energy" true (get_unbalanced_energy_module full_grid false)) as (m' & j & nn' & M' & A'); [cbn; tauto|reflexivity|].
    conj; auto.
    + destruct (unbalanced_made _ _ _ M') as ((_ & u & K & _) & _). exists j, (set_name m' nn'). split; [exact A'|]. exists u. rewrite kind_renamed. exact K.
    + destruct (grid_made _ _ _ M) as ((_ & (gr & t & K & _) & _) & _). exists i, (set_name m nn). split; [exact A|]. exists gr, t. rewrite kind_renamed. exact K.
Qed.

(** What the original has to serve is not what its copy has to serve. *)
Theorem C64_same_demand_refuted : ~ (forall re (g g2 : nonmod Q) mg, plausible g ->
  to_modular re g = Ok mg -> to_nonmodular no_round no_poly mg = Ok g2 ->
  forall k x y, nth_error (nm_load_ts g) k = Some x -> nth_error (nm_load_ts g2) k = Some y -> y == x).
Proof.
  intros H. destruct (C64_round_trip_exists no_round no_poly false full_grid full_plausible eq_refl) as (mg & g2 & T & E).
  - vm_compute. repeat constructor.
  - intros _. exists 40, (9 # 10). repeat apply conj; [vm_compute; reflexivity|vm_compute; reflexivity|vm_compute; discriminate].
  - specialize (H false full_grid g2 mg full_plausible T E 0%nat 10 (- Qabs 10)).
    rewrite (rt_load _ _ (C64_round_trip no_round no_poly false full_grid g2 mg T E)) in H.
    specialize (H eq_refl eq_refl). discriminate H.
Qed.
Print Assumptions C64_same_demand_refuted.
(** 10 kWh of demand, 5 of sun and 4 from the battery: 1 kWh is missing.  In the copy
    14 kWh are too much. *)
Definition met (r : res (nonmod Q)) (c : dict Q) : list (string * list (cell Q)) :=
  match r with
  | Ok g => filter (fun kv => existsb (String.eqb (fst kv)) ["pv_consummed"; "pv_curtailed"; "loss_load"; "overgeneration"])
      (map (fun kv => (fst kv, map (fun c => match c with CNum x => CNum (Qred x) | _ => c end) (snd kv))) (nm_production (fst (nm_run c g))))
  | Err _ => []
  end.
Example C64_what_is_served :
  met (Ok full_grid) some_control =
    [("loss_load", [CNum 1]); ("overgeneration", [CNum 0]); ("pv_consummed", [CNum 5]); ("pv_curtailed", [CNum 0])]
  /\ met (there_and_back full_grid) some_control =
    [("loss_load", [CNum 0]); ("overgeneration", [CNum 14]); ("pv_consummed", [CNum 0]); ("pv_curtailed", [CNum 5])].
Proof. vm_compute. split; reflexivity. Qed.
