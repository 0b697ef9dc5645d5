(** * Properties C04 - C10: the battery

    [play cs m0] makes the calls [cs] (any mix of step and reset, any actions,
    exceptions caught) on the freshly built battery [m0]; [charge m] is its
    [current_charge].  All numbers are exact rationals except in C09. *)

From Coq Require Import ZArith QArith Qabs Bool String List Lqa.
From Verif Require Import Num Py Space Module Spec_Module Proofs_Battery.
Import ListNotations.
Local Open Scope Q_scope.

(** A battery and a history used below: capacity 2..10, efficiency 9/10,
    discharged, overcharged (clipped), refused, and reset. *)
Definition ex_battery : res (module Q) :=
  new_battery 2 10 4 3 (9#10) (1#50) None (Some 5) None 0 false.
Definition ex_calls : list (call Q) :=
  [Step (VS 1) false; Step (VS (-100)) false; Step (VA [1; 2]) true; Reset;
   Step (VS (3#4)) true; Step (VS 50) false].

(** C04. *)
Theorem C04_charge_within_capacity minc maxc maxch maxdis eff cost ic is init rs m0 cs m os :
  new_battery minc maxc maxch maxdis eff cost None ic is init rs = Ok m0 ->
  minc <= charge m0 -> charge m0 <= maxc ->
  play cs m0 = (m, os) ->
  minc <= charge m /\ charge m <= maxc
  /\ exists b, m_kind m = KBattery b /\ b_soc b == charge m / maxc.
Proof. exact (C04_lemma _ _ _ _ _ _ _ _ _ _ _ _ _ _). Qed.
Print Assumptions C04_charge_within_capacity.

Example C04_example :
  match ex_battery with
  | Ok m0 => let '(m, os) := play ex_calls m0 in
             2 <= charge m0 /\ charge m0 <= 10 /\ length os = 4%nat /\ ~ charge m == charge m0
  | Err _ => False
  end.
Proof. vm_compute. repeat split; intros C; discriminate C. Qed.

(** C05. *)
Theorem C05_energy_accounting minc maxc maxch maxdis eff cost ic is init rs m0 cs m os :
  new_battery minc maxc maxch maxdis eff cost None ic is init rs = Ok m0 ->
  minc <= charge m0 -> charge m0 <= maxc ->
  play cs m0 = (m, os) ->
  charge m == charge m0 + eff * total_absorbed os - total_provided os / eff.
Proof. exact (C05_lemma _ _ _ _ _ _ _ _ _ _ _ _ _ _). Qed.
Print Assumptions C05_energy_accounting.

(** C06. *)
Theorem C06_rate_limits minc maxc maxch maxdis eff cost ic is init rs m0 cs m os a n m' r :
  new_battery minc maxc maxch maxdis eff cost None ic is init rs = Ok m0 ->
  minc <= charge m0 -> charge m0 <= maxc -> 0 <= maxch -> 0 <= maxdis ->
  play cs m0 = (m, os) -> step a n m = (m', r) ->
  - maxdis <= charge m' - charge m /\ charge m' - charge m <= maxch
  /\ match r with
     | Err _ => charge m' = charge m
     | Ok o => (0 < provided (info_of o) -> charge m' <= charge m /\ absorbed (info_of o) == 0)
               /\ (0 < absorbed (info_of o) -> charge m <= charge m' /\ provided (info_of o) == 0)
     end.
Proof. exact (C06_lemma _ _ _ _ _ _ _ _ _ _ _ _ _ _ _ _ _ _). Qed.
Print Assumptions C06_rate_limits.

(** C07. *)
Theorem C07_cost_is_linear minc maxc maxch maxdis eff cost ic is init rs m0 cs m os :
  new_battery minc maxc maxch maxdis eff cost None ic is init rs = Ok m0 ->
  minc <= charge m0 -> charge m0 <= maxc ->
  play cs m0 = (m, os) ->
  (forall a n m' o, step a n m = (m', Ok o) ->
     reward_of o == - (cost * Qabs (charge m' - charge m)))
  /\ total_reward os == - (cost * variation (map charge (trace cs m0))).
Proof. exact (C07_lemma _ _ _ _ _ _ _ _ _ _ _ _ _ _). Qed.
Print Assumptions C07_cost_is_linear.

(** C08. *)
Theorem C08_no_free_energy minc maxc maxch maxdis eff cost ic is init rs m0 cs m os :
  new_battery minc maxc maxch maxdis eff cost None ic is init rs = Ok m0 ->
  minc <= charge m0 -> charge m0 <= maxc ->
  play cs m0 = (m, os) ->
  total_provided os == eff * eff * total_absorbed os + eff * (charge m0 - charge m)
  /\ (charge m0 <= charge m -> total_provided os <= eff * eff * total_absorbed os)
  /\ (charge m0 <= charge m -> total_provided os <= total_absorbed os).
Proof. exact (C08_lemma _ _ _ _ _ _ _ _ _ _ _ _ _ _). Qed.
Print Assumptions C08_no_free_energy.

(** The example history really moves energy both ways. *)
Example C05_C08_example :
  match ex_battery with
  | Ok m0 => let '(m, os) := play ex_calls m0 in
             0 < total_provided os /\ 0 < total_absorbed os /\ total_reward os < 0
  | Err _ => False
  end.
Proof. vm_compute. repeat split. Qed.

(** C09, lower bound: in binary64, after any history of successful calls the
    charge is not below min_capacity. *)
Theorem C09_binary64_lower_bound (minc maxc maxch maxdis eff cost : b64) model ic is init rs m0 cs m :
  new_battery minc maxc maxch maxdis eff cost model ic is init rs = Ok m0 ->
  (forall b, m_kind m0 = KBattery b -> nltb (b_charge b) minc = false) ->
  play_strict cs m0 = Some m ->
  exists b, m_kind m = KBattery b /\ nltb (b_charge b) minc = false.
Proof. exact (C09_lower_lemma _ _ _ _ _ _ _ _ _ _ _ _ _ _). Qed.
Print Assumptions C09_binary64_lower_bound.

(** C09, upper bound refuted: capacity 10, efficiency 0.9, initial charge 2.1,
    [raise_errors=False].  One step asking to absorb 100 leaves the charge above
    max_capacity, and the next request to absorb raises AssertionError. *)
Definition f64 (a b : Z) : b64 := nfrac a b.
Definition ex_battery64 : res (module b64) :=
  new_battery (f64 0 1) (f64 10 1) (f64 1000 1) (f64 1000 1) (f64 9 10) (f64 0 1)
              None (Some (f64 21 10)) None 0 false.
Theorem C09_binary64_upper_bound_refuted :
  match ex_battery64 with
  | Err _ => False
  | Ok m0 =>
      exists o, snd (step (VS (f64 (-100) 1)) false m0) = Ok o
      /\ let m1 := fst (step (VS (f64 (-100) 1)) false m0) in
         (exists b, m_kind m1 = KBattery b /\ nltb (b_max_capacity b) (b_charge b) = true)
         /\ raises AssertionError (snd (step (VS (f64 (-1) 1)) false m1))
  end.
Proof.
  vm_compute. eexists. split; [reflexivity|]. split.
  - eexists. split; reflexivity.
  - eexists. split; reflexivity.
Qed.
Print Assumptions C09_binary64_upper_bound_refuted.

(** The lower-bound theorem applies to that battery after the first step. *)
Example C09_example :
  match ex_battery64 with
  | Err _ => False
  | Ok m0 =>
      (forall b, m_kind m0 = KBattery b -> nltb (b_charge b) (f64 0 1) = false)
      /\ play_strict [Step (VS (f64 (-100) 1)) false; Reset; Step (VS (f64 3 1)) false] m0 <> None
  end.
Proof.
  vm_compute. split; [|discriminate]. intros b K. inversion K; subst. reflexivity.
Qed.

(** C10.  Every feasible discharge rate can be requested by a normalized action
    in [0,1] iff max_discharge <= max_charge, and every feasible charging rate
    iff max_charge <= max_discharge. *)
Theorem C10_normalized_actions_cover_iff minc maxc maxch maxdis eff cost model ic is init rs m0 :
  new_battery minc maxc maxch maxdis eff cost model ic is init rs = Ok m0 ->
  0 <= maxch -> 0 <= maxdis -> 0 < maxch + maxdis ->
  ((forall x, 0 <= x -> x <= maxdis * eff ->
      exists y x', 0 <= y /\ y <= 1 /\ denorm_action m0 (VS y) = Ok (VS x') /\ x' == x)
   <-> maxdis <= maxch)
  /\ ((forall x, 0 <= x -> x <= maxch / eff ->
      exists y x', 0 <= y /\ y <= 1 /\ denorm_action m0 (VS y) = Ok (VS x') /\ x' == - x)
   <-> maxch <= maxdis).
Proof. exact (C10_lemma _ _ _ _ _ _ _ _ _ _ _ _). Qed.
Print Assumptions C10_normalized_actions_cover_iff.

(** Consequence: with max_discharge 3 and max_charge 1 an unnormalized action
    draws 3 but no normalized action can ask for more than 1. *)
Example C10_example :
  match new_battery 0 10 1 3 1 0 None (Some 5) None 0 false with
  | Err _ => False
  | Ok m0 =>
      (exists o, snd (step (VS 3) false m0) = Ok o /\ provided (info_of o) == 3)
      /\ exists x, denorm_action m0 (VS 1) = Ok (VS x) /\ x == 1
  end.
Proof. vm_compute. split; eexists; split; reflexivity. Qed.
