(** * Properties C03, C23 - C26, C50, C51: requests, grid, load, renewable,
    unbalanced energy

    [m = fst (play cs m0)]: [m] is the freshly built [m0] after any calls.
    [m_cur], [m_log], [m_raise], [m_kind] are [current_step], the log,
    [raise_errors] and the class with its fields.  Exact rationals. *)

From Coq Require Import ZArith QArith Qabs Bool String List Lqa Lia.
From Verif Require Import Num Py Space Forecast Module Spec_Module Spec_Genset Spec_Reach
  Proofs_Request Proofs_Data Proofs_Props Properties_Battery Properties_Genset Properties_Ts.
Import ListNotations.
Local Open Scope string_scope.
Local Open Scope list_scope.
Local Open Scope Q_scope.

(** C03.  All classes but the genset (below) and the load, which ignores
    requests (C25).  A request [x >= 0] asks for energy, [x < 0] offers it. *)
Theorem C03_lenient_requests_are_clipped (m m' : module Q) x o :
  is_genset (m_kind m) = false -> is_fixed (module_type (m_kind m)) = false ->
  m_raise m = false -> step (VS x) false m = (m', Ok o) ->
  (0 <= x -> exists hi, max_production m = Ok hi /\ hi <> BNone
     /\ provided (info_of o) = clip_to (min_production m) hi x /\ absorbed (info_of o) = 0)
  /\ (x < 0 -> exists hi, max_consumption m = Ok hi /\ hi <> BNone
     /\ absorbed (info_of o) == clip_to 0 hi (- x) /\ provided (info_of o) = 0).
Proof. exact (C03_lenient m m' x o). Qed.
Print Assumptions C03_lenient_requests_are_clipped.

Theorem C03_strict_requests_exact_or_refused (m m' : module Q) x r :
  reachable m ->
  is_genset (m_kind m) = false -> is_fixed (module_type (m_kind m)) = false ->
  m_raise m = true -> step (VS x) false m = (m', r) ->
  (forall o, r = Ok o ->
     (0 <= x -> exists hi, max_production m = Ok hi /\ within (min_production m) hi x
                   /\ provided (info_of o) = x /\ absorbed (info_of o) = 0)
     /\ (x < 0 -> exists hi, max_consumption m = Ok hi /\ within 0 hi (- x)
                   /\ absorbed (info_of o) == - x /\ provided (info_of o) = 0))
  /\ (forall hi, 0 <= x -> max_production m = Ok hi -> ~ within (min_production m) hi x ->
        m' = m /\ raises ValueError r)
  /\ (forall h, x < 0 -> max_consumption m = Ok (BFin h) -> h < - x ->
        m' = m /\ raises ValueError r).
Proof. exact (C03_strict m m' x r). Qed.
Print Assumptions C03_strict_requests_exact_or_refused.

(** Any class: a step that raised has not advanced the clock nor logged,
    unless a user-defined forecaster is what failed. *)
Theorem C03_failed_step_not_recorded (m m' : module Q) a n e :
  reachable m -> ~ user_forecaster m -> step a n m = (m', Err e) ->
  m_cur m' = m_cur m /\ m_log m' = m_log m.
Proof. exact (C03_failed m m' a n e). Qed.
Print Assumptions C03_failed_step_not_recorded.

(** The genset: the status change is made first, then the energy is served
    within the limits of the new status, or refused (the status change stays). *)
Theorem C03_genset_requests mn mx co cp cc su wd ab up init rs prov m0 cs m x e rest :
  (0 <= su)%Z -> (0 <= wd)%Z ->
  new_genset mn mx co cp cc su wd ab up init rs prov = Ok m0 -> m = fst (play cs m0) ->
  0 <= x -> x <= 1 -> 0 <= e ->
  let r := step (VA (x :: e :: rest)) false m in
  let lo := if running (fst r) then mn else 0 in
  let hi := if running (fst r) then mx else 0 in
  ((rs = false \/ (lo <= e /\ e <= hi)) ->
     exists o, snd r = Ok o /\ provided (info_of o) == clip lo hi e)
  /\ (rs = true -> e < lo \/ hi < e ->
      raises ValueError (snd r) /\ m_cur (fst r) = m_cur m /\ m_log (fst r) = m_log m).
Proof. exact (genset_request_lemma mn mx co cp cc su wd ab up init rs prov m0 cs m x e rest). Qed.
Print Assumptions C03_genset_requests.

Definition strict_battery : res (module Q) :=
  new_battery 2 10 4 3 (9#10) (1#50) None (Some 5) None 0 true.
Example C03_example :
  match ex_battery with
  | Ok m0 => let m := fst (play ex_calls m0) in
             m_raise m = false
             /\ exists o, snd (step (VS (-100)) false m) = Ok o /\ 0 < absorbed (info_of o)
                          /\ absorbed (info_of o) < 100
  | Err _ => False
  end
  /\ match strict_battery with
     | Ok m => m_raise m = true
               /\ (exists o, snd (step (VS 1) false m) = Ok o /\ provided (info_of o) = 1)
               /\ (exists e, snd (step (VS 100) false m) = Err e /\ ex_class e = ValueError)
     | Err _ => False
     end.
Proof.
  split.
  - vm_compute. split; [reflexivity|]. eexists. split; [reflexivity|]. split; reflexivity.
  - vm_compute. split; [reflexivity|]. split; eexists; split; reflexivity.
Qed.

(** A strict genset refuses an energy above its range but has started anyway. *)
Example C03_genset_example :
  match new_genset 10 50 (FuelLin (2#5)) (1#10) 3 0 0 true false 0 true "genset_production" with
  | Ok m => let r := step (VA [1; 60]) false m in
            running m = false /\ running (fst r) = true
            /\ exists e, snd r = Err e /\ ex_class e = ValueError
  | Err _ => False
  end.
Proof. vm_compute. split; [reflexivity|]. split; [reflexivity|]. eexists. split; reflexivity. Qed.

(** C23.  [s] is the grid status of the current row. *)
Theorem C23_outage mi me rows fp h inc initial final cc re gt rnd m0 cs m k p q c s :
  new_grid mi me rows fp h inc initial final cc re gt rnd = Ok m0 -> m = fst (play cs m0) ->
  gt <> Fixed -> m_cur m = Z.of_nat k -> nth_error (grid_rows rows) k = Some [p; q; c; s] ->
  (s == 0 \/ s == 1)
  /\ (forall a n m' o, step a n m = (m', Ok o) ->
       provided (info_of o) <= mi /\ absorbed (info_of o) <= me
       /\ (s == 0 -> provided (info_of o) == 0 /\ absorbed (info_of o) == 0
                      /\ reward_of o == 0 /\ reports (info_of o) "co2_production" 0))
  /\ (s == 0 -> exists x y, max_production m = Ok (BFin x) /\ x == 0
                        /\ max_consumption m = Ok (BFin y) /\ y == 0)
  /\ (re = false -> ~ asks_user fp -> forall e, exists m' o, step (VS e) false m = (m', Ok o))
  /\ (re = true -> s == 0 -> forall e, ~ e == 0 -> raises ValueError (snd (step (VS e) false m))).
Proof. exact (C23_lemma mi me rows fp h inc initial final cc re gt rnd m0 cs m k p q c s). Qed.
Print Assumptions C23_outage.

(** C24. *)
Theorem C24_grid_cost_and_emissions mi me rows fp h inc initial final cc re gt rnd m0 cs m k p q c s a n m' o :
  new_grid mi me rows fp h inc initial final cc re gt rnd = Ok m0 -> m = fst (play cs m0) ->
  gt <> Fixed -> m_cur m = Z.of_nat k -> nth_error (grid_rows rows) k = Some [p; q; c; s] ->
  step a n m = (m', Ok o) ->
  let imported := provided (info_of o) in
  let exported := absorbed (info_of o) in
  (0 <= imported /\ 0 <= exported /\ (imported == 0 \/ exported == 0))
  /\ reward_of o == - (p * imported + cc * (c * imported)) + q * exported
  /\ reports (info_of o) "co2_production" (c * imported)
  /\ forall e, a = VS e -> n = false ->
       imported == (if Qlt_le_dec e 0 then 0 else clip 0 (mi * s) e)
       /\ exported == (if Qlt_le_dec e 0 then clip 0 (me * s) (- e) else 0).
Proof. exact (C24_lemma mi me rows fp h inc initial final cc re gt rnd m0 cs m k p q c s a n m' o). Qed.
Print Assumptions C24_grid_cost_and_emissions.

(** One import, an export attempted in the outage, and an export. *)
Example C23_C24_example :
  match ex_grid FPOracle 1 with
  | Ok m0 => nth_error (grid_rows ex_grid_rows) 1 = Some [4; 5; 6; 0]
             /\ m_cur (fst (play [buy 3] m0)) = 1%Z
             /\ map (fun o => Qred (reward_of o)) (snd (play [buy 3; buy (-100); buy (-100)] m0))
                = [-(39#10); 0; 160]
  | Err _ => False
  end.
Proof. vm_compute. repeat split. Qed.

(** C25. *)
Theorem C25_load rows fp h inc initial final re rnd m0 cs m k x :
  single_column rows -> new_load rows fp h inc initial final re rnd = Ok m0 -> m = fst (play cs m0) ->
  m_cur m = Z.of_nat k -> nth_error rows k = Some [x] ->
  (forall a n m' o, step a n m = (m', Ok o) ->
     absorbed (info_of o) == Qabs x /\ dget "provided_energy" (info_of o) = None /\ reward_of o == 0)
  /\ (~ asks_user fp ->
      (exists m' o, step (VA []) false m = (m', Ok o))
      /\ (exists m' o, step (VA []) true m = (m', Ok o))
      /\ forall e, e <= 0 -> exists m' o, step (VS e) false m = (m', Ok o))
  /\ (forall e, 0 < e -> raises AssertionError (snd (step (VS e) false m))).
Proof. exact (C25_load_lemma rows fp h inc initial final re rnd m0 cs m k x). Qed.
Print Assumptions C25_load.

Theorem C25_renewable rows fp h inc initial final re prov rnd m0 cs m k x :
  single_column rows -> new_renewable rows fp h inc initial final re prov rnd = Ok m0 -> m = fst (play cs m0) ->
  m_cur m = Z.of_nat k -> nth_error rows k = Some [x] ->
  (forall a n m' o, step a n m = (m', Ok o) ->
     let used := provided (info_of o) in
     0 <= used /\ used <= Qabs x /\ dget "absorbed_energy" (info_of o) = None
     /\ reports (info_of o) "curtailment" (Qabs x - used) /\ reward_of o == 0)
  /\ (~ asks_user fp -> forall e, 0 <= e -> (re = true -> e <= Qabs x) ->
       exists m' o, step (VS e) false m = (m', Ok o) /\ provided (info_of o) == clip 0 (Qabs x) e)
  /\ (forall e, re = true -> Qabs x < e -> raises ValueError (snd (step (VS e) false m)))
  /\ (forall e, e < 0 -> raises TypeError (snd (step (VS e) false m))).
Proof. exact (C25_renewable_lemma rows fp h inc initial final re prov rnd m0 cs m k x). Qed.
Print Assumptions C25_renewable.

Example C25_example :
  match ex_load FPOracle 2 with
  | Ok m0 => let m := fst (play [meet] m0) in
             m_cur m = 1%Z /\ nth_error [[5]; [7]; [0]; [3]] 1 = Some [7]
             /\ exists o, snd (step (VA []) false m) = Ok o /\ absorbed (info_of o) == 7
  | Err _ => False
  end
  /\ match new_renewable [[5]; [7]; [0]; [3]] FPOracle 2 false 0 4 false "renewable_used" ex_rnd with
     | Ok m0 => let m := fst (play [buy 1] m0) in
                m_cur m = 1%Z
                /\ exists o, snd (step (VS 4) false m) = Ok o /\ reports (info_of o) "curtailment" 3
     | Err _ => False
     end.
Proof.
  split.
  - vm_compute. split; [reflexivity|]. split; [reflexivity|]. eexists. split; reflexivity.
  - vm_compute. split; [reflexivity|]. eexists. split; [reflexivity|].
    eexists. split; reflexivity.
Qed.

(** C26. *)
Theorem C26_unbalanced_energy re init lossc overc cs m e :
  m = fst (play cs (@new_unbalanced Q re init lossc overc)) ->
  0 <= lossc -> 0 <= overc ->
  exists m' o, step (VS e) false m = (m', Ok o)
    /\ provided (info_of o) == (if Qlt_le_dec e 0 then 0 else e)
    /\ absorbed (info_of o) == (if Qlt_le_dec e 0 then - e else 0)
    /\ reward_of o == - (lossc * provided (info_of o) + overc * absorbed (info_of o))
    /\ reward_of o <= 0 /\ done_of o = false.
Proof. exact (C26_lemma re init lossc overc cs m e). Qed.
Print Assumptions C26_unbalanced_energy.

(** A negative cost, and any normalized request, make the step fail. *)
Theorem C26_failures re init lossc overc cs m :
  m = fst (play cs (@new_unbalanced Q re init lossc overc)) ->
  (forall e, lossc < 0 -> 0 < e -> raises AssertionError (snd (step (VS e) false m)))
  /\ (forall e, overc < 0 -> e < 0 -> raises AssertionError (snd (step (VS e) false m)))
  /\ (forall e, raises AssertionError (snd (step (VS e) true m))).
Proof. exact (C26_other_lemma re init lossc overc cs m). Qed.
Print Assumptions C26_failures.

Example C26_example :
  let m := fst (play [buy 3; Reset] (@new_unbalanced Q false 0 10 2)) in
  exists o, snd (step (VS (-4)) false m) = Ok o /\ reward_of o == -8.
Proof. vm_compute. eexists. split; reflexivity. Qed.

(** C50.  Lenient battery: any scalar request, normalized or not, is served.
    (Grid, load, renewable, unbalanced: C23, C25, C26; genset: C03.) *)
Theorem C50_lenient_battery_never_fails minc maxc maxch maxdis eff cost ic is init m0 cs m :
  new_battery minc maxc maxch maxdis eff cost None ic is init false = Ok m0 ->
  minc <= charge m0 -> charge m0 <= maxc -> 0 <= maxch -> 0 <= maxdis -> m = fst (play cs m0) ->
  forall e n, exists m' o, step (VS e) n m = (m', Ok o).
Proof. exact (C50_battery_lemma minc maxc maxch maxdis eff cost ic is init m0 cs m). Qed.
Print Assumptions C50_lenient_battery_never_fails.

Example C50_example :
  match ex_battery with
  | Ok m0 => 2 <= charge m0 /\ charge m0 <= 10
  | Err _ => False
  end.
Proof. vm_compute. split; intros C; discriminate C. Qed.

(** C51. *)
Theorem C51_battery_observation minc maxc maxch maxdis eff cost ic is init rs m0 cs m :
  new_battery minc maxc maxch maxdis eff cost None ic is init rs = Ok m0 ->
  minc <= charge m0 -> charge m0 <= maxc -> 0 < maxc -> m = fst (play cs m0) ->
  exists s o, state m = Ok s /\ in_range (m_obs m) (VA s) /\ norm_obs m = Ok o /\ in_unit o.
Proof. exact (C51_battery_lemma minc maxc maxch maxdis eff cost ic is init rs m0 cs m). Qed.
Print Assumptions C51_battery_observation.

Theorem C51_genset_observation mn mx co cp cc su wd ab up init rs prov m0 cs m :
  (0 <= su)%Z -> (0 <= wd)%Z ->
  new_genset mn mx co cp cc su wd ab up init rs prov = Ok m0 -> m = fst (play cs m0) ->
  exists s o, state m = Ok s /\ in_range (m_obs m) (VA s) /\ norm_obs m = Ok o /\ in_unit o.
Proof. exact (C51_genset_lemma mn mx co cp cc su wd ab up init rs prov m0 cs m). Qed.
Print Assumptions C51_genset_observation.

Example C51_example :
  match ex_battery, ex_genset true with
  | Ok b, Ok g => (exists o, norm_obs (fst (play ex_calls b)) = Ok o /\ length (entries o) = 2%nat)
                  /\ (exists o, norm_obs (fst (play ex_history g)) = Ok o /\ length (entries o) = 4%nat)
  | _, _ => False
  end.
Proof. vm_compute. split; eexists; split; reflexivity. Qed.
