(** * Properties C11 - C15, C49: the genset

    [play cs m0] makes any calls on the freshly built genset [m0]; start-up and
    wind-down times are non-negative integers.  Exact rationals. *)

From Coq Require Import ZArith QArith Bool String List Lqa.
From Verif Require Import Num Py Space Module Spec_Module Spec_Genset Proofs_Genset.
Import ListNotations.
Local Open Scope string_scope.
Local Open Scope list_scope.
Local Open Scope Q_scope.

(** A genset producing 10..50 that needs two waiting steps to start and one to
    stop, and a history that starts it, aborts, starts it again. *)
Definition ex_genset (abort : bool) : res (module Q) :=
  new_genset 10 50 (FuelLin (2#5)) (1#10) 3 2 1 abort false 0 false "genset_production".
Definition on_req (e : Q) : call Q := Step (VA [1; e]) false.
Definition off_req (e : Q) : call Q := Step (VA [0; e]) false.
Definition ex_history : list (call Q) :=
  [on_req 20; off_req 0; on_req 20; on_req 20; on_req 20; Reset; on_req 100].

(** C11. *)
Theorem C11_predictions_are_right mn mx co cp cc su wd ab up init rs prov m0 cs m os :
  (0 <= su)%Z -> (0 <= wd)%Z ->
  new_genset mn mx co cp cc su wd ab up init rs prov = Ok m0 ->
  play cs m0 = (m, os) ->
  exists g, m_kind m = KGenset g
    /\ (0 <= g_until_up g <= su)%Z /\ (0 <= g_until_down g <= wd)%Z
    /\ forall x rest n (on : bool), 0 <= x -> x <= 1 -> (on = true <-> 1#2 < x) ->
         (exists g', update_status x g = (g', Ok tt)
           /\ g_status g' = next_status g on
           /\ genset_max_production g' = next_max_production g on
           /\ genset_min_production g' = next_min_production g on)
         /\ running (fst (step (VA (x :: rest)) n m)) = next_status g on.
Proof. exact (C11_lemma _ _ _ _ _ _ _ _ _ _ _ _ _ _ _ _). Qed.
Print Assumptions C11_predictions_are_right.

Example C11_example :
  match ex_genset true with
  | Ok m0 => let '(m, os) := play ex_history m0 in
             running m0 = false /\ running m = true /\ length os = 6%nat
  | Err _ => False
  end.
Proof. vm_compute. repeat split. Qed.

(** C12. *)
Theorem C12_start_up_takes_start_up_time mn mx co cp cc su wd ab up init rs prov m0 cs m os ks :
  (0 <= su)%Z -> (0 <= wd)%Z ->
  new_genset mn mx co cp cc su wd ab up init rs prov = Ok m0 ->
  play cs m0 = (m, os) -> (ab = true \/ su = 0%Z) ->
  running m = false -> goal_on m = false -> Forall asks_on ks ->
  (running (fst (play ks m)) = true <-> (su < Z.of_nat (length ks))%Z).
Proof. exact (C12_up_lemma _ _ _ _ _ _ _ _ _ _ _ _ _ _ _ _ _). Qed.
Print Assumptions C12_start_up_takes_start_up_time.

Theorem C12_wind_down_takes_wind_down_time mn mx co cp cc su wd ab up init rs prov m0 cs m os ks :
  (0 <= su)%Z -> (0 <= wd)%Z ->
  new_genset mn mx co cp cc su wd ab up init rs prov = Ok m0 ->
  play cs m0 = (m, os) -> (ab = true \/ wd = 0%Z) ->
  running m = true -> goal_on m = true -> Forall asks_off ks ->
  (running (fst (play ks m)) = false <-> (wd < Z.of_nat (length ks))%Z).
Proof. exact (C12_down_lemma _ _ _ _ _ _ _ _ _ _ _ _ _ _ _ _ _). Qed.
Print Assumptions C12_wind_down_takes_wind_down_time.

Example C12_example :
  match ex_genset true with
  | Ok m0 => running m0 = false /\ goal_on m0 = false
             /\ Forall asks_on [on_req 20; on_req 0; on_req 5]
             /\ running (fst (play [on_req 20; on_req 0] m0)) = false
             /\ running (fst (play [on_req 20; on_req 0; on_req 5] m0)) = true
             /\ let m := fst (play ex_history m0) in running m = true /\ goal_on m = true
  | Err _ => False
  end.
Proof.
  simpl ex_genset. cbv beta iota.
  split; [reflexivity|]. split; [reflexivity|].
  split; [repeat constructor; unfold asks_on, on_req; lra|].
  vm_compute. repeat split.
Qed.

(** C13, with abortion: a change in progress ([running m <> goal_on m]) is
    withdrawn by one request for the present status, and the full delay starts
    over. *)
Theorem C13_abortion_restarts_the_delay mn mx co cp cc su wd ab up init rs prov m0 cs m os c :
  (0 <= su)%Z -> (0 <= wd)%Z ->
  new_genset mn mx co cp cc su wd ab up init rs prov = Ok m0 ->
  play cs m0 = (m, os) -> running m <> goal_on m ->
  (if running m then asks_on c else asks_off c) ->
  let m' := fst (do_call c m) in
  running m' = running m /\ goal_on m' = running m
  /\ (if running m then steps_until_down m' = wd else steps_until_up m' = su).
Proof. exact (C13_abort_lemma _ _ _ _ _ _ _ _ _ _ _ _ _ _ _ _ _). Qed.
Print Assumptions C13_abortion_restarts_the_delay.

Example C13_example :
  match ex_genset true with
  | Ok m0 => let m := fst (play [on_req 20; on_req 20] m0) in
             running m = false /\ goal_on m = true /\ steps_until_up m = 0%Z
             /\ asks_off (off_req 7)
             /\ steps_until_up (fst (do_call (off_req 7) m)) = 2%Z
  | Err _ => False
  end.
Proof.
  simpl ex_genset. cbv beta iota zeta.
  split; [vm_compute; reflexivity|]. split; [vm_compute; reflexivity|].
  split; [vm_compute; reflexivity|]. split; [unfold asks_off, off_req; lra|].
  vm_compute. reflexivity.
Qed.

(** C13, without abortion: a change that takes time never happens. *)
Theorem C13_without_abortion_status_is_stuck mn mx co cp cc su wd up init rs prov m0 cs m os ks :
  (0 <= su)%Z -> (0 <= wd)%Z ->
  new_genset mn mx co cp cc su wd false up init rs prov = Ok m0 ->
  play cs m0 = (m, os) ->
  ((0 < su)%Z -> running m = false -> running (fst (play ks m)) = false)
  /\ ((0 < wd)%Z -> running m = true -> running (fst (play ks m)) = true).
Proof. exact (C13_stuck_lemma _ _ _ _ _ _ _ _ _ _ _ _ _ _ _ _). Qed.
Print Assumptions C13_without_abortion_status_is_stuck.

Example C13_stuck_example :
  match ex_genset false with
  | Ok m0 => running m0 = false
             /\ let '(m, os) := play (repeat (on_req 20) 9) m0 in
                running m = false /\ length os = 9%nat
  | Err _ => False
  end.
Proof. vm_compute. repeat split. Qed.

(** C14. *)
Theorem C14_output_follows_status mn mx co cp cc su wd ab up init rs prov m0 cs m os a n m' o :
  (0 <= su)%Z -> (0 <= wd)%Z ->
  new_genset mn mx co cp cc su wd ab up init rs prov = Ok m0 ->
  play cs m0 = (m, os) -> step a n m = (m', Ok o) ->
  absorbed (info_of o) = 0
  /\ (running m' = false -> provided (info_of o) == 0)
  /\ (running m' = true -> mn <= provided (info_of o) /\ provided (info_of o) <= mx)
  /\ (forall x e rest, a = VA (x :: e :: rest) -> n = false -> running m' = true ->
        provided (info_of o) == clip mn mx e).
Proof. exact (C14_lemma _ _ _ _ _ _ _ _ _ _ _ _ _ _ _ _ _ _ _ _). Qed.
Print Assumptions C14_output_follows_status.

(** C15. *)
Theorem C15_cost_and_emissions mn mx co cp cc su wd ab up init rs prov m0 cs m os a n m' o :
  (0 <= su)%Z -> (0 <= wd)%Z ->
  new_genset mn mx co cp cc su wd ab up init rs prov = Ok m0 ->
  play cs m0 = (m, os) -> step a n m = (m', Ok o) ->
  let e := provided (info_of o) in
  let fuel := match co with FuelLin c => c * e | FuelFn f => f e end in
  reward_of o == - (fuel + cc * (cp * e))
  /\ exists c, dget "co2_production" (info_of o) = Some c /\ c == cp * e.
Proof. exact (C15_lemma _ _ _ _ _ _ _ _ _ _ _ _ _ _ _ _ _ _ _ _). Qed.
Print Assumptions C15_cost_and_emissions.

(** The last step of the example history asks for 100 and gets the maximum. *)
Example C14_C15_example :
  match ex_genset true with
  | Ok m0 => let m := fst (play ex_history m0) in
             exists o, snd (step (VA [1; 100]) false m) = Ok o
                       /\ provided (info_of o) == 50 /\ reward_of o < 0
  | Err _ => False
  end.
Proof. vm_compute. eexists. split; [reflexivity|]. split; reflexivity. Qed.

(** C49.  The status update refines the four-phase life cycle of
    [Spec_Genset]: in every reachable state the genset is in some phase, and a
    request moves it to exactly the next phase. *)
Theorem C49_status_update_is_phase_machine mn mx co cp cc su wd ab up init rs prov m0 cs m os :
  (0 <= su)%Z -> (0 <= wd)%Z ->
  new_genset mn mx co cp cc su wd ab up init rs prov = Ok m0 ->
  play cs m0 = (m, os) ->
  exists g p, m_kind m = KGenset g /\ shows su wd p g
    /\ forall c, exists g', m_kind (fst (do_call c m)) = KGenset g'
         /\ (asks_on c -> shows su wd (phase_next su wd ab p true) g')
         /\ (asks_off c -> shows su wd (phase_next su wd ab p false) g')
         /\ (~ asks_on c -> ~ asks_off c -> g' = g).
Proof. exact (C49_lemma _ _ _ _ _ _ _ _ _ _ _ _ _ _ _ _). Qed.
Print Assumptions C49_status_update_is_phase_machine.
