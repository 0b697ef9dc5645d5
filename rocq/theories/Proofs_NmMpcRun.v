(** * Whole runs of the predictive control of non-modular microgrids *)

From Coq Require Import ZArith QArith Qabs Qminmax Bool String List Lia Lqa Permutation.
From Verif Require Import Num Py Spec_Module Proofs_Num Proofs_Run NonModular Spec_NonModular Proofs_NonModular Proofs_NmRun
  Proofs_NmHistory Proofs_NmEpisode Proofs_NmTotal Proofs_NmReads Proofs_NmRecord Proofs_NmProgress
  NmRbc Spec_NmRbc Spec_NmRbcRun Proofs_NmRbcRun Proofs_NmRbcServe
  MPC NmMpc Spec_MPC Spec_NmMpc Proofs_NmMpc Proofs_NmMpcPlan.
Import ListNotations.
Local Open Scope string_scope.
Local Open Scope list_scope.
Local Open Scope Q_scope.

(** ** Steps *)

Lemma steps_trace (c : mpc Q) solve g s m : forall i r r', nm_mpc_steps c solve g s i m r = Ok r' ->
  exists rs : nat -> copies Q, rs O = r /\ rs m = r' /\ forall k, (k < m)%nat -> nm_mpc_step c solve g s (i + k) (rs k) = Ok (rs (S k)).
Proof.
  induction m as [|m IH]; intros i r r' H; cbn [nm_mpc_steps] in H.
  - injection H as <-. exists (fun _ => r). split; [reflexivity|]. split; [reflexivity|]. intros k K. lia.
  - apply rbind_ok in H. destruct H as (r1 & H1 & H). destruct (IH _ _ _ H) as (rs & R0 & RM & RS).
    exists (fun k => match k with O => r | S k' => rs k' end). split; [reflexivity|]. split; [exact RM|]. intros [|k] K.
    + rewrite Nat.add_0_r, R0. exact H1.
    + replace (i + S k)%nat with (S i + k)%nat by lia. apply RS. lia.
Qed.
Lemma steps_app (c : mpc Q) solve g s m : forall i n r,
  nm_mpc_steps c solve g s i (m + n) r = rbind (nm_mpc_steps c solve g s i m r) (nm_mpc_steps c solve g s (i + m) n).
Proof.
  induction m as [|m IH]; intros i n r.
  - cbn [Nat.add nm_mpc_steps rbind]. rewrite Nat.add_0_r. reflexivity.
  - cbn [Nat.add nm_mpc_steps]. destruct (nm_mpc_step c solve g s i r) as [r1|e]; [|reflexivity]. cbn [rbind].
    rewrite IH. replace (S i + m)%nat with (i + S m)%nat by lia. reflexivity.
Qed.
Lemma steps_snoc (c : mpc Q) solve g s i m r :
  nm_mpc_steps c solve g s i (S m) r = rbind (nm_mpc_steps c solve g s i m r) (nm_mpc_step c solve g s (i + m)).
Proof.
  rewrite <- Nat.add_1_r, steps_app. destruct (nm_mpc_steps c solve g s i m r) as [r1|e]; [|reflexivity]. cbn.
  destruct (nm_mpc_step c solve g s (i + m) r1); reflexivity.
Qed.
Lemma steps_prefix (c : mpc Q) solve g s (rs : nat -> copies Q) m :
  (forall k, (k < m)%nat -> nm_mpc_step c solve g s k (rs k) = Ok (rs (S k))) ->
  forall k, (k <= m)%nat -> nm_mpc_steps c solve g s 0 k (rs O) = Ok (rs k).
Proof. intros RS. induction k as [|k IH]; intros K; [reflexivity|]. rewrite steps_snoc, IH by lia. apply RS. lia. Qed.
(** What stops a step stops the run. *)
Lemma steps_stop (c : mpc Q) solve g s k n r rk e : nm_mpc_steps c solve g s 0 k r = Ok rk -> (k < n)%nat ->
  nm_mpc_step c solve g s k rk = Err e -> nm_mpc_steps c solve g s 0 n r = Err e.
Proof.
  intros H K ST. replace n with (k + S (n - S k))%nat by lia. rewrite steps_app, H. cbn [rbind nm_mpc_steps Nat.add]. rewrite ST. reflexivity.
Qed.

Section Run.
  Variables (c : mpc Q) (solve : solver Q) (g g1 : nonmod Q).
  Hypothesis E : equipped g.
  Hypothesis AL : aligned g.
  Hypothesis CK : clock_ok g.
  Hypothesis HB : has_battery (nm_arch g) = true.
  Hypothesis MF : made_for c g.
  Hypothesis RS : nm_reset false g = (g1, Ok tt).
  Let s := cut_sample (nm_len g) (underlying_data g).
  Let L := Z.to_nat (nm_len g).

  Lemma run_same : nm_par g1 = nm_par g /\ nm_arch g1 = nm_arch g /\ nm_horizon g1 = nm_horizon g
    /\ nm_load_ts g1 = nm_load_ts g /\ nm_pv_ts g1 = nm_pv_ts g /\ nm_status_ts g1 = nm_status_ts g
    /\ nm_import_ts g1 = nm_import_ts g /\ nm_export_ts g1 = nm_export_ts g /\ nm_co2_ts g1 = nm_co2_ts g
    /\ firsts (nm_state g) = Ok (nm_state g1).
  Proof.
    destruct (reset_shape _ _ _ RS) as (st & n & x & b & FI & _ & _ & _ & _ & H). intuition congruence.
  Qed.
  Lemma run_equipped : equipped g1.
  Proof. pose proof (equipped_after [HReset false] g E) as X. change (equipped (fst (nm_reset false g))) in X. rewrite RS in X. exact X. Qed.
  Lemma run_aligned : aligned g1.
  Proof. pose proof (aligned_after [HReset false] g AL) as X. change (aligned (fst (nm_reset false g))) in X. rewrite RS in X. exact X. Qed.
  Lemma run_battery : has_battery (nm_arch g1) = true.
  Proof. destruct run_same as (_ & -> & _). exact HB. Qed.
  Lemma run_made : made_for c g1.
  Proof. destruct MF as (g' & M1 & M2 & M3 & M4). destruct run_same as (S1 & S2 & S3 & _). exists g'. repeat split; congruence. Qed.
  Lemma run_rows : all_rows g1 = all_rows g.
  Proof. unfold all_rows. destruct run_same as (_ & _ & _ & -> & -> & _). reflexivity. Qed.
  Lemma run_len : (0 <= nm_len g <= Z.of_nat (all_rows g))%Z.
  Proof. pose proof (ck_len _ CK). pose proof (ck_t _ CK). pose proof (data_all_rows (nm_use g) g). lia. Qed.
  Lemma run_sampled : sampled g1 L s.
  Proof.
    destruct (sampled_data g AL run_len) as [S1 S2 S3 S4]. destruct run_same as (_ & AR & _ & L1 & L2 & L3 & _).
    constructor; rewrite ?AR, ?L1, ?L2, ?L3, ?run_rows; assumption.
  Qed.
  Lemma run_horizon : (0 < nm_horizon g)%Z.
  Proof. destruct (made_shape _ _ MF) as (p & _ & _ & H). exact H. Qed.

  Lemma run_eq steps : nm_mpc_run c solve steps g
    = (g1, rbind (nm_num_iter g1 s steps) (fun n => nm_mpc_steps c solve g1 s 0 n (copies_of g1))).
  Proof.
    unfold nm_mpc_run, run_mpc_on_sample, mget, mlift, mbind, s. rewrite RS.
    destruct (nm_num_iter g1 (cut_sample (nm_len g) (underlying_data g)) steps); reflexivity.
  Qed.

  Lemma sample_len : Z.of_nat (length (sm_load s)) = nm_len g.
  Proof. destruct (row_len g1 L s run_aligned run_sampled) as (-> & _). unfold L. pose proof run_len. lia. Qed.

  Lemma iter_ok steps n : nm_num_iter g1 s steps = Ok n ->
    n = mpc_count g steps /\ (Z.of_nat n <= Z.max 0 (nm_len g - nm_horizon g))%Z.
  Proof.
    unfold nm_num_iter, mpc_count. rewrite sample_len. destruct run_same as (_ & _ & -> & _). destruct steps as [k|].
    - destruct (k <=? nm_len g - nm_horizon g)%Z eqn:B; [|discriminate]. intros H. injection H as <-. lia.
    - intros H. injection H as <-. lia.
  Qed.
  Lemma iter_few k : (Z.of_nat k <= nm_len g - nm_horizon g)%Z -> nm_num_iter g1 s (Some (Z.of_nat k)) = Ok k.
  Proof.
    intros K. unfold nm_num_iter. rewrite sample_len. destruct run_same as (_ & _ & -> & _).
    destruct (Z.leb_spec (Z.of_nat k) (nm_len g - nm_horizon g)); [rewrite Nat2Z.id; reflexivity|lia].
  Qed.
  Lemma iter_many n : (nm_len g - nm_horizon g < n)%Z -> raises AssertionError (nm_num_iter g1 s (Some n)).
  Proof.
    intros K. unfold nm_num_iter. rewrite sample_len. destruct run_same as (_ & _ & -> & _).
    destruct (Z.leb_spec n (nm_len g - nm_horizon g)); [lia|]. eexists. split; reflexivity.
  Qed.

  Lemma step_room k : (Z.of_nat k < nm_len g - nm_horizon g)%Z ->
    (k + Z.to_nat (nm_horizon g1) <= L)%nat /\ (S k < L)%nat /\ exists n x, rows g1 k n x.
  Proof.
    intros K. pose proof run_horizon. pose proof run_len. destruct run_same as (_ & _ & HZ & _). rewrite HZ. unfold L. split; [lia|]. split; [lia|].
    apply rows_exist; [exact run_aligned|]. rewrite run_rows. lia.
  Qed.

  (** One step of the run *)
  Lemma run_step k r r' : assigns_all solve -> (forall n x, equipped (at_row g1 r n x)) -> (Z.of_nat k < nm_len g - nm_horizon g)%Z ->
    nm_mpc_step c solve g1 s k r = Ok r' ->
    exists n x e xs soc pr u st rest o, rows g1 k n x /\ decides solve g1 k r e xs soc pr u st rest
      /\ carried g1 (decided_by (eq_gen e) n st) n x r r' o
      /\ (forall n x, equipped (at_row g1 r' n x)) /\ all_longer 1 r r'.
  Proof.
    intros AA EK K H. destruct (step_room k K) as (K1 & K2 & n & x & R).
    destruct (step_inv c solve g1 L s run_battery run_aligned run_made run_sampled k r r' n x AA (EK n x) R K1 K2 H)
      as (e & xs & soc & pr & u & st & rest & p & co & o & sta & prod & D & EG & NO & ->).
    assert (PN : forall key, In key (control_names (nm_arch g1)) -> present key (decided_by (eq_gen e) n st)) by (rewrite EG; intros key I; exact (decided_names g1 run_battery n st key I)).
    destruct (noted_carried g1 r _ n x p co o sta prod (EK n x) PN NO) as (y & CA).
    destruct (noted_kept g1 r _ n x p co o sta prod (EK n x) PN NO) as (E' & LO).
    exists n, x, e, xs, soc, pr, u, st, rest, y. split; [exact R|]. split; [exact D|]. split; [exact CA|]. split; [|exact LO].
    intros n' x'. eapply equipped_row. exact E'.
  Qed.

  Lemma trace_ok m (rs : nat -> copies Q) : assigns_all solve -> rs O = copies_of g1 -> (Z.of_nat m <= Z.max 0 (nm_len g - nm_horizon g))%Z ->
    (forall k, (k < m)%nat -> nm_mpc_step c solve g1 s k (rs k) = Ok (rs (S k))) ->
    forall k, (k <= m)%nat -> (forall n x, equipped (at_row g1 (rs k) n x)) /\ all_longer k (copies_of g1) (rs k).
  Proof.
    intros AA R0 LM ST. induction k as [|k IH]; intros K.
    - rewrite R0. split; [apply equipped_start; exact run_equipped|]. unfold all_longer. do 4 (split; [apply longer_refl|]). apply longer_refl.
    - destruct (IH ltac:(lia)) as (EK & LK).
      destruct (run_step k _ _ AA EK ltac:(lia) (ST k ltac:(lia))) as (n & x & e & xs & soc & pr & u & st & rest & o & _ & _ & _ & E' & LO).
      split; [exact E'|]. destruct LK as (M1 & M2 & M3 & M4 & M5). destruct LO as (L1 & L2 & L3 & L4 & L5).
      assert (T := fun r1 r2 r3 A B => eq_ind _ (fun z => longer z r1 r3) (longer_trans k 1 r1 r2 r3 A B) _ (Nat.add_1_r k)).
      split; [|split; [|split; [|split]]]; eapply T; eassumption.
  Qed.

  Lemma mpc_trace steps g2 r : assigns_all solve -> nm_mpc_run c solve steps g = (g2, Ok r) ->
    g2 = g1 /\ exists rs : nat -> copies Q, rs O = copies_of g1 /\ rs (mpc_count g steps) = r
      /\ (Z.of_nat (mpc_count g steps) <= Z.max 0 (nm_len g - nm_horizon g))%Z
      /\ (forall k, (k < mpc_count g steps)%nat -> nm_mpc_step c solve g1 s k (rs k) = Ok (rs (S k)))
      /\ (forall k, (k < mpc_count g steps)%nat -> exists n x e xs soc pr u st rest o,
           rows g1 k n x /\ decides solve g1 k (rs k) e xs soc pr u st rest
           /\ carried g1 (decided_by (eq_gen e) n st) n x (rs k) (rs (S k)) o /\ all_longer 1 (rs k) (rs (S k)))
      /\ forall k, (k <= mpc_count g steps)%nat -> (forall n x, equipped (at_row g1 (rs k) n x)) /\ all_longer k (copies_of g1) (rs k).
  Proof.
    intros AA H. rewrite run_eq in H. injection H as <- H. split; [reflexivity|]. apply rbind_ok in H. destruct H as (n & I & H).
    destruct (iter_ok _ _ I) as (-> & LM). destruct (steps_trace _ _ _ _ _ _ _ _ H) as (rs & R0 & RM & ST). exists rs.
    split; [exact R0|]. split; [exact RM|]. split; [exact LM|]. split; [exact ST|].
    pose proof (trace_ok _ rs AA R0 LM ST) as KEPT. split; [|exact KEPT].
    intros k K. destruct (KEPT k ltac:(lia)) as (EK & _).
    destruct (run_step k _ _ AA EK ltac:(lia) (ST k K)) as (n & x & e & xs & soc & pr & u & st & rest & o & A1 & A2 & A3 & _ & A4).
    exists n, x, e, xs, soc, pr, u, st, rest, o. auto.
  Qed.

  Lemma mpc_prefix m (rs : nat -> copies Q) : rs O = copies_of g1 -> (Z.of_nat m <= nm_len g - nm_horizon g)%Z ->
    (forall k, (k < m)%nat -> nm_mpc_step c solve g1 s k (rs k) = Ok (rs (S k))) ->
    forall k, (k <= m)%nat -> nm_mpc_run c solve (Some (Z.of_nat k)) g = (g1, Ok (rs k)).
  Proof.
    intros R0 LM ST k K. rewrite run_eq, iter_few by lia. cbn [rbind]. rewrite <- R0. rewrite (steps_prefix _ _ _ _ rs m ST k K). reflexivity.
  Qed.

  (** A run of [k] steps *)
  Lemma run_upto k rk : (Z.of_nat k <= nm_len g - nm_horizon g)%Z -> nm_mpc_run c solve (Some (Z.of_nat k)) g = (g1, Ok rk) ->
    nm_mpc_steps c solve g1 s 0 k (copies_of g1) = Ok rk.
  Proof. intros K H. rewrite run_eq, iter_few in H by exact K. cbn [rbind] in H. injection H as H. exact H. Qed.
  Lemma upto_eq k : (Z.of_nat k <= nm_len g - nm_horizon g)%Z ->
    nm_mpc_run c solve (Some (Z.of_nat k)) g = (g1, nm_mpc_steps c solve g1 s 0 k (copies_of g1)).
  Proof. intros K. rewrite run_eq, iter_few by exact K. reflexivity. Qed.

  Lemma upto_equipped k rk : assigns_all solve -> (Z.of_nat k <= nm_len g - nm_horizon g)%Z ->
    nm_mpc_run c solve (Some (Z.of_nat k)) g = (g1, Ok rk) -> forall n x, equipped (at_row g1 rk n x).
  Proof.
    intros AA K H. destruct (mpc_trace _ _ _ AA H) as (_ & rs & _ & RM & _ & _ & _ & KE). rewrite <- RM. apply KE. lia.
  Qed.

  Lemma run_stop steps k rk er : nm_mpc_run c solve (Some (Z.of_nat k)) g = (g1, Ok rk) -> (k < mpc_count g steps)%nat ->
    (Z.of_nat (mpc_count g steps) <= nm_len g - nm_horizon g)%Z ->
    nm_mpc_step c solve g1 s k rk = Err er -> nm_mpc_run c solve steps g = (g1, Err er).
  Proof.
    intros H K M ST. rewrite run_eq. pose proof (run_upto k rk ltac:(lia) H) as U.
    assert (I : nm_num_iter g1 s steps = Ok (mpc_count g steps)).
    { unfold nm_num_iter, mpc_count in *. rewrite sample_len. destruct run_same as (_ & _ & -> & _). destruct steps as [j|]; [|reflexivity].
      destruct (Z.leb_spec j (nm_len g - nm_horizon g)); [reflexivity|lia]. }
    rewrite I. cbn [rbind]. rewrite (steps_stop _ _ _ _ _ _ _ _ _ U K ST). reflexivity.
  Qed.

  (** ** The state of charge *)
  Lemma first_within smin smax x l : dget "battery_soc" (nm_state g) = Some (CNum x :: l) -> smin <= x <= smax ->
    column_within smin smax (nm_state g1).
  Proof.
    intros D X m M. destruct run_same as (_ & _ & _ & _ & _ & _ & _ & _ & _ & FI). destruct (firsts_ok _ _ FI) as (_ & F & _).
    rewrite (F _ _ _ D) in M. injection M as <-. constructor; [|constructor]. exists x. auto.
  Qed.
  Lemma run_parameter k x : parameter g k x <-> parameter g1 k x.
  Proof. unfold parameter. destruct run_same as (-> & _). reflexivity. Qed.

  Lemma within_latest smin smax (r : record Q) soc : column_within smin smax r -> latest r "battery_soc" (CNum soc) -> smin <= soc <= smax.
  Proof.
    intros W (l & D). specialize (W _ D). rewrite Forall_forall in W. destruct (W (CNum soc)) as (y & Y & A & B); [apply in_or_app; right; left; reflexivity|].
    injection Y as <-. auto.
  Qed.

  Lemma sensible_reset : sensible_for_mpc g -> sensible_for_mpc g1.
  Proof.
    intros [B G1 G2 R]. destruct run_same as (EP & EA & _ & L1 & L2 & L3 & _ & _ & _ & FI). destruct (firsts_ok _ _ FI) as (_ & F & _).
    constructor; unfold parameter in *; rewrite ?EP, ?EA, ?L1, ?L2, ?L3; try assumption.
    destruct B as (a & b & d & e & f & h & P1 & P2 & P3 & P4 & P5 & P6 & A1 & A2 & A3 & A4 & A5 & x & rest & D & X).
    exists a, b, d, e, f, h. repeat (split; [assumption|]). exists x, []. split; [exact (F _ _ _ D)|exact X].
  Qed.

  Lemma soc_kept m (rs : nat -> copies Q) : assigns_all solve -> rs O = copies_of g1 -> (Z.of_nat m <= Z.max 0 (nm_len g - nm_horizon g))%Z ->
    (forall k, (k < m)%nat -> nm_mpc_step c solve g1 s k (rs k) = Ok (rs (S k))) -> forall smin smax cap eff pc pd,
    parameter g "battery_soc_min" smin -> parameter g "battery_soc_max" smax ->
    parameter g "battery_capacity" cap -> parameter g "battery_efficiency" eff ->
    parameter g "battery_power_charge" pc -> parameter g "battery_power_discharge" pd ->
    0 < eff <= 1 -> 0 < cap -> 0 <= pc -> 0 <= pd -> column_within smin smax (nm_state g1) ->
    forall k, (k <= m)%nat -> column_within smin smax (cp_state (rs k)).
  Proof.
    intros AA R0 LM ST smin smax cap eff pc pd P1 P2 P3 P4 P5 P6 EF CP K1 K2 CW. apply run_parameter in P1, P2, P3, P4, P5, P6.
    induction k as [|k IH]; intros K; [rewrite R0; exact CW|].
    destruct (trace_ok m rs AA R0 LM ST k ltac:(lia)) as (EK & _).
    destruct (run_step k _ _ AA EK ltac:(lia) (ST k ltac:(lia))) as (n & x & e & xs & soc & pr & u & st & rest & o & _ & _ & CA & _).
    exact (carried_within g1 _ n x _ _ o smin smax cap eff pc pd run_battery P1 P2 P3 P4 P5 P6 EF CP K1 K2 CA (IH ltac:(lia))).
  Qed.

  Definition state_within (r : copies Q) : Prop := forall smin smax, parameter g "battery_soc_min" smin -> parameter g "battery_soc_max" smax ->
    column_within smin smax (cp_state r).

  Lemma start_within : sensible_for_mpc g -> state_within (copies_of g1).
  Proof.
    intros SE smin smax P1 P2. destruct (sm_battery _ SE) as (a & b & d & e & f & h & Q1 & Q2 & _ & _ & _ & _ & _ & _ & _ & _ & _ & x & rest & D & X).
    rewrite (parameter_unique _ _ _ _ P1 Q1), (parameter_unique _ _ _ _ P2 Q2). exact (first_within _ _ _ _ D X).
  Qed.

  Lemma solvable_within k r e xs soc pr : sensible_for_mpc g -> state_within r -> posed_at g1 k e xs ->
    latest (cp_state r) "battery_soc" (CNum soc) -> program_of pr e soc xs -> exists p u, satisfies pr p u = true.
  Proof.
    intros SE SW PO LS PG. apply (always_solvable g1 k e xs soc pr (sensible_reset SE) PO); [|exact PG].
    destruct (pa_battery _ _ _ _ PO) as (_ & _ & P3 & P4 & _). apply run_parameter in P3, P4. exact (within_latest _ _ _ _ (SW _ _ P3 P4) LS).
  Qed.
  Lemma run_solvable k r e xs soc pr : assigns_all solve -> sensible_for_mpc g -> nm_mpc_run c solve (Some (Z.of_nat k)) g = (g1, Ok r) ->
    posed_at g1 k e xs -> latest (cp_state r) "battery_soc" (CNum soc) -> program_of pr e soc xs -> exists p u, satisfies pr p u = true.
  Proof.
    intros AA SE H. destruct (mpc_trace _ _ _ AA H) as (_ & rs & R0 & RM & LM & ST & _). apply (solvable_within _ _ _ _ _ _ SE).
    intros smin smax P1 P2. rewrite <- RM.
    destruct (sm_battery _ SE) as (a & b & d & e0 & f & h & Q1 & Q2 & Q3 & Q4 & Q5 & Q6 & _ & A2 & A3 & A4 & A5 & _).
    exact (soc_kept _ rs AA R0 LM ST smin smax d e0 f h P1 P2 Q3 Q4 Q5 Q6 A3 A2 A4 A5 (start_within SE _ _ P1 P2) _ (le_n _)).
  Qed.

  (** ** Runs that return *)

  Lemma total_step k r m : solves_run c solve g g1 m -> (k < m)%nat -> nm_mpc_run c solve (Some (Z.of_nat k)) g = (g1, Ok r) ->
    (forall n x, equipped (at_row g1 r n x)) -> (Z.of_nat k < nm_len g - nm_horizon g)%Z ->
    exists n x e xs soc pr u st rest, rows g1 k n x /\ decides solve g1 k r e xs soc pr u st rest
      /\ good_plan e soc xs (st :: rest)
      /\ (exactly_balanced (at_row g1 r n x) (decided_by (eq_gen e) n st) /\ raises AssertionError (nm_mpc_step c solve g1 s k r)
          \/ ~ exactly_balanced (at_row g1 r n x) (decided_by (eq_gen e) n st)
             /\ exists r' o, nm_mpc_step c solve g1 s k r = Ok r' /\ carried g1 (decided_by (eq_gen e) n st) n x r r' o
                 /\ forall n x, equipped (at_row g1 r' n x)).
  Proof.
    intros SR KM UP EK K. destruct (step_room k K) as (K1 & K2 & n & x & R).
    destruct (step_verdict c solve g1 L s run_battery run_aligned run_made run_sampled k r n x (EK n x) R K1 K2)
      as (e & xs & soc & pr & PO & LS & PG & V & _).
    destruct (SR k r e xs soc pr KM UP PO LS PG) as (p & u & SO & SA).
    pose proof SA as SA'. apply (proj1 PG) in SA'. destruct SA' as (plan & (IP & IU) & GP).
    destruct plan as [|st rest].
    { exfalso. destruct GP as (LE & _). pose proof (pa_steps _ _ _ _ PO) as PS. pose proof run_horizon. destruct run_same as (_ & _ & HZ & _).
      cbn in LE. rewrite HZ in PS. lia. }
    exists n, x, e, xs, soc, pr, u, st, rest. split; [exact R|]. split.
    { split; [exact PO|]. split; [exact LS|]. split; [exact PG|]. rewrite SO, IP. reflexivity. }
    split; [exact GP|]. destruct (V st rest u) as [V'|(NB & p0 & co & o & sta & prod & NO & V')]; [rewrite SO, IP; reflexivity|left; exact V'|right].
    split; [exact NB|].
    assert (PN : forall key, In key (control_names (nm_arch g1)) -> present key (decided_by (eq_gen e) n st)).
    { rewrite (proj1 (pa_genset _ _ _ _ PO)). intros key I. exact (decided_names g1 run_battery n st key I). }
    destruct (noted_carried g1 r _ n x p0 co o sta prod (EK n x) PN NO) as (y & CA).
    destruct (noted_kept g1 r _ n x p0 co o sta prod (EK n x) PN NO) as (E' & LO).
    eexists. exists y. split; [exact V'|]. split; [exact CA|]. intros n' x'. eapply equipped_row. exact E'.
  Qed.

  Lemma total_steps m : solves_run c solve g g1 m -> (Z.of_nat m <= nm_len g - nm_horizon g)%Z ->
    (exists r, nm_mpc_steps c solve g1 s 0 m (copies_of g1) = Ok r /\ (forall n x, equipped (at_row g1 r n x))
       /\ (sensible_for_mpc g -> state_within r))
    \/ raises AssertionError (nm_mpc_steps c solve g1 s 0 m (copies_of g1)) /\ exists k, (k < m)%nat /\ balanced_without_pv c solve g g1 k.
  Proof.
    induction m as [|m IH]; intros SR M.
    - left. exists (copies_of g1). split; [reflexivity|]. split; [apply equipped_start; exact run_equipped|exact start_within].
    - assert (SR' : solves_run c solve g g1 m) by (intros k r e xs soc pr K; apply SR; lia).
      destruct (IH SR' ltac:(lia)) as [(r & H & EK & CW)|(H & k & K & ST)].
      + assert (UP : nm_mpc_run c solve (Some (Z.of_nat m)) g = (g1, Ok r)) by (rewrite upto_eq by lia; rewrite H; reflexivity).
        destruct (total_step m r (S m) SR ltac:(lia) UP EK ltac:(lia)) as (n & x & e & xs & soc & pr & u & st & rest & R & D & GP & V).
        rewrite steps_snoc, H. cbn [rbind Nat.add]. destruct V as [(XB & V)|(XB & r' & o & V & CA & E')].
        * right. split; [exact V|]. exists m. split; [lia|]. exists r, n, x, e, xs, soc, pr, u, st, rest. auto.
        * left. exists r'. split; [exact V|]. split; [exact E'|].
          intros SE smin smax P1 P2. destruct (sm_battery _ SE) as (a & b & d & e0 & f & h & Q1 & Q2 & Q3 & Q4 & Q5 & Q6 & _ & A2 & A3 & A4 & A5 & _).
          apply run_parameter in Q3, Q4, Q5, Q6. pose proof (CW SE _ _ P1 P2) as W. apply run_parameter in P1, P2.
          exact (carried_within g1 _ n x _ _ o smin smax d e0 f h run_battery P1 P2 Q3 Q4 Q5 Q6 A3 A2 A4 A5 CA W).
      + right. rewrite steps_snoc. destruct H as (er & H & CL). rewrite H. cbn [rbind]. split; [exists er; auto|]. exists k. split; [lia|exact ST].
  Qed.

  Lemma finder_solves m : finds_solutions solve -> sensible_for_mpc g -> (Z.of_nat m <= nm_len g - nm_horizon g)%Z -> solves_run c solve g g1 m.
  Proof.
    intros FS SE. induction m as [|m IH]; intros M k r e xs soc pr K UP PO LS PG; [lia|].
    destruct (Nat.eq_dec k m) as [->|NE]; [|exact (IH ltac:(lia) k r e xs soc pr ltac:(lia) UP PO LS PG)].
    apply FS. destruct (total_steps m (IH ltac:(lia)) ltac:(lia)) as [(r' & H & _ & SW)|((er & H & _) & _)];
      rewrite upto_eq in UP by lia; rewrite H in UP; [injection UP as <-|discriminate UP].
    exact (solvable_within m r' e xs soc pr SE (SW SE) PO LS PG).
  Qed.

  Lemma run_verdict steps : (Z.of_nat (mpc_count g steps) <= nm_len g - nm_horizon g)%Z -> solves_run c solve g g1 (mpc_count g steps) ->
    (exists r, nm_mpc_run c solve steps g = (g1, Ok r))
    \/ (exists er, nm_mpc_run c solve steps g = (g1, Err er) /\ ex_class er = AssertionError)
       /\ exists k, (k < mpc_count g steps)%nat /\ balanced_without_pv c solve g g1 k.
  Proof.
    intros M SR. assert (I : nm_num_iter g1 s steps = Ok (mpc_count g steps)).
    { unfold nm_num_iter, mpc_count in *. rewrite sample_len. destruct run_same as (_ & _ & -> & _). destruct steps as [j|]; [|reflexivity].
      destruct (Z.leb_spec j (nm_len g - nm_horizon g)); [reflexivity|lia]. }
    rewrite run_eq, I. cbn [rbind]. destruct (total_steps _ SR M) as [(r & H & _)|((er & H & CL) & X)]; rewrite H; [left; eauto|right]. split; [eauto|exact X].
  Qed.

  (** The verdict on a step by what the solver answers *)
  Lemma run_unsolved k r : assigns_all solve -> nm_mpc_run c solve (Some (Z.of_nat k)) g = (g1, Ok r) ->
    (Z.of_nat k < nm_len g - nm_horizon g)%Z ->
    exists e xs soc pr, posed_at g1 k e xs /\ latest (cp_state r) "battery_soc" (CNum soc) /\ program_of pr e soc xs
      /\ forall steps, (k < mpc_count g steps)%nat -> (Z.of_nat (mpc_count g steps) <= nm_len g - nm_horizon g)%Z ->
         (solve k pr = Ok None -> raises TypeError (snd (nm_mpc_run c solve steps g)))
         /\ (forall er, solve k pr = Err er -> nm_mpc_run c solve steps g = (g1, Err er)).
  Proof.
    intros AA UP K. pose proof (upto_equipped k r AA ltac:(lia) UP) as EK. destruct (step_room k K) as (K1 & K2 & n & x & R).
    destruct (step_verdict c solve g1 L s run_battery run_aligned run_made run_sampled k r n x (EK n x) R K1 K2)
      as (e & xs & soc & pr & PO & LS & PG & _ & V1 & V2).
    exists e, xs, soc, pr. split; [exact PO|]. split; [exact LS|]. split; [exact PG|]. intros steps KS M. split.
    - intros SO. destruct (V1 SO) as (er & H & CL). rewrite (run_stop steps k r er UP KS M H). exists er. auto.
    - intros er SO. exact (run_stop steps k r er UP KS M (V2 er SO)).
  Qed.
End Run.

(** ** Runs that return were reset *)
Lemma run_reset (c : mpc Q) solve steps (g g1 : nonmod Q) r : nm_mpc_run c solve steps g = (g1, Ok r) -> nm_reset false g = (g1, Ok tt).
Proof.
  unfold nm_mpc_run, run_mpc_on_sample, mget, mlift, mbind. destruct (nm_reset false g) as (h & [[]|e]); [|discriminate].
  destruct (nm_num_iter h _ steps); intros H; [|discriminate]. injection H as -> _. reflexivity.
Qed.
