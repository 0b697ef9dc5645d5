(** * The sample average approximation with perfect samples *)

From Coq Require Import ZArith QArith Qabs Qminmax Bool String List Lia Lqa Permutation.
From Verif Require Import Num Py Spec_Module Proofs_Num Proofs_Run Proofs_Data NonModular Spec_NonModular Proofs_NonModular Proofs_NmRun
  Proofs_NmHistory Proofs_NmEpisode Proofs_NmTotal Proofs_NmRecord Proofs_NmProgress
  NmRbc Spec_NmRbc Spec_NmRbcRun Proofs_NmRbcRun Proofs_NmRbcServe
  MPC NmMpc Spec_MPC Proofs_Mpc Spec_NmMpc Proofs_NmMpc Proofs_NmMpcRun Saa Spec_Saa Proofs_Saa Proofs_SaaRun.
Import ListNotations.
Local Open Scope string_scope.
Local Open Scope list_scope.
Local Open Scope Q_scope.

(** ** Records that differ in some columns *)

Lemma same_refl keys (r : record Q) : same_but_those keys r r.
Proof. unfold same_but_those. induction r; constructor; auto. Qed.
Lemma same_dget keys (r r' : record Q) k : same_but_those keys r r' -> ~ In k keys -> dget k r = dget k r'.
Proof.
  unfold same_but_those. intros F NI. induction F as [|[k1 l1] [k2 l2] r r' (E1 & E2) F IH]; [reflexivity|]. cbn in *. subst k2.
  destruct (String.eqb k k1) eqn:B; [|exact IH]. apply String.eqb_eq in B. subst k1. rewrite (E2 NI). reflexivity.
Qed.
Lemma same_append keys (row row' : dict (cell Q)) : (forall k, ~ In k keys -> dget k row = dget k row') ->
  (forall k, dget k row = None -> dget k row' = None) -> (forall k, dget k row' = None -> dget k row = None) ->
  forall (r r' : record Q), same_but_those keys r r' -> forall d, append_row row r = (d, Ok tt) ->
  exists d', append_row row' r' = (d', Ok tt) /\ same_but_those keys d d'.
Proof.
  intros EQ N1 N2 r r' F. unfold same_but_those in *. induction F as [|[k1 l1] [k2 l2] r r' (E1 & E2) F IH]; intros d H; cbn in *.
  - injection H as <-. exists []. auto.
  - subst k2. destruct (dget k1 row) as [x|] eqn:X; [|discriminate].
    destruct (dget k1 row') as [x'|] eqn:X'; [|rewrite (N2 _ X') in X; discriminate].
    destruct (append_row row r) as [d1 [[]|e]] eqn:A; [|discriminate]. injection H as <-.
    destruct (IH _ eq_refl) as (d1' & -> & F'). eexists. split; [reflexivity|]. constructor; [|exact F']. cbn. split; [reflexivity|].
    intros NI. rewrite (E2 NI). rewrite (EQ _ NI) in X. congruence.
Qed.

Lemma dget_app {A} k (d e : dict A) : dget k (d ++ e) = match dget k d with Some x => Some x | None => dget k e end.
Proof. induction d as [|[k1 x] d IH]; cbn; [reflexivity|]. destruct (String.eqb k k1); [reflexivity|exact IH]. Qed.

Definition late_columns : list string := ["load"; "pv"; "grid_status"].

Lemma production_same par ar (c : dict Q) st st' : last_num st "battery_soc" = last_num st' "battery_soc" ->
  record_production par ar c st = record_production par ar c st'.
Proof. intros E. unfold record_production. rewrite E. reflexivity. Qed.

(** The same records, except that other values were shown as those of the next row *)
Record agreed (r r' : copies Q) : Prop := mkAgreed {
  ag_actions : cp_actions r = cp_actions r';
  ag_state : same_but_those late_columns (cp_state r) (cp_state r');
  ag_production : cp_production r = cp_production r';
  ag_cost : cp_cost r = cp_cost r';
  ag_co2 : cp_co2 r = cp_co2 r'
}.
Lemma agreed_refl r : agreed r r.
Proof. constructor; auto using same_refl. Qed.
Lemma agreed_sym r r' : agreed r r' -> agreed r' r.
Proof.
  intros [A B C D E]. constructor; auto. unfold same_but_those in *. clear -B. induction B as [|x y l l' (E1 & E2) B IH]; constructor; [|exact IH].
  split; [congruence|]. intros NI. symmetry. apply E2. rewrite E1. exact NI.
Qed.
Lemma agreed_soc r r' : agreed r r' -> last_num (cp_state r) "battery_soc" = last_num (cp_state r') "battery_soc".
Proof. intros A. unfold last_num, dfind. rewrite (same_dget _ _ _ "battery_soc" (ag_state _ _ A)); [reflexivity|]. cbn. intuition discriminate. Qed.

Lemma update_same (par : dict Q) ar t prod (x x' : next Q) st st' s : same_but_those late_columns st st' ->
  last_num st "battery_soc" = last_num st' "battery_soc" ->
  nx_import x = nx_import x' -> nx_export x = nx_export x' -> nx_co2 x = nx_co2 x' ->
  on_copy (update_status par ar t prod x) st = Ok s ->
  exists s', on_copy (update_status par ar t prod x') st' = Ok s' /\ same_but_those late_columns s s'.
Proof.
  intros SA LN E1 E2 E3 H. apply on_copy_ok in H. unfold update_status, mget, mlift, mbind in H.
  match type of H with context [if has_battery ar then ?X else ?Y] => set (B := if has_battery ar then X else Y) in * end.
  assert (U : exists s', update_status par ar t prod x' st' = (s', Ok tt) /\ same_but_those late_columns s s').
  { unfold update_status, mget, mlift, mbind. rewrite <- LN. fold B. destruct B as [b|e]; [|discriminate].
    cbv beta in *. refine (same_append late_columns _ _ _ _ _ st st' SA s H).
    - intros k NI. cbn in NI. rewrite !dget_app. cbn [dget]. rewrite E1, E2, E3.
      destruct (String.eqb_spec k "load"); [exfalso; auto|]. destruct (String.eqb_spec k "pv"); [exfalso; auto|].
      destruct (has_grid ar); cbn [dget]; [|reflexivity]. destruct (String.eqb_spec k "grid_status"); [exfalso; auto 10|]. reflexivity.
    - intros k. rewrite !dget_app. cbn [dget]. destruct (k =? "load")%string; [discriminate|]. destruct (k =? "pv")%string; [discriminate|].
      destruct (k =? "hour")%string; [discriminate|]. destruct (dget k b); [auto|]. destruct (has_grid ar); cbn [dget]; [|auto].
      destruct (k =? "grid_status")%string; [discriminate|]. rewrite E1, E2, E3. auto.
    - intros k. rewrite !dget_app. cbn [dget]. destruct (k =? "load")%string; [discriminate|]. destruct (k =? "pv")%string; [discriminate|].
      destruct (k =? "hour")%string; [discriminate|]. destruct (dget k b); [auto|]. destruct (has_grid ar); cbn [dget]; [|auto].
      destruct (k =? "grid_status")%string; [discriminate|]. rewrite E1, E2, E3. auto. }
  destruct U as (s' & U & F). exists s'. split; [|exact F]. apply on_copy_ok. exact U.
Qed.

Lemma record_same (g : nonmod Q) i c l v st l' v' st' r r' q : agreed r r' ->
  (has_grid (nm_arch g) = true -> exists y, st' = Ok y) -> record_step g i c l v st r = Ok q ->
  exists q', record_step g i c l' v' st' r' = Ok q' /\ agreed q q'.
Proof.
  intros AG SG H. pose proof (agreed_soc _ _ AG) as LN. destruct AG as [A1 A2 A3 A4 A5]. unfold record_step in *.
  rewrite <- A1, <- A3, <- A4, <- A5, <- (production_same _ _ c _ _ LN).
  apply rbind_ok in H. destruct H as (production & -> & H). cbn [rbind]. apply rbind_ok in H. destruct H as (prod & -> & H). cbn [rbind].
  apply rbind_ok in H. destruct H as (now & -> & H). cbn [rbind]. apply rbind_ok in H. destruct H as (co2 & -> & H). cbn [rbind].
  apply rbind_ok in H. destruct H as (x & X & H). apply rbind_ok in H. destruct H as (state & US & H).
  apply rbind_ok in H. destruct H as (pr & PR & H). apply rbind_ok in H. destruct H as (cost & CO & H). injection H as <-.
  assert (X' : exists x', (if has_grid (nm_arch g) then
      rbind st' (fun s => rbind (iloc (nm_import_ts g) (i + 1)) (fun im =>
      rbind (iloc (nm_export_ts g) (i + 1)) (fun ex => rbind (iloc (nm_co2_ts g) (i + 1)) (fun c =>
        Ok (mkNext (CNum l') (CNum v') (CNum s) (CNum im) (CNum ex) (CNum c))))))
      else Ok (mkNext (CNum l') (CNum v') (CNum n0) (CNum n0) (CNum n0) (CNum n0))) = Ok x'
      /\ nx_import x = nx_import x' /\ nx_export x = nx_export x' /\ nx_co2 x = nx_co2 x').
  { destruct (has_grid (nm_arch g)).
    - destruct (SG eq_refl) as (y & ->). apply rbind_ok in X. destruct X as (y0 & _ & X).
      apply rbind_ok in X. destruct X as (im & -> & X). apply rbind_ok in X. destruct X as (ex & -> & X). apply rbind_ok in X. destruct X as (co & -> & X).
      injection X as <-. cbn. eexists. split; [reflexivity|]. cbn. auto.
    - injection X as <-. eexists. split; [reflexivity|]. cbn. auto. }
  destruct X' as (x' & -> & E1 & E2 & E3). cbn [rbind].
  destruct (update_same _ _ _ _ x x' _ _ _ A2 LN E1 E2 E3 US) as (state' & -> & F). cbn [rbind]. rewrite PR. cbn [rbind]. rewrite CO. cbn [rbind].
  eexists. split; [reflexivity|]. constructor; cbn; auto.
Qed.

(** ** The same programs *)

Lemma nth_ext_error {A} (l : list A) : forall m, length l = length m -> (forall k, (k < length l)%nat -> nth_error l k = nth_error m k) -> l = m.
Proof.
  induction l as [|x l IH]; intros [|y m] L H; cbn in L; try discriminate; [reflexivity|].
  pose proof (H O ltac:(cbn; lia)) as H0. cbn in H0. injection H0 as ->. f_equal. apply IH; [congruence|]. intros k K. exact (H (S k) ltac:(cbn; lia)).
Qed.
Lemma forall2_length {A B} (R : A -> B -> Prop) l m : Forall2 R l m -> length l = length m.
Proof. induction 1; cbn; congruence. Qed.
Lemma slices_same {A} (l m : list A) (i h : nat) : (i + h <= length l)%nat -> (i + h <= length m)%nat ->
  (forall k, (i <= k < i + h)%nat -> nth_error l k = nth_error m k) ->
  py_slice l (Z.of_nat i) (Z.of_nat i + Z.of_nat h) = py_slice m (Z.of_nat i) (Z.of_nat i + Z.of_nat h).
Proof.
  intros L1 L2 H. destruct (slice_at l i h L1) as (A1 & A2). destruct (slice_at m i h L2) as (B1 & B2).
  apply nth_ext_error; [congruence|]. intros k K. rewrite A1 in K. rewrite A2, B2 by exact K. apply H. lia.
Qed.

Lemma single_first (c : mpc Q) solve q (g : nonmod Q) s st i o : (0 < nm_horizon g)%Z -> mpc_single_step c solve q g s st i = Ok o ->
  exists d pr p u, nm_values g s (Z.of_nat i) st = Ok d /\ make_problem c d = Ok pr /\ solve q pr = Ok (Some (p, u))
    /\ step_control (has_gen c) p (da_load d) (da_pv d) 0 = Ok (ho_first o) /\ ho_step o = Z.of_nat i.
Proof.
  intros HP H. unfold mpc_single_step in H. apply rbind_ok in H. destruct H as (d & D & H). apply rbind_ok in H. destruct H as (ds & DS & H).
  unfold nm_solve_steps in DS. apply rbind_ok in DS. destruct DS as (pr & PR & DS). apply rbind_ok in DS. destruct DS as (sol & SO & DS).
  destruct (Nat.ltb _ _); [discriminate|]. destruct (Z.to_nat (nm_horizon g)) as [|h] eqn:HH; [lia|]. cbn [seq rmapM] in DS.
  apply rbind_ok in DS. destruct DS as (d0 & D0 & DS). apply rbind_ok in D0. destruct D0 as (p & PV & D0).
  apply rbind_ok in DS. destruct DS as (ds' & _ & DS). injection DS as <-.
  destruct sol as [(p' & u)|]; [|discriminate]. injection PV as ->.
  unfold new_horizon_output in H. apply rbind_ok in H. destruct H as (cost & _ & H). cbn [entry_at nth_error rbind] in H. injection H as <-.
  exists d, pr, p, u. auto 10.
Qed.

(** ** Runs *)

Section Same.
  Variables (fl : Q -> Z) (part : list (horizon_output Q) -> nat -> list (horizon_output Q)) (a : saa Q) (solve : solver Q) (g g1 : nonmod Q) (p : Q)
    (ss : list (sample Q)) (rows : nat).
  Hypothesis FL : floors fl.
  Hypothesis PA : partitions part.
  Hypothesis E : equipped g.
  Hypothesis AL : aligned g.
  Hypothesis CK : clock_ok g.
  Hypothesis HB : has_battery (nm_arch g) = true.
  Hypothesis SF : saa_for a g.
  Hypothesis RS : nm_reset false g = (g1, Ok tt).
  Hypothesis FS : Forall (fits g) ss.
  Hypothesis SH : shortest ss rows.
  Hypothesis PE : Forall (perfect g) ss.
  Hypothesis AA : assigns_all solve.
  Hypothesis SS : steady solve.
  Hypothesis P0 : 0 <= p.
  Hypothesis P1 : p < 1.

  Let c := sa_mpc a.
  Let s := cut_sample (nm_len g) (underlying_data g).
  Let L := Z.to_nat (nm_len g).

  Lemma sa_made : made_for c g.
  Proof. apply saa_shape. exact SF. Qed.
  Lemma sa_for1 : saa_for a g1.
  Proof.
    destruct SF as (g' & du & N & H). exists g', du. split; [exact N|].
    destruct (run_same g g1 RS) as (S1 & S2 & S3 & S4 & S5 & S6 & _). intuition congruence.
  Qed.
  Lemma fits1 : Forall (fits g1) ss.
  Proof. eapply Forall_impl; [|exact FS]. intros x. unfold fits. rewrite (run_rows g g1 RS). auto. Qed.
  Lemma perfect1 : Forall (perfect g1) ss.
  Proof.
    eapply Forall_impl; [|exact PE]. intros x. unfold perfect, status_at. destruct (run_same g g1 RS) as (_ & -> & _ & -> & -> & -> & _). auto.
  Qed.
  Lemma perfect_known k x x' : fits g1 x -> perfect g1 x -> known_upto g1 k x x' -> perfect g1 x'.
  Proof.
    intros _ P [(K1 & _) KP KF] i I. rewrite K1 in I. destruct (Nat.lt_ge_cases i k) as [H|H]; [exact (KP i H)|].
    destruct (KF i H) as (-> & -> & ->). exact (P i I).
  Qed.

  Lemma values_same k x st st' : fits g1 x -> perfect g1 x -> (k + Z.to_nat (nm_horizon g1) <= length (sm_load x))%nat ->
    (k + Z.to_nat (nm_horizon g1) <= L)%nat -> last_num st "battery_soc" = last_num st' "battery_soc" ->
    nm_values g1 s (Z.of_nat k) st = nm_values g1 x (Z.of_nat k) st'.
  Proof.
    intros (F1 & F2 & _ & _) P L1 L2 LN. pose proof (run_aligned g g1 AL RS) as AL1.
    pose proof (run_sampled g g1 AL CK RS : sampled g1 L s) as SD. destruct (row_len g1 L s AL1 SD) as (R1 & R2 & R3).
    pose proof (run_horizon c g sa_made) as HP. destruct (run_same g g1 RS) as (_ & _ & HZ & _).
    assert (HN : Z.of_nat (Z.to_nat (nm_horizon g1)) = nm_horizon g1) by lia.
    assert (SL := fun (l m : list Q) => slices_same l m k (Z.to_nat (nm_horizon g1))). rewrite HN in SL.
    unfold nm_values. rewrite LN.
    rewrite (SL (sm_load s) (sm_load x)), (SL (sm_pv s) (sm_pv x)).
    - destruct (has_grid (nm_arch g1)) eqn:HG; [|reflexivity]. rewrite (SL (sm_grid s) (sm_grid x)); [reflexivity| | |].
      + rewrite (R3 eq_refl). lia.
      + lia.
      + intros i I. destruct (P i ltac:(lia)) as (_ & _ & ->). unfold status_at. rewrite HG. rewrite (sd_grid _ _ _ SD HG). apply nth_firstn. lia.
    - lia.
    - lia.
    - intros i I. destruct (P i ltac:(lia)) as (_ & -> & _). rewrite (sd_pv _ _ _ SD). apply nth_firstn. lia.
    - lia.
    - lia.
    - intros i I. destruct (P i ltac:(lia)) as (-> & _). rewrite (sd_load _ _ _ SD). apply nth_firstn. lia.
  Qed.

  Section One.
    Variables (k : nat) (r r' : copies Q) (ssk : list (sample Q)).
    Hypothesis AG : agreed r r'.
    Hypothesis EK : forall n x, equipped (at_row g1 r' n x).
    Hypothesis SK : samples_at g1 ss k ssk.
    Hypothesis K1 : (Z.of_nat k < Z.of_nat rows - nm_horizon g)%Z.
    Hypothesis K2 : (Z.of_nat k < nm_len g - nm_horizon g)%Z.

    Lemma one_sample m x : nth_error ssk m = Some x -> exists x1, overwrite (sa_data a) k x = Ok x1 /\ fits g1 x1
      /\ (k + Z.to_nat (nm_horizon g1) <= length (sm_load x1))%nat
      /\ (exists l v, nth_error (nm_load_ts g1) k = Some l /\ nth_error (sm_load x1) k = Some l /\ nth_error (nm_pv_ts g1) k = Some v /\ nth_error (sm_pv x1) k = Some v)
      /\ nm_values g1 s (Z.of_nat k) (cp_state r) = nm_values g1 x1 (Z.of_nat k) (cp_state r').
    Proof.
      intros M. destruct (samples_nth g1 ss _ _ _ _ SK M) as (x0 & M0 & KU). pose proof (nth_error_In _ _ M0) as I0.
      destruct (sample_long g1 ss rows fits1 SH x0 I0) as (F0 & L0). pose proof perfect1 as PF. rewrite Forall_forall in PF.
      pose proof (run_horizon c g sa_made) as HP. destruct (run_same g g1 RS) as (_ & _ & HZ & _). pose proof (run_len g CK) as RL.
      destruct (overwrite_known g1 k x x0 (run_aligned g g1 AL RS) F0 KU ltac:(lia)) as (x1 & OW & KU').
      exists x1. rewrite (sr_data a g1 sa_for1). split; [exact OW|]. pose proof (fits_known _ _ _ _ F0 KU') as F1. split; [exact F1|].
      pose proof (kn_size _ _ _ _ KU') as (Z1 & Z2 & Z3). split; [rewrite Z1, HZ; lia|]. split.
      - destruct (kn_past _ _ _ _ KU' k ltac:(lia)) as (Q1 & Q2 & _). destruct F1 as (W1 & _).
        destruct (nth_some (sm_load x1) k ltac:(lia)) as (l & LL). destruct (nth_some (sm_pv x1) k ltac:(lia)) as (v & VV).
        exists l, v. split; [congruence|]. split; [exact LL|]. split; [congruence|exact VV].
      - apply values_same; [exact F1|exact (perfect_known _ _ _ F0 (PF _ I0) KU')|rewrite Z1, HZ; lia|rewrite HZ; unfold L; lia|].
        apply agreed_soc. exact AG.
    Qed.
    Lemma one_lengths : length ss = length ssk.
    Proof. exact (forall2_length _ _ _ SK). Qed.
    Lemma one_rows : (exists y, row_at (sm_load s) (S k) = Ok y) /\ (exists y, row_at (sm_pv s) (S k) = Ok y)
      /\ (has_grid (nm_arch g1) = true -> exists y, row_at (sm_grid s) (S k) = Ok y)
      /\ exists l v y, row_at (sm_load (sa_data a)) k = Ok l /\ row_at (sm_pv (sa_data a)) k = Ok v /\ row_at (sm_grid (sa_data a)) k = Ok y.
    Proof.
      destruct (step_room c g g1 AL CK sa_made RS k K2) as (A1 & A2 & n & x & R).
      destruct (next_rows g1 L s (run_sampled g g1 AL CK RS) k n x R A2) as ((y1 & N1 & _) & (y2 & N2 & _) & N3).
      split; [eauto|]. split; [eauto|]. split; [intros HG; destruct (N3 HG) as (y & Y & _); eauto|].
      rewrite (sr_data a g1 sa_for1). pose proof (run_len g CK) as RL. pose proof (run_rows g g1 RS) as RR. pose proof (run_horizon c g sa_made) as HP.
      destruct (data_row g1 k (run_aligned g g1 AL RS) ltac:(lia)) as (l & v & y & _ & _ & _ & D4 & D5 & D6). unfold row_at. rewrite D4, D5, D6. eauto 10.
    Qed.

    Lemma one_back ssk' q' : saa_step fl part a solve g1 p k r' ssk = (ssk', Ok q') -> exists q, nm_mpc_step c solve g1 s k r = Ok q /\ agreed q q'.
    Proof.
      intros H. unfold saa_step in H. destruct (sample_outputs a solve g1 (cp_state r') k (k * length ssk) ssk) as [ss1 os] eqn:SO.
      injection H as _ H. apply rbind_ok in H. destruct H as (os' & -> & H). apply rbind_ok in H. destruct H as (o & CH & H).
      destruct (outputs_ok _ _ _ _ _ _ _ _ _ SO) as (L1 & L2 & IN).
      destruct (choice_ok fl part FL PA os' p o CH) as (rank & _ & IO & _). apply In_nth_error in IO. destruct IO as (m & MO).
      assert (LM : (m < length os')%nat) by (apply nth_error_Some; congruence).
      destruct (nth_some ssk m ltac:(lia)) as (x & M). destruct (IN m x M) as (x1 & o' & OW & _ & MO' & SI).
      assert (o' = o) by congruence. subst o'. destruct (one_sample m x M) as (x1' & OW' & F1 & _ & _ & VS). assert (x1' = x1) by congruence. subst x1'.
      pose proof (run_horizon c g sa_made) as HP. destruct (run_same g g1 RS) as (_ & _ & HZ & _).
      destruct (single_first _ _ _ g1 x1 _ _ _ ltac:(lia) SI) as (d & pr & pp & u & D1 & D2 & D3 & D4 & D5).
      destruct one_rows as ((y1 & N1) & (y2 & N2) & N3 & (l & v & y & N4 & N5 & N6)).
      rewrite D5, N4, N5 in H. cbn [rbind] in H.
      destruct (record_same g1 _ _ _ _ _ y1 y2 (row_at (sm_grid s) (S k)) r' r q' (agreed_sym _ _ AG) N3 H) as (q & RQ & AQ).
      exists q. split; [|exact (agreed_sym _ _ AQ)]. unfold nm_mpc_step. rewrite VS, D1. cbn [rbind]. unfold nm_solve. fold c in D2. rewrite D2. cbn [rbind].
      rewrite (SS k (k * length ssk + m)%nat pr), D3. cbn [rbind values_of]. fold c in D4. rewrite D4. cbn [rbind]. rewrite N1, N2. cbn [rbind]. exact RQ.
    Qed.
    Lemma one_forth q : nm_mpc_step c solve g1 s k r = Ok q -> exists ssk' q', saa_step fl part a solve g1 p k r' ssk = (ssk', Ok q') /\ agreed q q'.
    Proof.
      intros H. unfold nm_mpc_step in H. apply rbind_ok in H. destruct H as (d & D & H). apply rbind_ok in H. destruct H as (co & SO & H).
      destruct one_rows as ((y1 & N1) & (y2 & N2) & N3 & (l & v & y & N4 & N5 & N6)). rewrite N1, N2 in H. cbn [rbind] in H.
      unfold nm_solve in SO. apply rbind_ok in SO. destruct SO as (pr & PR & SO). apply rbind_ok in SO. destruct SO as (sol & SO & ST).
      apply rbind_ok in ST. destruct ST as (pp & VO & ST). destruct sol as [(pp' & u)|]; [|discriminate]. injection VO as ->.
      pose proof (run_horizon c g sa_made) as HP. destruct (run_same g g1 RS) as (_ & _ & HZ & _).
      destruct (outputs_total a solve g1 (cp_state r') k (fun _ o => ho_first o = co /\ ho_step o = Z.of_nat k) ssk (k * length ssk)) as (ss1 & os & OS & PO).
      { intros m x M. destruct (one_sample m x M) as (x1 & OW & F1 & LX & (l0 & v0 & LL1 & LL2 & LL3 & LL4) & VS). exists x1.
        destruct (single_verdict c solve g1 x1 (run_battery g g1 HB RS) (run_aligned g g1 AL RS) (run_made c g g1 sa_made RS) F1 k (k * length ssk + m) r'
          (row_now l0 v0) (nm_next g1) (EK _ _) LX LL2 LL4) as (e & xs & soc & pr' & _ & _ & _ & _ & (d' & D' & PR') & V1 & _).
        rewrite <- VS, D in D'. injection D' as <-. rewrite PR in PR'. injection PR' as <-.
        destruct (V1 pp u) as (st & rest & o & _ & SI & _); [rewrite (SS _ k); exact SO|exact (AA _ _ _ _ SO)|].
        exists o. split; [exact OW|]. split; [exact SI|].
        destruct (single_first _ _ _ g1 x1 _ _ _ ltac:(lia) SI) as (d1 & pr1 & pp1 & u1 & D1 & D2 & D3 & D4 & D5).
        rewrite <- VS, D in D1. injection D1 as <-. rewrite PR in D2. injection D2 as <-. rewrite (SS _ k), SO in D3. injection D3 as <- <-.
        rewrite ST in D4. injection D4 as <-. auto. }
      destruct (outputs_ok _ _ _ _ _ _ _ _ _ OS) as (L1 & L2 & _).
      assert (LN : (0 < length os)%nat).
      { rewrite L1, <- one_lengths. destruct ss as [|x0 ss0] eqn:EQ; [|cbn; lia]. destruct SH as ((x0 & I & _) & _). destruct I. }
      destruct (choice_total fl part FL PA os p LN P0 P1) as (o & CH).
      destruct (choice_ok fl part FL PA os p o CH) as (_ & _ & IO & _). apply In_nth_error in IO. destruct IO as (m & MO). destruct (PO m o MO) as (O1 & O2).
      destruct (record_same g1 _ _ _ _ _ l v (row_at (sm_grid (sa_data a)) k) r r' q AG ltac:(eauto) H) as (q' & RQ & AQ).
      exists ss1, q'. split; [|exact AQ]. unfold saa_step. rewrite OS. cbn [rbind]. rewrite CH. cbn [rbind]. rewrite N4, N5. cbn [rbind]. rewrite O1, O2. rewrite RQ. reflexivity.
    Qed.
  End One.

  Lemma steps_forth n : (Z.of_nat n <= Z.of_nat rows - nm_horizon g)%Z -> (Z.of_nat n <= nm_len g - nm_horizon g)%Z ->
    forall q, nm_mpc_steps c solve g1 s 0 n (copies_of g1) = Ok q ->
    exists ss' q', saa_steps fl part a solve g1 p 0 n (copies_of g1) ss = (ss', Ok q') /\ agreed q q'
      /\ (forall n x, equipped (at_row g1 q' n x)) /\ samples_at g1 ss n ss'.
  Proof.
    induction n as [|n IH]; intros N1 N2 q H.
    - cbn in H. injection H as <-. exists ss, (copies_of g1). split; [reflexivity|]. split; [apply agreed_refl|].
      split; [apply equipped_start; exact (run_equipped g g1 E RS)|apply samples_start].
    - rewrite steps_snoc in H. apply rbind_ok in H. destruct H as (r & H & ST).
      destruct (IH ltac:(lia) ltac:(lia) r H) as (ssk & r' & HS & AG & EK & SK).
      destruct (one_forth n r r' ssk AG EK SK ltac:(lia) ltac:(lia) q ST) as (ss' & q' & ST' & AQ).
      exists ss', q'. split; [rewrite saa_snoc; unfold mbind; rewrite HS; exact ST'|]. split; [exact AQ|].
      destruct (run_same g g1 RS) as (_ & _ & HZ & _).
      destruct (saa_step_votes fl part a solve g1 p ss rows FL PA (run_aligned g g1 AL RS) (run_battery g g1 HB RS) sa_for1 fits1 SH n r' q' ssk ss' AA EK SK ltac:(lia) ST') as (SK' & _ & EK').
      auto.
  Qed.
  Lemma steps_back n : (Z.of_nat n <= Z.of_nat rows - nm_horizon g)%Z -> (Z.of_nat n <= nm_len g - nm_horizon g)%Z ->
    forall ss' q', saa_steps fl part a solve g1 p 0 n (copies_of g1) ss = (ss', Ok q') ->
    exists q, nm_mpc_steps c solve g1 s 0 n (copies_of g1) = Ok q /\ agreed q q'
      /\ (forall n x, equipped (at_row g1 q' n x)) /\ samples_at g1 ss n ss'.
  Proof.
    induction n as [|n IH]; intros N1 N2 ss' q' H.
    - cbn in H. injection H as <- <-. exists (copies_of g1). split; [reflexivity|]. split; [apply agreed_refl|].
      split; [apply equipped_start; exact (run_equipped g g1 E RS)|apply samples_start].
    - rewrite saa_snoc in H. unfold mbind in H. destruct (saa_steps fl part a solve g1 p 0 n (copies_of g1) ss) as [ssk [r'|e]] eqn:HS; [|discriminate].
      destruct (IH ltac:(lia) ltac:(lia) ssk r' eq_refl) as (r & H' & AG & EK & SK).
      destruct (one_back n r r' ssk AG SK ltac:(lia) ltac:(lia) ss' q' H) as (q & ST & AQ).
      exists q. split; [rewrite steps_snoc, H'; exact ST|]. split; [exact AQ|].
      destruct (run_same g g1 RS) as (_ & _ & HZ & _).
      destruct (saa_step_votes fl part a solve g1 p ss rows FL PA (run_aligned g g1 AL RS) (run_battery g g1 HB RS) sa_for1 fits1 SH n r' q' ssk ss' AA EK SK ltac:(lia) H) as (SK' & _ & EK').
      auto.
  Qed.

  Lemma runs_agree n : (Z.of_nat n <= Z.of_nat rows - nm_horizon g)%Z -> (Z.of_nat n <= nm_len g - nm_horizon g)%Z ->
    (forall q, nm_mpc_run c solve (Some (Z.of_nat n)) g = (g1, Ok q) ->
       exists ss' q', run_mpc_on_group fl part a solve g1 (Some (Z.of_nat n)) p ss = (ss', Ok q') /\ agreed q q')
    /\ (forall ss' q', run_mpc_on_group fl part a solve g1 (Some (Z.of_nat n)) p ss = (ss', Ok q') ->
       exists q, nm_mpc_run c solve (Some (Z.of_nat n)) g = (g1, Ok q) /\ agreed q q').
  Proof.
    intros N1 N2. destruct (run_same g g1 RS) as (_ & _ & HZ & _).
    rewrite (upto_eq c solve g g1 AL CK RS n N2). rewrite (group_upto fl part a solve g1 p ss rows fits1 SH n) by lia. split.
    - intros q H. injection H as H. destruct (steps_forth n N1 N2 q H) as (ss' & q' & A1 & A2 & _). eauto.
    - intros ss' q' H. destruct (steps_back n N1 N2 ss' q' H) as (q & A1 & A2 & _). exists q. split; [|exact A2]. fold c s in A1 |- *. rewrite A1. reflexivity.
  Qed.
End Same.
