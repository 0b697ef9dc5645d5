(** * Constructors, last steps and samples of the environments with continuous actions *)

From Coq Require Import ZArith QArith Qminmax Bool String List Lia Lqa.
From Verif Require Import Num Py NonModular NmMpc OldEnv GymEnv Spec_Module Spec_NonModular Spec_GymEnv Proofs_Num Proofs_NonModular
  Proofs_NmRun Proofs_NmHistory Proofs_NmBattery Proofs_NmCost Proofs_NmClock Proofs_NmEpisode Proofs_NmTotal Proofs_NmReads
  Proofs_OldEnv Proofs_OldEnv4 Proofs_GymEnv Proofs_GymEnv2 Proofs_GymEnv3.
Import ListNotations.
Local Open Scope string_scope.
Local Open Scope list_scope.
Local Open Scope Q_scope.

(** *** What steps and resets keep *)
Record same_space (e0 e : gym Q) : Prop := mkSameSpace {
  ss_par : nm_par (gy_grid e) = nm_par (gy_grid e0);
  ss_arch : nm_arch (gy_grid e) = nm_arch (gy_grid e0);
  ss_low : gy_low e = gy_low e0;
  ss_high : gy_high e = gy_high e0;
  ss_stds : gy_stds e = gy_stds e0;
  ss_trajectory : gy_trajectory e = gy_trajectory e0
}.
Lemma reached_space e0 e : gym_reached e0 e -> same_space e0 e.
Proof.
  induction 1 as [|e a e' o _ IH S|e start e' o _ IH S]; [constructor; reflexivity| |].
  - destruct o as ((o & r) & d). apply gym_step_ok in S. destruct S as (b & c & v & cost & _ & _ & R & _ & _ & _ & _ & EE).
    apply run_kept in R. destruct R as (RP & RA). destruct IH as [I1 I2 I3 I4 I5 I6].
    assert (X : gy_low e' = gy_low e /\ gy_high e' = gy_high e /\ gy_stds e' = gy_stds e /\ gy_trajectory e' = gy_trajectory e)
      by (rewrite EE; cbn; auto). destruct X as (X1 & X2 & X3 & X4). constructor; congruence.
  - apply gym_reset_ok in S. destruct S as (g1 & v & R & _ & _ & T & EE). apply reset_clock in R. destruct IH as [I1 I2 I3 I4 I5 I6].
    assert (X : gy_low e' = gy_low e /\ gy_high e' = gy_high e /\ gy_stds e' = gy_stds e /\ gy_trajectory e' = gy_trajectory e)
      by (rewrite EE; cbn; auto). destruct X as (X1 & X2 & X3 & X4).
    assert (Y : nm_par (gy_grid e') = nm_par g1 /\ nm_arch (gy_grid e') = nm_arch g1).
    { destruct (gy_trajectory e); [destruct T as (_ & ->); cbn; auto|rewrite T; auto]. }
    destruct Y as (Y1 & Y2). pose proof (rs_par _ _ R). pose proof (rs_arch _ _ R). constructor; congruence.
Qed.
Lemma bounds_same (g g' : nonmod Q) : nm_par g = nm_par g' -> nm_arch g = nm_arch g' -> action_bounds g = action_bounds g'.
Proof. intros P A. unfold action_bounds, par_attr. rewrite P, A. reflexivity. Qed.

(** *** The constructor *)
Lemma new_continuous_plain trajectory episode start run deviation (g : nonmod Q) e :
  new_continuous false trajectory episode start run deviation g = Ok e ->
  exists e1, new_gym trajectory episode start g = Ok e1 /\ gy_grid e = gy_grid e1 /\ gy_trajectory e = trajectory
    /\ gy_stds e = None /\ action_bounds (gy_grid e) = Ok (gy_high e, gy_low e).
Proof.
  unfold new_continuous. intros H. apply rbind_ok in H. destruct H as (e1 & E & H). apply rbind_ok in H. destruct H as ((high & low) & B & H).
  injection H as <-. exists e1. cbn. auto.
Qed.
Lemma new_continuous_std trajectory episode start run deviation (g : nonmod Q) e :
  new_continuous true trajectory episode start run deviation g = Ok e ->
  exists e1 g' tables high low s, new_gym trajectory episode start g = Ok e1
    /\ action_bounds (gy_grid e1) = Ok (high, low)
    /\ run (set_horizon 24 (gy_grid e1)) = (g', Ok tables)
    /\ gy_grid e = set_horizon (nm_horizon (gy_grid e1)) g' /\ gy_trajectory e = trajectory
    /\ standardizations deviation (gy_grid e) tables = Ok s /\ gy_stds e = Some s
    /\ moved (st_mean s) (st_std s) (map CNum low) (gy_low e)
    /\ exists up, moved (st_mean s) (st_std s) (map CNum high) up /\ gy_high e = set_at up 1 (nfrac 1 10).
Proof.
  unfold new_continuous. intros H. apply rbind_ok in H. destruct H as (e1 & E & H). apply rbind_ok in H. destruct H as ((high & low) & B & H).
  destruct (run (set_horizon 24 (gy_grid e1))) as [g' r] eqn:R. apply rbind_ok in H. destruct H as (tables & -> & H).
  apply rbind_ok in H. destruct H as (s & S' & H). apply rbind_ok in H. destruct H as (lo & LO & H).
  apply rbind_ok in H. destruct H as (hi & HI & H). injection H as <-.
  exists e1, g', tables, high, low, s. cbn [gy_grid gy_trajectory gy_stds gy_low gy_high].
  split; [exact E|]. split; [exact B|]. split; [exact R|]. split; [reflexivity|]. split; [reflexivity|]. split; [exact S'|]. split; [reflexivity|].
  split; [apply forward_ok; exact LO|]. exists hi. split; [apply forward_ok; exact HI|reflexivity].
Qed.

Lemma new_grid trajectory episode start (g : nonmod Q) e : new_gym trajectory episode start g = Ok e ->
  nm_par (gy_grid e) = nm_par g /\ nm_arch (gy_grid e) = nm_arch g.
Proof.
  unfold new_gym. destruct (negb (nm_len g =? 8760)%Z); [discriminate|]. unfold short_trajectory.
  destruct trajectory as [n|].
  - unfold mbind, mget. cbn [nm_len nm_horizon set_horizon].
    match goal with |- context [if ?b then _ else _] => destruct b end; [discriminate|].
    intros H. injection H as <-. cbn. auto.
  - intros H. injection H as <-. cbn. auto.
Qed.

Lemma island_never standardization trajectory episode start run deviation (g : nonmod Q) e :
  dget "grid_power_import" (nm_par g) = None ->
  new_continuous standardization trajectory episode start run deviation g = Ok e -> False.
Proof.
  intros P H. assert (X : exists e1 b, new_gym trajectory episode start g = Ok e1 /\ action_bounds (gy_grid e1) = Ok b).
  { unfold new_continuous in H. apply rbind_ok in H. destruct H as (e1 & E & H). apply rbind_ok in H. destruct H as (b & B & _). eauto. }
  destruct X as (e1 & (high & low) & E & B). apply new_grid in E. destruct E as (E & _).
  apply bounds_ok in B. destruct B as (mi & _ & _ & _ & _ & B & _). unfold parameter in B. congruence.
Qed.
Lemma genset_never trajectory episode start run deviation (g : nonmod Q) e :
  (forall x g' t, run x = (g', Ok t) -> nm_arch g' = nm_arch x /\ dget five_in_one (fst t) = None) ->
  has_genset (nm_arch g) = true ->
  new_continuous true trajectory episode start run deviation g = Ok e -> False.
Proof.
  intros RUN HG H. apply new_continuous_std in H.
  destruct H as (e1 & g' & tables & high & low & s & E & _ & R & G & _ & S' & _).
  destruct (RUN _ _ _ R) as (RA & RT). apply new_grid in E. destruct E as (_ & E).
  unfold standardizations in S'.
  assert (AG : has_genset (nm_arch (gy_grid e)) = true).
  { rewrite G. change (nm_arch (set_horizon (nm_horizon (gy_grid e1)) g')) with (nm_arch g'). rewrite RA.
    change (nm_arch (set_horizon 24 (gy_grid e1))) with (nm_arch (gy_grid e1)). rewrite E. exact HG. }
  rewrite AG in S'. apply rbind_ok in S'. destruct S' as (a & A & _). unfold column_stats, action_keys in A. cbn [rmapM] in A.
  apply rbind_ok in A. destruct A as (x & _ & A). apply rbind_ok in A. destruct A as (y & A & _).
  apply rbind_ok in A. destruct A as (z & A & _). apply rbind_ok in A. destruct A as (l & A & _). apply dfind_ok in A.
  pose proof (eq_trans (eq_sym RT) A) as X. discriminate X.
Qed.

Lemma plain_followed trajectory episode start run deviation (g : nonmod Q) e0 e a e' o r d :
  new_continuous false trajectory episode start run deviation g = Ok e0 -> gym_reached e0 e ->
  gym_step a e = (e', Ok (o, r, d)) -> within_space e a ->
  (forall rated pmin, parameter g "genset_rated_power" rated -> parameter g "genset_pmin" pmin -> 0 <= rated * pmin) ->
  exists c oc, stands_for (nm_arch g) a c /\ produced (gy_grid e) (gy_grid e') oc
    /\ (has_grid (nm_arch g) = true -> exists x y, dget "grid_import" c = Some x /\ dget "grid_export" c = Some y
          /\ oc_import oc == x /\ oc_export oc == y)
    /\ (has_genset (nm_arch g) = true -> exists x, dget "genset" c = Some x /\ oc_genset oc == x).
Proof.
  intros N RC S WS PM. apply new_continuous_plain in N. destruct N as (e1 & N & G & _ & ST & AB). apply new_grid in N. destruct N as (NP & NA).
  apply reached_space in RC. destruct RC as [I1 I2 I3 I4 I5 I6].
  assert (A : nm_arch (gy_grid e) = nm_arch g) by congruence. rewrite <- A.
  apply (followed a e e' o r d S); [congruence| |exact WS|].
  - rewrite I3, I4, <- AB. apply bounds_same; assumption.
  - intros rated pmin P1 P2. apply PM; unfold parameter in *; congruence.
Qed.

(** *** The last step *)
Lemma run_next_load c (g g' : nonmod Q) v : nm_run c g = (g', Ok v) -> ended g = false -> nm_use g = All ->
  (nm_len g - 1 <= nm_t g + 1)%Z -> nx_load (nm_next g') = CNone.
Proof.
  intros H EN U T. apply nm_run_ok in H. destruct H as (p & c' & o & s & prod & _ & H & _). cbv zeta in H. rewrite EN in H.
  apply update_variables_ok in H. destruct H as (n & x & b & -> & SH). pose proof (sh_nx_load _ _ _ _ SH) as X.
  unfold next_value in X. cbn in X. rewrite U in X. destruct (Z.ltb_spec (nm_t g + 1) (nm_len g - 1)); [lia|].
  injection X as X. symmetry. exact X.
Qed.
Lemma never_over e : forall l os e', equipped (gy_grid e) -> gy_stds e <> None -> nm_use (gy_grid e) = All ->
  nm_horizon (gy_grid e) = 0%Z -> (nm_t (gy_grid e) <= nm_len (gy_grid e) - 1)%Z -> nm_done (gy_grid e) = false ->
  (nm_t (gy_grid e) = nm_len (gy_grid e) - 1 -> nx_load (nm_next (gy_grid e)) = CNone)%Z ->
  gym_plays e l os e' -> Forall (fun o => snd o = false) os.
Proof.
  intros l os e' EQ ST U HZ T D NX P. revert EQ ST U HZ T D NX.
  induction P as [e|e a e1 o l os e2 S P IH]; intros EQ ST U HZ T D NX; [constructor|].
  destruct o as ((ob & r) & d). apply gym_step_ok in S. destruct S as (b & c & v & cost & _ & _ & R & _ & MV & _ & ED & EE).
  pose proof (run_clock _ _ _ _ R) as (RL & RH & RU & RE).
  assert (LT : last_t (gy_grid e) = (nm_len (gy_grid e) - 1)%Z) by (unfold last_t; rewrite HZ; reflexivity).
  rewrite (ended_last (gy_grid e) ltac:(lia) ltac:(lia)), LT in RE.
  destruct (Z.eqb_spec (nm_t (gy_grid e)) (nm_len (gy_grid e) - 1)) as [E|E].
  - exfalso. destruct (run_status c _ _ v (eq_state _ EQ) R) as (GL & _ & _ & _ & GV). apply GV in GL. rewrite (NX E) in GL.
    destruct (dget_index _ _ _ GL) as (i & _ & I). unfold means_values in MV. destruct (gy_stds e) as [s|]; [|contradiction].
    destruct MV as (y & (L1 & L2 & _ & M) & _).
    assert (J : (i < length (map snd v))%nat) by (apply nth_error_Some; congruence).
    destruct (nth_error (st_obs_mean s) i) as [m|] eqn:EM; [|apply nth_error_None in EM; lia].
    destruct (nth_error (st_obs_std s) i) as [q|] eqn:EQ'; [|apply nth_error_None in EQ'; lia].
    destruct (M i m q CNone EM EQ' I) as (x & w & X & _). discriminate X.
  - destruct RE as (RT & RD). constructor; [cbn; congruence|]. apply IH.
    + eapply equipped_run; eassumption.
    + rewrite EE. exact ST.
    + congruence.
    + congruence.
    + lia.
    + congruence.
    + intros X. apply (run_next_load c _ _ v R); [|exact U|lia].
      rewrite (ended_last (gy_grid e) ltac:(lia) ltac:(lia)), LT. apply Z.eqb_neq. exact E.
Qed.

Lemma equipped_clock t n d g : equipped g -> equipped (set_clock t n d g).
Proof. intros [E1 E2 E3 E4 E5 E6 E7]. constructor; assumption. Qed.
Lemma equipped_reset (g g' : nonmod Q) r : equipped g -> nm_reset false g = (g', r) -> equipped g'.
Proof.
  intros E R. replace g' with (nm_after [HReset false] g); [apply equipped_after; exact E|].
  unfold nm_after. cbn [fold_left nm_do]. rewrite R. reflexivity.
Qed.

Lemma standardized_never start (e e1 : gym Q) o l os e2 : gym_reset start e = (e1, Ok o) -> gym_plays e1 l os e2 ->
  equipped (gy_grid e) -> gy_stds e <> None -> year (gy_grid e) -> nm_default (gy_grid e) = All -> nm_horizon (gy_grid e) = 0%Z ->
  (forall n, gy_trajectory e = Some n -> (2 <= n)%Z) ->
  Forall (fun o => snd o = false) os.
Proof.
  intros H P EQ ST Y DF HZ TJ. apply gym_reset_ok in H. destruct H as (g1 & v & R & _ & _ & T & EE).
  pose proof (equipped_reset _ _ _ EQ R) as EQ1. apply reset_clock in R. unfold year in Y.
  assert (ST1 : gy_stds e1 <> None) by (rewrite EE; exact ST).
  pose proof (rs_t _ _ R) as R1. pose proof (rs_len _ _ R) as R2. pose proof (rs_done _ _ R) as R3.
  pose proof (rs_horizon _ _ R) as R4. pose proof (rs_use _ _ R) as R5. rewrite Y in R2.
  destruct (gy_trajectory e) as [n|].
  - destruct T as (_ & T). specialize (TJ n eq_refl).
    apply (never_over e1 l os e2); [rewrite T; apply equipped_clock; exact EQ1|exact ST1| | | | | |exact P];
      rewrite T; cbn; try congruence; lia.
  - apply (never_over e1 l os e2); [rewrite T; exact EQ1|exact ST1| | | | | |exact P]; rewrite T; try congruence; lia.
Qed.

(** *** The first row *)
Lemma iloc_head (l : list Q) x : iloc l 0 = Ok x -> nth_error l 0 = Some x.
Proof.
  unfold iloc, py_nth. destruct l as [|y l]; [discriminate|]. cbn [length]. 
  destruct (Z.ltb_spec 0 (Z.of_nat (S (length l)))); [|lia]. cbn [Z.leb Z.compare andb Z.to_nat nth_error]. intros X. injection X as <-. reflexivity.
Qed.
Lemma first_row start (e e1 : gym Q) o : gym_reset start e = (e1, Ok o) ->
  nth_error (in_use (gy_grid e1) (nm_load_ts (gy_grid e))) 0 = Some (now_load (nm_now (gy_grid e1)))
  /\ nth_error (in_use (gy_grid e1) (nm_pv_ts (gy_grid e))) 0 = Some (now_pv (nm_now (gy_grid e1)))
  /\ match gy_trajectory e with None => nm_t (gy_grid e1) = 0%Z | Some _ => nm_t (gy_grid e1) = start end.
Proof.
  intros H. apply gym_reset_ok in H. destruct H as (g1 & v & R & _ & _ & T & EE). apply reset_clock in R.
  pose proof (sh_load _ _ _ _ (rs_shows _ _ R)) as S1. pose proof (sh_pv _ _ _ _ (rs_shows _ _ R)) as S2.
  rewrite (rs_t _ _ R) in S1, S2. rewrite (rs_load _ _ R) in S1. rewrite (rs_pv _ _ R) in S2. apply iloc_head in S1, S2.
  destruct (gy_trajectory e) as [n|].
  - destruct T as (_ & ->). split; [exact S1|]. split; [exact S2|reflexivity].
  - rewrite T. split; [exact S1|]. split; [exact S2|]. apply (rs_t _ _ R).
Qed.

(** *** Samples *)
Lemma take_sample_ok s (g g' : nonmod Q) : take_sample s g = Ok g' ->
  nm_load_ts g' = sm_load s /\ nm_pv_ts g' = sm_pv s /\ nm_default g' = nm_default g /\ nm_limit g' = nm_limit g
  /\ nm_horizon g' = nm_horizon g
  /\ nm_par g' = nm_par g /\ nm_arch g' = nm_arch g
  /\ (has_grid (nm_arch g) = true -> nm_status_ts g' = sm_grid s)
  /\ (exists x, nth_error (sm_load s) 0 = Some x /\ dget "load" (nm_state g') = Some [CNum x])
  /\ (exists x, nth_error (sm_pv s) 0 = Some x /\ dget "pv" (nm_state g') = Some [CNum x])
  /\ (has_grid (nm_arch g) = true -> exists x, nth_error (sm_grid s) 0 = Some x /\ dget "grid_status" (nm_state g') = Some [CNum x]).
Proof.
  unfold take_sample. intros H. apply rbind_ok in H. destruct H as (l0 & L & H). apply rbind_ok in H. destruct H as (p0 & P & H).
  apply rbind_ok in H. destruct H as ((status & st) & G & H). injection H as <-. apply iloc_head in L, P. cbn.
  repeat (split; [reflexivity|]). destruct (has_grid (nm_arch g)).
  - apply rbind_ok in G. destruct G as (s0 & S0 & G). injection G as <- <-. apply iloc_head in S0.
    split; [reflexivity|]. split; [exists l0; split; [exact L|]|].
    { rewrite dget_dset_other by discriminate. rewrite dget_dset_other by discriminate. apply dget_dset_same. }
    split; [exists p0; split; [exact P|]; rewrite dget_dset_other by discriminate; apply dget_dset_same|].
    intros _. exists s0. split; [exact S0|apply dget_dset_same].
  - injection G as <- <-. split; [discriminate|]. split; [exists l0; split; [exact L|]; rewrite dget_dset_other by discriminate; apply dget_dset_same|].
    split; [exists p0; split; [exact P|apply dget_dset_same]|discriminate].
Qed.
Lemma firsts_get (r r' : record Q) k x l : firsts r = Ok r' -> dget k r = Some (x :: l) -> dget k r' = Some [x].
Proof.
  unfold firsts. revert r'. induction r as [|[k0 l0] r IH]; cbn; intros r' H E; [discriminate|].
  apply rbind_ok in H. destruct H as (y & Y & H). apply rbind_ok in H. destruct H as (r1 & R & H). injection H as <-.
  destruct (String.eqb k k0) eqn:K.
  - injection E as ->. cbn in Y. injection Y as <-. cbn. rewrite K. reflexivity.
  - apply rbind_ok in Y. destruct Y as (z & _ & Y). injection Y as <-. cbn. rewrite K. apply IH; assumption.
Qed.
Lemma sampled_reset s start (e e1 : gym Q) o : sample_reset s start e = (e1, Ok o) -> gy_trajectory e = None ->
  nm_default (gy_grid e) = All ->
  nm_load_ts (gy_grid e1) = sm_load s /\ nm_pv_ts (gy_grid e1) = sm_pv s
  /\ nm_len (gy_grid e1) = Z.min (Z.of_nat (length (sm_load s))) (Z.of_nat (length (sm_pv s)))
  /\ (exists x, nth_error (sm_load s) 0 = Some x /\ now_load (nm_now (gy_grid e1)) = x
        /\ dget "load" (nm_state (gy_grid e1)) = Some [CNum x])
  /\ (exists x, nth_error (sm_pv s) 0 = Some x /\ now_pv (nm_now (gy_grid e1)) = x
        /\ dget "pv" (nm_state (gy_grid e1)) = Some [CNum x])
  /\ (has_grid (nm_arch (gy_grid e)) = true ->
        exists x, nth_error (sm_grid s) 0 = Some x /\ dget "grid_status" (nm_state (gy_grid e1)) = Some [CNum x]).
Proof.
  unfold sample_reset. intros H TJ DF. apply mbind_ok in H. destruct H as (e2 & x & E & H). unfold mget in E. injection E as <- <-.
  apply mbind_ok in H. destruct H as (e2 & g & E & H). unfold mlift in E. injection E as <- TS.
  apply mbind_ok in H. destruct H as (e2 & u & E & H). unfold mmodify in E. injection E as <- <-.
  apply take_sample_ok in TS. destruct TS as (T1 & T2 & T3 & T4 & _ & _ & T7 & _ & (l0 & L1 & L2) & (p0 & P1 & P2) & T11).
  pose proof (first_row _ _ _ _ H) as (F1 & F2 & _).
  apply gym_reset_ok in H. destruct H as (g1 & v & R & _ & _ & T & _).
  cbn [gy_trajectory set_gym_grid gy_grid] in *. rewrite TJ in T. apply reset_clock in R. rewrite T in *.
  assert (U : nm_use g1 = All) by (rewrite (rs_use _ _ R); congruence).
  assert (IU : forall l, in_use g1 l = l) by (intros l'; unfold in_use; rewrite U; reflexivity).
  rewrite IU, T1 in F1. rewrite IU, T2 in F2. clear IU.
  split; [rewrite (rs_load _ _ R); exact T1|]. split; [rewrite (rs_pv _ _ R); exact T2|].
  split; [rewrite (rs_len _ _ R), T3, DF; unfold data_length; cbn; rewrite T1, T2; reflexivity|].
  pose proof (rs_state _ _ R) as RS. split.
  - exists l0. split; [exact L1|]. split; [rewrite F1 in L1; injection L1 as L1; exact L1|]. eapply firsts_get; eassumption.
  - split; [exists p0; split; [exact P1|]; split; [rewrite F2 in P1; injection P1 as P1; exact P1|]; eapply firsts_get; eassumption|].
    intros HG. destruct (T11 HG) as (x & X1 & X2). exists x. split; [exact X1|]. eapply firsts_get; eassumption.
Qed.
