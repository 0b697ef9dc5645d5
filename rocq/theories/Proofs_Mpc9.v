(** * A whole run of the model predictive control *)

From Coq Require Import ZArith QArith Bool String List Lia Lqa.
From Verif Require Import Num Py Space Logger Forecast Module Container Microgrid NonModular Conversion MPC
  Spec_Module Spec_Reach Spec_Sane Spec_Microgrid Spec_Conversion Spec_Priority Spec_MPC
  Proofs_Num Proofs_Any Proofs_Sane Proofs_Battery Proofs_Convert Proofs_Mgrid Proofs_Run Proofs_Episode Proofs_MgProps Proofs_RbcRun Proofs_Twin Proofs_Mpc Proofs_Mpc2 Proofs_Mpc3 Proofs_Mpc4 Proofs_Mpc5 Proofs_Mpc6 Proofs_Mpc7.
Import ListNotations.
Local Open Scope string_scope.
Local Open Scope list_scope.

Lemma members_le nm c (D : list (mdef Q)) : forall i, NoDup (map mdef_name D) -> (length (members nm c i D) <= 1)%nat.
Proof.
  assert (Z : forall (D : list (mdef Q)) (i : nat), ~ In nm (map mdef_name D) -> members nm c i D = []).
  { induction D0 as [|d ds IH]; intros i NI; [reflexivity|]. cbn [members]. destruct (String.eqb nm (mdef_name d)) eqn:E.
    - exfalso. apply NI. left. apply String.eqb_eq in E. auto.
    - cbn [andb]. apply IH. intros I. apply NI. right. exact I. }
  induction D as [|d ds IH]; intros i ND; [cbn; lia|]. inversion ND as [|? ? N ND']; subst. cbn [members].
  destruct (String.eqb nm (mdef_name d)) eqn:E; cbn [andb]; [|apply IH; exact ND']. apply String.eqb_eq in E. subst nm.
  destruct (_ && _); [|apply IH; exact ND']. cbn [length]. rewrite (Z ds (S i) N). cbn. lia.
Qed.
Lemma members_in nm c (D : list (mdef Q)) : forall i, members nm c i D <> [] -> exists d, In d D /\ mdef_name d = nm /\ category_of (snd d) = c.
Proof.
  induction D as [|d ds IH]; intros i H; [contradiction H; reflexivity|]. cbn [members] in H.
  destruct (String.eqb nm (mdef_name d)) eqn:E; cbn [andb] in H.
  - destruct (mtype_eqb (fst c) (fst (category_of (snd d)))) eqn:E1; [destruct (ssink_eqb (snd c) (snd (category_of (snd d)))) eqn:E2|]; cbn [andb] in H.
    + exists d. split; [left; reflexivity|]. apply String.eqb_eq in E. split; [auto|].
      destruct c as [c1 c2], (category_of (snd d)) as [d1 d2]. cbn in E1, E2. destruct c1, d1; try discriminate; destruct c2, d2; try discriminate; reflexivity.
    + destruct (IH _ H) as (d' & I & X). exists d'. split; [right; exact I|exact X].
    + destruct (IH _ H) as (d' & I & X). exists d'. split; [right; exact I|exact X].
  - destruct (IH _ H) as (d' & I & X). exists d'. split; [right; exact I|exact X].
Qed.
Lemma told_complete D s ctl : NoDup (map mdef_name D) -> told D s ctl -> complete D ctl.
Proof.
  intros ND (TD & _) nm ss M. destruct (members_in _ _ _ _ M) as (d & I & <- & C). pose proof (TD d I) as E.
  pose proof (members_le (mdef_name d) (Controllable, ss) D 0 ND) as L.
  unfold category_of in C. injection C as C _. destruct (m_kind (snd d)); try discriminate; rewrite E; eexists; (split; [reflexivity|]); cbn [ctrl_list length]; lia.
Qed.

Lemma predicted_first c solve : forall k (g g1 : mgrid Q) obs rw inf g' d, mpc_step c solve 0 g = (g1, Ok (obs, rw, false, inf)) ->
  predicted c (fun j => solve (S j)) g1 k g' d -> predicted c solve g (S k) g' d.
Proof.
  intros k g g1 obs rw inf g' d E. induction 1 as [|k h1 h2 o r d i C IH ST].
  - eapply pd_step; [constructor|exact E].
  - eapply pd_step; [exact IH|exact ST].
Qed.
Lemma mpc_loop_shift c solve n : forall k (g : mgrid Q), mpc_loop c solve (S k) n g = mpc_loop c (fun j => solve (S j)) k n g.
Proof.
  induction n as [|n IH]; intros k g; [reflexivity|]. cbn [mpc_loop]. unfold mbind at 1 2.
  change (mpc_step c (fun j => solve (S j)) k g) with (mpc_step c solve (S k) g).
  destruct (mpc_step c solve (S k) g) as [g1 [[[[obs rw] d] inf]|x]]; [|reflexivity]. destruct d; [reflexivity|]. apply IH.
Qed.

Section Whole.
Variables (round1 : Q -> Q) (poly : nat -> Q).
Variables (ds : list (mdef Q)) (add : bool) (lossc overc : Q) (sh : option (shaper Q)) (g0 mgc : mgrid Q) (c : mpc Q).
Let D := all_defs ds add lossc overc.
Hypothesis B : mbuilt ds add lossc overc sh None g0.
Hypothesis SEP : names_separate D.
Hypothesis FR : Forall (fun d => fresh (snd d)) ds.
Hypothesis FC : from_modules D mgc.
Hypothesis MADE : new_mpc round1 poly mgc = Ok c.
Hypothesis SR : Forall (fun d => sane_reachable (snd d)) D.
Hypothesis LEN : Forall (fun d => lenient (snd d)) D.
Hypothesis NR : no_reserved_name D.
Hypothesis SH : total_shaper sh.
Hypothesis GG : exists d, In d D /\ (class_name (m_kind (snd d)) = "grid" \/ class_name (m_kind (snd d)) = "genset").
Hypothesis CAP : forall d b, In d D -> m_kind (snd d) = KBattery b -> (0 <= b_min_capacity b /\ 0 < b_max_capacity b)%Q.
Variable f : Z.
Hypothesis FF : mg_final g0 = Some f.
Hypothesis I0 : (0 <= mg_initial g0 < f)%Z.
Hypothesis ROWS : forall d, In d D -> is_ts (snd d) -> (f <= Z.of_nat (length (series (snd d))))%Z.

Let V0 := from_modules_inv D mgc FC.
Let ND := st_nodup round1 poly D mgc c V0 SEP MADE.

Lemma wh_shaper k g : episode D g0 k g -> mg_shaper g = sh.
Proof.
  induction 1 as [|k g g' ct n out EP IH C E|k g g' obs EP IH E].
  - destruct B as (_ & NM). destruct (new_microgrid_inv _ _ _ _ _ _ _ NM) as (? & ? & X). decompose [and ex] X; assumption.
  - pose proof (mr_shaper _ _ (do_mcall_rel (MRun ct n) g)) as R. unfold do_mcall in R. rewrite E in R. cbn [fst] in R. congruence.
  - pose proof (mr_shaper _ _ (do_mcall_rel MReset g)) as R. unfold do_mcall in R. rewrite E in R. cbn [fst] in R. congruence.
Qed.
Lemma wh_in_data k g : episode D g0 k g -> (mg_initial g0 + Z.of_nat k < f)%Z -> Forall in_data (mg_mods g).
Proof.
  intros EP LT. pose proof (episode_inv _ _ _ _ _ _ B SEP FR _ _ EP) as I. pose proof (from_modules_inv _ _ (ei_from _ _ _ _ I)) as V.
  apply Forall_forall. intros m IN. pose proof (ei_mods _ _ _ _ I) as EM. rewrite Forall_forall in EM. destruct (EM m IN) as (_ & CUR & _).
  apply In_nth_error in IN. destruct IN as (i & A). destruct (mod_def D g V i m A) as (d & N & _ & L). intros TS.
  destruct (like_series _ _ L) as (SE & TI). pose proof (ROWS d (nth_error_In _ _ N) (TI TS)) as R. rewrite <- SE in R.
  exists (Z.to_nat (m_cur m)). assert (LL : (Z.to_nat (m_cur m) < length (series m))%nat) by lia.
  unfold data_at. destruct (nth_error (series m) (Z.to_nat (m_cur m))) as [r|] eqn:X; [|apply nth_error_None in X; lia].
  exists r. split; [lia|reflexivity].
Qed.

(** The program is posed, and has a solution. *)
Lemma wh_posed k g : episode D g0 k g -> exists d pr, state_values c g = Ok d /\ make_problem c d = Ok pr /\ exists p u, satisfies pr p u = true.
Proof.
  intros EP. pose proof (episode_inv _ _ _ _ _ _ B SEP FR _ _ EP) as I. pose proof (ei_from _ _ _ _ I) as F. pose proof (from_modules_inv _ _ F) as V.
  destruct (state_posed round1 poly D mgc g c V0 V SEP MADE) as (d & E & W & P & Z).
  assert (PM : exists pr, make_problem c d = Ok pr).
  { pose proof (problem_made c d W) as PM. destruct (da_co2 d) eqn:CO; [exact PM|]. exfalso. destruct (proj1 Z eq_refl) as (N1 & N2).
    destruct GG as (df & IN & CL). apply In_nth_error in IN. destruct IN as (i & N). destruct (def_mod D g V i df N) as (m & A & _ & L).
    rewrite <- (like_class _ _ L) in CL. destruct CL as [CL|CL]; [apply N1|apply N2]; exists i, m; (split; [exact A|]); destruct (m_kind m) eqn:K; try discriminate; eexists; try eexists; exact K. }
  destruct PM as (pr & PR).
  assert (CAP' : forall i m b, at_index g i m -> m_kind m = KBattery b -> (0 <= b_min_capacity b /\ 0 < b_max_capacity b)%Q).
  { intros i m b A K. destruct (mod_def D g V i m A) as (df & N & _ & L). pose proof (ml_kind _ _ L) as KL. rewrite K in KL.
    destruct (m_kind (snd df)) as [b0| | | | |] eqn:KD; cbn in KL; try contradiction.
    destruct (CAP df b0 (nth_error_In _ _ N) KD) as (C1 & C2). destruct KL as (? & ? & ->). split; assumption. }
  destruct (idle_posed round1 poly D mgc g c V0 F SEP MADE SR CAP' d E) as (plan & GP).
  exists d, pr. split; [exact E|]. split; [exact PR|].
  exists (concat (map (variables (has_gen c)) plan)), (map pl_on plan). apply (program c d pr W PR). exists plan. split; [split; reflexivity|exact GP].
Qed.
Lemma wh_step (sv : solver Q) k j g : solved c sv j g -> episode D g0 k g -> (mg_initial g0 + Z.of_nat k < f)%Z ->
  exists g' obs rw inf, mpc_step c sv j g = (g', Ok (obs, rw, (f - mg_initial g0 <=? Z.of_nat (S k))%Z, inf)) /\ episode D g0 (S k) g'.
Proof.
  intros FSV EP LT. pose proof (episode_inv _ _ _ _ _ _ B SEP FR _ _ EP) as I. pose proof (ei_from _ _ _ _ I) as F. pose proof (from_modules_inv _ _ F) as V.
  pose proof (wh_in_data k g EP LT) as ID.
  destruct (wh_posed k g EP) as (d & pr & E & PR & _).
  destruct (FSV d pr E PR) as (p & u & SOL & SAT).
  destruct (step_plan round1 poly D mgc g c d pr sv j p u FC SEP MADE F E PR SOL SAT) as (s & rest & ctl & IP & GP' & TD & ES).
  destruct (step_returns round1 poly D mgc g c d pr sv j p u FC SEP MADE F SR LEN NR ID E PR SOL SAT) as (g' & [[[obs rw] dn] inf] & R).
  { rewrite (wh_shaper k g EP). exact SH. }
  pose proof R as R'. rewrite ES in R'. pose proof (told_complete D s ctl ND TD) as CO.
  pose proof (episode_done ds add lossc overc sh g0 B SEP FR k g g' ctl false obs rw dn inf f EP CO R' FF) as DN.
  exists g', obs, rw, inf. split; [|exact (ep_run D g0 k g g' ctl false _ EP CO R')].
  rewrite R. do 3 f_equal. destruct dn, (Z.leb_spec (f - mg_initial g0) (Z.of_nat (S k))); try reflexivity.
  - exfalso. pose proof (proj1 DN eq_refl). lia.
  - exfalso. pose proof (proj2 DN ltac:(lia)). discriminate.
Qed.
Lemma wh_loop n : forall (sv : solver Q) k g, (forall j g', (j < Nat.min n (Z.to_nat (f - mg_initial g0) - k))%nat -> predicted c sv g j g' false -> solved c sv j g') ->
  episode D g0 k g -> (mg_initial g0 + Z.of_nat k < f)%Z ->
  exists g' d, mpc_loop c sv 0 n g = (g', Ok tt)
    /\ predicted c sv g (Nat.min n (Z.to_nat (f - mg_initial g0) - k)) g' d
    /\ episode D g0 (k + Nat.min n (Z.to_nat (f - mg_initial g0) - k)) g'.
Proof.
  induction n as [|n IH]; intros sv k g FSV EP LT.
  - exists g, false. cbn [Nat.min]. rewrite Nat.add_0_r. split; [reflexivity|]. split; [constructor|exact EP].
  - destruct (wh_step sv k 0 g (FSV 0%nat g ltac:(lia) (pd_start _ _ _)) EP LT) as (g1 & obs & rw & inf & E & EP1). cbn [mpc_loop]. unfold mbind at 1. rewrite E.
    destruct (Z.leb_spec (f - mg_initial g0) (Z.of_nat (S k))) as [LE|GT].
    + replace (Nat.min (S n) (Z.to_nat (f - mg_initial g0) - k)) with 1%nat by lia. exists g1, true. split; [reflexivity|].
      split; [|rewrite Nat.add_1_r; exact EP1]. eapply pd_step; [constructor|exact E].
    + rewrite mpc_loop_shift. destruct (IH (fun j => sv (S j)) (S k) g1) as (g' & d & EL & PD & EPE); [|exact EP1|lia|].
      { intros j h LJ PJ. exact (FSV (S j) h ltac:(lia) (predicted_first c sv j g g1 obs rw inf h false E PJ)). }
      replace (Nat.min (S n) (Z.to_nat (f - mg_initial g0) - k)) with (S (Nat.min n (Z.to_nat (f - mg_initial g0) - S k))) by lia.
      exists g', d. split; [exact EL|]. split; [eapply predicted_first; [exact E|exact PD]|].
      replace (k + S (Nat.min n (Z.to_nat (f - mg_initial g0) - S k)))%nat with (S k + Nat.min n (Z.to_nat (f - mg_initial g0) - S k))%nat by lia. exact EPE.
Qed.

Theorem mpc_whole (solve : solver Q) j g limit n : episode D g0 j g -> num_iter limit g = Ok n ->
  let k := Nat.min n (Z.to_nat (f - mg_initial g0)) in
  (forall i g1 obs g', (i < k)%nat -> mg_reset g = (g1, Ok obs) -> predicted c solve g1 i g' false -> solved c solve i g') ->
  match limit with Some l => n = l | None => Z.of_nat n = (f - mg_initial g0)%Z end /\
  exists g1 obs g' d log, mpc_run c solve limit g = (g', Ok log) /\ mg_reset g = (g1, Ok obs) /\ predicted c solve g1 k g' d
    /\ (forall h cells, In (h, cells) log -> length cells = k)
    /\ (forall nm j key cells, In ((nm, j, key), cells) log <->
         (exists i m, nth_error (positions nm D) j = Some i /\ at_index g' i m
            /\ dget key (lg_data (m_log m)) = Some (ColList cells))
         \/ (nm = "balance" /\ j = 0%nat /\ dget key (lg_data (mg_balance g')) = Some (ColList cells))).
Proof.
  intros EP NI k FS. pose proof (episode_inv _ _ _ _ _ _ B SEP FR _ _ EP) as I. pose proof (ei_from _ _ _ _ I) as F. pose proof (from_modules_inv _ _ F) as V.
  split.
  { unfold num_iter in NI. destruct limit as [l|].
    - destruct (mg_len g) as [q|]; [|discriminate]. cbn [rbind] in NI. destruct (Nat.leb l q); [injection NI as <-; reflexivity|discriminate].
    - rewrite (ei_final _ _ _ _ I), FF, (ei_initial _ _ _ _ I) in NI. injection NI as <-. lia. }
  destruct (reset_succeeds D g F (ei_traj _ _ _ _ I)) as (g1 & obs & RS).
  { intros m IN. pose proof (from_phys D g F SR) as PH. rewrite Forall_forall in PH. exact (ph_fc _ (PH m IN)). }
  pose proof (ep_reset D g0 j g g1 obs EP RS) as EP1.
  destruct (wh_loop n solve 0 g1) as (g' & d & EL & PD & EPE); [|exact EP1|cbn; lia|].
  { intros i h LI. rewrite Nat.sub_0_r in LI. exact (FS i g1 obs h LI RS). }
  rewrite Nat.sub_0_r in PD, EPE. fold k in PD, EPE. cbn [Nat.add] in EPE.
  assert (DNE : D <> []). { destruct GG as (df & IN & _). intros X. rewrite X in IN. destruct IN. }
  destruct (episode_log ds add lossc overc sh g0 B SEP FR k g' EPE DNE) as (log & GL & LC & IC).
  exists g1, obs, g', d, log. split; [|auto]. unfold mpc_run, mbind, mget, mlift. rewrite NI, RS, EL, GL. reflexivity.
Qed.
(** A solver that finds solutions solves the programs of the run. *)
Theorem finder_solves (solve : solver Q) k g : finds_solutions solve -> episode D g0 k g -> forall j, solved c solve j g.
Proof.
  intros FS EP j d pr E PR. destruct (wh_posed k g EP) as (d' & pr' & E' & PR' & SOL). rewrite E in E'. injection E' as <-. rewrite PR in PR'. injection PR' as <-.
  exact (FS j pr SOL).
Qed.
Theorem predicted_episode (solve : solver Q) i g g' d : (forall j g', (j < i)%nat -> predicted c solve g j g' false -> solved c solve j g') ->
  episode D g0 0 g -> (Z.of_nat i <= f - mg_initial g0)%Z -> predicted c solve g i g' d -> episode D g0 i g'.
Proof.
  intros FS EP LI P. induction P as [|k g1 g2 obs rw d inf P IH ST]; [exact EP|].
  assert (EK : episode D g0 k g1) by (apply IH; [intros j h LJ; apply FS; lia|lia]).
  destruct (wh_step solve k k g1 (FS k g1 ltac:(lia) P) EK ltac:(lia)) as (g' & o & r & inf' & E & EPS). rewrite ST in E. injection E as <- _ _ _ _. exact EPS.
Qed.
Theorem mpc_whole_finder (solve : solver Q) j g limit n i g1 obs g' : finds_solutions solve -> episode D g0 j g -> num_iter limit g = Ok n ->
  (i < Nat.min n (Z.to_nat (f - mg_initial g0)))%nat -> mg_reset g = (g1, Ok obs) -> predicted c solve g1 i g' false -> solved c solve i g'.
Proof.
  intros FS EP NI LI RS. revert g' LI. pose proof (ep_reset D g0 j g g1 obs EP RS) as EP1.
  induction i as [i IH] using (well_founded_induction lt_wf). intros g' LI P.
  apply (finder_solves solve i g' FS). apply (predicted_episode solve i g1 g' false); [|exact EP1|lia|exact P].
  intros q h LQ. apply IH; lia.
Qed.
End Whole.
