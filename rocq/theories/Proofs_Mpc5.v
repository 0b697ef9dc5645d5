(** * The program always has a solution *)

From Coq Require Import ZArith QArith Bool String List Lia Lqa Permutation.
From Verif Require Import Num Py Space Logger Forecast Module Container Microgrid NonModular Conversion MPC
  Spec_Module Spec_Reach Spec_Sane Spec_Microgrid Spec_Conversion Spec_MPC
  Proofs_Num Proofs_Module Proofs_Battery Proofs_Genset Proofs_Ts Proofs_Any Proofs_Data Proofs_Sane Proofs_Mgrid Proofs_MgProps Proofs_Episode Proofs_NonModular Proofs_Build Proofs_Obs Proofs_RbcRun Proofs_Twin
  Proofs_Serialize Proofs_Space Proofs_Copy2 Proofs_Copy3 Proofs_Copy5 Proofs_Mpc Proofs_Mpc2 Proofs_Mpc3 Proofs_Mpc4.
Import ListNotations.
Local Open Scope string_scope.
Local Open Scope list_scope.
Local Open Scope py_scope.
Local Open Scope Q_scope.

Lemma problem_made (c : mpc Q) d : vectors_fit c d ->
  match da_co2 d with Some _ => exists pr, make_problem c d = Ok pr | None => raises RuntimeError (make_problem c d) end.
Proof.
  intros (F & _). unfold make_problem, equality_rhs, np_sub, inequality_rhs, costs_of.
  repeat match goal with F : Forall _ (_ :: _) |- _ => inversion F; clear F; subst end.
  assert (N : (if Nat.eqb (length (da_load d)) 1 then length (da_pv d) else length (da_load d)) = mp_horizon c) by (destruct (Nat.eqb_spec (length (da_load d)) 1); congruence).
  rewrite N, (broadcast_same _ (da_load d)), (broadcast_same _ (da_pv d)) by congruence. cbn [rbind].
  rewrite broadcast_same. 2:{ rewrite map_length, combine_length. lia. }
  cbn [rbind]. rewrite !broadcast_same by (rewrite map_length; congruence). cbn [rbind].
  replace (Nat.eqb (length (da_import d)) (length (da_gridco2 d))) with true by (symmetry; apply Nat.eqb_eq; congruence).
  destruct (da_co2 d) as [x|].
  - rewrite broadcast_same by (rewrite map_length, combine_length; lia). cbn [rbind]. rewrite broadcast_same by congruence. cbn [rbind]. eexists. reflexivity.
  - cbn [rbind]. eexists. split; reflexivity.
Qed.

(** ** Doing nothing *)
Definition idle (soc : Q) (x : expected) : planned := mkPlanned 0 0 0 0 0 (ex_pv x) (ex_load x) soc 0.
Lemma idle_good e soc xs : 0 <= soc -> eq_soc_min e <= soc <= eq_soc_max e -> 0 <= eq_charge e -> 0 <= eq_discharge e ->
  (eq_gen e = true -> 0 <= eq_gen_max e) ->
  Forall (fun x => 0 <= ex_load x /\ 0 <= ex_pv x /\ 0 <= eq_import e * ex_grid x /\ 0 <= eq_export e * ex_grid x) xs ->
  good_plan e soc xs (map (idle soc) xs).
Proof.
  intros S0 S1 CH DI GM F. split; [apply map_length|]. intros k x s X E. rewrite (map_nth_error _ _ _ X) in E. injection E as <-.
  rewrite Forall_forall in F. destruct (F x (nth_error_In _ _ X)) as (A & B & C & G).
  constructor; cbn [idle pl_genset pl_import pl_export pl_charge pl_discharge pl_curtail pl_loss pl_soc pl_on]; try lra.
  - assert (SB : soc_before soc (map (idle soc) xs) k == soc).
    { destruct k as [|j]; [reflexivity|]. unfold soc_before. destruct (nth_error (map (idle soc) xs) j) as [q|] eqn:E; [|reflexivity].
      rewrite nth_error_map in E. destruct (nth_error xs j); [|discriminate]. injection E as <-. reflexivity. }
    rewrite SB. unfold Qdiv. ring.
  - destruct (eq_gen e); [left|auto]. conj; try reflexivity. auto.
Qed.

(** ** Signs and states of charge *)
Definition sign_tied (m : module Q) : Prop :=
  match m_kind m with
  | KLoad t => Forall (fun x => x <= 0) (ts_maxobs t)
  | KRenewable t => Forall (fun x => 0 <= x) (ts_minobs t)
  | KBattery b => b_min_soc b == b_min_capacity b / b_max_capacity b
  | _ => True
  end.
Lemma like_signs (m m' : module Q) : mod_like m m' -> sign_tied m -> sign_tied m'.
Proof.
  intros [K _ _ _ _ _] S. unfold sign_tied in *. destruct (m_kind m), (m_kind m'); simpl in K; try contradiction; auto.
  - destruct K as (c & s & ->). exact S.
  - destruct K as (f & K). rewrite (same_max _ _ K). exact S.
  - destruct K as (f & K). rewrite (same_min _ _ K). exact S.
Qed.
Lemma static_signs (m : module Q) : mod_ok m -> mod_static m -> (forall b, m_kind m = KBattery b -> b_model b = None) -> sign_tied m.
Proof.
  intros O S NM. pose proof (mo_kind m O) as KO. unfold mod_static, kind_ok, sign_tied in *. destruct (m_kind m) as [b|s|gr t|t|t|u]; auto.
  - destruct (S (NM b eq_refl) 0%Z) as (c & s & E). unfold new_battery in E. destruct (negb _); [discriminate|]. destruct (neqb (b_max_capacity b) n0); [discriminate|].
    apply rbind_ok in E. destruct E as ([c' s'] & _ & E). injection E as _ X. unum. rewrite <- X at 1. reflexivity.
  - destruct KO as (_ & _ & _ & _ & _ & R). destruct S as (S & _). pose proof (st_bounds _ _ _ _ S) as B. unfold bounds1, get_bounds1 in B.
    destruct (list_min (concat (ts_rows t))) as [lo|] eqn:LO; [|discriminate]. cbn [rbind] in B. destruct (list_max (concat (ts_rows t))) as [hi|] eqn:HI; [|discriminate]. cbn [rbind] in B.
    apply list_max_spec in HI. destruct HI as (I & _). apply in_concat in I. destruct I as (r & I & J). rewrite Forall_forall in R. specialize (R r I). rewrite Forall_forall in R. specialize (R hi J).
    unum. destruct (Qltb 0 lo) eqn:C1; cbn [rmap] in B; [injection B as _ <-; repeat constructor; exact R|]. destruct (Qltb hi 0) eqn:C2; injection B as _ <-; repeat constructor; [apply Qle_refl|exact R].
  - destruct KO as (_ & _ & _ & _ & _ & R). destruct S as (S & _). pose proof (st_bounds _ _ _ _ S) as B. unfold bounds1, get_bounds1 in B.
    destruct (list_min (concat (ts_rows t))) as [lo|] eqn:LO; [|discriminate]. cbn [rbind] in B. destruct (list_max (concat (ts_rows t))) as [hi|] eqn:HI; [|discriminate]. cbn [rbind] in B.
    apply list_min_spec in LO. destruct LO as (I & _). apply in_concat in I. destruct I as (r & I & J). rewrite Forall_forall in R. specialize (R r I). rewrite Forall_forall in R. specialize (R lo J).
    unum. destruct (Qltb 0 lo) eqn:C1; cbn [rmap] in B; [injection B as <- _; repeat constructor; apply Qle_refl|]. destruct (Qltb hi 0) eqn:C2; injection B as <- _; repeat constructor; exact R.
Qed.
Lemma below_zero (a b : list Q) : Forall2 Qle a b -> Forall (fun x => x <= 0) b -> Forall (fun x => x <= 0) a.
Proof. intros F. induction F as [|x y a b L F IH]; intros S; [constructor|]. inversion S; subst. constructor; [lra|auto]. Qed.
Lemma above_zero (a b : list Q) : Forall2 Qle a b -> Forall (fun x => 0 <= x) a -> Forall (fun x => 0 <= x) b.
Proof. intros F. induction F as [|x y a b L F IH]; intros S; [constructor|]. inversion S; subst. constructor; [lra|auto]. Qed.
Lemma state_signs (m : module Q) s : mod_ok m -> sign_tied m -> state m = Ok s ->
  (is_load m -> Forall (fun x => x <= 0) s) /\ (is_renewable m -> Forall (fun x => 0 <= x) s).
Proof.
  intros O S E. split.
  - intros (t & K). assert (KT : kind_ts (m_kind m) = Some t) by (rewrite K; reflexivity). destruct (ts_state m t O KT) as (r & E' & (_ & RI) & _ & (_ & FF) & _).
    rewrite E in E'. injection E' as ->. unfold sign_tied in S. rewrite K in S.
    assert (X : forall x, Forall2 Qle x (ts_maxobs t) -> Forall (fun x => x <= 0) x).
    { intros x F. exact (below_zero x _ F S). }
    apply Forall_app. split; [auto|]. apply Forall_concat. eapply Forall_impl; [|exact FF]. intros x (_ & R). auto.
  - intros (t & K). assert (KT : kind_ts (m_kind m) = Some t) by (rewrite K; reflexivity). destruct (ts_state m t O KT) as (r & E' & (RI & _) & _ & (_ & FF) & _).
    rewrite E in E'. injection E' as ->. unfold sign_tied in S. rewrite K in S.
    assert (X : forall x, Forall2 Qle (ts_minobs t) x -> Forall (fun x => 0 <= x) x).
    { intros x F. exact (above_zero _ x F S). }
    apply Forall_app. split; [auto|]. apply Forall_concat. eapply Forall_impl; [|exact FF]. intros x (R & _). auto.
Qed.
Lemma nth_forall (P : Q -> Prop) (l : list Q) k : P 0 -> Forall P l -> P (nth k l 0).
Proof. intros Z F. destruct (Nat.ltb_spec k (length l)) as [L|L]; [rewrite Forall_forall in F; apply F, nth_In, L|rewrite nth_overflow by exact L; exact Z]. Qed.

Lemma sane_built m : sane m -> built m.
Proof.
  intros S. destruct S.
  - eapply built_battery; eassumption.
  - eapply built_genset; eassumption.
  - eapply built_load; eassumption.
  - eapply built_renewable; eassumption.
  - eapply built_grid; eassumption.
  - apply built_unbalanced.
Qed.
Lemma sane_reachable_reachable m : sane_reachable m -> reachable m.
Proof. intros (m0 & cs & S & ->). exists m0, cs. split; [apply sane_built; exact S|reflexivity]. Qed.
Lemma mods_signs D (mg : mgrid Q) i m : mg_inv D mg -> Forall (fun d => sane_reachable (snd d)) D -> at_index mg i m -> sign_tied m.
Proof.
  intros V SR A. destruct (mod_def D mg V i m A) as (d & N & _ & L). apply (like_signs _ _ L). rewrite Forall_forall in SR. specialize (SR d (nth_error_In _ _ N)).
  destruct (reachable_static _ (sane_reachable_reachable _ SR)) as (O & S). apply (static_signs _ O S). intros b K.
  pose proof (ph_kind _ (sane_reachable_phys _ SR)) as P. rewrite K in P. apply P.
Qed.

Section Feasible.
Variables (round1 : Q -> Q) (poly : nat -> Q).
Variables (D : list (mdef Q)) (mg0 mg : mgrid Q) (c : mpc Q).
Hypothesis V0 : mg_inv D mg0.
Hypothesis FM : from_modules D mg.
Hypothesis SEP : names_separate D.
Hypothesis MADE : new_mpc round1 poly mg0 = Ok c.
Hypothesis SR : Forall (fun d => sane_reachable (snd d)) D.
Hypothesis CAP : forall i m b, at_index mg i m -> m_kind m = KBattery b -> 0 <= b_min_capacity b /\ 0 < b_max_capacity b.

Lemma idle_posed d : state_values c mg = Ok d -> exists plan, good_plan (equipment_of c d) (da_soc d) (expected_of d (mp_horizon c)) plan.
Proof.
  intros E. pose proof (from_modules_inv D mg FM) as V. destruct (state_posed round1 poly D mg0 mg c V0 V SEP MADE) as (d' & E' & VF & PF & _). rewrite E in E'. injection E' as <-.
  pose proof (from_phys D mg FM SR) as PH. assert (PHA : forall i m, at_index mg i m -> phys m) by (intros i m A; rewrite Forall_forall in PH; apply PH; eapply nth_error_In; exact A).
  destruct (st_battery round1 poly D mg0 mg c V0 V SEP MADE) as (ib & bm & b & AB & KB & _).
  destruct (pf_battery _ _ _ _ PF ib bm b AB KB) as (_ & _ & SMIN & SMAX & CH & DI & _ & SOC).
  pose proof (ph_kind _ (PHA _ _ AB)) as PB. rewrite KB in PB. destruct PB as (_ & (B1 & B2 & B3) & B4 & B5).
  pose proof (mods_signs D mg ib bm V SR AB) as ST. unfold sign_tied in ST. rewrite KB in ST. destruct (CAP ib bm b AB KB) as (C0 & C1).
  assert (IV : 0 < / b_max_capacity b) by (apply Qinv_lt_0_compat; exact C1).
  eexists. apply idle_good.
  - rewrite SOC, B3. apply Qmult_le_0_compat; lra.
  - rewrite SMIN, SMAX, SOC, B3, ST. split; [apply Qmult_le_compat_r; lra|]. apply Qdiv_le_1; assumption.
  - rewrite CH. exact B4.
  - rewrite DI. exact B5.
  - intros G. apply (pf_gen _ _ _ _ PF) in G. destruct G as (ig & gm & AG & (s & KG)). destruct (st_genset round1 poly D mg0 mg c V0 V SEP MADE ig gm s AG KG) as (cc & GC & _).
    destruct (pf_genset _ _ _ _ PF ig gm s cc AG KG GC) as (_ & GM & _). rewrite GM. pose proof (ph_kind _ (PHA _ _ AG)) as PG. rewrite KG in PG. destruct PG as (_ & P1 & P2). lra.
  - apply Forall_forall. intros x I. apply In_nth_error in I. destruct I as (k & I). destruct (st_any D mg0 mg V0 V "load") as (il & lm & AL & CL & OL).
    { destruct (new_mpc_inv round1 poly D mg0 c V0 SEP MADE) as ((_ & _ & (i & m & A & (t & K))) & _). exists i, m. split; [exact A|]. rewrite K. reflexivity. }
    destruct (st_any D mg0 mg V0 V "renewable") as (ip & pm & AP & CP & OP).
    { destruct (new_mpc_inv round1 poly D mg0 c V0 SEP MADE) as (_ & F & _). destruct (su_renewable _ F) as (i & m & A & (t & K)). exists i, m. split; [exact A|]. rewrite K. reflexivity. }
    assert (IL : is_load lm) by (destruct (m_kind lm) eqn:K; try discriminate; eexists; exact K). assert (IP : is_renewable pm) by (destruct (m_kind pm) eqn:K; try discriminate; eexists; exact K).
    assert (TL : is_ts lm) by (destruct IL as (t & K); unfold is_ts; rewrite K; discriminate). assert (TP : is_ts pm) by (destruct IP as (t & K); unfold is_ts; rewrite K; discriminate).
    destruct (st_state round1 poly D mg0 mg c V0 V SEP MADE il lm AL TL) as (ls & SL & _). destruct (st_state round1 poly D mg0 mg c V0 V SEP MADE ip pm AP TP) as (ps & SP & _).
    split. { rewrite (pf_load _ _ _ _ PF il lm ls k x AL IL SL I). assert (X : nth k ls 0 <= 0); [|lra]. apply nth_forall; [lra|]. apply (state_signs lm ls OL (mods_signs D mg il lm V SR AL) SL). exact IL. }
    split. { rewrite (pf_pv _ _ _ _ PF ip pm ps k x AP IP SP I). apply (nth_forall (fun x => 0 <= x)); [lra|]. apply (state_signs pm ps OP (mods_signs D mg ip pm V SR AP) SP). exact IP. }
    destruct (str_in "grid" (dkeys (mp_names c))) eqn:G.
    + apply (st_key round1 poly D mg0 mg c V0 V SEP MADE "grid") in G. destruct G as (ig & gm & AG & CG). destruct (m_kind gm) as [| |gr t| | |] eqn:KG; try discriminate.
      destruct (st_state round1 poly D mg0 mg c V0 V SEP MADE ig gm AG) as (gs & SG & _). { unfold is_ts. rewrite KG. discriminate. }
      destruct (pf_grid _ _ _ _ PF ig gm gr t gs AG KG SG) as (GI & GE & co2 & _ & _ & F). destruct (F k x I) as (-> & _). rewrite GI, GE.
      pose proof (mo_kind _ (ph_ok _ (PHA _ _ AG))) as KO. unfold kind_ok in KO. rewrite KG in KO. destruct KO as (_ & _ & _ & _ & _ & K1 & K2 & _). rewrite !Qmult_1_r. auto.
    + assert (NG : ~ any_module mg is_grid). { intros X. apply grid_class in X. apply (st_key round1 poly D mg0 mg c V0 V SEP MADE "grid") in X. congruence. }
      destruct (pf_no_grid _ _ _ _ PF NG) as (-> & -> & F). destruct (F k x I) as (-> & _). split; rewrite Qmult_0_l; apply Qle_refl.
Qed.
End Feasible.
