(** * Carrying out the first step of a plan *)

From Coq Require Import ZArith QArith Qabs Qminmax Bool String List Lia Lqa Permutation.
From Verif Require Import Num Py Space Logger Forecast Module Container Microgrid NonModular Conversion MPC
  Spec_Module Spec_Reach Spec_Sane Spec_Microgrid Spec_Conversion Spec_MPC
  Proofs_Num Proofs_Module Proofs_Battery Proofs_Genset Proofs_Ts Proofs_Any Proofs_Data Proofs_Sane Proofs_Container Proofs_Mgrid Proofs_Balance Proofs_MgProps Proofs_Episode Proofs_NonModular Proofs_Build Proofs_Obs Proofs_Rbc Proofs_RbcRun Proofs_Control Proofs_Progress Proofs_Twin Proofs_Twin2
  Proofs_Copy2 Proofs_Copy3 Proofs_Copy5 Proofs_Mpc Proofs_Mpc2 Proofs_Mpc3 Proofs_Mpc4 Proofs_Mpc5 Proofs_Mpc6.
Import ListNotations.
Local Open Scope string_scope.
Local Open Scope list_scope.
Local Open Scope py_scope.
Local Open Scope Q_scope.

(** ** Order of the flexible modules *)
Lemma nodup_parts {A} (l1 l2 : list A) : NoDup l1 -> NoDup l2 -> (forall x, In x l1 -> ~ In x l2) -> NoDup (l1 ++ l2).
Proof.
  intros N1 N2 DJ. induction l1 as [|x l1 IH]; [exact N2|]. inversion N1; subst. cbn. constructor.
  - intros I. apply in_app_iff in I. destruct I as [I|I]; [contradiction|]. exact (DJ x (or_introl eq_refl) I).
  - apply IH; [assumption|]. intros y I. apply DJ. right. exact I.
Qed.
Lemma sub_key D (mg : mgrid Q) k nm : mg_inv D mg -> In nm (map fst (ctc (mg_ct mg) k)) -> exists d, In d D /\ mdef_name d = nm /\ category_of (snd d) = k.
Proof.
  intros V I. destruct (dget nm (ctc (mg_ct mg) k)) as [l|] eqn:E.
  - rewrite (iv_ct _ _ V) in E. destruct (members nm k 0 D) as [|j l'] eqn:M; [discriminate|].
    assert (J : In j (members nm k 0 D)) by (rewrite M; left; reflexivity). apply members_iff in J.
    destruct J as (d & N & _ & NM & C). apply nth_error_In in N. exists d. auto.
  - apply Proofs_Num.dget_None in E. contradiction.
Qed.
Lemma part_flex D (mg : mgrid Q) : mg_inv D mg -> names_separate D ->
  part_dict Flex mg = ctc (mg_ct mg) (Flex, Sources) ++ ctc (mg_ct mg) (Flex, Sinks) ++ ctc (mg_ct mg) (Flex, SourceAndSinks).
Proof.
  intros V S. unfold part_dict. rewrite subs_of_cat. cbn [all_ssinks map].
  assert (DJ : forall s s' nm, s <> s' -> In nm (map fst (ctc (mg_ct mg) (Flex, s))) -> ~ In nm (map fst (ctc (mg_ct mg) (Flex, s')))).
  { intros s s' nm NE I J. destruct (sub_key D mg _ nm V I) as (d & I1 & N1 & C1). destruct (sub_key D mg _ nm V J) as (d' & I2 & N2 & C2).
    pose proof (S d d' I1 I2 (eq_trans N1 (eq_sym N2))) as X. rewrite C1, C2 in X. injection X as X. contradiction. }
  rewrite to_dict_disjoint; cbn [concat]; rewrite app_nil_r; [reflexivity|].
  rewrite !map_app. pose proof (iv_nodup _ _ V) as ND. apply nodup_parts; [apply ND|apply nodup_parts; [apply ND|apply ND|]|].
  - intros x. apply DJ. discriminate.
  - intros x I J. apply in_app_iff in J. destruct J as [J|J]; revert J; apply (DJ Sources); try discriminate; exact I.
Qed.
Lemma flex_order D (mg : mgrid Q) i j d d' : mg_inv D mg -> NoDup (map mdef_name D) -> nth_error D i = Some d -> nth_error D j = Some d' ->
  category_of (snd d) = (Flex, Sources) -> category_of (snd d') = (Flex, SourceAndSinks) ->
  exists l1 l2 l3, concat (map snd (part_dict Flex mg)) = l1 ++ i :: l2 ++ j :: l3.
Proof.
  intros V ND N N' C C'. rewrite (part_flex D mg V (nodup_names_sep D ND)). rewrite !map_app, !concat_app.
  assert (X : forall k i0 d0, nth_error D i0 = Some d0 -> category_of (snd d0) = k -> exists a b, concat (map snd (ctc (mg_ct mg) k)) = a ++ i0 :: b).
  { intros k i0 d0 N0 C0. assert (IM : In i0 (members (mdef_name d0) k 0 D)) by (apply members_iff; exists d0; rewrite Nat.sub_0_r; repeat split; auto; lia).
    pose proof (iv_ct _ _ V (mdef_name d0) k) as E. destruct (members (mdef_name d0) k 0 D) as [|x l] eqn:M; [destruct IM|].
    apply Proofs_Num.dget_In in E. apply in_split. apply in_concat. exists (x :: l). split; [apply in_map_iff; exists (mdef_name d0, x :: l); auto|exact IM]. }
  destruct (X _ i d N C) as (a & b & ->). destruct (X _ j d' N' C') as (a' & b' & ->).
  exists a, (b ++ concat (map snd (ctc (mg_ct mg) (Flex, Sinks))) ++ a'), b'. rewrite <- !app_assoc. reflexivity.
Qed.

(** ** Sums by class *)
Definition summed (f : event -> Q) (P : event -> bool) (es : list event) : Q := sum_of f (filter P es).
Lemma summed_split f P es : sum_of f es == summed f P es + summed f (fun e => negb (P e)) es.
Proof.
  unfold summed. induction es as [|e es IH]; [reflexivity|]. cbn [filter]. destruct (P e); cbn [negb]; rewrite !sum_of_cons, IH; lra.
Qed.

(** ** One module at a time *)
Lemma genset_goes (m m' : module Q) o s u p : phys m -> m_kind m = KGenset s -> g_start_up s = 0%Z -> g_wind_down s = 0%Z ->
  u == 0 /\ p == 0 \/ u == 1 /\ g_min_prod s <= p /\ p <= g_max_prod s ->
  step (VA [u; p]) false m = (m', Ok o) ->
  provided (info_of o) == p /\ absorbed (info_of o) = 0 /\ reward_of o == - (genset_get_cost s (provided (info_of o))).
Proof.
  intros PH K SU WD P E. pose proof (ph_kind _ PH) as PK. rewrite K in PK. cbn in PK. destruct PK as ((q & GI) & MN & MM).
  destruct (step_genset_ok _ _ _ _ _ _ _ K GI MM E) as (s1 & e & pr & K1 & SG1 & PE & INF & RW & PR & _).
  assert (NS : forall goal, next_status s goal = goal).
  { intros goal. destruct GI as (_ & _ & SH & PO). rewrite SU, WD in SH, PO. unfold next_status.
    destruct q; cbn in SH, PO; try lia; destruct SH as (S1 & S2 & S3 & S4); rewrite ?S1, ?S2, ?S3, ?S4; destruct goal; reflexivity. }
  destruct (step_genset _ _ _ _ _ _ _ K GI E) as [(_ & _ & ex & X & _)|(x' & rest' & s' & A & _ & _ & US & K' & _)]; [discriminate|].
  injection A as <- <-. rewrite K1 in K'. injection K' as <-.
  assert (U0 : 0 <= u /\ u <= 1) by (destruct P as [(P & _)|(P & _)]; rewrite P; lra).
  destruct (update_status_refines s q _ GI (proj1 U0) (proj2 U0)) as (s2 & US2 & SG & _ & NX). rewrite US in US2. injection US2 as <-. rewrite NS in NX.
  cbn [pick_energy nth_error] in PE. simpl in PE. injection PE as <-.
  assert (PP : provided (info_of o) == p).
  { unfold provided. rewrite INF. simpl. rewrite PR. unfold genset_min_production, genset_max_production, times_status. rewrite NX.
    destruct (gen_same_in _ _ SG) as (_ & _ & _ & E1 & E2 & _). rewrite E1, E2. unfold round01. change (@nfrac Q Q_ops 1 2) with (1 # 2). unum.
    destruct P as [(P1 & P2)|(P1 & P2 & P3)].
    - assert (Qltb (1 # 2) u = false) as ->. { destruct (Qltb (1 # 2) u) eqn:Y; [|reflexivity]. qprop. rewrite P1 in Y. lra. }
      unfold clip. destruct (Qlt_le_dec _ p); [lra|]. destruct (Qlt_le_dec p _); lra.
    - assert (Qltb (1 # 2) u = true) as ->. { destruct (Qltb (1 # 2) u) eqn:Y; [reflexivity|]. qprop. rewrite P1 in Y. lra. }
      unfold clip. destruct (Qlt_le_dec _ p); [lra|]. destruct (Qlt_le_dec p _); lra. }
  split; [exact PP|]. split; [unfold absorbed; rewrite INF; reflexivity|]. rewrite RW, INF. unfold provided. cbn. unum. lra.
Qed.

Lemma sum_by (key : event -> string) f es (names : list string) : NoDup names -> (forall e, In e es -> In (key e) names) ->
  sum_of f es == fold_right (fun nm acc => summed f (fun e => String.eqb nm (key e)) es + acc) 0 names.
Proof.
  revert es. induction names as [|n names IH]; intros es ND IN.
  - destruct es as [|e es]; [reflexivity|]. destruct (IN e (or_introl eq_refl)).
  - inversion ND as [|? ? NI ND']; subst. cbn [fold_right]. rewrite (summed_split f (fun e => String.eqb n (key e)) es).
    unfold summed at 2. rewrite (IH (filter (fun e => negb (String.eqb n (key e))) es) ND').
    2:{ intros e I. apply filter_In in I. destruct I as (I & X). destruct (IN e I) as [Y|Y]; [|exact Y]. subst n. rewrite String.eqb_refl in X. discriminate. }
    assert (X : forall l, ~ In n l -> fold_right (fun nm acc => summed f (fun e => String.eqb nm (key e)) (filter (fun e => negb (String.eqb n (key e))) es) + acc) 0 l
      = fold_right (fun nm acc => summed f (fun e => String.eqb nm (key e)) es + acc) 0 l).
    { induction l as [|x l IHl]; intros NL; [reflexivity|]. cbn [fold_right]. rewrite IHl by (intros Y; apply NL; right; exact Y). f_equal.
      unfold summed. f_equal. assert (XN : x <> n) by (intros ->; apply NL; left; reflexivity). clear - XN. induction es as [|e es IH]; [reflexivity|]. cbn [filter].
      destruct (String.eqb n (key e)) eqn:E1; cbn [negb]; [|cbn [filter]; rewrite IH; reflexivity].
      apply String.eqb_eq in E1. rewrite <- E1. destruct (String.eqb x n) eqn:E2; [apply String.eqb_eq in E2; contradiction|]. exact IH. }
    rewrite (X names NI). reflexivity.
Qed.

Section Carry.
Variables (round1 : Q -> Q) (poly : nat -> Q).
Variables (D : list (mdef Q)) (mg0 mg : mgrid Q) (c : mpc Q) (dt : mpc_data Q).
Hypothesis FM0 : from_modules D mg0.
Hypothesis SEP : names_separate D.
Hypothesis MADE : new_mpc round1 poly mg0 = Ok c.
Hypothesis FM : from_modules D mg.
Hypothesis SR : Forall (fun d => sane_reachable (snd d)) D.
Hypothesis LEN : Forall (fun d => lenient (snd d)) D.
Hypothesis ID : Forall in_data (mg_mods mg).
Hypothesis DT : state_values c mg = Ok dt.
Variables (s : planned) (rest : list planned).
Let e := equipment_of c dt.
Let xs := expected_of dt (mp_horizon c).
Hypothesis GP : good_plan e (da_soc dt) xs (s :: rest).
Hypothesis RE : realistic mg s.
Hypothesis CAP : forall i m b, at_index mg i m -> m_kind m = KBattery b -> 0 <= b_min_capacity b /\ 0 < b_max_capacity b.
Variable ctl : control Q.
Hypothesis TD : told D s ctl.

Let V0 := from_modules_inv D mg0 FM0.
Let V := from_modules_inv D mg FM.
Let ND := st_nodup round1 poly D mg0 c V0 SEP MADE.
Lemma ca_posed : posed_for mg e (da_soc dt) xs.
Proof. destruct (state_posed round1 poly D mg0 mg c V0 V SEP MADE) as (d' & E' & _ & P & _). rewrite DT in E'. injection E' as <-. exact P. Qed.
Lemma ca_first : exists x, nth_error xs 0 = Some x /\ allowed e (da_soc dt) x s.
Proof.
  destruct GP as (L & F). destruct xs as [|x l] eqn:E; [discriminate|]. exists x. split; [reflexivity|]. exact (F 0%nat x s eq_refl eq_refl).
Qed.
Lemma ca_mod i d : nth_error D i = Some d -> exists m, at_index mg i m /\ phys m /\ lenient m /\ in_data m /\ mod_like (snd d) m.
Proof.
  intros N. destruct (def_mod D mg V i d N) as (m & A & _ & L). exists m. split; [exact A|]. pose proof (from_phys D mg FM SR) as PH.
  pose proof (nth_error_In _ _ A) as I. rewrite Forall_forall in PH, ID, LEN. split; [exact (PH m I)|]. split; [|split; [exact (ID m I)|exact L]].
  unfold lenient. rewrite (ml_raise _ _ L). apply (LEN d). eapply nth_error_In; exact N.
Qed.
Lemma ca_row m t : phys m -> in_data m -> kind_ts (m_kind m) = Some t -> exists st r, state m = Ok st /\ ts_row t (m_cur m) = Some r /\ length r = columns m /\ exists fc, st = r ++ fc.
Proof.
  intros P I K. destruct (in_data_row m t I K) as (r & R & _). destruct (ts_state m t (ph_ok _ P) K) as (r' & S & _ & E & _). rewrite (E _ R) in S.
  exists (r ++ concat (fc_view t)), r. split; [exact S|]. split; [exact R|]. split; [exact (row_one m t r (ph_ok _ P) K R)|]. eexists. reflexivity.
Qed.
Lemma ca_grid i d gr t : nth_error D i = Some d -> m_kind (snd d) = KGrid gr t -> module_type (m_kind (snd d)) = Controllable.
Proof.
  intros N K. destruct (ca_mod i d N) as (m & A & P & _ & I & L). pose proof (ml_kind _ _ L) as KL. rewrite K in KL.
  destruct (m_kind m) as [| |gr' t'| | |] eqn:KM; cbn in KL; try contradiction. destruct (ca_row m t' P I) as (st & r & S & _); [rewrite KM; reflexivity|].
  destruct (re_grid _ _ RE i m gr' t' st A KM S) as (T & _). rewrite KM in T. destruct KL as (KL & _). rewrite K. cbn in *. congruence.
Qed.
Lemma ca_unb : has_unbalanced mg.
Proof.
  destruct (new_mpc_inv round1 poly D mg0 c V0 SEP MADE) as (_ & _ & _ & P & _). destruct P as [_ (i & m & u & A & K & _) _].
  destruct (st_before D mg0 mg V0 V i m A) as (m' & d & A' & N & _ & L & L0). exists i, m'. split; [exact A'|]. unfold is_unbalanced.
  pose proof (ml_kind _ _ L) as K1. pose proof (ml_kind _ _ L0) as K2. rewrite K in K2. destruct (m_kind (snd d)) eqn:KD; cbn in K2; try contradiction.
  destruct (m_kind m'); cbn in K1; try contradiction. eexists. reflexivity.
Qed.
Lemma ca_runs : no_reserved_name D -> total_shaper (mg_shaper mg) -> exists mg' out, run ctl false mg = (mg', Ok out).
Proof.
  intros NR SH. destruct ca_first as (x & _ & AL). apply (Proofs_Convert.run_cannot_fail D mg ctl false FM SR LEN NR ca_unb SH ID).
  - intros d I T. rewrite (proj1 TD d I). destruct (m_kind (snd d)); try discriminate.
  - intros d v I T E. rewrite (proj1 TD d I) in E. unfold acceptable. destruct (m_kind (snd d)) as [b|g|gr t|t|t|u] eqn:K; try discriminate; injection E as <-; constructor; try constructor; try reflexivity.
    exists (pl_on s), (pl_genset s). split; [reflexivity|]. pose proof (al_genset _ _ _ _ AL) as G. apply In_nth_error in I. destruct I as (i & N).
    destruct (ca_mod i d N) as (m & A & _ & _ & _ & L). pose proof (ml_kind _ _ L) as KL. rewrite K in KL. destruct (m_kind m) as [|g'| | | |] eqn:KM; cbn in KL; try contradiction.
    assert (GE : eq_gen e = true) by (apply (pf_gen _ _ _ _ ca_posed); exists i, m; split; [exact A|exists g'; exact KM]). rewrite GE in G.
    destruct G as [(G1 & G2 & _)|(G1 & G2 & _)]; rewrite G1, ?G2; conj; try lra.
Qed.

(** The steps of the modules *)
Section After.
Variables (mg' : mgrid Q) (obs : list (string * list (list Q))) (rw : Q) (dn : bool) (inf : list (string * list (info Q))).
Variables (es es0 eflex : list event).
Hypothesis EES : es = es0 ++ eflex.
Hypothesis DID : did mg es mg'.
Hypothesis RW : rw == sum_of ev_reward es.
Hypothesis BAL : sum_of ev_provided es == sum_of ev_absorbed es.
Hypothesis MER : in_merit mg es.
Hypothesis FID : event_ids eflex = concat (map snd (part_dict Flex mg)).
Hypothesis NMS : forall ev, In ev es -> exists df, nth_error D (ev_id ev) = Some df /\ mdef_name df = ev_name ev.
Hypothesis CTL : forall i df, nth_error D i = Some df -> module_type (m_kind (snd df)) = Controllable ->
  forall v a, dget (mdef_name df) ctl = Some v -> ctrl_list v = [a] ->
  exists ev, single (mdef_name df) es ev /\ ev_id ev = i /\ ev_act ev = a /\ ev_norm ev = false.
Hypothesis FIX : forall i df, nth_error D i = Some df -> module_type (m_kind (snd df)) = Fixed ->
  exists ev, single (mdef_name df) es ev /\ ev_id ev = i /\ ev_act ev = VS 0 /\ ev_norm ev = false.
Hypothesis FLX : forall i df, nth_error D i = Some df -> module_type (m_kind (snd df)) = Flex ->
  exists ev, single (mdef_name df) es ev /\ ev_id ev = i /\ ev_norm ev = false.

Lemma af_step ev i d : In ev es -> ev_id ev = i -> nth_error D i = Some d ->
  exists m m', at_index mg i m /\ at_index mg' i m' /\ phys m /\ lenient m /\ in_data m /\ mod_like (snd d) m
    /\ step (ev_act ev) (ev_norm ev) m = (m', Ok (ev_out ev)).
Proof.
  intros I IE N. destruct DID as [PF NI]. destruct (performs_each _ _ _ PF NI ev I) as (m & m' & A & A' & ST).
  rewrite IE in A, A'. destruct (ca_mod i d N) as (m1 & A1 & P & L & ID1 & ML). unfold at_index in *. rewrite A in A1. injection A1 as <-. exists m, m'. auto 10.
Qed.
Definition af_class (ev : event) : string := match nth_error D (ev_id ev) with Some d => class_name (m_kind (snd d)) | None => "" end.
Definition ofc (k : string) (f : event -> Q) : Q := summed f (fun ev => String.eqb k (af_class ev)) es.
Lemma ofc_present i d ev f : nth_error D i = Some d -> single (mdef_name d) es ev -> ofc (class_name (m_kind (snd d))) f == f ev.
Proof.
  intros N S. unfold ofc, summed. assert (X : filter (fun ev0 => String.eqb (class_name (m_kind (snd d))) (af_class ev0)) es = filter (fun ev0 => String.eqb (mdef_name d) (ev_name ev0)) es).
  { apply filter_ext_in. intros ev0 I. destruct (NMS ev0 I) as (d0 & N0 & M0). unfold af_class. rewrite N0, <- M0.
    destruct (String.eqb (mdef_name d) (mdef_name d0)) eqn:Y.
    - apply String.eqb_eq in Y. assert (J : In (ev_id ev0) (positions (mdef_name d) D)) by (apply in_positions; exists d0; auto).
      rewrite (positions_one D i d ND N) in J. destruct J as [J|[]]. rewrite <- J, N in N0. injection N0 as <-. apply String.eqb_refl.
    - destruct (String.eqb (class_name _) _) eqn:Z; [|reflexivity]. apply String.eqb_eq in Z.
      pose proof (st_one round1 poly D mg0 c V0 SEP MADE i (ev_id ev0) d d0 N N0 Z) as X. rewrite <- X, N in N0. injection N0 as <-. rewrite String.eqb_refl in Y. discriminate. }
  rewrite X. unfold single in S. rewrite S. cbn. lra.
Qed.
Lemma ofc_absent k f : (forall i d, nth_error D i = Some d -> class_name (m_kind (snd d)) <> k) -> ofc k f = 0.
Proof.
  intros A. unfold ofc, summed. replace (filter (fun ev => String.eqb k (af_class ev)) es) with (@nil event); [reflexivity|].
  symmetry. assert (X : forall ev, In ev es -> String.eqb k (af_class ev) = false).
  { intros ev I. apply String.eqb_neq. destruct (NMS ev I) as (d & N & _). unfold af_class. rewrite N. intros Y. exact (A _ _ N (eq_sym Y)). }
  clear - X. induction es as [|ev l IH]; [reflexivity|]. cbn [filter]. rewrite (X ev (or_introl eq_refl)). apply IH. intros; apply X; right; assumption.
Qed.
Lemma ofc_all f : sum_of f es == ofc "battery" f + (ofc "genset" f + (ofc "grid" f + (ofc "load" f + (ofc "renewable" f + (ofc "unbalancedenergy" f + 0))))).
Proof.
  rewrite (sum_by af_class f es ["battery"; "genset"; "grid"; "load"; "renewable"; "unbalancedenergy"]).
  - reflexivity.
  - repeat constructor; cbn; intuition discriminate.
  - intros ev I. destruct (NMS ev I) as (d & N & _). unfold af_class. rewrite N. destruct (m_kind (snd d)); cbn; tauto.
Qed.
(** What a class gives and takes and earns *)
Definition does (k : string) (a p r : Q) : Prop := ofc k ev_absorbed == a /\ ofc k ev_provided == p /\ ofc k ev_reward == r.
Lemma does_named i d a p r : nth_error D i = Some d -> (exists ev, single (mdef_name d) es ev) -> does (class_name (m_kind (snd d))) a p r -> done_by d es a p.
Proof.
  intros N (ev & S) (A & P & _). unfold done_by, taken, given. rewrite !(single_sum _ _ _ _ S). rewrite <- (ofc_present i d ev ev_absorbed N S), <- (ofc_present i d ev ev_provided N S). auto.
Qed.

Lemma af_battery : exists i d b, nth_error D i = Some d /\ m_kind (snd d) = KBattery b /\ (exists ev, single (mdef_name d) es ev)
  /\ does "battery" (pl_charge s) (pl_discharge s) (- (eq_cycle_cost e * (eq_eta e * pl_charge s + pl_discharge s / eq_eta e)))
  /\ forall m b, at_index mg' i m -> m_kind m = KBattery b -> b_soc b == pl_soc s.
Proof.
  destruct ca_first as (x & _ & AL).
  destruct (st_battery round1 poly D mg0 mg c V0 V SEP MADE) as (i & m0 & b0 & A0 & K0 & _). destruct (mod_def D mg V i m0 A0) as (d & N & _ & L0).
  pose proof (ml_kind _ _ L0) as KL. rewrite K0 in KL. destruct (m_kind (snd d)) as [bd| | | | |] eqn:KD; cbn in KL; try contradiction. clear KL.
  destruct (CTL i d N) with (v := COne (pl_discharge s - pl_charge s)) (a := VS (pl_discharge s - pl_charge s)) as (ev & S & IE & AC & NO);
    [rewrite KD; reflexivity|rewrite (proj1 TD d (nth_error_In _ _ N)), KD; reflexivity|reflexivity|].
  destruct (af_step ev i d (proj1 (single_in _ _ _ S)) IE N) as (m & m' & A & A' & P & LE & _ & _ & ST). rewrite AC, NO in ST.
  unfold at_index in A, A0. rewrite A0 in A. injection A as <-.
  destruct (pf_battery _ _ _ _ ca_posed i m0 b0 A0 K0) as (F1 & F2 & F3 & F4 & F5 & F6 & F7 & F8).
  pose proof (ph_kind _ P) as PK. rewrite K0 in PK. destruct PK as (WF & BI & PC & PD). pose proof WF as (W1 & W2 & W3 & _). pose proof BI as (B1 & B2 & B3).
  destruct (battery_limits _ WF BI PC PD) as (M1 & M2).
  pose proof (al_charge _ _ _ _ AL) as (C0 & C1). pose proof (al_discharge _ _ _ _ AL) as (D0 & D1). pose proof (re_battery_way _ _ RE) as CD.
  pose proof (re_battery _ _ RE i m0 b0 A0 K0) as DM. pose proof (al_soc _ _ _ _ AL) as SO. pose proof (al_soc_limits _ _ _ _ AL) as (S0 & S1 & S2).
  rewrite F1, F2 in SO. rewrite F3 in S1. rewrite F4 in S2. rewrite F5 in C1. rewrite F8 in SO.
  pose proof (mods_signs D mg i m0 V SR A0) as SG. unfold sign_tied in SG. rewrite K0 in SG.
  destruct (CAP i m0 b0 A0 K0) as (_ & CP).
  assert (CH : b_soc b0 * b_max_capacity b0 == b_charge b0) by (rewrite B3; field; lra).
  assert (MI : b_min_soc b0 * b_max_capacity b0 == b_min_capacity b0) by (rewrite SG; field; lra).
  assert (SC : pl_soc s * b_max_capacity b0 == b_charge b0 + b_efficiency b0 * pl_charge s - pl_discharge s / b_efficiency b0) by (rewrite SO, <- CH; field; split; lra).
  assert (SL : pl_soc s * b_max_capacity b0 <= b_max_capacity b0) by (setoid_replace (b_max_capacity b0) with (1 * b_max_capacity b0) at 2 by ring; apply Qmult_le_compat_r; lra).
  assert (SM : b_min_capacity b0 <= pl_soc s * b_max_capacity b0) by (rewrite <- MI; apply Qmult_le_compat_r; lra).
  assert (L1 : pl_charge s <= battery_max_consumption b0).
  { destruct CD as [CD|CD]; [rewrite CD; exact M2|]. unfold battery_max_consumption. unum. apply Qle_shift_div_l; [exact W1|]. apply Proofs_Twin2.under_min.
    - apply Qle_trans with (pl_charge s); [|exact C1]. setoid_replace (pl_charge s) with (pl_charge s * 1) at 2 by ring. rewrite !(Qmult_comm (pl_charge s)). apply Qmult_le_compat_r; lra.
    - assert (Z : pl_discharge s / b_efficiency b0 == 0) by (rewrite CD; field; lra). rewrite Z in SC. lra. }
  assert (L2 : pl_discharge s <= battery_max_production b0).
  { destruct CD as [CD|CD]; [|rewrite CD; exact M1]. unfold battery_max_production. unum.
    assert (X : pl_discharge s / b_efficiency b0 <= nmin (b_max_discharge b0) (b_charge b0 - b_min_capacity b0)).
    { apply Proofs_Twin2.under_min; [apply Qle_shift_div_r; [exact W1|exact DM]|]. rewrite CD in SC. lra. }
    setoid_replace (pl_discharge s) with (pl_discharge s / b_efficiency b0 * b_efficiency b0) by (field; lra). apply Qmult_le_compat_r; [exact X|lra]. }
  destruct (battery_step m0 m' (ev_out ev) P b0 _ _ K0 C0 D0 CD L1 L2 ST) as (X & Y & Z & b' & K' & PB & CB & SB).
  exists i, d, bd. split; [exact N|]. split; [exact KD|]. split; [exists ev; exact S|]. split.
  - change "battery" with (class_name (KBattery bd)). rewrite <- KD. unfold does. rewrite !(ofc_present i d ev _ N S).
    split; [exact X|]. split; [exact Y|]. change (ev_reward ev) with (reward_of (ev_out ev)). rewrite Z, F1, F7. ring.
  - intros m2 b2 A2 K2. unfold at_index in *. rewrite A' in A2. injection A2 as <-. rewrite K' in K2. injection K2 as <-.
    rewrite SB, CB, SO, B3. field. split; lra.
Qed.

Lemma af_genset : does "genset" 0 (pl_genset s) (- (eq_gen_cost e * pl_genset s))
  /\ forall i d g, nth_error D i = Some d -> m_kind (snd d) = KGenset g -> exists ev, single (mdef_name d) es ev.
Proof.
  destruct ca_first as (x & _ & AL). pose proof (al_genset _ _ _ _ AL) as G.
  assert (HAS : forall i d g, nth_error D i = Some d -> m_kind (snd d) = KGenset g ->
    exists ev, single (mdef_name d) es ev /\ ev_id ev = i /\ ev_act ev = VA [pl_on s; pl_genset s] /\ ev_norm ev = false).
  { intros i d g N KD. apply (CTL i d N) with (v := CList [VA [pl_on s; pl_genset s]]);
      [rewrite KD; reflexivity|rewrite (proj1 TD d (nth_error_In _ _ N)), KD; reflexivity|reflexivity]. }
  split; [|intros i d g N KD; destruct (HAS i d g N KD) as (ev & S & _); exists ev; exact S].
  destruct (eq_gen e) eqn:GE.
  - apply (pf_gen _ _ _ _ ca_posed) in GE. destruct GE as (i & m & A & (g & K)). destruct (mod_def D mg V i m A) as (d & N & _ & L).
    pose proof (ml_kind _ _ L) as KL. rewrite K in KL. destruct (m_kind (snd d)) as [|gd| | | |] eqn:KD; cbn in KL; try contradiction. clear KL.
    destruct (HAS i d gd N KD) as (ev & S & IE & AC & NO). destruct (af_step ev i d (proj1 (single_in _ _ _ S)) IE N) as (m1 & m' & A1 & A' & P & LE & _ & _ & ST). rewrite AC, NO in ST.
    unfold at_index in A, A1. rewrite A in A1. injection A1 as <-.
    destruct (st_genset round1 poly D mg0 mg c V0 V SEP MADE i m g A K) as (cc & GC & _).
    destruct (pf_genset _ _ _ _ ca_posed i m g cc A K GC) as (F1 & F2 & F3). destruct (re_genset _ _ RE i m g A K) as (R1 & R2). rewrite F1, F2 in G.
    destruct (genset_goes m m' (ev_out ev) g (pl_on s) (pl_genset s) P K R1 R2) as (X & Y & Z); [tauto|exact ST|].
    change "genset" with (class_name (KGenset gd)). rewrite <- KD. unfold does. rewrite !(ofc_present i d ev _ N S).
    change (ev_reward ev) with (reward_of (ev_out ev)). change (ev_absorbed ev) with (absorbed (info_of (ev_out ev))). change (ev_provided ev) with (provided (info_of (ev_out ev))).
    rewrite Y. split; [reflexivity|]. split; [exact X|]. rewrite Z. unfold genset_get_cost, genset_fuel_cost, genset_co2_cost, genset_co2. rewrite GC. unum. rewrite X, F3. ring.
  - destruct G as (G1 & G2). assert (NG : forall i d, nth_error D i = Some d -> class_name (m_kind (snd d)) <> "genset").
    { intros i d N C. destruct (ca_mod i d N) as (m & A & _ & _ & _ & L). pose proof (like_class _ _ L) as LC. rewrite C in LC.
      assert (eq_gen e = true); [|congruence]. apply (pf_gen _ _ _ _ ca_posed). exists i, m. split; [exact A|]. destruct (m_kind m) eqn:KM; try discriminate. eexists. exact KM. }
    unfold does. rewrite !(ofc_absent "genset" _ NG), G1. conj; try reflexivity. ring.
Qed.
Lemma af_grid price : import_price mg price -> forall x, nth_error xs 0 = Some x ->
  does "grid" (pl_export s) (pl_import s) (- (price * pl_import s) + ex_export x * pl_export s)
  /\ forall i d gr t, nth_error D i = Some d -> m_kind (snd d) = KGrid gr t -> exists ev, single (mdef_name d) es ev.
Proof.
  intros IP x FX. destruct ca_first as (x' & FX' & AL). rewrite FX in FX'. injection FX' as <-.
  assert (HAS : forall i d gr t, nth_error D i = Some d -> m_kind (snd d) = KGrid gr t ->
    exists ev, single (mdef_name d) es ev /\ ev_id ev = i /\ ev_act ev = VS (pl_import s - pl_export s) /\ ev_norm ev = false).
  { intros i d gr t N KD. apply (CTL i d N) with (v := COne (pl_import s - pl_export s));
      [exact (ca_grid i d gr t N KD)|rewrite (proj1 TD d (nth_error_In _ _ N)), KD; reflexivity|reflexivity]. }
  split; [|intros i d gr t N KD; destruct (HAS i d gr t N KD) as (ev & S & _); exists ev; exact S].
  pose proof (al_import _ _ _ _ AL) as (I0 & I1). pose proof (al_export _ _ _ _ AL) as (E0 & E1).
  destruct (existsb (fun d => String.eqb (class_name (m_kind (snd d))) "grid") D) eqn:X.
  - apply existsb_exists in X. destruct X as (d & I & C). apply String.eqb_eq in C. apply In_nth_error in I. destruct I as (i & N).
    destruct (m_kind (snd d)) as [| |gd td| | |] eqn:KD; try discriminate. clear C.
    destruct (HAS i d gd td N KD) as (ev & S & IE & AC & NO). destruct (af_step ev i d (proj1 (single_in _ _ _ S)) IE N) as (m & m' & A & A' & P & LE & IDm & ML & ST). rewrite AC, NO in ST.
    pose proof (ml_kind _ _ ML) as KL. rewrite KD in KL. destruct (m_kind m) as [| |gr t| | |] eqn:K; cbn in KL; try contradiction. clear KL.
    destruct (ca_row m t P IDm) as (st & r & SS & R & LR & fc & ->); [rewrite K; reflexivity|]. unfold columns in LR. rewrite K in LR.
    destruct r as [|p [|q [|co [|stt [|? ?]]]]]; try discriminate LR.
    destruct (pf_grid _ _ _ _ ca_posed i m gr t _ A K SS) as (F1 & F2 & co2 & _ & _ & F3). destruct (F3 0%nat x FX) as (F4 & F5 & F6). cbn in F5, F6.
    rewrite F1, F4, Qmult_1_r in I1. rewrite F2, F4, Qmult_1_r in E1.
    destruct (re_grid _ _ RE i m gr t _ A K SS) as (_ & UP). cbn in UP. pose proof (IP i m gr t _ A K SS) as PR. cbn in PR.
    destruct (grid_step m m' (ev_out ev) P LE gr t p q co stt _ _ K R I0 E0 (re_grid_way _ _ RE) I1 E1 UP ST) as (X & Y & Z).
    change "grid" with (class_name (KGrid gd td)). rewrite <- KD. unfold does. rewrite !(ofc_present i d ev _ N S).
    split; [exact Y|]. split; [exact X|]. change (ev_reward ev) with (reward_of (ev_out ev)). rewrite Z, F6, PR. ring.
  - assert (NG : forall i d, nth_error D i = Some d -> class_name (m_kind (snd d)) <> "grid").
    { intros i d N C. assert (Y : existsb (fun d => String.eqb (class_name (m_kind (snd d))) "grid") D = true); [|congruence].
      apply existsb_exists. exists d. split; [eapply nth_error_In; exact N|]. rewrite C. reflexivity. }
    assert (NG' : ~ any_module mg is_grid).
    { intros (i & m & A & (gr & t & K)). destruct (mod_def D mg V i m A) as (d & N & _ & L). apply (NG i d N). rewrite <- (like_class _ _ L), K. reflexivity. }
    destruct (pf_no_grid _ _ _ _ ca_posed NG') as (F1 & F2 & F3). rewrite F1, Qmult_0_l in I1. rewrite F2, Qmult_0_l in E1.
    unfold does. rewrite !(ofc_absent "grid" _ NG). assert (Z1 : pl_import s == 0) by lra. assert (Z2 : pl_export s == 0) by lra. rewrite Z1, Z2. conj; try reflexivity. ring.
Qed.
Lemma af_load x : nth_error xs 0 = Some x -> does "load" (ex_load x) 0 0
  /\ forall i d t, nth_error D i = Some d -> m_kind (snd d) = KLoad t -> exists ev, single (mdef_name d) es ev.
Proof.
  intros FX.
  assert (HAS : forall i d t, nth_error D i = Some d -> m_kind (snd d) = KLoad t ->
    exists ev, single (mdef_name d) es ev /\ ev_id ev = i /\ ev_act ev = VS 0 /\ ev_norm ev = false).
  { intros i d t N KD. apply (FIX i d N). rewrite KD. reflexivity. }
  split; [|intros i d t N KD; destruct (HAS i d t N KD) as (ev & S & _); exists ev; exact S].
  destruct (st_any D mg0 mg V0 V "load") as (i & m0 & A0 & C0 & _).
  { destruct (new_mpc_inv round1 poly D mg0 c V0 SEP MADE) as ((_ & _ & (i & m & A & (t & K))) & _). exists i, m. split; [exact A|]. rewrite K. reflexivity. }
  destruct (mod_def D mg V i m0 A0) as (d & N & _ & L0). rewrite (like_class _ _ L0) in C0. destruct (m_kind (snd d)) as [| | |td| |] eqn:KD; try discriminate.
  destruct (HAS i d td N KD) as (ev & S & IE & AC & NO). destruct (af_step ev i d (proj1 (single_in _ _ _ S)) IE N) as (m & m' & A & A' & P & LE & IDm & ML & ST). rewrite AC, NO in ST.
  pose proof (ml_kind _ _ ML) as KL. rewrite KD in KL. destruct (m_kind m) as [| | |t| |] eqn:K; cbn in KL; try contradiction. clear KL.
  destruct (ca_row m t P IDm) as (st & r & SS & R & LR & fc & ->); [rewrite K; reflexivity|]. unfold columns in LR. rewrite K in LR.
  destruct r as [|y [|? ?]]; try discriminate LR.
  pose proof (pf_load _ _ _ _ ca_posed i m _ 0%nat x A (ex_intro _ t K) SS FX) as F. cbn in F.
  destruct (load_step m m' (ev_out ev) P t y K R ST) as (X & Y & Z).
  change "load" with (class_name (KLoad td)). rewrite <- KD. unfold does. rewrite !(ofc_present i d ev _ N S).
  change (ev_reward ev) with (reward_of (ev_out ev)). change (ev_absorbed ev) with (absorbed (info_of (ev_out ev))). change (ev_provided ev) with (provided (info_of (ev_out ev))).
  rewrite X, Y, Z, F. conj; reflexivity.
Qed.

(** Renewable and unbalanced energy *)
Lemma af_flex x : nth_error xs 0 = Some x -> exists gp gu tu,
  does "renewable" 0 gp 0 /\ (exists r, does "unbalancedenergy" tu gu r /\ (tu == 0 -> r == - (eq_loss_cost e * gu)))
  /\ 0 <= gp /\ gp <= ex_pv x /\ 0 <= gu /\ 0 <= tu /\ (0 < gu -> gp == ex_pv x /\ tu == 0) /\ (0 < tu -> gp == 0 /\ gu == 0)
  /\ (forall i d t, nth_error D i = Some d -> m_kind (snd d) = KRenewable t -> exists ev, single (mdef_name d) es ev)
  /\ (forall i d u, nth_error D i = Some d -> m_kind (snd d) = KUnbalanced u -> exists ev, single (mdef_name d) es ev).
Proof.
  intros FX. destruct ca_first as (x' & FX' & AL). rewrite FX in FX'. injection FX' as <-.
  assert (HP : forall i d t, nth_error D i = Some d -> m_kind (snd d) = KRenewable t -> exists ev, single (mdef_name d) es ev /\ ev_id ev = i /\ ev_norm ev = false).
  { intros i d t N KD. apply (FLX i d N). rewrite KD. reflexivity. }
  assert (HU : forall i d u, nth_error D i = Some d -> m_kind (snd d) = KUnbalanced u -> exists ev, single (mdef_name d) es ev /\ ev_id ev = i /\ ev_norm ev = false).
  { intros i d t N KD. apply (FLX i d N). rewrite KD. reflexivity. }
  destruct (st_any D mg0 mg V0 V "renewable") as (ip & m0 & A0 & C0 & _).
  { destruct (new_mpc_inv round1 poly D mg0 c V0 SEP MADE) as (_ & F & _). destruct (su_renewable _ F) as (i & m & A & (t & K)). exists i, m. split; [exact A|]. rewrite K. reflexivity. }
  destruct (mod_def D mg V ip m0 A0) as (dp & NP & _ & L0). rewrite (like_class _ _ L0) in C0. destruct (m_kind (snd dp)) as [| | | |td|] eqn:KDP; try discriminate. clear C0.
  destruct ca_unb as (iu & m1 & A1 & (u1 & K1)). destruct (mod_def D mg V iu m1 A1) as (du & NU & _ & L1). pose proof (like_class _ _ L1) as C1. rewrite K1 in C1.
  destruct (m_kind (snd du)) as [| | | | |ud] eqn:KDU; try discriminate. clear C1.
  destruct (HP ip dp td NP KDP) as (ep & SP & IEP & NOP). destruct (HU iu du ud NU KDU) as (eu & SU & IEU & NOU).
  destruct (af_step ep ip dp (proj1 (single_in _ _ _ SP)) IEP NP) as (mp & mp' & AP & _ & PP & LEP & IDP & MLP & STP).
  destruct (af_step eu iu du (proj1 (single_in _ _ _ SU)) IEU NU) as (mu & mu' & AU & _ & PU & LEU & IDU & MLU & STU).
  rewrite NOP in STP. rewrite NOU in STU.
  pose proof (ml_kind _ _ MLP) as KL. rewrite KDP in KL. destruct (m_kind mp) as [| | | |tp|] eqn:KP; cbn in KL; try contradiction. clear KL.
  pose proof (ml_kind _ _ MLU) as KL. rewrite KDU in KL. destruct (m_kind mu) as [| | | | |u] eqn:KU; cbn in KL; try contradiction. clear KL.
  destruct (ca_row mp tp PP IDP) as (st & r & SS & R & LR & fc & ->); [rewrite KP; reflexivity|]. unfold columns in LR. rewrite KP in LR.
  destruct r as [|y [|? ?]]; try discriminate LR.
  pose proof (pf_pv _ _ _ _ ca_posed ip mp _ 0%nat x AP (ex_intro _ tp KP) SS FX) as F. cbn in F.
  assert (Y0 : 0 <= y) by (pose proof (al_curtail _ _ _ _ AL); rewrite F in *; lra).
  destruct (pv_step mp mp' (ev_out ep) PP LEP tp y (ev_act ep) KP R Y0 STP) as (XA & X0 & X1 & XC & XR).
  pose proof (unbalanced_step mu mu' (ev_out eu) PU u (ev_act eu) KU STU) as UR.
  assert (FP : is_flex mp) by (unfold is_flex; rewrite KP; reflexivity).
  assert (FU : is_flex mu) by (unfold is_flex; rewrite KU; reflexivity).
  assert (IP : In ep es) by (exact (proj1 (single_in _ _ _ SP))). assert (IU : In eu es) by (exact (proj1 (single_in _ _ _ SU))).
  (* their order *)
  assert (OR : exists l1 l2, es = l1 ++ eu :: l2 /\ In ep l1).
  { destruct (flex_order D mg ip iu dp du V ND NP NU) as (a & b & c' & FO); [unfold category_of; rewrite KDP; reflexivity|unfold category_of; rewrite KDU; reflexivity|].
    rewrite <- FID in FO. unfold event_ids in FO. destruct (map_eq_app _ _ _ _ FO) as (x1 & x2 & -> & M1 & M2).
    destruct x2 as [|e1 x2]; [discriminate|]. cbn in M2. injection M2 as E1 M2. destruct (map_eq_app _ _ _ _ M2) as (x3 & x4 & -> & M3 & M4).
    destruct x4 as [|e2 x4]; [discriminate|]. cbn in M4. injection M4 as E2 M4.
    assert (I1 : In e1 es) by (rewrite EES, !in_app_iff; right; right; left; reflexivity).
    assert (I2 : In e2 es) by (rewrite EES, !in_app_iff; right; right; right; apply in_app_iff; right; left; reflexivity).
    assert (e1 = ep). { destruct (NMS e1 I1) as (d1 & N1 & Q1). rewrite E1, NP in N1. injection N1 as <-. exact (single_at _ _ _ _ SP I1 (eq_sym Q1)). }
    assert (e2 = eu). { destruct (NMS e2 I2) as (d2 & N2 & Q2). rewrite E2, NU in N2. injection N2 as <-. exact (single_at _ _ _ _ SU I2 (eq_sym Q2)). }
    subst e1 e2. exists (es0 ++ x1 ++ ep :: x3), x4. split; [rewrite EES, <- !app_assoc; reflexivity|]. rewrite !in_app_iff. right. right. left. reflexivity. }
  destruct OR as (l1 & l2 & OR & IL1). pose proof AP as AP'. pose proof AU as AU'. rewrite <- IEP in AP'. rewrite <- IEU in AU'.
  destruct (MER l1 eu l2 mu OR AU' FU) as (G1 & G2 & G3 & G4).
  assert (MXP : max_production mp = Ok (BFin y)).
  { unfold max_production. rewrite KP. unfold current_renewable, ts_item. rewrite R. reflexivity. }
  exists (ev_provided ep), (ev_provided eu), (ev_absorbed eu). split.
  { change "renewable" with (class_name (KRenewable td)). rewrite <- KDP. unfold does. rewrite !(ofc_present ip dp ep _ NP SP).
    split; [change (ev_absorbed ep) with (absorbed (info_of (ev_out ep))); rewrite XA; reflexivity|]. split; [reflexivity|exact XR]. }
  split.
  { exists (ev_reward eu). split.
    - change "unbalancedenergy" with (class_name (KUnbalanced ud)). rewrite <- KDU. unfold does. rewrite !(ofc_present iu du eu _ NU SU). conj; reflexivity.
    - intros Z. change (ev_absorbed eu) with (absorbed (info_of (ev_out eu))) in Z. change (ev_reward eu) with (reward_of (ev_out eu)). rewrite UR, Z.
      rewrite (pf_unbalanced _ _ _ _ ca_posed iu mu u AU KU). change (ev_provided eu) with (provided (info_of (ev_out eu))). ring. }
  rewrite F. split; [exact X0|]. split; [exact X1|]. split; [exact G1|]. split; [exact G2|]. split; [|split; [|split]].
  - intros G. destruct (G3 G) as (EX & AB). split; [|exact (AB eu mu IU AU' FU)]. rewrite Forall_forall in EX. destruct (EX ep IL1 mp AP' FP) as (z & Z1 & Z2).
    rewrite MXP in Z1. injection Z1 as <-. exact Z2.
  - intros G. destruct (G4 G) as (EX & AB). split; [exact (AB ep mp IP AP' FP)|exact (AB eu mu IU AU' FU)].
  - intros i d t N KD. destruct (HP i d t N KD) as (ev & S & _). exists ev. exact S.
  - intros i d t N KD. destruct (HU i d t N KD) as (ev & S & _). exists ev. exact S.
Qed.

Theorem af_done x price : nth_error xs 0 = Some x -> import_price mg price -> carried_out D es mg' x s /\ rw == - actual_cost e price x s.
Proof.
  intros FX IP. destruct ca_first as (x' & FX' & AL). rewrite FX in FX'. injection FX' as <-.
  destruct af_battery as (ib & db & bb & NB & KB & SB & (DB1 & DB2 & DB3) & SOC). destruct af_genset as ((DG1 & DG2 & DG3) & SG).
  destruct (af_grid price IP x FX) as ((DR1 & DR2 & DR3) & SGR). destruct (af_load x FX) as ((DL1 & DL2 & DL3) & SL).
  destruct (af_flex x FX) as (gp & gu & tu & (DP1 & DP2 & DP3) & (ru & (DU1 & DU2 & DU3) & UR) & P0 & P1 & U0 & T0 & M1 & M2 & SP & SU).
  pose proof BAL as B. rewrite !ofc_all in B. rewrite DB1, DB2, DG1, DG2, DR1, DR2, DL1, DL2, DP1, DP2, DU1, DU2 in B.
  pose proof (al_balance _ _ _ _ AL) as BL. pose proof (al_curtail _ _ _ _ AL) as (C0 & C1). pose proof (al_loss _ _ _ _ AL) as (LO0 & LO1).
  assert (TU : tu == 0). { destruct (Qlt_le_dec 0 tu) as [T|T]; [|lra]. destruct (M2 T) as (X & Y). lra. }
  assert (GU : gu == pl_loss s - Qmin (pl_loss s) (pl_curtail s) /\ gp == ex_pv x - (pl_curtail s - Qmin (pl_loss s) (pl_curtail s))).
  { destruct (Qlt_le_dec 0 gu) as [G|G].
    - destruct (M1 G) as (X & _). assert (L : pl_curtail s <= pl_loss s) by lra. rewrite (Q.min_r _ _ L). split; lra.
    - assert (Z : gu == 0) by lra. assert (L : pl_loss s <= pl_curtail s) by lra. rewrite (Q.min_l _ _ L). split; lra. }
  destruct GU as (GU & GPV). split.
  - intros i d N. destruct (m_kind (snd d)) as [b|g|gr t|t|t|u] eqn:K.
    + assert (CC : class_name (m_kind (snd d)) = "battery") by (rewrite K; reflexivity).
      assert (X : i = ib) by (apply (st_one round1 poly D mg0 c V0 SEP MADE i ib d db N NB); rewrite CC, KB; reflexivity). subst ib.
      rewrite N in NB. injection NB as <-. split; [|exact SOC]. apply (does_named i d _ _ (ofc "battery" ev_reward) N SB). rewrite CC. split; [exact DB1|split; [exact DB2|reflexivity]].
    + apply (does_named i d _ _ (ofc "genset" ev_reward) N (SG i d g N K)). rewrite K. split; [exact DG1|split; [exact DG2|reflexivity]].
    + apply (does_named i d _ _ (ofc "grid" ev_reward) N (SGR i d gr t N K)). rewrite K. split; [exact DR1|split; [exact DR2|reflexivity]].
    + apply (does_named i d _ _ (ofc "load" ev_reward) N (SL i d t N K)). rewrite K. split; [exact DL1|split; [exact DL2|reflexivity]].
    + apply (does_named i d _ _ (ofc "renewable" ev_reward) N (SP i d t N K)). rewrite K. split; [exact DP1|split; [rewrite <- GPV; exact DP2|reflexivity]].
    + apply (does_named i d _ _ (ofc "unbalancedenergy" ev_reward) N (SU i d u N K)). rewrite K. split; [rewrite <- TU; exact DU1|split; [rewrite <- GU; exact DU2|reflexivity]].
  - rewrite RW, ofc_all, DB3, DG3, DR3, DL3, DP3, DU3, (UR TU), GU. unfold actual_cost. ring.
Qed.
End After.

Theorem carried : mg_shaper mg = None -> no_reserved_name D ->
  exists mg' obs rw dn inf es, run ctl false mg = (mg', Ok (obs, rw, dn, inf)) /\ did mg es mg'
    /\ forall x price, nth_error xs 0 = Some x -> import_price mg price -> carried_out D es mg' x s /\ rw == - actual_cost e price x s.
Proof.
  intros SH NR. destruct (ca_runs NR) as (mg' & (((obs & rw) & dn) & inf) & RN); [rewrite SH; exact I|].
  destruct (run_whole D mg mg' ctl obs rw dn inf FM ND ca_unb SH RN) as (es & es0 & eflex & EES & DID & RW & BAL & MER & FID & NMS & CTL & FIX & FLX).
  exists mg', obs, rw, dn, inf, es. split; [exact RN|]. split; [exact DID|]. intros x price FX IP.
  exact (af_done mg' rw es es0 eflex EES DID RW BAL MER FID NMS CTL FIX FLX x price FX IP).
Qed.
End Carry.

Lemma price_exists D (mg : mgrid Q) : mg_inv D mg -> one_each D -> exists price, import_price mg price.
Proof.
  intros V ONE. destruct (existsb (fun m => String.eqb (class_name (m_kind m)) "grid") (mg_mods mg)) eqn:X.
  - apply existsb_exists in X. destruct X as (m & I & C). apply String.eqb_eq in C. apply In_nth_error in I. destruct I as (i & A).
    destruct (m_kind m) as [| |gr t| | |] eqn:K; try discriminate. exists (match state m with Ok st => nth 0 st 0 + gr_cost_co2 gr * nth 2 st 0 | Err _ => 0 end).
    intros j m' gr' t' st A' K' S. destruct (mod_def D mg V i m A) as (d & N & _ & L). destruct (mod_def D mg V j m' A') as (d' & N' & _ & L').
    assert (i = j). { apply (ONE i j d d' N N'). rewrite <- (like_class _ _ L), <- (like_class _ _ L'), K, K'. reflexivity. }
    subst j. unfold at_index in A'. rewrite A in A'. injection A' as <-. rewrite S. rewrite K in K'. injection K' as <- <-. reflexivity.
  - exists 0. intros j m' gr' t' st A' K' S. assert (Y : existsb (fun m => String.eqb (class_name (m_kind m)) "grid") (mg_mods mg) = true); [|congruence].
    apply existsb_exists. exists m'. split; [eapply nth_error_In; exact A'|]. rewrite K'. reflexivity.
Qed.

(** ** A step of the controller *)
Section Step.
Variables (round1 : Q -> Q) (poly : nat -> Q).
Variables (D : list (mdef Q)) (mg0 mg : mgrid Q) (c : mpc Q) (d : mpc_data Q) (pr : problem Q) (solve : solver Q) (k : nat) (p u : list Q).
Hypothesis FM0 : from_modules D mg0.
Hypothesis SEP : names_separate D.
Hypothesis MADE : new_mpc round1 poly mg0 = Ok c.
Hypothesis FM : from_modules D mg.
Hypothesis SR : Forall (fun d => sane_reachable (snd d)) D.
Hypothesis LEN : Forall (fun d => lenient (snd d)) D.
Hypothesis NR : no_reserved_name D.
Hypothesis ID : Forall in_data (mg_mods mg).
Hypothesis DT : state_values c mg = Ok d.
Hypothesis PR : make_problem c d = Ok pr.
Hypothesis SOL : solve k pr = Ok (Some (p, u)).
Hypothesis SAT : satisfies pr p u = true.
Let e := equipment_of c d.
Let xs := expected_of d (mp_horizon c).

Lemma step_plan : exists s rest ctl, is_plan (has_gen c) p u (s :: rest) /\ good_plan e (da_soc d) xs (s :: rest) /\ told D s ctl
  /\ mpc_step c solve k mg = run ctl false mg.
Proof.
  destruct (state_posed round1 poly D mg0 mg c (from_modules_inv _ _ FM0) (from_modules_inv _ _ FM) SEP MADE) as (d' & E' & W & _). rewrite DT in E'. injection E' as <-.
  destruct (proj1 (program c d pr W PR p u) SAT) as (plan & IP & GP). destruct plan as [|s rest].
  { destruct GP as (L & _). unfold expected_of in L. rewrite map_length, seq_length in L. destruct (new_mpc_inv round1 poly D mg0 c (from_modules_inv _ _ FM0) SEP MADE) as (_ & _ & _ & _ & (h & _ & H) & _). rewrite H in L. discriminate. }
  destruct (control_told round1 poly D mg0 c (from_modules_inv _ _ FM0) SEP MADE p u s rest IP) as (ctl & EC & TD).
  exists s, rest, ctl. split; [exact IP|]. split; [exact GP|]. split; [exact TD|].
  unfold mpc_step, mbind, mget, mlift. rewrite DT. unfold set_and_solve. rewrite PR. cbn [rbind]. rewrite SOL. cbn [rbind]. rewrite EC. reflexivity.
Qed.
Theorem step_returns : total_shaper (mg_shaper mg) -> exists mg' out, mpc_step c solve k mg = (mg', Ok out).
Proof.
  intros SH. destruct step_plan as (s & rest & ctl & IP & GP & TD & ->).
  exact (ca_runs round1 poly D mg0 mg c d FM0 SEP MADE FM SR LEN ID DT s rest GP ctl TD NR SH).
Qed.
Theorem step_carried : mg_shaper mg = None ->
  (forall i m b, at_index mg i m -> m_kind m = KBattery b -> 0 <= b_min_capacity b /\ 0 < b_max_capacity b) ->
  exists s rest x, is_plan (has_gen c) p u (s :: rest) /\ good_plan e (da_soc d) xs (s :: rest) /\ nth_error xs 0 = Some x
    /\ (realistic mg s -> exists mg' obs rw dn inf es, mpc_step c solve k mg = (mg', Ok (obs, rw, dn, inf)) /\ did mg es mg'
         /\ carried_out D es mg' x s /\ forall price, import_price mg price -> rw == - actual_cost e price x s).
Proof.
  intros SH CAP. destruct step_plan as (s & rest & ctl & IP & GP & TD & ES).
  destruct (ca_first c d s rest GP) as (x & FX & _). exists s, rest, x. split; [exact IP|]. split; [exact GP|]. split; [exact FX|]. intros RE.
  destruct (carried round1 poly D mg0 mg c d FM0 SEP MADE FM SR LEN ID DT s rest GP RE CAP ctl TD SH NR) as (mg' & obs & rw & dn & inf & es & RN & DID & F).
  destruct (price_exists D mg (from_modules_inv _ _ FM) (st_one round1 poly D mg0 c (from_modules_inv _ _ FM0) SEP MADE)) as (price & IPR).
  exists mg', obs, rw, dn, inf, es. rewrite ES. split; [exact RN|]. split; [exact DID|]. split; [exact (proj1 (F x price FX IPR))|].
  intros price' IP'. exact (proj2 (F x price' FX IP')).
Qed.
End Step.
