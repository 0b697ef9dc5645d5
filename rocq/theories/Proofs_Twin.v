(** * A run of a microgrid whose modules have different names, module by module *)

From Coq Require Import ZArith QArith Qabs Qminmax Bool String List Lia Lqa Permutation.
From Verif Require Import Num Py Space Logger Forecast Module Container Microgrid NonModular Conversion
  Proofs_Num Proofs_Logger Spec_Module Spec_Reach Proofs_Module Proofs_Ts Proofs_Any Proofs_Request
  Proofs_Battery Proofs_Genset Proofs_Data Proofs_Classes Proofs_Props
  Spec_Microgrid Spec_Sane Spec_Shaping Proofs_Container Proofs_Run Proofs_Mgrid Proofs_Views Proofs_MgProps Proofs_MgProps2
  Proofs_Build Proofs_Sane Proofs_Progress Proofs_Control Proofs_Rebuild Proofs_Episode Proofs_Rbc Proofs_RbcRun.
Import ListNotations.
Local Open Scope string_scope.
Local Open Scope list_scope.
Local Open Scope Q_scope.

Lemma nodup_names_sep (D : list (mdef Q)) : NoDup (map mdef_name D) -> names_separate D.
Proof.
  intros ND d d' I I' E. f_equal. induction D as [|x ds IH]; [destruct I|]. inversion ND as [|? ? N ND']; subst.
  destruct I as [<-|I], I' as [<-|I']; auto.
  - exfalso. apply N. apply in_map_iff. exists d'. auto.
  - exfalso. apply N. apply in_map_iff. exists d. auto.
Qed.
Lemma positions_one (D : list (mdef Q)) i d : NoDup (map mdef_name D) -> nth_error D i = Some d ->
  positions (mdef_name d) D = [i].
Proof.
  intros ND N.
  assert (A : forall j, In j (positions (mdef_name d) D) <-> j = i).
  { intros j. rewrite in_positions. split.
    - intros (d' & N' & E).
      assert (X : nth_error (map mdef_name D) j = nth_error (map mdef_name D) i).
      { rewrite !nth_error_map, N, N'. cbn. congruence. }
      eapply NoDup_nth_error; [exact ND| |exact X]. rewrite map_length. apply nth_error_Some. congruence.
    - intros ->. eauto. }
  assert (ND' : NoDup (positions (mdef_name d) D)).
  { unfold positions. clear. generalize 0%nat as k.
    induction D as [|x D IH]; intros k; cbn; [constructor|]. destruct (String.eqb _ _); [|apply IH].
    cbn. constructor; [|apply IH]. intros I. apply in_map_iff in I. destruct I as ([a b] & E & I). cbn in E. subst a.
    apply filter_In in I. destruct I as [I _]. apply in_combine_l, in_seq in I. lia. }
  destruct (positions (mdef_name d) D) as [|a [|b l]].
  - exfalso. apply (A i). reflexivity.
  - f_equal. apply A. left. reflexivity.
  - exfalso. assert (a = i) by (apply A; simpl; auto). assert (b = i) by (apply A; simpl; auto). subst.
    inversion ND' as [|? ? X _]. apply X. left. reflexivity.
Qed.

(** The one step of the module named [nm] *)
Definition single (nm : string) (es : list event) (e : event) : Prop :=
  filter (fun e => String.eqb nm (ev_name e)) es = [e].
Lemma single_sum nm es e f : single nm es e -> sum_named f nm es == f e.
Proof. unfold single, sum_named. intros ->. simpl. lra. Qed.
Lemma single_in nm es e : single nm es e -> In e es /\ ev_name e = nm.
Proof.
  unfold single. intros E. assert (I : In e [e]) by (left; reflexivity). rewrite <- E in I. apply filter_In in I.
  destruct I as [I Q]. apply String.eqb_eq in Q. auto.
Qed.
Lemma under_single {A} (f : event -> A) nm es x : under f nm es = [x] -> exists e, single nm es e /\ f e = x.
Proof.
  unfold under, single. destruct (filter _ es) as [|e [|e' l]]; intros E; try discriminate E.
  injection E as <-. eauto.
Qed.

Definition in_merit (mg : mgrid Q) (es : list event) : Prop :=
  forall es1 e es2 m, es = es1 ++ e :: es2 -> at_index mg (ev_id e) m -> is_flex m ->
     0 <= ev_provided e /\ 0 <= ev_absorbed e
     /\ (0 < ev_provided e -> Forall (exhausts mg) es1
          /\ forall e' m', In e' es -> at_index mg (ev_id e') m' -> is_flex m' -> ev_absorbed e' == 0)
     /\ (0 < ev_absorbed e -> Forall (saturates mg) es1
          /\ forall e' m', In e' es -> at_index mg (ev_id e') m' -> is_flex m' -> ev_provided e' == 0).

Lemma run_whole D (mg mg' : mgrid Q) c obs rw d inf :
  from_modules D mg -> NoDup (map mdef_name D) -> has_unbalanced mg -> mg_shaper mg = None ->
  run c false mg = (mg', Ok (obs, rw, d, inf)) ->
  exists es es0 eflex, es = es0 ++ eflex /\ did mg es mg' /\ rw == sum_of ev_reward es
    /\ sum_of ev_provided es == sum_of ev_absorbed es
    /\ in_merit mg es
    /\ event_ids eflex = concat (map snd (part_dict Flex mg))
    /\ (forall e, In e es -> exists df, nth_error D (ev_id e) = Some df /\ mdef_name df = ev_name e)
    /\ (forall i df, nth_error D i = Some df -> module_type (m_kind (snd df)) = Controllable ->
          forall v a, dget (mdef_name df) c = Some v -> ctrl_list v = [a] ->
          exists e, single (mdef_name df) es e /\ ev_id e = i /\ ev_act e = a /\ ev_norm e = false)
    /\ (forall i df, nth_error D i = Some df -> module_type (m_kind (snd df)) = Fixed ->
          exists e, single (mdef_name df) es e /\ ev_id e = i /\ ev_act e = VS 0 /\ ev_norm e = false)
    /\ (forall i df, nth_error D i = Some df -> module_type (m_kind (snd df)) = Flex ->
          exists e, single (mdef_name df) es e /\ ev_id e = i /\ ev_norm e = false).
Proof.
  intros FM ND U SH E. pose proof (from_modules_inv _ _ FM) as V. pose proof (nodup_names_sep _ ND) as SEP.
  destruct (run_ok_full _ _ _ _ _ _ _ _ _ V E) as (ci & efix & ectl & eflex & ms1 & ms2 & ms3 & r2 & fp & fa & p & a & p3 & a3 & r3 & lg
    & RN & -> & _ & C & _ & _ & _).
  exists (efix ++ ectl ++ eflex), (efix ++ ectl), eflex.
  split; [apply app_assoc|].
  split. { split; [exact (ran_performs _ _ _ _ _ _ _ _ _ _ _ _ _ _ _ _ _ _ _ RN)
           |exact (ran_nodup _ _ V _ _ _ _ _ _ _ _ _ _ _ _ _ _ _ _ _ _ RN)]. }
  destruct (ran_totals _ _ V _ _ _ _ _ _ _ _ _ _ _ _ _ _ _ _ _ _ RN) as (P3 & A3 & R3 & _).
  split.
  { destruct (mstep_balance_shaped _ _ _ _ _ _ _ (rn_b3 _ _ _ _ _ _ _ _ _ _ _ _ _ _ _ _ _ _ _ RN)) as (SR & RE & _).
    unfold shaped_reward in SR. rewrite SH in SR. inversion SR; subst. exact R3. }
  split. { rewrite <- P3, <- A3. exact (ran_balanced _ _ V _ _ _ _ _ _ _ _ _ _ _ _ _ _ _ _ _ _ RN U). }
  split. { exact (ran_merit _ _ V _ _ _ _ _ _ _ _ _ _ _ _ _ _ _ _ _ _ RN). }
  split. { exact (ran_flex_ids mg _ _ _ _ _ _ _ _ _ _ _ _ _ _ _ _ _ _ RN). }
  split. { intros e I. exact (ran_identity _ _ _ _ _ _ _ _ _ _ _ _ _ _ _ _ _ _ _ _ V RN e I). }
  split; [|split].
  - intros i df N T v0 x DG VX. pose proof (nth_error_In _ _ N) as I.
    destruct (ex_ctl D mg V SEP _ _ _ _ _ _ _ _ _ _ _ _ _ _ _ _ _ _ RN df I T) as (v & DV & UN).
    rewrite DG in DV. injection DV as <-. rewrite (positions_one _ _ _ ND N), VX in UN. cbn in UN.
    apply under_single in UN. destruct UN as (e & S & Q). injection Q as Q1 Q2 Q3. eauto 10.
  - intros i df N T. pose proof (nth_error_In _ _ N) as I.
    pose proof (ex_fix D mg V SEP _ _ _ _ _ _ _ _ _ _ _ _ _ _ _ _ _ _ RN df I T) as UN.
    rewrite (positions_one _ _ _ ND N) in UN. cbn in UN.
    apply under_single in UN. destruct UN as (e & S & Q). injection Q as Q1 Q2 Q3. eauto 10.
  - intros i df N T. pose proof (nth_error_In _ _ N) as I.
    pose proof (ex_flex D mg V SEP _ _ _ _ _ _ _ _ _ _ _ _ _ _ _ _ _ _ RN df I T) as UN.
    rewrite (positions_one _ _ _ ND N) in UN. cbn in UN.
    apply under_single in UN. destruct UN as (e & S & Q). injection Q as Q1 Q2. eauto 10.
Qed.

(** Sums over everything are sums over the names. *)
Lemma sum_names f es (names : list string) : NoDup names -> (forall e, In e es -> In (ev_name e) names) ->
  sum_of f es == fold_right (fun nm acc => sum_named f nm es + acc) 0 names.
Proof.
  intros ND. induction es as [|e es IH]; intros IN.
  - simpl. clear. induction names as [|n names IH]; simpl; [reflexivity|]. rewrite <- IH. unfold sum_named. simpl. lra.
  - rewrite sum_of_cons, IH by (intros; apply IN; right; assumption).
    assert (IE : In (ev_name e) names) by (apply IN; left; reflexivity). clear IN IH.
    induction names as [|n names IHn]; [destruct IE|]. inversion ND as [|? ? NI ND']; subst. simpl.
    assert (OUT : forall l, ~ In (ev_name e) l ->
      fold_right (fun nm acc => sum_named f nm (e :: es) + acc) 0 l
      = fold_right (fun nm acc => sum_named f nm es + acc) 0 l).
    { intros l NL. induction l as [|x l IHl]; [reflexivity|]. simpl. rewrite IHl by (intros J; apply NL; right; exact J).
      f_equal. unfold sum_named. simpl. destruct (String.eqb x (ev_name e)) eqn:Q; [|reflexivity].
      apply String.eqb_eq in Q. exfalso. apply NL. left. exact Q. }
    destruct (String.eqb n (ev_name e)) eqn:Q.
    + apply String.eqb_eq in Q. subst n. rewrite (OUT names NI).
      assert (X : sum_named f (ev_name e) (e :: es) = f e + sum_named f (ev_name e) es).
      { unfold sum_named. simpl. rewrite String.eqb_refl. reflexivity. }
      rewrite X. lra.
    + assert (X : sum_named f n (e :: es) = sum_named f n es) by (unfold sum_named; simpl; rewrite Q; reflexivity).
      rewrite X. destruct IE as [->|IE]; [rewrite String.eqb_refl in Q; discriminate|].
      rewrite <- (IHn ND' IE). lra.
Qed.
Lemma sum_absent f nm es : (forall e, In e es -> ev_name e <> nm) -> sum_named f nm es = 0.
Proof.
  intros N. unfold sum_named. replace (filter (fun e => String.eqb nm (ev_name e)) es) with (@nil event); [reflexivity|].
  induction es as [|e es IH]; [reflexivity|]. simpl. destruct (String.eqb nm (ev_name e)) eqn:Q.
  - apply String.eqb_eq in Q. exfalso. apply (N e); [left; reflexivity|auto].
  - apply IH. intros. apply N. right. assumption.
Qed.
(** One name per step *)
Lemma single_at es e e' nm : single nm es e -> In e' es -> ev_name e' = nm -> e' = e.
Proof.
  unfold single. intros S I Q. assert (J : In e' [e]); [|destruct J as [->|[]]; reflexivity].
  rewrite <- S. apply filter_In. split; [exact I|]. apply String.eqb_eq. auto.
Qed.

(** ** One module at a time *)
Section Steps.
Variables m m' : module Q.
Variable o : step_out Q.
Hypothesis PH : phys m.
Hypothesis LE : lenient m.

Lemma load_step t x : m_kind m = KLoad t -> ts_row t (m_cur m) = Some [x] -> step (VS 0) false m = (m', Ok o) ->
  absorbed (info_of o) == - x /\ provided (info_of o) = 0 /\ reward_of o == 0.
Proof.
  intros K R E.
  assert (NG : is_genset (m_kind m) = false) by (rewrite K; reflexivity).
  destruct (step_asked _ _ _ _ _ (ph_ok _ PH) NG E) as (da & e & m1 & A & P & U). cbn in A. injection A as <-.
  cbn in P. injection P as <-.
  destruct (request_load m t x 0 K R) as [H _]. rewrite H in U by lra. injection U as _ U1 _ U2.
  rewrite <- U2, <- U1. cbn. split; [lra|]. split; [reflexivity|lra].
Qed.
Lemma pv_step t x a : m_kind m = KRenewable t -> ts_row t (m_cur m) = Some [x] -> 0 <= x -> step a false m = (m', Ok o) ->
  absorbed (info_of o) = 0 /\ 0 <= provided (info_of o) /\ provided (info_of o) <= x
  /\ (match dget "curtailment" (info_of o) with Some y => y | None => 0 end) == x - provided (info_of o) /\ reward_of o == 0.
Proof.
  intros K R X E.
  assert (NG : is_genset (m_kind m) = false) by (rewrite K; reflexivity).
  destruct (step_asked _ _ _ _ _ (ph_ok _ PH) NG E) as (da & e & m1 & A & P & U).
  destruct (request_renewable m t x e K R X) as (H1 & _ & H3).
  destruct (Qlt_le_dec e 0) as [L|L].
  - destruct (H3 L) as (ex & Y & _). rewrite Y in U. discriminate U.
  - destruct (H1 L) as (p & Y & _ & P0 & P1); [unfold lenient in LE; congruence|].
    rewrite Y in U. injection U as _ U1 _ U2. rewrite <- U2, <- U1. cbn. split; [reflexivity|]. split; [exact P0|]. split; [exact P1|]. split; lra.
Qed.
Lemma unbalanced_step u a : m_kind m = KUnbalanced u -> step a false m = (m', Ok o) ->
  reward_of o == - (u_loss_load_cost u * provided (info_of o) + u_overgeneration_cost u * absorbed (info_of o)).
Proof.
  intros K E.
  assert (NG : is_genset (m_kind m) = false) by (rewrite K; reflexivity).
  destruct (step_asked _ _ _ _ _ (ph_ok _ PH) NG E) as (da & e & m1 & A & P & U).
  destruct (request_unbalanced m u e K) as (H1 & H2).
  pose proof (ph_kind _ PH) as PK. rewrite K in PK. cbn in PK. destruct PK as [C1 C2].
  destruct (Qlt_le_dec e 0) as [L|L].
  - destruct (H2 L) as [H _]. rewrite H in U by (apply Qmult_le_0_compat; lra). injection U as _ U1 _ U2. rewrite <- U2, <- U1. cbn. lra.
  - destruct (H1 L) as [H _]. rewrite H in U by (apply Qmult_le_0_compat; lra). injection U as _ U1 _ U2. rewrite <- U2, <- U1. cbn. lra.
Qed.
Lemma grid_step gr t p q c s i e : m_kind m = KGrid gr t -> ts_row t (m_cur m) = Some [p; q; c; s] ->
  0 <= i -> 0 <= e -> i == 0 \/ e == 0 -> i <= gr_max_import gr -> e <= gr_max_export gr ->
  s == 1 \/ i == 0 /\ e == 0 -> step (VS (i - e)) false m = (m', Ok o) ->
  provided (info_of o) == i /\ absorbed (info_of o) == e
  /\ reward_of o == - (p * i + gr_cost_co2 gr * (c * i)) + q * e.
Proof.
  intros K R I0 E0 IE I1 E1 ST E.
  assert (NG : is_genset (m_kind m) = false) by (rewrite K; reflexivity).
  destruct (step_asked _ _ _ _ _ (ph_ok _ PH) NG E) as (da & x & m1 & A & P & U). cbn in A. injection A as <-.
  cbn in P. injection P as <-.
  assert (GT : gr_type gr <> Fixed) by (pose proof (ph_kind _ PH) as PK; rewrite K in PK; exact PK).
  destruct (request_grid m gr t p q c s (i - e) (ph_ok _ PH) K GT R) as (H1 & H2 & _).
  destruct (grid_limits m gr t p q c s (ph_ok _ PH) K R) as (_ & _ & _ & _ & M1 & M2 & _).
  unfold lenient in LE.
  destruct (Qlt_le_dec (i - e) 0) as [L|L].
  - destruct (H2 L) as (rw & co & y & Y & Y1 & Y2 & Y3); [congruence|].
    rewrite Y in U. injection U as _ U1 _ U2. rewrite <- U2, <- U1. cbn.
    assert (EY : y == e).
    { rewrite Y1. unfold clip. destruct ST as [ST|[ST1 ST2]]; [|lra]. destruct (Qlt_le_dec (gr_max_export gr * s) (- (i - e))) as [C|C].
      - rewrite ST in C. lra.
      - destruct (Qlt_le_dec (- (i - e)) 0); lra. }
    assert (I00 : i == 0) by lra.
    split; [lra|]. split; [exact EY|]. rewrite Y2, EY, I00. ring.
  - destruct (H1 L) as (rw & co & y & Y & Y1 & Y2 & Y3); [congruence|].
    rewrite Y in U. injection U as _ U1 _ U2. rewrite <- U2, <- U1. cbn.
    assert (E00 : e == 0) by lra.
    assert (EY : y == i).
    { rewrite Y1. unfold clip. destruct (Qlt_le_dec (gr_max_import gr * s) (i - e)) as [C|C].
      - destruct ST as [ST|[ST1 ST2]]; [rewrite ST in C; lra|].
        rewrite ST1, ST2 in C.
        assert (S0 : 0 <= s) by (destruct (grid_limits m gr t p q c s (ph_ok _ PH) K R) as ([S|S] & _); rewrite S; lra).
        pose proof (Qmult_le_0_compat _ _ M1 S0). lra.
      - destruct (Qlt_le_dec (i - e) 0); lra. }
    split; [exact EY|]. split; [lra|]. rewrite Y2, EY, E00. ring.
Qed.
Lemma genset_step s p : m_kind m = KGenset s -> g_start_up s = 0%Z -> g_wind_down s = 0%Z ->
  p == 0 \/ g_min_prod s <= p /\ p <= g_max_prod s -> 0 <= p ->
  step (VA [if Qle_bool p 0 then 0 else 1; p]) false m = (m', Ok o) ->
  provided (info_of o) == p /\ absorbed (info_of o) = 0
  /\ reward_of o == - (genset_get_cost s (provided (info_of o))).
Proof.
  intros K SU WD P P0 E.
  pose proof (ph_kind _ PH) as PK. rewrite K in PK. cbn in PK. destruct PK as ((q & GI) & MN & MM).
  destruct (step_genset_ok _ _ _ _ _ _ _ K GI MM E) as (g' & e & pr & _ & _ & _ & IN & RW & _).
  assert (NS : forall goal, next_status s goal = goal).
  { intros goal. destruct GI as (_ & _ & SH & PO). rewrite SU, WD in SH, PO. unfold next_status.
    destruct q; cbn in SH, PO; try lia; destruct SH as (S1 & S2 & S3 & S4); rewrite ?S1, ?S2, ?S3, ?S4; destruct goal; reflexivity. }
  assert (D : absorbed (info_of o) = 0 /\ provided (info_of o) == p).
  { destruct (Qle_bool p 0) eqn:L.
    - apply Qle_bool_iff in L. destruct (genset_delivered m m' s 0 p o PH K ltac:(lia) E) as [A D]. split; [exact A|].
      rewrite D. unfold next_min_production, next_max_production, times_status. rewrite NS. unum. cbn -[Qlt_le_dec]. unfold clip.
      destruct (Qlt_le_dec _ p); [lra|]. destruct (Qlt_le_dec p _); lra.
    - assert (~ p <= 0) by (intros X; apply Qle_bool_iff in X; congruence).
      destruct (genset_delivered m m' s 1 p o PH K ltac:(lia) E) as [A D]. split; [exact A|].
      rewrite D. unfold next_min_production, next_max_production, times_status. rewrite NS. unum. cbn -[Qlt_le_dec]. unfold clip.
      destruct P as [P|P]; [lra|]. destruct (Qlt_le_dec _ p); [lra|]. destruct (Qlt_le_dec p _); lra. }
  destruct D as [A D]. split; [exact D|]. split; [exact A|]. rewrite RW. rewrite IN. unfold provided. cbn. unum. lra.
Qed.
Lemma battery_moved b a : m_kind m = KBattery b -> step a false m = (m', Ok o) ->
  exists b', m_kind m' = KBattery b' /\ moved b b' (reward_of o) (info_of o).
Proof.
  intros K E. pose proof (ph_kind _ PH) as PK. rewrite K in PK. destruct PK as (WF & BI & C & Dd).
  rewrite step_not_genset in E by (rewrite K; reflexivity).
  destruct (base_step_cases _ _ _ _ _ E) as [[_ X]|(da & e & sd & _ & _ & _ & H)].
  { destruct X as (ex & X & _). discriminate X. }
  destruct H as [(ex & U & X)|(m1 & rw & d & i & U & H)]; [discriminate X|].
  destruct H as [(ex & ML & X)|(m2 & ML & H)]; [discriminate X|]. pose proof (module_log_kind _ _ _ _ _ _ ML) as KK.
  destruct (request_battery _ _ _ _ _ K WF BI U) as [[_ (ex & X)]|(b' & rw' & i' & -> & X & MV)]; [discriminate X|].
  injection X as -> -> ->. simpl in KK.
  assert (K2 : forall x, update_step false m2 = (m', x) -> m_kind m' = KBattery b').
  { intros x. unfold update_step, mbind, mmodify. simpl. rewrite KK. intros Q. injection Q as <- _. exact KK. }
  destruct H as [(ex & US & X)|[US X]]; [discriminate X|]. destruct (norm_obs m') as [ob|ex]; [|discriminate X]. injection X as ->.
  exists b'. split; [exact (K2 _ US)|exact MV].
Qed.
Lemma battery_step b c d : m_kind m = KBattery b -> 0 <= c -> 0 <= d -> c == 0 \/ d == 0 ->
  c <= battery_max_consumption b -> d <= battery_max_production b ->
  step (VS (d - c)) false m = (m', Ok o) ->
  absorbed (info_of o) == c /\ provided (info_of o) == d
  /\ reward_of o == - (b_cost_cycle b * (c * b_efficiency b + d / b_efficiency b))
  /\ exists b', m_kind m' = KBattery b' /\ b' = set_charge b (b_charge b') (b_soc b')
     /\ b_charge b' == b_charge b + c * b_efficiency b - d / b_efficiency b /\ b_soc b' == b_charge b' / b_max_capacity b.
Proof.
  intros K C0 D0 CD C1 D1 E.
  pose proof (ph_kind _ PH) as PK. rewrite K in PK. cbn in PK. destruct PK as (WF & BI & PC & PD).
  assert (EF : ~ b_efficiency b == 0) by (destruct WF as (W & _); lra).
  destruct (battery_limits _ WF BI PC PD) as [L1 L2].
  assert (NG : is_genset (m_kind m) = false) by (rewrite K; reflexivity).
  assert (NF : is_fixed (module_type (m_kind m)) = false) by (rewrite K; reflexivity).
  destruct (served_clip m m' (d - c) o NG NF E) as [S1 S2].
  assert (AP : absorbed (info_of o) == c /\ provided (info_of o) == d).
  { destruct (Qlt_le_dec (d - c) 0) as [L|L]; destruct CD as [CD|CD]; try lra.
    - destruct (S2 L) as (hi & MX & _ & A & P). unfold max_consumption in MX. rewrite K in MX.
      assert (hi = BFin (battery_max_consumption b)) as -> by congruence.
      rewrite A, P. unfold clip_to, clip. split; [|lra].
      destruct (Qlt_le_dec _ _); [lra|]. destruct (Qlt_le_dec _ _); lra.
    - destruct (S1 L) as (hi & MX & _ & P & A). unfold max_production in MX. rewrite K in MX.
      assert (hi = BFin (battery_max_production b)) as -> by congruence.
      assert (min_production m = 0) as MP by (unfold min_production; rewrite K; reflexivity).
      rewrite A, P, MP. unfold clip_to, clip. split; [lra|].
      destruct (Qlt_le_dec _ _); [lra|]. destruct (Qlt_le_dec _ _); lra.
    - destruct (S1 L) as (hi & MX & _ & P & A). unfold max_production in MX. rewrite K in MX.
      assert (hi = BFin (battery_max_production b)) as -> by congruence.
      assert (min_production m = 0) as MP by (unfold min_production; rewrite K; reflexivity).
      rewrite A, P, MP. unfold clip_to, clip. split; [lra|].
      destruct (Qlt_le_dec _ _); [lra|]. destruct (Qlt_le_dec _ _); lra. }
  destruct AP as [A P]. split; [exact A|]. split; [exact P|].
  destruct (battery_moved _ _ K E) as (b' & K' & MV).
  assert (Z : forall y, y == 0 -> y / b_efficiency b == 0) by (intros y Y; rewrite Y; field; exact EF).
  inversion MV as [x X0 X1 B1 B2 B3 B4 B5|x X0 X1 B1 B2 B3 B4 B5].
  - rewrite B5 in A, P. unfold absorbed in A. unfold provided in P. cbn in A, P.
    split; [rewrite B4, <- A, <- P; ring|]. exists b'. split; [exact K'|]. split; [exact B1|]. split; [|exact B3].
    rewrite B2, <- A, <- P. ring.
  - rewrite B5 in A, P. unfold absorbed in A. unfold provided in P. cbn in A, P.
    split; [rewrite B4, <- A, <- P; field; exact EF|]. exists b'. split; [exact K'|]. split; [exact B1|]. split; [|exact B3].
    rewrite B2, <- A, <- P. field; exact EF.
Qed.
End Steps.
