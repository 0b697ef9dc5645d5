(** * To modular and back *)

From Coq Require Import ZArith QArith Qabs Qminmax Bool String List Lia Lqa Permutation.
From Verif Require Import Num Py Space Logger Forecast Module Container Microgrid NonModular Conversion
  Proofs_Num Proofs_Logger Spec_Module Spec_Reach Proofs_Module Proofs_Ts Proofs_Any
  Spec_Microgrid Proofs_Container Proofs_Run Proofs_Mgrid Proofs_Views Proofs_Data
  Proofs_Build Proofs_MgProps Proofs_Obs Proofs_Episode Proofs_RbcRun Spec_NonModular Proofs_NonModular Proofs_NmRun Proofs_NmCost Proofs_NmEpisode Proofs_NmTotal
  Spec_Conversion Proofs_Conversion Proofs_Twin Proofs_Copy Proofs_Copy2 Proofs_Copy3 Proofs_Copy4 Proofs_Copy5.
Import ListNotations.
Local Open Scope string_scope.
Local Open Scope list_scope.
Local Open Scope py_scope.
Local Open Scope Q_scope.

Lemma min_soc_made (re : bool) (g : nonmod Q) m : get_battery_module g re = Ok m ->
  exists b smin, m_kind m = KBattery b /\ parameter g "battery_soc_min" smin /\ b_min_soc b == smin.
Proof.
  unfold get_battery_module. intros E.
  apply rbind_ok in E; destruct E as (cap & E1 & E). apply rbind_ok in E; destruct E as (smin & E2 & E).
  do 5 (apply rbind_ok in E; destruct E as (? & _ & E)). apply dfind_ok in E2.
  unfold new_battery in E. destruct (negb _); [discriminate|]. destruct (neqb _ _) eqn:Z; [discriminate|].
  cbn [init_battery rbind] in E. cbn in E.
  match goal with E : ?X = ?Y |- _ => match X with Ok ?y => injection E as E end end.
  subst m. eexists. exists smin. split; [reflexivity|]. split; [exact E2|]. cbn. unum. apply Qeq_bool_neq in Z. field. exact Z.
Qed.
Lemma grid_lengths (re : bool) (g : nonmod Q) m : get_grid_module g re = Ok m ->
  length (nm_export_ts g) = length (nm_import_ts g) /\ length (nm_co2_ts g) = length (nm_import_ts g) /\ length (nm_status_ts g) = length (nm_import_ts g).
Proof.
  unfold get_grid_module. intros E. do 3 (apply rbind_ok in E; destruct E as (? & _ & E)). apply rbind_ok in E. destruct E as (rows & E & _).
  apply four_rows in E. tauto.
Qed.

Lemma kind_renamed (m : module Q) nn : m_kind (set_name m nn) = m_kind m.
Proof. destruct m. reflexivity. Qed.
Lemma series_renamed (m : module Q) nn : series (set_name m nn) = series m.
Proof. destruct m. reflexivity. Qed.
Lemma column_inj (f : Q -> Q) (l l' : list Q) : map (fun x => [f x]) l = map (fun x => [x]) l' -> l' = map f l.
Proof.
  revert l'. induction l as [|a l IH]; intros [|b l'] E; try discriminate; [reflexivity|]. cbn in E. injection E as E1 E2. cbn. f_equal; [congruence|]. apply IH. exact E2.
Qed.
Lemma kept_exact (g g2 : nonmod Q) k x : parameter g k x -> parameter g2 k x -> kept g g2 k.
Proof. intros A B y C. unfold parameter in *. exists x. split; [exact B|]. assert (x = y) by congruence. subst. reflexivity. Qed.
Lemma same_nth (l l' : list Q) : length l = length l' -> (forall k x, nth_error l k = Some x -> nth_error l' k = Some x) -> l' = l.
Proof.
  revert l'. induction l as [|a l IH]; intros [|b l'] L F; try discriminate; [reflexivity|]. f_equal.
  - specialize (F 0%nat a eq_refl). cbn in F. congruence.
  - apply IH; [simpl in L; congruence|]. intros k x. exact (F (S k) x).
Qed.

Section Round.
Variables (round1 : Q -> Q) (poly : nat -> Q) (re : bool) (g : nonmod Q) (mg : mgrid Q).
Hypothesis TM : to_modular re g = Ok mg.

Lemma round_built : exists D, from_modules D mg /\ NoDup (map mdef_name D) /\ modular_list re g = Ok D
  /\ (forall i m, at_index mg i m -> exists d nn, nth_error D i = Some d /\ m = set_name (snd d) nn)
  /\ (forall d, In d D -> exists i nn, at_index mg i (set_name (snd d) nn)).
Proof.
  pose proof TM as E. unfold to_modular in E. apply rbind_ok in E. destruct E as (D & LD & E). exists D.
  pose proof (modular_converted _ _ _ LD) as CV. split; [|split; [exact (proj1 (modular_defs _ _ _ LD))|split; [exact LD|]]].
  - exists D, false, n0, n0, None, None, mg, []. split; [split; [|exact E]|split; reflexivity].
    eapply Forall_impl; [|exact CV]. intros d (_ & _ & B). exists (snd d), []. split; [exact B|reflexivity].
  - destruct (new_microgrid_inv _ _ _ _ _ _ _ E) as (ct & ms & GS & _ & M & SH & _).
    destruct (get_subcontainers_mods _ _ _ _ _ GS) as (LE & NTH). change (all_defs D false n0 n0) with D in *.
    split.
    + intros i m A. unfold at_index in A. rewrite M in A. destruct (nth_error D i) as [d|] eqn:ND.
      * rewrite (NTH i d ND) in A. injection A as <-. eauto.
      * apply nth_error_None in ND. exfalso; assert (i < length ms)%nat by (apply nth_error_Some; congruence). lia.
    + intros d I. apply In_nth_error in I. destruct I as (i & ND). exists i. eexists. unfold at_index. rewrite M. exact (NTH i d ND).
Qed.
Lemma round_part nm b r : In (b, nm, r) [(has_pv (nm_arch g), "PV", get_pv_module g re); (has_battery (nm_arch g), "battery", get_battery_module g re);
    (has_genset (nm_arch g), "genset", get_genset_module g re); (has_grid (nm_arch g), "grid", get_grid_module g re);
    (true, "load", get_load_module g re); (true, "unbalanced_energy", get_unbalanced_energy_module g re)] -> b = true ->
  exists m i nn, r = Ok m /\ at_index mg i (set_name m nn).
Proof.
  intros I B. destruct round_built as (D & _ & _ & LD & _ & AT). apply modular_parts in LD.
  destruct LD as (load & unb & pv & bat & gen & gri & L & U & P & BA & G & R & ->).
  assert (X : exists m, r = Ok m /\ In (Some nm, m) ([(Some "load", load); (Some "unbalanced_energy", unb)] ++ pv ++ bat ++ gen ++ gri)).
  { unfold part_of in *. cbn [In] in I. destruct I as [I|[I|[I|[I|[I|[I|[]]]]]]]; injection I as E1 E2 E3; subst nm r; try rewrite E1, B in *.
    - destruct P as (m & E & ->). exists m. split; [exact E|]. rewrite !in_app_iff. cbn. tauto.
    - destruct BA as (m & E & ->). exists m. split; [exact E|]. rewrite !in_app_iff. cbn. tauto.
    - destruct G as (m & E & ->). exists m. split; [exact E|]. rewrite !in_app_iff. cbn. tauto.
    - destruct R as (m & E & ->). exists m. split; [exact E|]. rewrite !in_app_iff. cbn. tauto.
    - exists load. split; [exact L|]. rewrite !in_app_iff. cbn. tauto.
    - exists unb. split; [exact U|]. rewrite !in_app_iff. cbn. tauto. }
  destruct X as (m & E & J). destruct (AT _ J) as (i & nn & A). eauto.
Qed.
Lemma round_flags m : any_module mg (fun x => class_of (m_kind x) = class_of (m_kind m)) ->
  (is_renewable m -> has_pv (nm_arch g) = true) /\ (is_battery m -> has_battery (nm_arch g) = true)
  /\ (is_grid m -> has_grid (nm_arch g) = true) /\ (is_a_genset m -> has_genset (nm_arch g) = true).
Proof.
  intros (i & x & A & C). destruct round_built as (D & _ & _ & LD & AT & _). destruct (AT i x A) as (d & nn & ND & ->).
  pose proof (modular_converted _ _ _ LD) as CV. rewrite Forall_forall in CV. destruct (CV d (nth_error_In _ _ ND)) as (V & _). clear CV.
  rewrite kind_renamed in C. rewrite is_renewable_iff, is_battery_iff, is_grid_iff, is_a_genset_iff, <- C.
  destruct V as [(_ & V & _)|[(_ & V & _)|[(H & _ & V & _)|[(H & _ & V & _)|[(H & _ & V & _)|(H & _ & V & _)]]]]].
  - destruct V as (_ & (t & ->) & _). cbn. conj; discriminate.
  - destruct V as (_ & u & -> & _). cbn. conj; discriminate.
  - destruct V as (_ & (t & ->) & _). cbn. conj; try discriminate; auto.
  - destruct V as (_ & b & ? & ? & ? & -> & _). cbn. conj; try discriminate; auto.
  - destruct V as (_ & _ & s & ? & ? & ? & ? & -> & _). cbn. conj; try discriminate; auto.
  - destruct V as (_ & (gr & t & -> & _) & _). cbn. conj; try discriminate; auto.
Qed.
Lemma bool_iff (a b : bool) : (a = true <-> b = true) -> a = b.
Proof. destruct a, b; intuition congruence. Qed.
Lemma went_round g2 : to_nonmodular round1 poly mg = Ok g2 -> round_trip g g2.
Proof.
  intros E. destruct round_built as (D & FM & ND & LD & AT & IN). pose proof (from_modules_inv D mg FM) as V.
  pose proof (nodup_names_sep D ND) as S. pose proof (to_nonmodular_contents round1 poly D mg g2 V S E) as NC.
  assert (PART : forall nm b r, _) by exact round_part.
  assert (ARCH : forall c (P : module Q -> Prop) (b b2 : bool), (forall m, P m <-> class_of (m_kind m) = c) -> (b2 = true <-> any_module mg P) ->
    (forall m, P m -> any_module mg (fun x => class_of (m_kind x) = class_of (m_kind m)) -> b = true) ->
    (b = true -> any_module mg P) -> b2 = b).
  { intros c P b b2 PC I1 I2 I3. apply bool_iff. rewrite I1. split; [|exact I3]. intros (i & m & A & K). apply (I2 m K). exists i, m. auto. }
  destruct (PART "load" true (get_load_module g re)) as (lm & li & ln & LM & LA); [cbn; tauto|reflexivity|].
  destruct (load_made _ _ _ LM) as ((_ & LK & LS & LF) & _).
  destruct (PART "unbalanced_energy" true (get_unbalanced_energy_module g re)) as (um & ui & un & UM & UA); [cbn; tauto|reflexivity|].
  destruct (unbalanced_made _ _ _ UM) as ((_ & u & UK & U1 & U2) & _).
  assert (PVIN : has_pv (nm_arch g) = true -> any_module mg is_renewable).
  { intros B. destruct (PART "PV" (has_pv (nm_arch g)) (get_pv_module g re)) as (m & i & nn & M & A); [cbn; tauto|exact B|].
    destruct (pv_made _ _ _ M) as ((_ & (t & K) & _) & _). exists i, (set_name m nn). split; [exact A|]. exists t. rewrite kind_renamed. exact K. }
  assert (PVOUT : any_module mg is_renewable -> has_pv (nm_arch g) = true).
  { intros (i & m & A & K). apply (round_flags m); [exists i, m; auto|exact K]. }
  assert (BAIN : has_battery (nm_arch g) = true -> any_module mg is_battery).
  { intros B. destruct (PART "battery" (has_battery (nm_arch g)) (get_battery_module g re)) as (m & i & nn & M & A); [cbn; tauto|exact B|].
    destruct (battery_made _ _ _ M) as ((_ & b & ? & ? & ? & K & _) & _). exists i, (set_name m nn). split; [exact A|]. exists b. rewrite kind_renamed. exact K. }
  assert (BAOUT : any_module mg is_battery -> has_battery (nm_arch g) = true).
  { intros (i & m & A & K). apply (round_flags m); [exists i, m; auto|exact K]. }
  assert (GRIN : has_grid (nm_arch g) = true -> any_module mg is_grid).
  { intros B. destruct (PART "grid" (has_grid (nm_arch g)) (get_grid_module g re)) as (m & i & nn & M & A); [cbn; tauto|exact B|].
    destruct (grid_made _ _ _ M) as ((_ & (gr & t & K & _) & _) & _). exists i, (set_name m nn). split; [exact A|]. exists gr, t. rewrite kind_renamed. exact K. }
  assert (GROUT : any_module mg is_grid -> has_grid (nm_arch g) = true).
  { intros (i & m & A & K). apply (round_flags m); [exists i, m; auto|exact K]. }
  assert (GEIN : has_genset (nm_arch g) = true -> any_module mg is_a_genset).
  { intros B. destruct (PART "genset" (has_genset (nm_arch g)) (get_genset_module g re)) as (m & i & nn & M & A); [cbn; tauto|exact B|].
    destruct (genset_made _ _ _ M) as ((_ & _ & s & ? & ? & ? & ? & K & _) & _). exists i, (set_name m nn). split; [exact A|]. exists s. rewrite kind_renamed. exact K. }
  assert (GEOUT : any_module mg is_a_genset -> has_genset (nm_arch g) = true).
  { intros (i & m & A & K). apply (round_flags m); [exists i, m; auto|exact K]. }
  assert (AR : nm_arch g2 = nm_arch g).
  { assert (X1 : has_pv (nm_arch g2) = has_pv (nm_arch g)).
    { rewrite (proj1 (nc_pv _ _ NC)). symmetry. apply PVOUT. apply (su_renewable mg). exact (proj2 (proj1 (to_nonmodular_iff round1 poly D mg V S) (ex_intro _ g2 E))). }
    assert (X2 : has_battery (nm_arch g2) = has_battery (nm_arch g)) by (apply bool_iff; rewrite (proj1 (nc_battery _ _ NC)); tauto).
    assert (X3 : has_genset (nm_arch g2) = has_genset (nm_arch g)) by (apply bool_iff; rewrite (proj1 (nc_genset _ _ NC)); tauto).
    assert (X4 : has_grid (nm_arch g2) = has_grid (nm_arch g)) by (apply bool_iff; rewrite (proj1 (nc_grid _ _ NC)); tauto).
    destruct (nm_arch g2), (nm_arch g). cbn in *. congruence. }
  constructor.
  - exact AR.
  - pose proof (nc_load _ _ NC li _ LA) as X. rewrite series_renamed, LS in X. symmetry. symmetry. apply column_inj. apply X.
    destruct LK as (t & K). exists t. rewrite kind_renamed. exact K.
  - assert (B : has_pv (nm_arch g) = true) by (rewrite <- AR; exact (proj1 (nc_pv _ _ NC))).
    destruct (PART "PV" (has_pv (nm_arch g)) (get_pv_module g re)) as (m & i & nn & M & A); [cbn; tauto|exact B|].
    destruct (pv_made _ _ _ M) as ((_ & (t & K) & _ & PS & _) & _). pose proof (proj2 (nc_pv _ _ NC) i _ A) as X. rewrite series_renamed, PS in X.
    apply column_inj. apply X. exists t. rewrite kind_renamed. exact K.
  - destruct (nc_unbalanced _ _ NC ui _ u UA) as (W1 & W2); [rewrite kind_renamed; exact UK|]. conj; [eapply kept_exact; eassumption|eapply kept_exact; eassumption|].
    destruct (nc_cost_co2 _ _ NC) as (C1 & C2 & C3 & _). intros HG. destruct (has_grid (nm_arch g)) eqn:BG; destruct (has_genset (nm_arch g)) eqn:BN.
    + destruct (PART "grid" true (get_grid_module g re)) as (m & i & nn & M & A); [cbn; tauto|reflexivity|].
      destruct (grid_made _ _ _ M) as ((_ & (gr & t & K & _ & _ & _ & PC) & _) & _).
      destruct (PART "genset" true (get_genset_module g re)) as (m' & j & nn' & M' & A'); [cbn; tauto|reflexivity|].
      destruct (genset_made _ _ _ M') as ((_ & _ & s & ? & ? & ? & ? & K' & _ & _ & _ & _ & _ & _ & _ & _ & PC' & _) & _).
      destruct (C3 i _ gr t j (set_name m' nn') s A) as (v & X1 & X2); [rewrite kind_renamed; exact K|exact A'|rewrite kind_renamed; exact K'|].
      intros y Y. exists v. split; [exact X1|]. rewrite X2. unfold parameter in *. assert (Y1 : gr_cost_co2 gr = y) by congruence.
      assert (Y2 : g_cost_co2 s = y) by congruence. rewrite Y1, Y2. field.
    + destruct (PART "grid" true (get_grid_module g re)) as (m & i & nn & M & A); [cbn; tauto|reflexivity|].
      destruct (grid_made _ _ _ M) as ((_ & (gr & t & K & _ & _ & _ & PC) & _) & _).
      eapply kept_exact; [exact PC|]. apply (C1 i _ gr t A); [rewrite kind_renamed; exact K|]. intros Z. apply GEOUT in Z. discriminate.
    + destruct (PART "genset" true (get_genset_module g re)) as (m' & j & nn' & M' & A'); [cbn; tauto|reflexivity|].
      destruct (genset_made _ _ _ M') as ((_ & _ & s & ? & ? & ? & ? & K' & _ & _ & _ & _ & _ & _ & _ & _ & PC' & _) & _).
      eapply kept_exact; [exact PC'|]. apply (C2 j _ s A'); [rewrite kind_renamed; exact K'|]. intros Z. apply GROUT in Z. discriminate.
    + destruct HG; discriminate.
  - intros B. destruct (PART "battery" (has_battery (nm_arch g)) (get_battery_module g re)) as (m & i & nn & M & A); [cbn; tauto|exact B|].
    destruct (battery_made _ _ _ M) as ((_ & b & cap & smin & soc & K & _ & P1 & P2 & SOC & Q1 & _ & _ & Q2 & P3 & P4 & P5 & P6) & _).
    destruct (min_soc_made _ _ _ M) as (b' & smin' & K' & P2' & MS). assert (b' = b) by congruence. subst b'.
    destruct (proj2 (nc_battery _ _ NC) i _ b A) as (_ & R2 & _ & R4 & R5 & R6 & R7 & R8 & R9 & R10); [rewrite kind_renamed; exact K|].
    split; [|split; [rewrite R2, SOC, Q2; reflexivity|exact R6]].
    repeat constructor; try (eapply kept_exact; eassumption).
    + rewrite Q1 in R4. eapply kept_exact; eassumption.
    + intros x X. exists (b_min_soc b). split; [exact R5|]. rewrite MS. unfold parameter in *. assert (smin' = x) by congruence. subst. reflexivity.
  - intros B. destruct (PART "genset" (has_genset (nm_arch g)) (get_genset_module g re)) as (m & i & nn & M & A); [cbn; tauto|exact B|].
    destruct (genset_made _ _ _ M) as ((_ & _ & s & rated & pmin & pmax & fuel & K & P1 & P2 & P3 & P4 & Q1 & Q2 & Q3 & P5 & _) & _).
    destruct (proj2 (nc_genset _ _ NC) i _ s A) as (rated' & pmin' & pmax' & fuel' & R1 & R2 & R3 & R4 & R5 & R6 & R7 & R8); [rewrite kind_renamed; exact K|].
    assert (fuel' = fuel) by congruence. subst fuel'. split; [eapply kept_exact; eassumption|]. split; [eapply kept_exact; eassumption|].
    intros x y z X Y Z. exists rated', pmin', pmax'. unfold parameter in *. assert (x = rated) by congruence. assert (y = pmin) by congruence. assert (z = pmax) by congruence. subst.
    conj; auto; [rewrite R5, Q1|rewrite R6, Q2]; ring.
  - intros B. destruct (PART "grid" (has_grid (nm_arch g)) (get_grid_module g re)) as (m & i & nn & M & A); [cbn; tauto|exact B|].
    destruct (grid_made _ _ _ M) as ((_ & (gr & t & K & _ & P1 & P2 & _) & L & ROW & _) & MO & _).
    destruct (grid_lengths _ _ _ M) as (L1 & L2 & L3).
    destruct (proj2 (nc_grid _ _ NC) i _ gr t A) as (R1 & R2 & RL & RR); [rewrite kind_renamed; exact K|].
    split; [eapply kept_exact; eassumption|]. split; [eapply kept_exact; eassumption|].
    rewrite series_renamed in RL, RR. inversion RL as [|? ? N1 RL1]; subst. inversion RL1 as [|? ? N2 RL2]; subst. inversion RL2 as [|? ? N3 RL3]; subst.
    inversion RL3 as [|? ? N4 _]; subst. clear RL RL1 RL2 RL3.
    pose proof (grid_width m gr t MO K) as W.
    assert (ALL : forall k, (k < length (nm_import_ts g))%nat -> exists p e c s, nth_error (series m) k = Some [p; e; c; s]).
    { intros k Lk. rewrite <- L in Lk. apply nth_error_Some in Lk. unfold series in *. rewrite K in *. cbn [kind_ts] in *.
      destruct (nth_error (ts_rows t) k) as [r|] eqn:X; [|congruence]. apply nth_error_In in X. rewrite Forall_forall in W. specialize (W r X).
      destruct r as [|p [|e [|c [|s [|? ?]]]]]; try discriminate. eauto. }
    conj; apply same_nth; try congruence; intros k x X;
      (assert (Lk : (k < length (nm_import_ts g))%nat) by (assert (nth_error _ k <> None) by (rewrite X; discriminate); apply nth_error_Some in H; congruence || lia));
      destruct (ALL k Lk) as (p & e & c & s & RW); destruct (RR k p e c s RW) as (Z1 & Z2 & Z3 & Z4); apply ROW in RW; destruct RW as (Y1 & Y2 & Y3 & Y4); congruence.
  - assert (T : is_ts (set_name lm ln)). { unfold is_ts. rewrite kind_renamed. destruct LK as (t & ->). discriminate. }
    rewrite (nc_horizon _ _ NC li _ LA T). destruct LF as (H & _). assert (horizon (set_name lm ln) = horizon lm) as -> by (unfold horizon; rewrite kind_renamed; reflexivity).
    rewrite H. lia.
  - destruct (nc_start _ _ NC) as (T0 & _ & DN & _). auto.
Qed.
(** what a module of the copy is, by class *)
Lemma round_module i m : at_index mg i m -> exists m0 nn nm, m = set_name m0 nn /\ brand_new re m0
  /\ (forall D, modular_list re g = Ok D -> exists d, nth_error D i = Some d /\ mdef_name d = nm)
  /\ ((class_of (m_kind m0) = 0%nat /\ nm = "load" /\ load_of re g m0)
      \/ (class_of (m_kind m0) = 5%nat /\ nm = "unbalanced_energy" /\ unbalanced_of re g m0)
      \/ (class_of (m_kind m0) = 1%nat /\ nm = "PV" /\ pv_of re g m0)
      \/ (class_of (m_kind m0) = 2%nat /\ nm = "battery" /\ battery_of re g m0)
      \/ (class_of (m_kind m0) = 4%nat /\ nm = "genset" /\ genset_of re g m0 /\ has_genset (nm_arch g) = true)
      \/ (class_of (m_kind m0) = 3%nat /\ nm = "grid" /\ grid_of re g m0 /\ has_grid (nm_arch g) = true)).
Proof.
  intros A. destruct round_built as (D & _ & _ & LD & AT & _). destruct (AT i m A) as (d & nn & ND & ->).
  pose proof (modular_converted _ _ _ LD) as CV. rewrite Forall_forall in CV. destruct (CV d (nth_error_In _ _ ND)) as (V & _). clear CV.
  exists (snd d), nn, (mdef_name d). split; [reflexivity|]. split; [|split].
  - destruct V as [(_ & V & _)|[(_ & V & _)|[(H & _ & V & _)|[(H & _ & V & _)|[(H & _ & V & _)|(H & _ & V & _)]]]]]; destruct V as (V & _); exact V.
  - intros D' LD'. assert (D' = D) by congruence. subst. eauto.
  - destruct V as [(N & V & _)|[(N & V & _)|[(H & N & V & _)|[(H & N & V & _)|[(H & N & V & _)|(H & N & V & _)]]]]]; rewrite N; cbn [mdef_name fst snd].
    + left. conj; auto. destruct V as (_ & (t & ->) & _). reflexivity.
    + right; left. conj; auto. destruct V as (_ & u & -> & _). reflexivity.
    + right; right; left. conj; auto. destruct V as (_ & (t & ->) & _). reflexivity.
    + do 3 right; left. conj; auto. destruct V as (_ & b & ? & ? & ? & -> & _). reflexivity.
    + do 4 right; left. conj; auto. destruct V as (_ & _ & s & ? & ? & ? & ? & -> & _). reflexivity.
    + do 5 right. conj; auto. destruct V as (_ & (gr & t & -> & _) & _). reflexivity.
Qed.
Lemma round_goes : has_pv (nm_arch g) = true -> (2 <= length (nm_load_ts g))%nat -> (2 <= length (nm_pv_ts g))%nat ->
  (has_grid (nm_arch g) = true -> nm_import_ts g <> []) ->
  (has_genset (nm_arch g) = true -> exists rated pmax, parameter g "genset_rated_power" rated /\ parameter g "genset_pmax" pmax /\ ~ rated * pmax == 0) ->
  exists g2, to_nonmodular round1 poly mg = Ok g2.
Proof.
  intros HP L1 L2 HG HS. destruct round_built as (D & FM & ND & LD & AT & IN). pose proof (from_modules_inv D mg FM) as V.
  pose proof (nodup_names_sep D ND) as S. apply (to_nonmodular_iff round1 poly D mg V S). split; [split; [exact ND|split]|constructor].
  - intros i j m m' A A' C. apply same_class_iff in C.
    destruct (round_module i m A) as (m0 & nn & nm & -> & _ & N & K). destruct (round_module j m' A') as (m0' & nn' & nm' & -> & _ & N' & K').
    rewrite !kind_renamed in C. assert (E : nm = nm') by (destruct K as [K|[K|[K|[K|[K|K]]]]]; destruct K' as [K'|[K'|[K'|[K'|[K'|K']]]]]; destruct K as (K1 & -> & _); destruct K' as (K1' & -> & _); congruence).
    destruct (N D LD) as (d & X & Y). destruct (N' D LD) as (d' & X' & Y'). apply (proj1 (NoDup_nth_error _) ND i j).
    + rewrite map_length. apply nth_error_Some. congruence.
    + rewrite !nth_error_map, X, X'. cbn. congruence.
  - destruct (round_part "load" true (get_load_module g re)) as (m & i & nn & M & A); [cbn; tauto|reflexivity|].
    destruct (load_made _ _ _ M) as ((_ & (t & K) & _) & _). exists i, (set_name m nn). split; [exact A|]. exists t. rewrite kind_renamed. exact K.
  - destruct (round_part "PV" (has_pv (nm_arch g)) (get_pv_module g re)) as (m & i & nn & M & A); [cbn; tauto|exact HP|].
    destruct (pv_made _ _ _ M) as ((_ & (t & K) & _) & _). exists i, (set_name m nn). split; [exact A|]. exists t. rewrite kind_renamed. exact K.
  - intros i m A C. destruct (round_module i m A) as (m0 & nn & nm & -> & (C0 & _) & _ & K). rewrite is_load_iff, is_renewable_iff in C. rewrite kind_renamed in C.
    assert (CU : m_cur (set_name m0 nn) = 0%Z) by (destruct m0; exact C0). rewrite CU, series_renamed.
    destruct K as [(K & _ & X)|[(K & _)|[(K & _ & X)|[(K & _)|[(K & _)|(K & _)]]]]]; try (exfalso; destruct C; congruence).
    + destruct X as (_ & _ & -> & _). rewrite map_length. lia.
    + destruct X as (_ & _ & _ & -> & _). rewrite map_length. lia.
  - intros i m A C. destruct (round_module i m A) as (m0 & nn & nm & -> & _ & _ & K). rewrite is_grid_iff, kind_renamed in C. rewrite series_renamed.
    destruct K as [(K & _ & X)|[(K & _)|[(K & _ & X)|[(K & _)|[(K & _)|(K & _ & X & H)]]]]]; try (exfalso; congruence).
    destruct X as (_ & _ & L & _). intros Z. rewrite Z in L. specialize (HG H). destruct (nm_import_ts g); [congruence|discriminate].
  - intros i m s A C. destruct (round_module i m A) as (m0 & nn & nm & -> & _ & _ & K). rewrite kind_renamed in C.
    destruct K as [(K & _ & X)|[(K & _)|[(K & _ & X)|[(K & _)|[(K & _ & X & H)|(K & _)]]]]]; try (exfalso; rewrite C in K; discriminate K).
    destruct X as (_ & _ & s' & rated & pmin & pmax & fuel & K' & P1 & P2 & P3 & P4 & Q1 & Q2 & Q3 & _). assert (s' = s) by congruence. subst s'.
    destruct (HS H) as (r & p & R1 & R2 & R3). unfold parameter in *. assert (r = rated) by congruence. assert (p = pmax) by congruence. subst.
    split; [|eauto]. rewrite Q2. intros Z. apply R3. rewrite Qmult_comm. exact Z.
  - assert (TS : forall i m, at_index mg i m -> is_ts m -> horizon m = Z.to_nat (nm_horizon g - 1)).
    { intros i m A T. destruct (round_module i m A) as (m0 & nn & nm & -> & _ & _ & K).
      assert (horizon (set_name m0 nn) = horizon m0) as -> by (unfold horizon; rewrite kind_renamed; reflexivity).
      unfold is_ts in T. rewrite kind_renamed in T.
      destruct K as [(K & _ & X)|[(K & _)|[(K & _ & X)|[(K & _)|[(K & _ & X & H)|(K & _ & X & _)]]]]]; try (exfalso; destruct (m_kind m0); try discriminate K; apply T; reflexivity).
      - destruct X as (_ & _ & _ & F & _). exact F.
      - destruct X as (_ & _ & _ & _ & F & _). exact F.
      - destruct X as (_ & _ & _ & _ & F & _). exact F. }
    intros i j m m' A A' T T'. rewrite (TS i m A T), (TS j m' A' T'). reflexivity.
Qed.
End Round.
