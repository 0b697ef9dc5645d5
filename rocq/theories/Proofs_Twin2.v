(** * A non-modular microgrid and its modular copy, side by side *)

From Coq Require Import ZArith QArith Qabs Qminmax Bool String List Lia Lqa Permutation.
From Verif Require Import Num Py Space Logger Forecast Module Container Microgrid NonModular Conversion
  Proofs_Num Proofs_Logger Spec_Module Spec_Reach Proofs_Module Proofs_Ts Proofs_Any Proofs_Request
  Proofs_Battery Proofs_Genset Proofs_Data Proofs_Classes Proofs_Props
  Spec_Microgrid Spec_Sane Spec_Shaping Proofs_Container Proofs_Run Proofs_Mgrid Proofs_Views Proofs_MgProps Proofs_MgProps2
  Proofs_Build Proofs_Sane Proofs_Progress Proofs_Control Proofs_Rebuild Proofs_Episode Proofs_Rbc Proofs_RbcRun
  Spec_NonModular Proofs_NonModular Proofs_NmRun Proofs_NmReads Proofs_NmBattery Proofs_NmCost Proofs_NmTotal Proofs_NmEpisode
  Proofs_NmHistory Spec_Conversion Proofs_Conversion Proofs_Twin.
Import ListNotations.
Local Open Scope string_scope.
Local Open Scope list_scope.
Local Open Scope Q_scope.

Lemma under_min x a b : x <= a -> x <= b -> x <= nmin a b.
Proof. intros. destruct (Qmin_spec a b) as (_ & _ & [->| ->]); assumption. Qed.

(** ** The flex modules *)
Lemma members_rest nm s (ds : list (mdef Q)) : forall i,
  Forall (fun d => module_type (m_kind (snd d)) = Controllable) ds -> members nm (Flex, s) i ds = [].
Proof.
  induction ds as [|d ds IH]; intros i F; [reflexivity|]. inversion F as [|? ? C F']; subst. cbn [members].
  unfold category_of. cbn [fst snd]. rewrite C. cbn [mtype_eqb]. rewrite andb_false_r. cbn. apply IH. exact F'.
Qed.
Lemma one_key {A} (d : dict A) k v : NoDup (map fst d) -> dget k d = Some v -> (forall k', k' <> k -> dget k' d = None) -> d = [(k, v)].
Proof.
  intros ND G N. assert (K : forall k', In k' (map fst d) -> k' = k).
  { intros k' I. destruct (String.string_dec k' k) as [E|E]; [exact E|]. exfalso.
    apply (proj1 (Proofs_Num.dget_None _ _) (N k' E)). exact I. }
  destruct d as [|[k1 v1] [|[k2 v2] d]].
  - discriminate G.
  - cbn in G. assert (k1 = k) as -> by (apply K; left; reflexivity). rewrite String.eqb_refl in G. congruence.
  - exfalso. assert (k1 = k) by (apply K; left; reflexivity). assert (k2 = k) by (apply K; right; left; reflexivity). subst.
    inversion ND as [|? ? X _]. apply X. left. reflexivity.
Qed.
Lemma no_key {A} (d : dict A) : (forall k, dget k d = None) -> d = [].
Proof. destruct d as [|[k v] d]; [reflexivity|]. intros N. specialize (N k). cbn in N. rewrite String.eqb_refl in N. discriminate. Qed.

Lemma flex_parts load unb pv rest (mg : mgrid Q) :
  mg_inv ([(Some "load", load); (Some "unbalanced_energy", unb); (Some "PV", pv)] ++ rest) mg ->
  (exists t, m_kind load = KLoad t) -> (exists u, m_kind unb = KUnbalanced u) -> (exists t, m_kind pv = KRenewable t) ->
  Forall (fun d : mdef Q => module_type (m_kind (snd d)) = Controllable) rest ->
  concat (map snd (part_dict Flex mg)) = [2; 1]%nat.
Proof.
  intros V (t & K1) (u & K2) (t' & K3) F.
  assert (M : forall nm s, members nm (Flex, s) 0 ([(Some "load", load); (Some "unbalanced_energy", unb); (Some "PV", pv)] ++ rest)
    = if String.eqb nm "PV" && ssink_eqb s Sources then [2]%nat
      else if String.eqb nm "unbalanced_energy" && ssink_eqb s SourceAndSinks then [1]%nat else []).
  { intros nm s. cbn [app members]. unfold category_of, mdef_name. cbn [fst snd]. rewrite K1, K2, K3. cbn [module_type ssink_of mtype_eqb].
    rewrite members_rest by exact F. rewrite !andb_true_r, !andb_false_r. cbn [andb].
    destruct (String.eqb nm "PV") eqn:E1, (String.eqb nm "unbalanced_energy") eqn:E2;
      try (apply String.eqb_eq in E1; apply String.eqb_eq in E2; congruence); destruct s; reflexivity. }
  assert (S1 : ctc (mg_ct mg) (Flex, Sources) = [("PV", [2]%nat)]).
  { apply one_key; [apply (iv_nodup _ _ V)|rewrite (iv_ct _ _ V), M; reflexivity|].
    intros k N. rewrite (iv_ct _ _ V), M. apply String.eqb_neq in N. rewrite N. cbn [andb ssink_eqb]. rewrite andb_false_r. reflexivity. }
  assert (S2 : ctc (mg_ct mg) (Flex, Sinks) = []).
  { apply no_key. intros k. rewrite (iv_ct _ _ V), M. cbn [ssink_eqb]. rewrite !andb_false_r. reflexivity. }
  assert (S3 : ctc (mg_ct mg) (Flex, SourceAndSinks) = [("unbalanced_energy", [1]%nat)]).
  { apply one_key; [apply (iv_nodup _ _ V)|rewrite (iv_ct _ _ V), M; reflexivity|].
    intros k N. rewrite (iv_ct _ _ V), M. apply String.eqb_neq in N. rewrite N. cbn [andb ssink_eqb]. rewrite !andb_false_r. reflexivity. }
  unfold part_dict. rewrite subs_of_cat. cbn [all_ssinks map]. rewrite S1, S2, S3. reflexivity.
Qed.

(** ** Side by side *)
Section Twin.
Variables (g0 : nonmod Q) (D : list (mdef Q)).
Hypothesis PL : plausible g0.
Hypothesis HP : has_pv (nm_arch g0) = true.
Hypothesis LD : modular_list false g0 = Ok D.

Record twin (g : nonmod Q) (mg : mgrid Q) : Prop := mkTwin {
  tw_from : from_modules D mg;
  tw_shaper : mg_shaper mg = None;
  tw_cur : forall i m, at_index mg i m -> m_cur m = nm_t g;
  tw_par : nm_par g = nm_par g0;
  tw_desc : descends g0 g;
  tw_use : nm_use g = All;
  tw_reads : reads_now g;
  tw_clock : clock_ok g;
  tw_eq : equipped g;
  tw_soc : forall i m b soc, at_index mg i m -> m_kind m = KBattery b -> latest (nm_state g) "battery_soc" (CNum soc) ->
    b_soc b == soc /\ b_charge b == soc * b_max_capacity b
}.

(** The list *)
Lemma the_list : exists load unb pv rest, D = [(Some "load", load); (Some "unbalanced_energy", unb); (Some "PV", pv)] ++ rest
  /\ load_of false g0 load /\ unbalanced_of false g0 unb /\ pv_of false g0 pv
  /\ Forall (fun d : mdef Q => module_type (m_kind (snd d)) = Controllable) rest.
Proof.
  pose proof LD as E. apply modular_parts in E. destruct E as (load & unb & pv & bat & gen & gri & L & U & P & B & G & R & ->).
  rewrite HP in P. destruct P as (pvm & P & ->).
  exists load, unb, pvm, (bat ++ gen ++ gri). split; [reflexivity|].
  split; [exact (proj1 (load_made _ _ _ L))|]. split; [exact (proj1 (unbalanced_made _ _ _ U))|]. split; [exact (proj1 (pv_made _ _ _ P))|].
  rewrite !Forall_app. conj; apply Forall_forall; intros d I.
  - destruct (part_in _ _ _ _ _ B I) as (_ & _ & Z). destruct (battery_made _ _ _ Z) as ((_ & b & _ & _ & _ & K & _) & _). rewrite K. reflexivity.
  - destruct (part_in _ _ _ _ _ G I) as (_ & _ & Z). destruct (genset_made _ _ _ Z) as ((_ & _ & s & _ & _ & _ & _ & K & _) & _). rewrite K. reflexivity.
  - destruct (part_in _ _ _ _ _ R I) as (_ & _ & Z). destruct (grid_made _ _ _ Z) as ((_ & (gr & t & K & T & _) & _) & _). rewrite K. exact T.
Qed.
Lemma list_battery : has_battery (nm_arch g0) = true -> exists i m, nth_error D i = Some (Some "battery", m) /\ battery_of false g0 m.
Proof.
  intros H. pose proof LD as E. apply modular_parts in E. destruct E as (load & unb & pv & bat & gen & gri & L & U & P & B & G & R & ->).
  rewrite H in B. destruct B as (m & B & ->).
  assert (I : In (Some "battery", m) ([(Some "load", load); (Some "unbalanced_energy", unb)] ++ pv ++ [(Some "battery", m)] ++ gen ++ gri)).
  { rewrite !in_app_iff. right; right; left. left. reflexivity. }
  apply In_nth_error in I. destruct I as (i & N). exists i, m. split; [exact N|exact (proj1 (battery_made _ _ _ B))].
Qed.
Lemma list_genset : has_genset (nm_arch g0) = true -> exists i m, nth_error D i = Some (Some "genset", m) /\ genset_of false g0 m.
Proof.
  intros H. pose proof LD as E. apply modular_parts in E. destruct E as (load & unb & pv & bat & gen & gri & L & U & P & B & G & R & ->).
  rewrite H in G. destruct G as (m & G & ->).
  assert (I : In (Some "genset", m) ([(Some "load", load); (Some "unbalanced_energy", unb)] ++ pv ++ bat ++ [(Some "genset", m)] ++ gri)).
  { rewrite !in_app_iff. right; right; right; left. left. reflexivity. }
  apply In_nth_error in I. destruct I as (i & N). exists i, m. split; [exact N|exact (proj1 (genset_made _ _ _ G))].
Qed.
Lemma list_grid : has_grid (nm_arch g0) = true -> exists i m, nth_error D i = Some (Some "grid", m) /\ grid_of false g0 m.
Proof.
  intros H. pose proof LD as E. apply modular_parts in E. destruct E as (load & unb & pv & bat & gen & gri & L & U & P & B & G & R & ->).
  rewrite H in R. destruct R as (m & R & ->).
  assert (I : In (Some "grid", m) ([(Some "load", load); (Some "unbalanced_energy", unb)] ++ pv ++ bat ++ gen ++ [(Some "grid", m)])).
  { rewrite !in_app_iff. right; right; right; right. left. reflexivity. }
  apply In_nth_error in I. destruct I as (i & N). exists i, m. split; [exact N|exact (proj1 (grid_made _ _ _ R))].
Qed.
Lemma list_cases d : In d D -> converted false g0 d.
Proof. intros I. pose proof (modular_converted _ _ _ LD) as F. rewrite Forall_forall in F. exact (proj1 (F d I)). Qed.
Lemma list_nodup : NoDup (map mdef_name D).
Proof. exact (proj1 (modular_defs _ _ _ LD)). Qed.
Lemma list_names d : In d D -> In (mdef_name d) ["load"; "unbalanced_energy"; "PV"; "battery"; "genset"; "grid"].
Proof.
  intros I. pose proof (list_cases d I) as C. unfold converted in C.
  destruct C as [(-> & _)|[(-> & _)|[(_ & -> & _)|[(_ & -> & _)|[(_ & -> & _)|(_ & -> & _)]]]]]; cbn; tauto.
Qed.
Lemma list_sane_reachable : Forall (fun d => sane_reachable (snd d)) D.
Proof.
  pose proof (list_sane false g0 PL D LD) as S. eapply Forall_impl; [|exact S]. intros d SD.
  exists (snd d), []. split; [exact SD|reflexivity].
Qed.

Section One.
Variables (g : nonmod Q) (mg : mgrid Q).
Hypothesis TW : twin g mg.

Lemma tw_arch : nm_arch g = nm_arch g0. Proof. exact (ds_arch _ _ (tw_desc _ _ TW)). Qed.
Lemma tw_param k x : parameter g k x <-> parameter g0 k x.
Proof. unfold parameter. rewrite (tw_par _ _ TW). tauto. Qed.

Lemma tw_at i d : nth_error D i = Some d -> exists m, at_index mg i m /\ phys m /\ lenient m /\ mod_like (snd d) m.
Proof.
  intros N. pose proof (from_modules_inv _ _ (tw_from _ _ TW)) as V.
  destruct (Proofs_Run.Forall2_nth _ _ _ i d (iv_mods _ _ V) N) as (m & N' & _ & ML).
  exists m. split; [exact N'|]. pose proof (from_phys _ _ (tw_from _ _ TW) list_sane_reachable) as P. rewrite Forall_forall in P.
  split; [apply P; eapply nth_error_In; exact N'|]. split; [|exact ML].
  unfold lenient. rewrite (ml_raise _ _ ML). apply (proj1 (list_finals false g0 PL D LD) d). eapply nth_error_In; exact N.
Qed.

(** The clock points into the data. *)
Lemma tw_time : exists k, nm_t g = Z.of_nat k /\ (k < length (nm_load_ts g0))%nat.
Proof.
  destruct (tw_clock _ _ TW) as [L T _ _]. rewrite (tw_use _ _ TW), data_length_all in L.
  exists (Z.to_nat (nm_t g)). split; [lia|].
  pose proof (ds_load _ _ (tw_desc _ _ TW)) as E. unfold all_rows in L. rewrite E in L. lia.
Qed.
Lemma tw_now l x : at_step g 0 l x -> forall k, nm_t g = Z.of_nat k -> nth_error l k = Some x.
Proof.
  intros [_ A] k E. unfold data in A. rewrite (tw_use _ _ TW), E in A. rewrite Z.add_0_r, Nat2Z.id in A. exact A.
Qed.
Lemma like_ts (m m' : module Q) t : mod_like m m' -> kind_ts (m_kind m) = Some t -> exists t', kind_ts (m_kind m') = Some t' /\ ts_rows t' = ts_rows t.
Proof.
  intros [K _ _ _ _ _] E. destruct (m_kind m) as [b|s|gg u|u|u|u], (m_kind m') as [b'|s'|gg' u'|u'|u'|u']; cbn in K, E; try discriminate; try contradiction;
    injection E as ->.
  - destruct K as [_ (f & K)]. exists u'. split; [reflexivity|]. exact (same_rows _ _ K).
  - destruct K as (f & K). exists u'. split; [reflexivity|]. exact (same_rows _ _ K).
  - destruct K as (f & K). exists u'. split; [reflexivity|]. exact (same_rows _ _ K).
Qed.

Lemma tw_load i d m : nth_error D i = Some d -> load_of false g0 (snd d) -> at_index mg i m -> mod_like (snd d) m ->
  exists t, m_kind m = KLoad t /\ ts_row t (m_cur m) = Some [- Qabs (now_load (nm_now g))].
Proof.
  intros N (_ & (t0 & K0) & S & _) A ML. destruct (like_ts _ _ t0 ML) as (t & K & R); [rewrite K0; reflexivity|].
  pose proof (ml_kind _ _ ML) as KL. rewrite K0 in KL. destruct (m_kind m) as [b'|s'|gg' u'|u'|u'|u'] eqn:KM; cbn in KL; try contradiction.
  cbn in K. injection K as ->. exists t. split; [reflexivity|].
  destruct tw_time as (k & T & LT). unfold ts_row. rewrite (tw_cur _ _ TW _ _ A), T, py_nth_nat, R.
  unfold series in S. rewrite K0 in S. cbn in S. rewrite S, nth_error_map.
  destruct (tw_reads _ _ TW) as (RL & _). rewrite (ds_load _ _ (tw_desc _ _ TW)) in RL.
  rewrite (tw_now _ _ RL k T). reflexivity.
Qed.
Lemma tw_pv i d m : nth_error D i = Some d -> pv_of false g0 (snd d) -> at_index mg i m -> mod_like (snd d) m ->
  exists t, m_kind m = KRenewable t /\ ts_row t (m_cur m) = Some [Qabs (now_pv (nm_now g))].
Proof.
  intros N (_ & (t0 & K0) & _ & S & _) A ML. destruct (like_ts _ _ t0 ML) as (t & K & R); [rewrite K0; reflexivity|].
  pose proof (ml_kind _ _ ML) as KL. rewrite K0 in KL. destruct (m_kind m) as [b'|s'|gg' u'|u'|u'|u'] eqn:KM; cbn in KL; try contradiction.
  cbn in K. injection K as ->. exists t. split; [reflexivity|].
  destruct tw_time as (k & T & LT). unfold ts_row. rewrite (tw_cur _ _ TW _ _ A), T, py_nth_nat, R.
  unfold series in S. rewrite K0 in S. cbn in S. rewrite S, nth_error_map.
  destruct (tw_reads _ _ TW) as (_ & RL & _). rewrite (ds_pv _ _ (tw_desc _ _ TW)) in RL.
  rewrite (tw_now _ _ RL k T). reflexivity.
Qed.
Lemma tw_grid i d m : nth_error D i = Some d -> has_grid (nm_arch g0) = true -> grid_of false g0 (snd d) -> at_index mg i m -> mod_like (snd d) m ->
  exists gr t, m_kind m = KGrid gr t
    /\ ts_row t (m_cur m) = Some [now_import (nm_now g); now_export (nm_now g); now_co2 (nm_now g); now_status (nm_now g)]
    /\ parameter g "grid_power_import" (gr_max_import gr) /\ parameter g "grid_power_export" (gr_max_export gr)
    /\ parameter g "cost_co2" (gr_cost_co2 gr).
Proof.
  intros N H (_ & (gr & t0 & K0 & TY & P1 & P2 & P3) & _ & S & _) A ML. destruct (like_ts _ _ t0 ML) as (t & K & R); [rewrite K0; reflexivity|].
  pose proof (ml_kind _ _ ML) as KL. rewrite K0 in KL. destruct (m_kind m) as [b'|s'|gg' u'|u'|u'|u'] eqn:KM; cbn in KL; try contradiction.
  destruct KL as [-> _]. cbn in K. injection K as ->. exists gr, t. split; [reflexivity|].
  rewrite !tw_param. split; [|auto].
  destruct tw_time as (k & T & LT). unfold ts_row. rewrite (tw_cur _ _ TW _ _ A), T, py_nth_nat, R.
  unfold series in S. rewrite K0 in S. cbn in S. apply S.
  destruct (tw_reads _ _ TW) as (_ & _ & RG). rewrite tw_arch in RG. specialize (RG H).
  pose proof (tw_desc _ _ TW) as DS. rewrite (ds_status _ _ DS), (ds_import _ _ DS), (ds_export _ _ DS), (ds_co2 _ _ DS) in RG.
  destruct RG as (R1 & R2 & R3 & R4).
  rewrite (tw_now _ _ R1 k T), (tw_now _ _ R2 k T), (tw_now _ _ R3 k T), (tw_now _ _ R4 k T). auto.
Qed.
Lemma tw_battery i d m : nth_error D i = Some d -> battery_of false g0 (snd d) -> at_index mg i m -> mod_like (snd d) m ->
  exists b cap smin, m_kind m = KBattery b /\ parameter g "battery_capacity" cap /\ parameter g "battery_soc_min" smin
    /\ b_max_capacity b = cap /\ b_min_capacity b = cap * smin
    /\ parameter g "battery_power_charge" (b_max_charge b) /\ parameter g "battery_power_discharge" (b_max_discharge b)
    /\ parameter g "battery_efficiency" (b_efficiency b) /\ parameter g "battery_cost_cycle" (b_cost_cycle b).
Proof.
  intros N (_ & b0 & cap & smin & soc & K0 & _ & P1 & P2 & _ & E1 & E2 & _ & _ & P3 & P4 & P5 & P6) A ML.
  pose proof (ml_kind _ _ ML) as KL. rewrite K0 in KL. destruct (m_kind m) as [b'|s'|gg' u'|u'|u'|u'] eqn:KM; cbn in KL; try contradiction.
  destruct KL as (c & s & ->). exists (set_charge b0 c s), cap, smin. rewrite !tw_param. cbn. auto 10.
Qed.
Lemma tw_genset i d m : nth_error D i = Some d -> genset_of false g0 (snd d) -> at_index mg i m -> mod_like (snd d) m ->
  exists s rated pmin pmax fuel, m_kind m = KGenset s
    /\ parameter g "genset_rated_power" rated /\ parameter g "genset_pmin" pmin
    /\ parameter g "genset_pmax" pmax /\ parameter g "fuel_cost" fuel
    /\ g_min_prod s = pmin * rated /\ g_max_prod s = pmax * rated /\ g_cost s = FuelLin fuel
    /\ parameter g "genset_co2" (g_co2_per_unit s) /\ parameter g "cost_co2" (g_cost_co2 s)
    /\ g_start_up s = 0%Z /\ g_wind_down s = 0%Z.
Proof.
  intros N (_ & _ & s0 & rated & pmin & pmax & fuel & K0 & P1 & P2 & P3 & P4 & E1 & E2 & E3 & P5 & P6 & E4 & E5 & _) A ML.
  pose proof (ml_kind _ _ ML) as KL. rewrite K0 in KL. destruct (m_kind m) as [b'|s'|gg' u'|u'|u'|u'] eqn:KM; cbn in KL; try contradiction.
  unfold same_gen in KL. exists s', rated, pmin, pmax, fuel. rewrite !tw_param. rewrite KL. cbn. auto 20.
Qed.
Lemma tw_unbalanced i d m : nth_error D i = Some d -> unbalanced_of false g0 (snd d) -> at_index mg i m -> mod_like (snd d) m ->
  exists u, m_kind m = KUnbalanced u /\ parameter g "cost_loss_load" (u_loss_load_cost u)
    /\ parameter g "cost_overgeneration" (u_overgeneration_cost u).
Proof.
  intros N (_ & u & K0 & P1 & P2) A ML.
  pose proof (ml_kind _ _ ML) as KL. rewrite K0 in KL. destruct (m_kind m) as [b'|s'|gg' u'|u'|u'|u'] eqn:KM; cbn in KL; try contradiction.
  subst u'. exists u. rewrite !tw_param. auto.
Qed.

Lemma tw_def i m : at_index mg i m -> exists d, nth_error D i = Some d /\ phys m /\ lenient m /\ mod_like (snd d) m.
Proof.
  intros A. pose proof (from_modules_inv _ _ (tw_from _ _ TW)) as V.
  destruct (Forall2_nth_r _ _ _ i m (iv_mods _ _ V) A) as (d & N & _).
  destruct (tw_at i d N) as (m' & A' & P). unfold at_index in *. rewrite A in A'. injection A' as <-. eauto.
Qed.
Lemma tw_good : Forall good (mg_mods mg).
Proof.
  apply Forall_forall. intros m I. apply In_nth_error in I. destruct I as (i & A).
  destruct (tw_def i m A) as (d & N & P & L & ML). split; [exact P|]. split; [exact L|].
  intros TS. destruct (tw_time) as (k & T & _). exists k. pose proof (tw_cur _ _ TW i m A) as C. rewrite C, T.
  assert (X : exists t row, kind_ts (m_kind m) = Some t /\ ts_row t (m_cur m) = Some row).
  { pose proof (list_cases d (nth_error_In _ _ N)) as CV.
    destruct CV as [(_ & CV & _)|[(_ & CV & _)|[(_ & _ & CV & _)|[(_ & _ & CV & _)|[(_ & _ & CV & _)|(H & _ & CV & _)]]]]].
    - destruct (tw_load i d m N CV A ML) as (t & K & R). exists t. eexists. rewrite K. split; [reflexivity|exact R].
    - destruct (tw_unbalanced i d m N CV A ML) as (u & K & _). exfalso. apply TS. rewrite K. reflexivity.
    - destruct (tw_pv i d m N CV A ML) as (t & K & R). exists t. eexists. rewrite K. split; [reflexivity|exact R].
    - destruct (tw_battery i d m N CV A ML) as (b & _ & _ & K & _). exfalso. apply TS. rewrite K. reflexivity.
    - destruct (tw_genset i d m N CV A ML) as (b & _ & _ & _ & _ & K & _). exfalso. apply TS. rewrite K. reflexivity.
    - destruct (tw_grid i d m N H CV A ML) as (gr & t & K & R & _). exists t. eexists. rewrite K. split; [reflexivity|exact R]. }
  destruct X as (t & row & K & R). exists row. split; [reflexivity|]. unfold data_at, series. rewrite K.
  unfold ts_row in R. rewrite C, T, py_nth_nat in R. exact R.
Qed.
Lemma tw_unb_at : has_unbalanced mg.
Proof.
  destruct the_list as (load & unb & pv & rest & E & _ & U & _).
  assert (N : nth_error D 1 = Some (Some "unbalanced_energy", unb)) by (rewrite E; reflexivity).
  destruct (tw_at _ _ N) as (m & A & _ & _ & ML). destruct (tw_unbalanced _ _ _ N U A ML) as (u & K & _).
  exists 1%nat, m. split; [exact A|]. exists u. exact K.
Qed.

(** The controls *)
Variable control : dict Q.
Hypothesis AG : agreeable g control.
Let c := modular_control g control.

Lemma control_battery : has_battery (nm_arch g0) = true ->
  dget "battery" c = Some (CList [VS (asked control "battery_discharge" - asked control "battery_charge")]).
Proof. intros H. unfold c, modular_control. rewrite tw_arch, H. reflexivity. Qed.
Lemma control_genset : has_genset (nm_arch g0) = true ->
  dget "genset" c = Some (CList [VA [if Qle_bool (asked control "genset") 0 then 0 else 1; asked control "genset"]]).
Proof. intros H. unfold c, modular_control. rewrite tw_arch, H. destruct (has_battery (nm_arch g0)); reflexivity. Qed.
Lemma control_grid : has_grid (nm_arch g0) = true ->
  dget "grid" c = Some (CList [VS (asked control "grid_import" - asked control "grid_export")]).
Proof. intros H. unfold c, modular_control. rewrite tw_arch, H. destruct (has_battery (nm_arch g0)), (has_genset (nm_arch g0)); reflexivity. Qed.

Lemma ask_genset : has_genset (nm_arch g0) = true -> 0 <= asked control "genset".
Proof.
  intros H. destruct AG as (_ & _ & A). rewrite tw_arch in A. destruct (A H) as (p & rated & pmin & pmax & E & P1 & P2 & P3 & L).
  unfold asked. rewrite E. destruct (pl_genset _ PL H) as (r & n & x & f & co & cc & Q1 & Q2 & Q3 & _ & _ & _ & R0 & N0 & _).
  apply tw_param in P1, P2. unfold parameter in *. rewrite Q1 in P1. rewrite Q2 in P2. injection P1 as ->. injection P2 as ->.
  destruct L as [L|[L _]]; [lra|]. pose proof (Qmult_le_0_compat _ _ N0 R0). lra.
Qed.

Lemma tw_runs : exists mg' out, run c false mg = (mg', Ok out).
Proof.
  apply (run_progress D mg c false (tw_from _ _ TW) tw_unb_at).
  - rewrite (tw_shaper _ _ TW). exact I.
  - intros d I. pose proof (list_names d I) as X. cbn in X.
    split; intros E; rewrite E in X; intuition discriminate.
  - exact tw_good.
  - apply (well_shaped_served D mg c (from_modules_inv _ _ (tw_from _ _ TW))).
    + intros d I T. pose proof (list_cases d I) as CV.
      destruct CV as [(_ & CV & _)|[(_ & CV & _)|[(_ & _ & CV & _)|[(H & -> & CV & _)|[(H & -> & CV & _)|(H & -> & CV & _)]]]]].
      * destruct CV as (_ & (t & K) & _). rewrite K in T. discriminate.
      * destruct CV as (_ & u & K & _). rewrite K in T. discriminate.
      * destruct CV as (_ & (t & K) & _). rewrite K in T. discriminate.
      * change (dget "battery" c <> None). rewrite (control_battery H). discriminate.
      * change (dget "genset" c <> None). rewrite (control_genset H). discriminate.
      * change (dget "grid" c <> None). rewrite (control_grid H). discriminate.
    + intros d v I T E. pose proof (list_cases d I) as CV.
      destruct CV as [(_ & CV & _)|[(_ & CV & _)|[(_ & _ & CV & _)|[(H & X & CV & _)|[(H & X & CV & _)|(H & X & CV & _)]]]]].
      * destruct CV as (_ & (t & K) & _). rewrite K in T. discriminate.
      * destruct CV as (_ & u & K & _). rewrite K in T. discriminate.
      * destruct CV as (_ & (t & K) & _). rewrite K in T. discriminate.
      * rewrite X in E. change (dget "battery" c = Some v) in E. rewrite (control_battery H) in E. injection E as <-. constructor; [|constructor].
        destruct CV as (_ & b & _ & _ & _ & K & _). unfold acceptable. rewrite K. reflexivity.
      * rewrite X in E. change (dget "genset" c = Some v) in E. rewrite (control_genset H) in E. injection E as <-. constructor; [|constructor].
        destruct CV as (_ & _ & s & _ & _ & _ & _ & K & _). unfold acceptable. rewrite K. do 2 eexists. split; [reflexivity|].
        pose proof (ask_genset H). destruct (Qle_bool (asked control "genset") 0); conj; try lra.
      * rewrite X in E. change (dget "grid" c = Some v) in E. rewrite (control_grid H) in E. injection E as <-. constructor; [|constructor].
        destruct CV as (_ & (gr & t & K & _) & _). unfold acceptable. rewrite K. reflexivity.
Qed.

(** What the modules do *)
Definition earned (nm : string) (es : list event) : Q := sum_named ev_reward nm es.
Definition battery_part (g : nonmod Q) (control : dict Q) (mg' : mgrid Q) (es : list event) : Prop :=
  if has_battery (nm_arch g) then
    exists ch di cap eff cyc,
      dget "battery_charge" control = Some ch /\ dget "battery_discharge" control = Some di
      /\ parameter g "battery_capacity" cap /\ parameter g "battery_efficiency" eff /\ parameter g "battery_cost_cycle" cyc
      /\ taken "battery" es == ch /\ given "battery" es == di
      /\ earned "battery" es == - (cyc * (ch * eff + di / eff))
      /\ forall soc soc', latest (nm_state g) "battery_soc" (CNum soc) -> soc' == soc + (ch * eff - di / eff) / cap ->
           forall i m b, at_index mg' i m -> m_kind m = KBattery b -> b_soc b == soc' /\ b_charge b == soc' * b_max_capacity b
  else taken "battery" es = 0 /\ given "battery" es = 0 /\ earned "battery" es = 0.
Definition grid_part (g : nonmod Q) (control : dict Q) (es : list event) : Prop :=
  if has_grid (nm_arch g) then
    exists i e co2,
      dget "grid_import" control = Some i /\ dget "grid_export" control = Some e /\ parameter g "cost_co2" co2
      /\ given "grid" es == i /\ taken "grid" es == e
      /\ earned "grid" es == - (now_import (nm_now g) * i + co2 * (now_co2 (nm_now g) * i)) + now_export (nm_now g) * e
  else taken "grid" es = 0 /\ given "grid" es = 0 /\ earned "grid" es = 0.
Definition genset_part (g : nonmod Q) (control : dict Q) (es : list event) : Prop :=
  if has_genset (nm_arch g) then
    exists p fuel dirt co2,
      dget "genset" control = Some p /\ parameter g "fuel_cost" fuel /\ parameter g "genset_co2" dirt /\ parameter g "cost_co2" co2
      /\ given "genset" es == p /\ taken "genset" es == 0
      /\ earned "genset" es == - (fuel * p + co2 * (dirt * p))
  else taken "genset" es = 0 /\ given "genset" es = 0 /\ earned "genset" es = 0.

Lemma soc_limits ch di cap smin smax soc eff pc pd (b : battery Q) :
  b_max_capacity b = cap -> b_min_capacity b = cap * smin -> b_max_charge b = pc -> b_max_discharge b = pd -> b_efficiency b = eff ->
  b_charge b == soc * b_max_capacity b -> 0 < cap -> 0 < eff -> eff <= 1 -> 0 <= pc ->
  ch <= pc -> ch <= (smax - soc) * cap * eff -> smax <= 1 -> 0 <= ch -> di <= pd * eff -> di <= (soc - smin) * cap * eff ->
  ch <= battery_max_consumption b /\ di <= battery_max_production b.
Proof.
  intros E1 E2 E3 E4 E5 EC C0 F0 F1 P0 L1 L2 L3 L4 L5 L6. unfold battery_max_consumption, battery_max_production. unum.
  rewrite E1, E2, E3, E4, E5. rewrite E1 in EC. split.
  - apply Qle_shift_div_l; [exact F0|].
    assert (A : ch * eff <= ch). { rewrite <- (Qmult_1_r ch) at 2. rewrite !(Qmult_comm ch). apply Qmult_le_compat_r; assumption. }
    assert (B : (smax - soc) * cap * eff <= (1 - soc) * cap).
    { assert (X : (smax - soc) * cap <= (1 - soc) * cap) by (apply Qmult_le_compat_r; lra).
      destruct (Qlt_le_dec ((smax - soc) * cap) 0) as [N|N].
      - exfalso. assert ((smax - soc) * cap * eff < 0); [|lra]. setoid_replace 0 with (0 * eff) by ring. apply Qmult_lt_compat_r; assumption.
      - assert (Y : (smax - soc) * cap * eff <= (smax - soc) * cap * 1).
        { rewrite !(Qmult_comm ((smax - soc) * cap)). apply Qmult_le_compat_r; assumption. }
        lra. }
    apply under_min; [lra|]. rewrite EC. lra.
  - assert (X : di / eff <= nmin pd (b_charge b - cap * smin)).
    { apply under_min.
      - apply Qle_shift_div_r; assumption.
      - apply Qle_shift_div_r; [exact F0|]. rewrite EC. setoid_replace ((soc * cap - cap * smin) * eff) with ((soc - smin) * cap * eff) by ring. exact L6. }
    setoid_replace di with (di / eff * eff) at 1 by (field; lra). apply Qmult_le_compat_r; [exact X|lra].
Qed.
Lemma tw_modules mg' obs rw dn inf : run c false mg = (mg', Ok (obs, rw, dn, inf)) ->
  exists es, did mg es mg' /\ rw == sum_of ev_reward es
    /\ (forall i d, nth_error D i = Some d -> exists e, In e es /\ ev_id e = i)
    /\ (forall f, sum_of f es == sum_named f "load" es + (sum_named f "unbalanced_energy" es + (sum_named f "PV" es
          + (sum_named f "battery" es + (sum_named f "genset" es + (sum_named f "grid" es + 0))))))
    /\ sum_of ev_provided es == sum_of ev_absorbed es
    /\ (taken "load" es == now_load (nm_now g) /\ given "load" es == 0 /\ earned "load" es == 0)
    /\ (taken "PV" es == 0 /\ 0 <= given "PV" es /\ given "PV" es <= now_pv (nm_now g)
        /\ curtailed es == now_pv (nm_now g) - given "PV" es /\ earned "PV" es == 0)
    /\ (0 <= given "unbalanced_energy" es /\ 0 <= taken "unbalanced_energy" es
        /\ (0 < given "unbalanced_energy" es -> given "PV" es == now_pv (nm_now g) /\ taken "unbalanced_energy" es == 0)
        /\ (0 < taken "unbalanced_energy" es -> given "PV" es == 0 /\ given "unbalanced_energy" es == 0)
        /\ exists l o, parameter g "cost_loss_load" l /\ parameter g "cost_overgeneration" o
             /\ earned "unbalanced_energy" es == - (l * given "unbalanced_energy" es + o * taken "unbalanced_energy" es))
    /\ battery_part g control mg' es /\ grid_part g control es /\ genset_part g control es.
Proof.
  intros RM. pose proof (from_modules_inv _ _ (tw_from _ _ TW)) as V.
  destruct (run_whole D mg mg' c obs rw dn inf (tw_from _ _ TW) list_nodup tw_unb_at (tw_shaper _ _ TW) RM)
    as (es & es0 & eflex & EES & DID & RW & BAL & MER & FID & NMS & CTL & FIX & FLX).
  destruct the_list as (load & unb & pv & rest & DE & LO & UO & PO & RE).
  assert (N0 : nth_error D 0 = Some (Some "load", load)) by (rewrite DE; reflexivity).
  assert (N1 : nth_error D 1 = Some (Some "unbalanced_energy", unb)) by (rewrite DE; reflexivity).
  assert (N2 : nth_error D 2 = Some (Some "PV", pv)) by (rewrite DE; reflexivity).
  assert (STEP : forall e i d, In e es -> ev_id e = i -> nth_error D i = Some d ->
    exists m m', at_index mg i m /\ at_index mg' i m' /\ phys m /\ lenient m /\ mod_like (snd d) m
      /\ step (ev_act e) (ev_norm e) m = (m', Ok (ev_out e))).
  { intros e i d I ID N. destruct DID as [PF ND]. destruct (performs_each _ _ _ PF ND e I) as (m & m' & A & A' & ST).
    rewrite ID in A, A'. destruct (tw_def i m A) as (d' & N' & P & L & ML). rewrite N in N'. injection N' as <-. eauto 10. }
  assert (NOT : forall nm, (forall d, In d D -> mdef_name d <> nm) -> forall f, sum_named f nm es = 0).
  { intros nm NN f. apply sum_absent. intros e I. destruct (NMS e I) as (d & N & <-). apply NN. eapply nth_error_In; exact N. }
  exists es. split; [exact DID|]. split; [exact RW|].
  split.
  { intros i d N. destruct (module_type (m_kind (snd d))) eqn:T.
    - destruct (FIX i d N T) as (e & S & ID & _). exists e. split; [exact (proj1 (single_in _ _ _ S))|exact ID].
    - destruct (FLX i d N T) as (e & S & ID & _). exists e. split; [exact (proj1 (single_in _ _ _ S))|exact ID].
    - pose proof (list_cases d (nth_error_In _ _ N)) as CV.
      destruct CV as [(_ & CV & _)|[(_ & CV & _)|[(_ & _ & CV & _)|[(H & X & CV & _)|[(H & X & CV & _)|(H & X & CV & _)]]]]].
      + destruct CV as (_ & (t & K) & _). rewrite K in T. discriminate.
      + destruct CV as (_ & u & K & _). rewrite K in T. discriminate.
      + destruct CV as (_ & (t & K) & _). rewrite K in T. discriminate.
      + destruct (CTL i d N T _ _ (eq_trans (f_equal (fun d => dget (mdef_name d) c) X) (control_battery H)) eq_refl) as (e & S & ID & _).
        exists e. split; [exact (proj1 (single_in _ _ _ S))|exact ID].
      + destruct (CTL i d N T _ _ (eq_trans (f_equal (fun d => dget (mdef_name d) c) X) (control_genset H)) eq_refl) as (e & S & ID & _).
        exists e. split; [exact (proj1 (single_in _ _ _ S))|exact ID].
      + destruct (CTL i d N T _ _ (eq_trans (f_equal (fun d => dget (mdef_name d) c) X) (control_grid H)) eq_refl) as (e & S & ID & _).
        exists e. split; [exact (proj1 (single_in _ _ _ S))|exact ID]. }
  split.
  { intros f. rewrite (sum_names f es ["load"; "unbalanced_energy"; "PV"; "battery"; "genset"; "grid"]).
    - cbn [fold_right]. reflexivity.
    - repeat constructor; cbn; intuition discriminate.
    - intros e I. destruct (NMS e I) as (d & N & <-). apply list_names. eapply nth_error_In; exact N. }
  split; [exact BAL|].
  (* the load *)
  assert (PVNN : 0 <= now_pv (nm_now g)).
  { destruct (tw_reads _ _ TW) as (_ & RL & _). rewrite (ds_pv _ _ (tw_desc _ _ TW)) in RL.
    destruct tw_time as (k & T & _). pose proof (nth_error_In _ _ (tw_now _ _ RL k T)) as I.
    pose proof (proj2 (pl_pv _ PL HP)) as F. rewrite Forall_forall in F. exact (F _ I). }
  assert (LNN : 0 <= now_load (nm_now g)).
  { destruct (tw_reads _ _ TW) as (RL & _). rewrite (ds_load _ _ (tw_desc _ _ TW)) in RL.
    destruct tw_time as (k & T & _). pose proof (nth_error_In _ _ (tw_now _ _ RL k T)) as I.
    pose proof (pl_load _ PL) as F. rewrite Forall_forall in F. exact (F _ I). }
  split.
  { destruct (FIX 0%nat _ N0) as (e & S & ID & AC & NO); [destruct LO as (_ & (t & K) & _); cbn [snd]; rewrite K; reflexivity|].
    destruct (STEP e _ _ (proj1 (single_in _ _ _ S)) ID N0) as (m & m' & A & _ & P & L & ML & ST).
    destruct (tw_load _ _ _ N0 LO A ML) as (t & K & R). rewrite AC, NO in ST.
    destruct (load_step m m' (ev_out e) P t _ K R ST) as (X & Y & Z).
    unfold taken, given, earned. rewrite !(single_sum _ _ _ _ S). unfold ev_absorbed, ev_provided, ev_reward.
    rewrite X, Y, Z. rewrite (Qabs_pos _ LNN). conj; lra. }
  (* PV and unbalanced energy *)
  destruct (FLX 2%nat _ N2) as (ep & SP & IDP & NOP); [destruct PO as (_ & (t & K) & _); cbn [snd]; rewrite K; reflexivity|].
  destruct (FLX 1%nat _ N1) as (eu & SU & IDU & NOU); [destruct UO as (_ & u & K & _); cbn [snd]; rewrite K; reflexivity|].
  destruct (STEP ep _ _ (proj1 (single_in _ _ _ SP)) IDP N2) as (mp & mp' & AP & _ & PP & LP & MLP & STP).
  destruct (STEP eu _ _ (proj1 (single_in _ _ _ SU)) IDU N1) as (mu & mu' & AU & _ & PU & LU & MLU & STU).
  destruct (tw_pv _ _ _ N2 PO AP MLP) as (tp & KP & RP). destruct (tw_unbalanced _ _ _ N1 UO AU MLU) as (u & KU & UP1 & UP2).
  rewrite (NOP) in STP. rewrite NOU in STU.
  destruct (pv_step mp mp' (ev_out ep) PP LP tp _ (ev_act ep) KP RP (Qabs.Qabs_nonneg _) STP) as (XA & X0 & X1 & XC & XR).
  pose proof (unbalanced_step mu mu' (ev_out eu) PU u (ev_act eu) KU STU) as UR.
  rewrite (flex_parts load unb pv rest mg) in FID;
    [|rewrite <- DE; exact V|destruct LO as (_ & X & _); exact X|destruct UO as (_ & u0 & X & _); exists u0; exact X
     |destruct PO as (_ & X & _); exact X|exact RE].
  assert (EF : eflex = [ep; eu]).
  { destruct eflex as [|e1 [|e2 [|e3 l]]]; try discriminate FID. injection FID as F1 F2.
    assert (I1 : In e1 es) by (rewrite EES; apply in_app_iff; right; left; reflexivity).
    assert (I2 : In e2 es) by (rewrite EES; apply in_app_iff; right; right; left; reflexivity).
    destruct (NMS e1 I1) as (d1 & M1 & Q1). destruct (NMS e2 I2) as (d2 & M2 & Q2). rewrite F1, N2 in M1. rewrite F2, N1 in M2.
    injection M1 as <-. injection M2 as <-.
    rewrite (single_at _ _ _ _ SP I1 (eq_sym Q1)), (single_at _ _ _ _ SU I2 (eq_sym Q2)). reflexivity. }
  subst eflex.
  assert (FP : is_flex mp) by (unfold is_flex; rewrite KP; reflexivity).
  assert (FU : is_flex mu) by (unfold is_flex; rewrite KU; reflexivity).
  assert (IP : In ep es) by (exact (proj1 (single_in _ _ _ SP))). assert (IU : In eu es) by (exact (proj1 (single_in _ _ _ SU))).
  rewrite <- IDP in AP. rewrite <- IDU in AU.
  destruct (MER (es0 ++ [ep]) eu [] mu) as (G1 & G2 & G3 & G4); [rewrite EES, <- app_assoc; reflexivity|exact AU|exact FU|].
  assert (MXP : max_production mp = Ok (BFin (Qabs (now_pv (nm_now g))))).
  { unfold max_production. rewrite KP. unfold current_renewable, ts_item. rewrite RP. reflexivity. }
  unfold taken, given, earned, curtailed. rewrite !(single_sum _ _ _ _ SP), !(single_sum _ _ _ _ SU).
  change (ev_absorbed ep) with (absorbed (info_of (ev_out ep))). change (ev_provided ep) with (provided (info_of (ev_out ep))).
  change (ev_reward ep) with (reward_of (ev_out ep)). change (ev_reward eu) with (reward_of (ev_out eu)).

  split.
  { rewrite XA. split; [reflexivity|]. split; [exact X0|]. split; [rewrite <- (Qabs_pos _ PVNN); exact X1|]. split; [|exact XR].
    unfold ev_entry. rewrite XC. rewrite (Qabs_pos _ PVNN). reflexivity. }
  split.
  { split; [exact G1|]. split; [exact G2|]. split; [|split].
    - intros G. destruct (G3 G) as (EX & AB). split.
      + rewrite Forall_forall in EX. destruct (EX ep) with (m' := mp) as (y & Y1 & Y2); [apply in_app_iff; right; left; reflexivity|exact AP|exact FP|].
        rewrite MXP in Y1. injection Y1 as <-. change (provided (info_of (ev_out ep))) with (ev_provided ep). rewrite Y2. apply Qabs_pos. exact PVNN.
      + exact (AB eu mu IU AU FU).
    - intros G. destruct (G4 G) as (EX & AB). split; [exact (AB ep mp IP AP FP)|exact (AB eu mu IU AU FU)].
    - exists (u_loss_load_cost u), (u_overgeneration_cost u). split; [exact UP1|]. split; [exact UP2|].
      rewrite !(single_sum _ _ _ _ SU). exact UR. }
  split; [|split].
  (* the battery *)
  - unfold battery_part. destruct (has_battery (nm_arch g)) eqn:HB; [|].
    2:{ unfold taken, given, earned. assert (Z0 : forall f, sum_named f "battery" es = 0); [|rewrite !Z0; auto]. apply NOT. intros d I E. pose proof (list_cases d I) as CV. unfold mdef_name in E.
        destruct CV as [(X & _)|[(X & _)|[(_ & X & _)|[(H & X & _)|[(_ & X & _)|(_ & X & _)]]]]]; rewrite X in E; try discriminate E.
        rewrite tw_arch in HB. congruence. }
    destruct AG as (AB & _). destruct (AB HB) as (ch & di & soc & cap & smin & smax & eff & pc & pd & E1 & E2 & LS & P1 & P2 & P3 & P4 & P5 & P6
      & C0 & C1 & C2 & SM & D0 & D1 & D2 & CD). clear AB.
    rewrite tw_arch in HB. destruct (list_battery HB) as (i & m0 & N & BO).
    assert (TY : module_type (m_kind (snd (Some "battery", m0))) = Controllable) by (destruct BO as (_ & b & _ & _ & _ & K & _); cbn [snd]; rewrite K; reflexivity).
    destruct (CTL i _ N TY _ _ (control_battery HB) eq_refl) as (e & S & ID & AC & NO).
    destruct (STEP e i _ (proj1 (single_in _ _ _ S)) ID N) as (m & m' & A & A' & P & L & ML & ST).
    destruct (tw_battery _ _ _ N BO A ML) as (b & cap' & smin' & K & Q1 & Q2 & F1 & F2 & Q3 & Q4 & Q5 & Q6).
    assert (U : forall k x y, parameter g k x -> parameter g k y -> x = y) by (unfold parameter; intros; congruence).
    rewrite <- (U _ _ _ P1 Q1) in F1, F2. rewrite <- (U _ _ _ P2 Q2) in F2.
    pose proof (U _ _ _ P4 Q5) as F3. pose proof (U _ _ _ P5 Q3) as F4. pose proof (U _ _ _ P6 Q4) as F5.
    destruct (tw_soc _ _ TW i m b soc A K LS) as [B1 B2].
    destruct (pl_battery _ PL HB) as (cap1 & smin1 & pc1 & pd1 & eff1 & cost1 & soc1 & R1 & R2 & R3 & R4 & R5 & R6 & _ & CP & EP & EL & PC0 & PD0 & _).
    apply tw_param in R1, R3, R5.
    rewrite (U _ _ _ R1 P1) in CP. rewrite (U _ _ _ R5 P4) in EP, EL. rewrite (U _ _ _ R3 P5) in PC0.
    destruct (soc_limits ch di cap smin smax soc eff pc pd b F1 F2 (eq_sym F4) (eq_sym F5) (eq_sym F3) B2 CP EP EL PC0 C1 C2 SM C0 D1 D2) as [L1 L2].
    unfold asked in AC. rewrite E1, E2 in AC. rewrite AC, NO in ST.
    destruct (battery_step m m' (ev_out e) P b ch di K C0 D0 CD L1 L2 ST) as (X & Y & Z & b' & K' & PB & CB & SB).
    exists ch, di, cap, eff, (b_cost_cycle b). unfold taken, given, earned. rewrite !(single_sum _ _ _ _ S).
    split; [exact E1|]. split; [exact E2|]. split; [exact P1|]. split; [exact P4|]. split; [exact Q6|]. split; [exact X|]. split; [exact Y|].
    split; [rewrite F3; exact Z|].
    intros s s' LS' SE i2 m2 b2 A2 K2.
    assert (s = soc) as ->. { destruct LS as (l & LS). destruct LS' as (l' & LS'). rewrite LS in LS'. injection LS' as LS'.
      apply app_inj_tail in LS'. destruct LS' as [_ LS']. congruence. }
    assert (i2 = i) as ->.
    { pose proof (from_modules_inv _ _ (from_modules_run _ _ _ _ _ _ (tw_from _ _ TW) RM)) as V'.
      destruct (Forall2_nth_r _ _ _ i2 m2 (iv_mods _ _ V') A2) as (d2 & N2' & _ & ML2).
      pose proof (ml_kind _ _ ML2) as KL. rewrite K2 in KL.
      pose proof (list_cases d2 (nth_error_In _ _ N2')) as CV.
      assert (NM2 : mdef_name d2 = "battery").
      { destruct CV as [(_ & CV & _)|[(_ & CV & _)|[(_ & _ & CV & _)|[(H & X2 & CV & _)|[(H & X2 & CV & _)|(H & X2 & CV & _)]]]]].
        - destruct CV as (_ & (t & KK) & _). rewrite KK in KL. contradiction.
        - destruct CV as (_ & u' & KK & _). rewrite KK in KL. contradiction.
        - destruct CV as (_ & (t & KK) & _). rewrite KK in KL. contradiction.
        - rewrite X2. reflexivity.
        - destruct CV as (_ & _ & s2 & _ & _ & _ & _ & KK & _). rewrite KK in KL. contradiction.
        - destruct CV as (_ & (gr & t & KK & _) & _). rewrite KK in KL. contradiction. }
      pose proof (map_nth_error mdef_name _ _ N2') as Y2. pose proof (map_nth_error mdef_name _ _ N) as Y1. rewrite NM2 in Y2.
      apply (proj1 (NoDup_nth_error _) list_nodup); [apply nth_error_Some; intros C; exact (eq_rect None (fun o => match o with None => True | Some _ => False end) I _ (eq_trans (eq_sym C) Y2))|].
      exact (eq_trans Y2 (eq_sym Y1)). }
    unfold at_index in *. rewrite A' in A2. injection A2 as <-. rewrite K' in K2. injection K2 as <-.
    assert (MC : b_max_capacity b' = cap) by (rewrite PB; cbn; exact F1).
    rewrite SB, CB, B2, MC, F1, SE, <- F3. split; field; lra.
  (* the grid *)
  - unfold grid_part. destruct (has_grid (nm_arch g)) eqn:HB; [|].
    2:{ unfold taken, given, earned. assert (Z0 : forall f, sum_named f "grid" es = 0); [|rewrite !Z0; auto]. apply NOT. intros d I E. pose proof (list_cases d I) as CV. unfold mdef_name in E.
        destruct CV as [(X & _)|[(X & _)|[(_ & X & _)|[(H & X & _)|[(_ & X & _)|(H & X & _)]]]]]; rewrite X in E; try discriminate E.
        rewrite tw_arch in HB. congruence. }
    destruct AG as (_ & AB & _). destruct (AB HB) as (im & ex & mi & me & E1 & E2 & P1 & P2 & I0 & I1 & X0' & X1' & IE & ST0). clear AB.
    rewrite tw_arch in HB. destruct (list_grid HB) as (i & m0 & N & BO).
    assert (TY : module_type (m_kind (snd (Some "grid", m0))) = Controllable)
      by (destruct BO as (_ & (gr & t & K & T & _) & _); cbn [snd]; rewrite K; exact T).
    destruct (CTL i _ N TY _ _ (control_grid HB) eq_refl) as (e & S & ID & AC & NO).
    destruct (STEP e i _ (proj1 (single_in _ _ _ S)) ID N) as (m & m' & A & A' & P & L & ML & ST).
    destruct (tw_grid _ _ _ N HB BO A ML) as (gr & t & K & R & Q1 & Q2 & Q3).
    assert (U : forall k x y, parameter g k x -> parameter g k y -> x = y) by (unfold parameter; intros; congruence).
    rewrite (U _ _ _ P1 Q1) in I1. rewrite (U _ _ _ P2 Q2) in X1'.
    unfold asked in AC. rewrite E1, E2 in AC. rewrite AC, NO in ST.
    destruct (grid_step m m' (ev_out e) P L gr t _ _ _ _ im ex K R I0 X0' IE I1 X1' ST0 ST) as (X & Y & Z).
    exists im, ex, (gr_cost_co2 gr). unfold taken, given, earned. rewrite !(single_sum _ _ _ _ S). auto 10.
  (* the genset *)
  - unfold genset_part. destruct (has_genset (nm_arch g)) eqn:HB; [|].
    2:{ unfold taken, given, earned. assert (Z0 : forall f, sum_named f "genset" es = 0); [|rewrite !Z0; auto]. apply NOT. intros d I E. pose proof (list_cases d I) as CV. unfold mdef_name in E.
        destruct CV as [(X & _)|[(X & _)|[(_ & X & _)|[(H & X & _)|[(H & X & _)|(H & X & _)]]]]]; rewrite X in E; try discriminate E.
        rewrite tw_arch in HB. congruence. }
    destruct AG as (_ & _ & AB). destruct (AB HB) as (p & rated & pmin & pmax & E1 & P1 & P2 & P3 & PR). clear AB.
    rewrite tw_arch in HB. destruct (list_genset HB) as (i & m0 & N & BO).
    assert (TY : module_type (m_kind (snd (Some "genset", m0))) = Controllable)
      by (destruct BO as (_ & _ & s & _ & _ & _ & _ & K & _); cbn [snd]; rewrite K; reflexivity).
    destruct (CTL i _ N TY _ _ (control_genset HB) eq_refl) as (e & S & ID & AC & NO).
    destruct (STEP e i _ (proj1 (single_in _ _ _ S)) ID N) as (m & m' & A & A' & P & L & ML & ST).
    destruct (tw_genset _ _ _ N BO A ML) as (s & rated' & pmin' & pmax' & fuel & K & Q1 & Q2 & Q3 & Q4 & F1 & F2 & F3 & Q5 & Q6 & F4 & F5).
    assert (U : forall k x y, parameter g k x -> parameter g k y -> x = y) by (unfold parameter; intros; congruence).
    rewrite (U _ _ _ P1 Q1), (U _ _ _ P2 Q2), (U _ _ _ P3 Q3), <- F1, <- F2 in PR.
    pose proof (ask_genset HB) as P0.
    unfold asked in AC, P0. rewrite E1 in AC, P0. rewrite AC, NO in ST.
    destruct (genset_step m m' (ev_out e) P s p K F4 F5 PR P0 ST) as (X & Y & Z).
    exists p, fuel, (g_co2_per_unit s), (g_cost_co2 s). unfold taken, given, earned. rewrite !(single_sum _ _ _ _ S).
    unfold ev_provided, ev_absorbed, ev_reward. split; [exact E1|]. split; [exact Q4|]. split; [exact Q5|]. split; [exact Q6|].
    split; [exact X|]. split; [rewrite Y; reflexivity|]. rewrite Z. unfold genset_get_cost, genset_fuel_cost, genset_co2_cost, genset_co2.
    rewrite F3. unum. rewrite X. reflexivity.
Qed.
End One.
End Twin.
