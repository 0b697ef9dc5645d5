(** * When the copy exists, what it contains, and whether it runs *)

From Coq Require Import ZArith QArith Qabs Qminmax Bool String List Lia Lqa Permutation.
From Verif Require Import Num Py Space Logger Forecast Module Container Microgrid NonModular Conversion
  Proofs_Num Proofs_Logger Spec_Module Spec_Reach Proofs_Module Proofs_Ts Proofs_Any
  Spec_Microgrid Proofs_Container Proofs_Run Proofs_Mgrid Proofs_Views Proofs_Data
  Proofs_Build Proofs_MgProps Proofs_Obs Proofs_Episode Proofs_RbcRun Spec_NonModular Proofs_NonModular Proofs_NmRun Proofs_NmCost Proofs_NmEpisode Proofs_NmTotal
  Spec_Conversion Proofs_Twin Proofs_Copy Proofs_Copy2 Proofs_Copy3 Proofs_Copy4.
Import ListNotations.
Local Open Scope string_scope.
Local Open Scope list_scope.
Local Open Scope py_scope.
Local Open Scope Q_scope.

Section Copy5.
Variables (round1 : Q -> Q) (poly : nat -> Q).
Notation contribution := (contribution round1 poly).
Notation to_nonmodular := (to_nonmodular round1 poly).
Notation copied := (copied round1 poly).

Lemma new_soc (sp : nm_spec Q) hz (g : nonmod Q) : new_nonmodular sp hz = Ok g -> has_battery (sp_arch sp) = true ->
  exists x, dget "battery_soc_0" (sp_parameters sp) = Some x /\ bv_soc (nm_battery g) = CNum x.
Proof.
  intros N B. unfold new_nonmodular in N. rewrite B in N.
  do 6 (apply rbind_ok in N; destruct N as (? & _ & N)). apply rbind_ok in N. destruct N as (gr & _ & N).
  destruct gr as [[[[? ?] ?] ?] [[[? ?] ?] ?]]. apply rbind_ok in N. destruct N as (bat & EB & N).
  do 2 (apply rbind_ok in N; destruct N as (? & _ & N)). injection N as <-. cbn [nm_battery].
  do 2 (apply rbind_ok in EB; destruct EB as (? & _ & EB)). apply rbind_ok in EB. destruct EB as (soc & ES & EB).
  apply rbind_ok in EB. destruct EB as (? & _ & EB). injection EB as <-. exists soc. split; [apply dfind_ok in ES; exact ES|reflexivity].
Qed.
Section Contents.
Variables (D : list (mdef Q)) (mg : mgrid Q) (ms : list (module Q)) (sp : nm_spec Q) (h : nat) (g : nonmod Q).
Hypothesis V : mg_inv D mg.
Hypothesis C : copied D mg ms sp h.
Hypothesis N : new_nonmodular sp (Z.of_nat h + 1) = Ok g.
Let G := add_all_grown _ _ _ _ _ (cp_add _ _ _ _ _ _ _ C).
Let NW := new_nonmodular_ok _ _ _ N.

Lemma pv_there : has_class 1 ms.
Proof.
  destruct (flags _ _ _ _ _ _ _ C) as (F1 & _). destruct NW as (_ & _ & _ & _ & _ & _ & _ & _ & P & _).
  destruct (in_dec Nat.eq_dec 1%nat (classes ms)) as [I|I].
  - apply in_map_iff in I. destruct I as (m & E & I). exists m. auto.
  - exfalso. assert (H : ~ has_class 1 ms) by (intros (m & J & K); apply I; apply in_map_iff; eauto).
    rewrite (gn_pv _ _ _ G H) in P. discriminate.
Qed.
Lemma two_rows (l : list Q) x : iloc l 1 = Ok x -> (2 <= length l)%nat.
Proof.
  intros E. apply iloc_ok in E; [|lia]. assert (L : (Z.to_nat 1 < length l)%nat) by (apply nth_error_Some; congruence). lia.
Qed.
Lemma ms_ok m : In m ms -> mod_ok m.
Proof. intros I. apply (mods_ok D mg m V). exact (Permutation_in _ (cp_perm _ _ _ _ _ _ _ C) I). Qed.
Lemma load_series m : In m ms -> is_load m -> series m = map (fun x => [x]) (nm_load_ts g).
Proof.
  intros I (t & K). pose proof (series_in_end _ _ _ _ _ m (cp_add _ _ _ _ _ _ _ C) (cp_nodup _ _ _ _ _ _ _ C) I) as S. rewrite K in S.
  destruct NW as (_ & _ & _ & _ & _ & _ & _ & L & _). assert (nm_load_ts g = ts_column 0 (ts_rows t)) as -> by congruence.
  unfold series. rewrite K. cbn [kind_ts]. apply one_column. exact (proj1 (load_width m t (ms_ok m I) (or_introl K))).
Qed.
Lemma pv_series m : In m ms -> is_renewable m -> series m = map (fun x => [x]) (nm_pv_ts g).
Proof.
  intros I (t & K). pose proof (series_in_end _ _ _ _ _ m (cp_add _ _ _ _ _ _ _ C) (cp_nodup _ _ _ _ _ _ _ C) I) as S. rewrite K in S.
  destruct NW as (_ & _ & _ & _ & _ & _ & _ & _ & L & _). assert (nm_pv_ts g = ts_column 0 (ts_rows t)) as -> by congruence.
  unfold series. rewrite K. cbn [kind_ts]. apply one_column. exact (proj1 (load_width m t (ms_ok m I) (or_intror K))).
Qed.
Lemma copy_sufficient : sufficient mg.
Proof.
  assert (AD : forall i m, at_index mg i m -> addable m).
  { intros i m A. pose proof (at_in _ _ _ _ _ _ _ i m C A) as I. apply (contribution_iff round1 poly m (ms_ok m I)). exact (own_contrib _ _ _ _ _ _ _ C m I). }
  constructor.
  - apply (class_any _ _ _ _ _ _ _ 1%nat is_renewable C is_renewable_iff). exact pv_there.
  - intros i m A K. pose proof (at_in _ _ _ _ _ _ _ i m C A) as I. split; [|exact (proj1 (AD i m A) K)].
    destruct NW as (_ & _ & _ & _ & _ & _ & _ & _ & _ & _ & _ & _ & (x & X & _) & (y & Y & _) & _).
    apply two_rows in X. apply two_rows in Y.
    destruct K as [K|K]; [rewrite (load_series m I K)|rewrite (pv_series m I K)]; rewrite map_length; assumption.
  - intros i m A. exact (proj1 (proj2 (AD i m A))).
  - intros i m s A. exact (proj2 (proj2 (AD i m A)) s).
  - intros i j m m' A B T T'. rewrite (forecast_horizon_ok D mg h V (cp_horizon _ _ _ _ _ _ _ C) i m A T).
    rewrite (forecast_horizon_ok D mg h V (cp_horizon _ _ _ _ _ _ _ C) j m' B T'). reflexivity.
Qed.
Lemma par_of m c k v : In m ms -> contribution m = Ok c -> In (k, v) (c_par c) -> parameter g k v.
Proof. intros I E J. unfold parameter. destruct NW as (-> & _). exact (own_par _ _ _ _ _ _ _ C m c k v I E J). Qed.
Lemma copy_contents : nonmodular_copy mg g.
Proof.
  pose proof (flags _ _ _ _ _ _ _ C) as (F1 & F2 & F3 & F4).
  pose proof NW as (PAR & ARCH & PROD & COST & CO2 & STATE & _ & LOAD & PV & GRID & _ & _ & _ & _ & HOR & T0 & _ & DONE & _ & _ & _ & _ & _ & USE).
  assert (IN : forall i m, at_index mg i m -> In m ms) by (intros i m; exact (at_in _ _ _ _ _ _ _ i m C)).
  assert (SM : forall i m j n, at_index mg i m -> at_index mg j n -> class_of (m_kind m) = class_of (m_kind n) -> m = n).
  { intros i m j n A B. exact (same_in _ _ _ _ _ _ _ C m n (IN _ _ A) (IN _ _ B)). }
  assert (ANY : forall m (P : module Q -> Prop), In m ms -> P m -> any_module mg P).
  { intros m P I K. apply any_module_in. exists m. split; [exact (Permutation_in _ (cp_perm _ _ _ _ _ _ _ C) I)|exact K]. }
  assert (NOCO2 : forall m (Z1 : cls m <> 3%nat) (Z2 : cls m <> 4%nat), co2_of m = None).
  { intros m Z1 Z2. destruct (co2_of m) eqn:X; [|reflexivity]. exfalso. assert (Y : co2_of m <> None) by congruence. apply co2_of_class in Y. tauto. }
  constructor.
  - intros i m A K. exact (load_series m (IN i m A) K).
  - split; [rewrite ARCH; apply F1; exact pv_there|]. intros i m A K. exact (pv_series m (IN i m A) K).
  - split; [rewrite ARCH, F2; exact (class_any _ _ _ _ _ _ _ 2%nat is_battery C is_battery_iff)|].
    intros i m b A K. destruct (own_contrib _ _ _ _ _ _ _ C m (IN i m A)) as (c & E). pose proof E as E'.
    unfold Proofs_Copy.contribution in E'. rewrite K in E'. injection E' as E'.
    assert (P : forall k v, In (k, v) (c_par c) -> parameter g k v) by (intros k v; exact (par_of m c k v (IN i m A) E)).
    assert (S : forall k v, In (k, v) (c_status c) -> dget k (nm_state g) = Some v) by (intros k v; rewrite STATE; exact (own_status _ _ _ _ _ _ _ C m c k v (IN i m A) E)).
    rewrite <- E' in P, S. cbn [c_par c_status In] in P, S.
    assert (S0 : parameter g "battery_soc_0" (b_soc b)) by (apply P; auto).
    conj; try (apply P; tauto).
    + assert (B : has_battery (sp_arch sp) = true) by (apply F2; exists m; rewrite K; split; [exact (IN i m A)|reflexivity]).
      destruct (new_soc _ _ _ N B) as (x & X & ->). unfold parameter in S0. rewrite PAR in S0. congruence.
    + exists []. apply S. auto.
  - split; [rewrite ARCH, F4; exact (class_any _ _ _ _ _ _ _ 4%nat is_a_genset C is_a_genset_iff)|].
    intros i m s A K. destruct (own_contrib _ _ _ _ _ _ _ C m (IN i m A)) as (c & E). pose proof E as E'.
    unfold Proofs_Copy.contribution in E'. rewrite K in E'. cbv zeta in E'. destruct (neqb _ _) eqn:B; [discriminate|].
    destruct (g_cost s) as [cost|] eqn:FC; [|discriminate]. injection E' as E'.
    assert (P : forall k v, In (k, v) (c_par c) -> parameter g k v) by (intros k v; exact (par_of m c k v (IN i m A) E)).
    rewrite <- E' in P. cbn [c_par In] in P.
    exists (ndiv (g_max_prod s) (nfrac 9 10)), (ndiv (g_min_prod s) (ndiv (g_max_prod s) (nfrac 9 10))), (nfrac 9 10), cost.
    assert (NZ : ~ g_max_prod s == 0).
    { intros Z. unum. apply Qeq_bool_neq in B. apply B. rewrite Z. reflexivity. }
    conj; try (apply P; tauto); [| |reflexivity]; unum; change (@nfrac Q Q_ops 9 10) with (9 # 10); field.
    intros Z. apply NZ. exact Z.
  - split; [rewrite ARCH, F3; exact (class_any _ _ _ _ _ _ _ 3%nat is_grid C is_grid_iff)|].
    intros i m gr t A K. destruct (own_contrib _ _ _ _ _ _ _ C m (IN i m A)) as (c & E). pose proof E as E'.
    unfold Proofs_Copy.contribution in E'. rewrite K in E'. cbv zeta in E'. do 5 (apply rbind_ok in E'; destruct E' as (? & _ & E')). injection E' as E'.
    assert (P : forall k v, In (k, v) (c_par c) -> parameter g k v) by (intros k v; exact (par_of m c k v (IN i m A) E)).
    rewrite <- E' in P. cbn [c_par In] in P.
    assert (HG : has_grid (sp_arch sp) = true) by (apply F3; exists m; rewrite K; split; [exact (IN i m A)|reflexivity]).
    destruct (GRID HG) as (G1 & G2 & G3 & G4 & _).
    pose proof (series_in_end _ _ _ _ _ m (cp_add _ _ _ _ _ _ _ C) (cp_nodup _ _ _ _ _ _ _ C) (IN i m A)) as S. rewrite K in S.
    destruct S as (S1 & S2 & S3 & S4). pose proof (grid_width m gr t (ms_ok m (IN i m A)) K) as W.
    assert (WJ : forall j, (j < 4)%nat -> Forall (fun r => (j < length r)%nat) (ts_rows t)).
    { intros j J. eapply Forall_impl; [|exact W]. cbn. intros r L. lia. }
    assert (nm_import_ts g = ts_column 0 (ts_rows t)) as -> by congruence. assert (nm_export_ts g = ts_column 1 (ts_rows t)) as -> by congruence.
    assert (nm_co2_ts g = ts_column 2 (ts_rows t)) as -> by congruence. assert (nm_status_ts g = ts_column 3 (ts_rows t)) as -> by congruence.
    unfold series. rewrite K. cbn [kind_ts].
    split; [apply P; tauto|]. split; [apply P; tauto|]. split.
    + repeat constructor; apply column_length; apply WJ; lia.
    + intros k p e c0 s0 R. conj; [rewrite (column_nth 0 _ (WJ 0%nat ltac:(lia)) k _ R)|rewrite (column_nth 1 _ (WJ 1%nat ltac:(lia)) k _ R)
        |rewrite (column_nth 2 _ (WJ 2%nat ltac:(lia)) k _ R)|rewrite (column_nth 3 _ (WJ 3%nat ltac:(lia)) k _ R)]; reflexivity.
  - intros i m u A K. destruct (own_contrib _ _ _ _ _ _ _ C m (IN i m A)) as (c & E). pose proof E as E'.
    unfold Proofs_Copy.contribution in E'. rewrite K in E'. injection E' as E'.
    assert (P : forall k v, In (k, v) (c_par c) -> parameter g k v) by (intros k v; exact (par_of m c k v (IN i m A) E)).
    rewrite <- E' in P. cbn [c_par In] in P. split; apply P; auto.
  - conj.
    + intros i m gr t A K NG. unfold parameter. rewrite PAR. apply (co2_single _ _ _ _ _ _ _ C m); [exact (IN i m A)|unfold co2_of; rewrite K; reflexivity|].
      intros n I NE. apply NOCO2; intros Z.
      * apply NE. apply (same_in _ _ _ _ _ _ _ C n m I (IN i m A)). rewrite K. exact Z.
      * apply NG. apply (ANY n _ I). apply is_a_genset_iff. exact Z.
    + intros i m s A K NG. unfold parameter. rewrite PAR. apply (co2_single _ _ _ _ _ _ _ C m); [exact (IN i m A)|unfold co2_of; rewrite K; reflexivity|].
      intros n I NE. apply NOCO2; intros Z.
      * apply NG. apply (ANY n _ I). apply is_grid_iff. exact Z.
      * apply NE. apply (same_in _ _ _ _ _ _ _ C n m I (IN i m A)). rewrite K. exact Z.
    + intros i m gr t j m' s A K B K'. unfold parameter. rewrite PAR. apply (co2_double _ _ _ _ _ _ _ C m m'); auto.
      * exact (IN i m A).
      * exact (IN j m' B).
      * congruence.
      * unfold co2_of. rewrite K. reflexivity.
      * unfold co2_of. rewrite K'. reflexivity.
      * intros n I NE NE'. apply NOCO2; intros Z; [apply NE|apply NE']; [apply (same_in _ _ _ _ _ _ _ C n m I (IN i m A))|apply (same_in _ _ _ _ _ _ _ C n m' I (IN j m' B))]; [rewrite K|rewrite K']; exact Z.
    + intros NG NR x. unfold parameter. rewrite PAR. rewrite (no_co2 _ _ _ _ _ (cp_add _ _ _ _ _ _ _ C)); [discriminate|].
      intros n I. apply NOCO2; intros Z; [apply NR|apply NG]; apply (ANY n _ I); [apply is_grid_iff|apply is_a_genset_iff]; exact Z.
  - intros i m A T. rewrite HOR. rewrite (forecast_horizon_ok D mg h V (cp_horizon _ _ _ _ _ _ _ C) i m A T). reflexivity.
  - conj; auto.
    + rewrite PROD. apply (proj1 (gn_empty _ _ _ G)). repeat constructor.
    + rewrite COST. apply (proj1 (proj2 (gn_empty _ _ _ G))). repeat constructor.
    + rewrite CO2, (gn_df _ _ _ G). repeat constructor.
Qed.
End Contents.

(** ** Totality *)
Lemma iloc_some (l : list Q) i : (0 <= i < Z.of_nat (length l))%Z -> exists x, iloc l i = Ok x.
Proof. intros R. destruct (iloc_in l i R) as (x & E & _). eauto. Qed.
Lemma finds_all (par : dict Q) ks : (forall k, In k ks -> exists x, dget k par = Some x) -> exists l, rmapM (dfind par) ks = Ok l.
Proof.
  induction ks as [|k ks IH]; intros F; [exists []; reflexivity|]. destruct (F k (or_introl eq_refl)) as (x & X).
  destruct IH as (l & E); [intros; apply F; right; assumption|]. exists (x :: l). cbn [rmapM]. unfold dfind at 1. rewrite X. cbn [rbind]. rewrite E. reflexivity.
Qed.
Lemma new_total D (mg : mgrid Q) ms sp h : mg_inv D mg -> copied D mg ms sp h -> sufficient mg ->
  exists g, new_nonmodular sp (Z.of_nat h + 1) = Ok g.
Proof.
  intros V C S. pose proof (flags _ _ _ _ _ _ _ C) as (F1 & F2 & F3 & F4).
  assert (OKM : forall m, In m ms -> mod_ok m) by (intros m I; apply (mods_ok D mg m V); exact (Permutation_in _ (cp_perm _ _ _ _ _ _ _ C) I)).
  assert (AT : forall m, In m ms -> exists i, at_index mg i m).
  { intros m I. apply (Permutation_in _ (cp_perm _ _ _ _ _ _ _ C)) in I. apply In_nth_error in I. exact I. }
  assert (SE : forall m, In m ms -> _) by (intros m; exact (series_in_end _ _ _ _ _ m (cp_add _ _ _ _ _ _ _ C) (cp_nodup _ _ _ _ _ _ _ C))).
  assert (PV : exists l, sp_pv sp = Some l /\ (2 <= length l)%nat).
  { pose proof (su_renewable _ S) as R. apply any_module_in in R. destruct R as (m & I & K).
    apply (Permutation_in _ (Permutation_sym (cp_perm _ _ _ _ _ _ _ C))) in I. destruct (AT m I) as (i & A).
    pose proof (su_rows _ S i m A (or_intror K)) as (L & _). destruct K as (t & K). specialize (SE m I). rewrite K in SE.
    exists (ts_column 0 (ts_rows t)). split; [exact SE|]. unfold series in L. rewrite K in L. rewrite column_length; [exact L|].
    eapply Forall_impl; [|exact (proj1 (load_width m t (OKM m I) (or_intror K)))]. cbn. intros; lia. }
  assert (LD : exists l, sp_load sp = Some l /\ (2 <= length l)%nat).
  { destruct (cp_load _ _ _ _ _ _ _ C) as (m & I & K). destruct (AT m I) as (i & A).
    pose proof (su_rows _ S i m A (or_introl K)) as (L & _). destruct K as (t & K). specialize (SE m I). rewrite K in SE.
    exists (ts_column 0 (ts_rows t)). split; [exact SE|]. unfold series in L. rewrite K in L. rewrite column_length; [exact L|].
    eapply Forall_impl; [|exact (proj1 (load_width m t (OKM m I) (or_introl K)))]. cbn. intros; lia. }
  destruct PV as (pv & P & LP), LD as (ld & L & LL). unfold new_nonmodular. rewrite P, L. cbn [frame_of rbind].
  destruct (iloc_some pv 0 ltac:(lia)) as (pv0 & ->). cbn [rbind]. destruct (iloc_some ld 0 ltac:(lia)) as (ld0 & ->). cbn [rbind].
  destruct (iloc_some ld 1 ltac:(lia)) as (ld1 & ->). cbn [rbind]. destruct (iloc_some pv 1 ltac:(lia)) as (pv1 & ->). cbn [rbind].
  assert (GR : exists r, (if has_grid (sp_arch sp) then
                let? s := frame_of (sp_grid_ts sp) in
                let? i := frame_of (sp_import sp) in
                let? e := frame_of (sp_export sp) in
                let? c := frame_of (sp_co2 sp) in
                let? s0 := iloc s 0 in
                let? e0 := iloc e 0 in
                let? i0 := iloc i 0 in
                let? c0 := iloc c 0 in
                Ok ((s, i, e, c), (s0, i0, e0, c0))
              else Ok (([], [], [], []), (n0, n0, n0, n0))) = Ok r).
  { destruct (has_grid (sp_arch sp)) eqn:B; [|eauto]. destruct (proj1 F3 eq_refl) as (m & I & K). apply is_grid_iff in K.
    destruct (AT m I) as (i & A). pose proof (su_grid _ S i m A K) as NE. destruct K as (gr & t & K). specialize (SE m I). rewrite K in SE.
    destruct SE as (-> & -> & -> & ->). cbn [frame_of rbind]. unfold series in NE. rewrite K in NE. cbn [kind_ts] in NE.
    pose proof (grid_width m gr t (OKM m I) K) as W.
    assert (WJ : forall j, (j < 4)%nat -> (0 <= 0 < Z.of_nat (length (ts_column j (ts_rows t))))%Z).
    { intros j J. rewrite column_length; [destruct (ts_rows t); [contradiction|simpl; lia]|]. eapply Forall_impl; [|exact W]. cbn. intros r Lr. lia. }
    destruct (iloc_some _ 0 (WJ 3%nat ltac:(lia))) as (? & ->). cbn [rbind]. destruct (iloc_some _ 0 (WJ 1%nat ltac:(lia))) as (? & ->). cbn [rbind].
    destruct (iloc_some _ 0 (WJ 0%nat ltac:(lia))) as (? & ->). cbn [rbind]. destruct (iloc_some _ 0 (WJ 2%nat ltac:(lia))) as (? & ->). cbn [rbind]. eauto. }
  destruct GR as ([[[[? ?] ?] ?] [[[? ?] ?] ?]] & ->). cbn [rbind].
  assert (CP : forall c k, has_class c ms -> In k (par_keys c) -> exists x, dget k (sp_parameters sp) = Some x) by (intros c k; exact (class_par _ _ _ _ _ _ _ C c k)).
  assert (BA : exists r, (if has_battery (sp_arch sp) then
                 let? cc := (let? l := dfind (sp_status sp) "capa_to_charge" in first_of l) in
                 let? cd := (let? l := dfind (sp_status sp) "capa_to_discharge" in first_of l) in
                 let? soc := dfind (sp_parameters sp) "battery_soc_0" in
                 let? _ := rmapM (dfind (sp_parameters sp))
                             ["battery_capacity"; "battery_soc_max"; "battery_soc_min";
                              "battery_power_charge"; "battery_power_discharge";
                              "battery_efficiency"; "battery_cost_cycle"] in
                 Ok (mkBview (CNum soc) cc cd)
               else Ok (mkBview CNone CNone CNone)) = Ok r).
  { destruct (has_battery (sp_arch sp)) eqn:B; [|eauto]. pose proof (proj1 F2 eq_refl) as H. pose proof H as (m & I & K). apply is_battery_iff in K. destruct K as (b & K).
    destruct (own_contrib _ _ _ _ _ _ _ C m I) as (c & E). pose proof E as E'. unfold Proofs_Copy.contribution in E'. rewrite K in E'. injection E' as E'.
    assert (ST : forall k v, In (k, v) (c_status c) -> dget k (sp_status sp) = Some v) by (intros k v; exact (own_status _ _ _ _ _ _ _ C m c k v I E)).
    rewrite <- E' in ST. cbn [c_status In] in ST. unfold dfind at 1. rewrite (ST "capa_to_charge" _ (or_intror (or_introl eq_refl))). cbn [rbind first_of].
    unfold dfind at 1. rewrite (ST "capa_to_discharge" _ (or_intror (or_intror (or_introl eq_refl)))). cbn [rbind first_of].
    destruct (CP 2%nat "battery_soc_0" H ltac:(cbn; tauto)) as (x & X). unfold dfind at 1. rewrite X. cbn [rbind].
    destruct (finds_all (sp_parameters sp) ["battery_capacity"; "battery_soc_max"; "battery_soc_min";
                              "battery_power_charge"; "battery_power_discharge"; "battery_efficiency"; "battery_cost_cycle"]) as (found & ->); [|cbn [rbind]; eauto].
    intros k J. apply (CP 2%nat k H). cbn in J |- *. tauto. }
  destruct BA as (bat & ->). cbn [rbind].
  assert (GE : exists r, (if has_genset (sp_arch sp) then
               rmapM (dfind (sp_parameters sp))
                     ["genset_rated_power"; "genset_pmin"; "genset_pmax"; "fuel_cost"; "genset_co2"]
             else Ok []) = Ok r).
  { destruct (has_genset (sp_arch sp)) eqn:B; [|eauto]. apply finds_all. intros k J. apply (CP 4%nat k (proj1 F4 eq_refl)). cbn in J |- *. tauto. }
  destruct GE as (? & ->). cbn [rbind].
  assert (GI : exists r, (if has_grid (sp_arch sp) then
               rmapM (dfind (sp_parameters sp)) ["grid_power_export"; "grid_power_import"]
             else Ok []) = Ok r).
  { destruct (has_grid (sp_arch sp)) eqn:B; [|eauto]. apply finds_all. intros k J. apply (CP 3%nat k (proj1 F3 eq_refl)). cbn in J |- *. tauto. }
  destruct GI as (? & ->). cbn [rbind]. eauto.
Qed.

(** ** Together *)
Lemma to_nonmodular_iff D (mg : mgrid Q) : mg_inv D mg -> names_separate D ->
  ((exists g, to_nonmodular mg = Ok g) <-> convertible D mg /\ sufficient mg).
Proof.
  intros V S. split.
  - intros (g & E). destruct (to_nonmodular_ok _ _ D mg g V S E) as (C & ms & sp & h & K & N). split; [exact C|exact (copy_sufficient D mg ms sp h g V K N)].
  - intros (C & F). destruct (convertible_viable D mg V S C) as (ms & E). destruct (viable_ok D mg ms V S E) as (_ & P & ND).
    destruct (forecast_horizon_total D mg V (su_horizon _ F)) as (h & EH).
    destruct (add_all_total round1 poly ms) with (sp := @empty_params Q Q_ops) as (sp & EA).
    { intros m I. apply (Permutation_in _ P) in I. apply (contribution_iff round1 poly m (mods_ok D mg m V I)). apply In_nth_error in I. destruct I as (i & A).
      unfold addable. conj.
      - intros K. exact (proj2 (su_rows _ F i m A K)).
      - exact (su_grid _ F i m A).
      - intros s. exact (su_genset _ F i m s A). }
    assert (CP : copied D mg ms sp h).
    { constructor; auto. destruct C as (_ & _ & L). apply any_module_in in L. destruct L as (m & J & K).
      exists m. split; [exact (Permutation_in _ (Permutation_sym P) J)|exact K]. }
    destruct (new_total D mg ms sp h V CP F) as (g & N). exists g. unfold Conversion.to_nonmodular. rewrite E. cbn [rbind]. rewrite EA. cbn [rbind]. rewrite EH. exact N.
Qed.
Lemma to_nonmodular_contents D (mg : mgrid Q) g : mg_inv D mg -> names_separate D -> to_nonmodular mg = Ok g -> nonmodular_copy mg g.
Proof.
  intros V S E. destruct (to_nonmodular_ok _ _ D mg g V S E) as (C & ms & sp & h & K & N). exact (copy_contents D mg ms sp h g V K N).
Qed.
Lemma to_nonmodular_refuses D (mg : mgrid Q) : mg_inv D mg -> names_separate D -> ~ convertible D mg -> raises ValueError (to_nonmodular mg).
Proof.
  intros V S N. destruct (viability_cases D mg V S) as [(ms & E)|(e & E & K)].
  - exfalso. apply N. exact (proj1 (viable_ok D mg ms V S E)).
  - unfold Conversion.to_nonmodular. rewrite E. exists e. split; [reflexivity|exact K].
Qed.
Lemma to_nonmodular_wired D (mg : mgrid Q) g : mg_inv D mg -> names_separate D -> to_nonmodular mg = Ok g ->
  has_unbalanced mg -> any_module mg is_grid \/ any_module mg is_a_genset ->
  exists sp h, wired sp /\ new_nonmodular sp h = Ok g.
Proof.
  intros V S E U GG. destruct (to_nonmodular_ok _ _ D mg g V S E) as (C & ms & sp & h & K & N). exists sp, (Z.of_nat h + 1)%Z. split; [|exact N].
  apply (copied_wired _ _ _ _ _ _ _ K).
  - exact (pv_there D mg ms sp h g K N).
  - apply (class_any _ _ _ _ _ _ _ 5%nat is_unbalanced K is_unbalanced_iff). exact U.
  - destruct GG as [X|X]; [left|right].
    + apply (class_any _ _ _ _ _ _ _ 3%nat is_grid K is_grid_iff). exact X.
    + apply (class_any _ _ _ _ _ _ _ 4%nat is_a_genset K is_a_genset_iff). exact X.
Qed.
Lemma record_cost_par par ar prod o pi pe (c : record Q) c' u : record_cost par ar prod o pi pe c = (c', Ok u) ->
  (exists x, dget "cost_loss_load" par = Some x) /\ (exists x, dget "cost_co2" par = Some x).
Proof.
  intros H. unfold record_cost in H. do 2 (apply mbind_ok in H; destruct H as (? & ? & ?H0 & H)). rename H1 into P1.
  do 7 (apply mbind_ok in H; destruct H as (? & ? & _ & H)). apply mbind_ok in H. destruct H as (? & ? & P2 & _).
  unfold mlift in P1, P2. injection P1 as _ P1. injection P2 as _ P2. apply dfind_ok in P1. apply dfind_ok in P2. split; eauto.
Qed.
Lemma run_needs control (g : nonmod Q) g' v : nm_run control g = (g', Ok v) ->
  (exists x, parameter g "cost_loss_load" x) /\ (exists x, parameter g "cost_co2" x).
Proof.
  intros H. apply run_records in H. destruct H as (prod & R & _). destruct R as [_ _ _ (u & RC) _]. apply record_cost_par in RC. exact RC.
Qed.
Lemma to_nonmodular_runs D (mg : mgrid Q) g control g' v : mg_inv D mg -> names_separate D -> to_nonmodular mg = Ok g ->
  nm_run control g = (g', Ok v) -> has_unbalanced mg /\ (any_module mg is_grid \/ any_module mg is_a_genset).
Proof.
  intros V S E R. destruct (run_needs _ _ _ _ R) as ((x & X) & (y & Y)).
  destruct (to_nonmodular_ok _ _ D mg g V S E) as (C & ms & sp & h & K & N).
  pose proof (new_nonmodular_ok _ _ _ N) as (PAR & _). unfold parameter in X, Y. rewrite PAR in X, Y.
  assert (DEC : forall c, has_class c ms \/ ~ has_class c ms).
  { intros c. destruct (in_dec Nat.eq_dec c (classes ms)) as [I|I].
    - left. apply in_map_iff in I. destruct I as (m & Z & I). exists m. auto.
    - right. intros (m & J & Z). apply I. apply in_map_iff. eauto. }
  split.
  - apply (class_any _ _ _ _ _ _ _ 5%nat is_unbalanced K is_unbalanced_iff). destruct (DEC 5%nat) as [H|H]; [exact H|].
    rewrite (no_class_par _ _ _ _ _ _ _ K 5%nat "cost_loss_load" H ltac:(cbn; tauto)) in X. discriminate.
  - destruct (DEC 3%nat) as [H|H]; [left; apply (class_any _ _ _ _ _ _ _ 3%nat is_grid K is_grid_iff); exact H|].
    destruct (DEC 4%nat) as [H4|H4]; [right; apply (class_any _ _ _ _ _ _ _ 4%nat is_a_genset K is_a_genset_iff); exact H4|].
    exfalso. rewrite (gn_co2 _ _ _ (add_all_grown _ _ _ _ _ (cp_add _ _ _ _ _ _ _ K)) H H4) in Y. discriminate.
Qed.
Lemma to_nonmodular_sign D (mg : mgrid Q) g : mg_inv D mg -> names_separate D -> to_nonmodular mg = Ok g ->
  Forall (fun x => x <= 0) (nm_load_ts g).
Proof.
  intros V S E. destruct (to_nonmodular_ok _ _ D mg g V S E) as (C & ms & sp & h & K & N). pose proof (cp_load _ _ _ _ _ _ _ K) as (m & I & L).
  pose proof (load_series D mg ms sp h g V K N m I L) as X. pose proof (mo_kind m (ms_ok D mg ms sp h V K m I)) as O. destruct L as (t & L).
  unfold kind_ok in O. rewrite L in O. destruct O as (_ & _ & _ & _ & _ & O). unfold series in X. rewrite L in X. cbn [kind_ts] in X. rewrite X in O.
  clear - O. induction (nm_load_ts g) as [|x l IH]; [constructor|]. inversion O as [|? ? A B]; subst. inversion A; subst. constructor; auto.
Qed.
End Copy5.
