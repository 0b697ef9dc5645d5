(** * Proofs about MicrogridGenerator.py: the microgrid *)

From Coq Require Import ZArith QArith Qminmax Lqa Lia Bool String List Permutation.
From Verif Require Import Num Py Module NonModular Generator Proofs_Num Proofs_Ts Spec_NonModular Spec_Generator
  Proofs_NonModular Proofs_NmEpisode Proofs_NmTotal Spec_Conversion Spec_NmRbc Spec_NmRbcRun Proofs_Generator.
Import ListNotations.
Local Open Scope string_scope.
Local Open Scope list_scope.
Local Open Scope Q_scope.

(** ** The constructor *)

Lemma iloc_at (l : list Q) k : (k < length l)%nat -> exists x, iloc l (Z.of_nat k) = Ok x /\ nth_error l k = Some x.
Proof.
  intros L. destruct (nth_error l k) as [x|] eqn:E; [|apply nth_error_None in E; lia]. exists x. split; [|reflexivity].
  unfold iloc, py_nth. replace (0 <=? Z.of_nat k)%Z with true by (symmetry; apply Z.leb_le; lia).
  replace (Z.of_nat k <? Z.of_nat (length l))%Z with true by (symmetry; apply Z.ltb_lt; lia).
  cbn [andb]. rewrite Nat2Z.id, E. reflexivity.
Qed.
Lemma finds_all (par : dict Q) ks : (forall k, In k ks -> exists x, dget k par = Some x) -> exists l, rmapM (dfind par) ks = Ok l.
Proof.
  induction ks as [|k ks IH]; intros F; [exists []; reflexivity|]. destruct (F k (or_introl eq_refl)) as (x & X).
  destruct IH as (l & E); [intros; apply F; right; assumption|]. exists (x :: l). cbn [rmapM]. unfold dfind at 1. rewrite X. cbn [rbind]. rewrite E. reflexivity.
Qed.
Lemma first_cell (sp : nm_spec Q) k : wired sp -> In k (status_columns (sp_arch sp)) ->
  exists x : cell Q, dget k (sp_status sp) = Some [x].
Proof.
  intros W I. assert (P : In k (map fst (sp_status sp))).
  { eapply Permutation_in; [symmetry; exact (wi_status _ W)|exact I]. }
  pose proof (wi_first _ W) as F. induction (sp_status sp) as [|(k', v) l IH]; [inversion P|].
  inversion F as [|? ? (x & X) F']; subst. cbn [snd] in X. cbn [dget]. destruct (String.eqb k k') eqn:E; [exists x; congruence|].
  apply IH; [|exact F']. destruct P as [P|P]; [cbn [fst] in P; subst; rewrite String.eqb_refl in E; discriminate E|exact P].
Qed.
Lemma new_total (sp : nm_spec Q) h load pv : wired sp ->
  sp_load sp = Some load -> sp_pv sp = Some pv -> (2 <= length load)%nat -> (2 <= length pv)%nat ->
  (has_grid (sp_arch sp) = true -> exists s i e c, sp_grid_ts sp = Some s /\ sp_import sp = Some i /\ sp_export sp = Some e
     /\ sp_co2 sp = Some c /\ Forall (fun l => (1 <= length l)%nat) [s; i; e; c]) ->
  exists g, new_nonmodular sp h = Ok g
    /\ (has_battery (sp_arch sp) = true -> exists soc, dget "battery_soc_0" (sp_parameters sp) = Some soc /\ bv_soc (nm_battery g) = CNum soc).
Proof.
  intros W L P LL LP G. unfold new_nonmodular. rewrite P, L. cbn [frame_of rbind].
  destruct (iloc_at pv 0 ltac:(lia)) as (pv0 & X & _). change (Z.of_nat 0) with 0%Z in X. rewrite X. cbn [rbind]. clear X.
  destruct (iloc_at load 0 ltac:(lia)) as (ld0 & X & _). change (Z.of_nat 0) with 0%Z in X. rewrite X. cbn [rbind]. clear X.
  destruct (iloc_at load 1 ltac:(lia)) as (ld1 & X & _). change (Z.of_nat 1) with 1%Z in X. rewrite X. cbn [rbind]. clear X.
  destruct (iloc_at pv 1 ltac:(lia)) as (pv1 & X & _). change (Z.of_nat 1) with 1%Z in X. rewrite X. cbn [rbind]. clear X.
  assert (GR : exists r, (if has_grid (sp_arch sp) then
                (let? s := frame_of (sp_grid_ts sp) in
                let? i := frame_of (sp_import sp) in
                let? e := frame_of (sp_export sp) in
                let? c := frame_of (sp_co2 sp) in
                let? s0 := iloc s 0 in
                let? e0 := iloc e 0 in
                let? i0 := iloc i 0 in
                let? c0 := iloc c 0 in
                Ok ((s, i, e, c), (s0, i0, e0, c0)))%py
              else Ok (([], [], [], []), (n0, n0, n0, n0))) = Ok r).
  { destruct (has_grid (sp_arch sp)); [|eauto]. destruct (G eq_refl) as (s & i & e & c & -> & -> & -> & -> & F). cbn [frame_of rbind].
    rewrite Forall_forall in F. assert (F1 := F s ltac:(cbn; tauto)). assert (F2 := F i ltac:(cbn; tauto)).
    assert (F3 := F e ltac:(cbn; tauto)). assert (F4 := F c ltac:(cbn; tauto)).
    destruct (iloc_at s 0 ltac:(lia)) as (x1 & X & _). change (Z.of_nat 0) with 0%Z in X. rewrite X. cbn [rbind]. clear X.
    destruct (iloc_at e 0 ltac:(lia)) as (x2 & X & _). change (Z.of_nat 0) with 0%Z in X. rewrite X. cbn [rbind]. clear X.
    destruct (iloc_at i 0 ltac:(lia)) as (x3 & X & _). change (Z.of_nat 0) with 0%Z in X. rewrite X. cbn [rbind]. clear X.
    destruct (iloc_at c 0 ltac:(lia)) as (x4 & X & _). change (Z.of_nat 0) with 0%Z in X. rewrite X. cbn [rbind]. clear X. eauto. }
  destruct GR as ([[[[s i] e] c] [[[s0 i0] e0] c0]] & ->). cbn [rbind].
  assert (PN : forall k, In k (parameter_names (sp_arch sp)) -> exists x, dget k (sp_parameters sp) = Some x) by exact (wi_par _ W).
  unfold parameter_names in PN.
  assert (GE : exists l, (if has_genset (sp_arch sp) then
               rmapM (dfind (sp_parameters sp)) ["genset_rated_power"; "genset_pmin"; "genset_pmax"; "fuel_cost"; "genset_co2"]
             else Ok []) = Ok l).
  { destruct (has_genset (sp_arch sp)); [|eauto]. apply finds_all. intros k I. apply PN. apply in_or_app. right.
    apply in_or_app. right. apply in_or_app. right. exact I. }
  assert (GX : exists l, (if has_grid (sp_arch sp) then rmapM (dfind (sp_parameters sp)) ["grid_power_export"; "grid_power_import"] else Ok []) = Ok l).
  { destruct (has_grid (sp_arch sp)); [|eauto]. apply finds_all. intros k I. apply PN. apply in_or_app. right.
    apply in_or_app. right. apply in_or_app. left. cbn [In] in *. tauto. }
  destruct GE as (l1 & E1), GX as (l2 & E2).
  destruct (has_battery (sp_arch sp)) eqn:HB.
  - assert (ST : forall k, In k ["battery_soc"; "capa_to_charge"; "capa_to_discharge"] -> In k (status_columns (sp_arch sp))).
    { intros k I. unfold status_columns. rewrite HB. apply in_or_app. right. apply in_or_app. left. exact I. }
    destruct (first_cell sp "capa_to_charge" W (ST "capa_to_charge" ltac:(cbn; tauto))) as (cc & CC).
    destruct (first_cell sp "capa_to_discharge" W (ST "capa_to_discharge" ltac:(cbn; tauto))) as (cd & CD).
    unfold dfind at 1. rewrite CC. cbn [rbind first_of]. unfold dfind at 1. rewrite CD. cbn [rbind first_of].
    destruct (PN "battery_soc_0" ltac:(apply in_or_app; right; apply in_or_app; left; cbn; tauto)) as (soc & SOC).
    unfold dfind at 1. rewrite SOC. cbn [rbind].
    destruct (finds_all (sp_parameters sp) ["battery_capacity"; "battery_soc_max"; "battery_soc_min"; "battery_power_charge";
                              "battery_power_discharge"; "battery_efficiency"; "battery_cost_cycle"]) as (l3 & E3).
    { intros k I. apply PN. apply in_or_app. right. apply in_or_app. left. cbn [In] in *. tauto. }
    rewrite E3. cbn [rbind]. rewrite E1. cbn [rbind]. rewrite E2. cbn [rbind]. eexists. split; [reflexivity|]. intros _. exists soc. auto.
  - cbn [rbind]. rewrite E1. cbn [rbind]. rewrite E2. cbn [rbind]. eexists. split; [reflexivity|]. discriminate.
Qed.
