(** * What the non-modular copy contains *)

From Coq Require Import ZArith QArith Qabs Qminmax Bool String List Lia Lqa Permutation.
From Verif Require Import Num Py Space Logger Forecast Module Container Microgrid NonModular Conversion
  Proofs_Num Proofs_Logger Spec_Module Spec_Reach Proofs_Module Proofs_Ts Proofs_Any
  Spec_Microgrid Proofs_Container Proofs_Run Proofs_Mgrid Proofs_Views Proofs_Data
  Proofs_Build Proofs_MgProps Proofs_Obs Proofs_Episode Proofs_RbcRun Spec_NonModular Proofs_NonModular Proofs_NmRun Proofs_NmCost Proofs_NmEpisode Proofs_NmTotal
  Spec_Conversion Proofs_Twin Proofs_Copy Proofs_Copy2 Proofs_Copy3.
Import ListNotations.
Local Open Scope string_scope.
Local Open Scope list_scope.
Local Open Scope py_scope.
Local Open Scope Q_scope.

Section Copy4.
Variables (round1 : Q -> Q) (poly : nat -> Q).
Notation contribution := (contribution round1 poly).
Notation to_nonmodular := (to_nonmodular round1 poly).

Record copied (D : list (mdef Q)) (mg : mgrid Q) (ms : list (module Q)) (sp : nm_spec Q) (h : nat) : Prop := mkCopied {
  cp_perm : Permutation ms (mg_mods mg);
  cp_nodup : NoDup (classes ms);
  cp_load : exists m, In m ms /\ is_load m;
  cp_add : add_all round1 poly ms empty_params = Ok sp;
  cp_horizon : get_forecast_horizon mg = Ok h
}.
Lemma to_nonmodular_ok D (mg : mgrid Q) g : mg_inv D mg -> names_separate D -> to_nonmodular mg = Ok g ->
  convertible D mg /\ exists ms sp h, copied D mg ms sp h /\ new_nonmodular sp (Z.of_nat h + 1) = Ok g.
Proof.
  intros I S E. unfold Conversion.to_nonmodular in E. apply rbind_ok in E. destruct E as (ms & E1 & E). apply rbind_ok in E. destruct E as (sp & E2 & E).
  apply rbind_ok in E. destruct E as (h & E3 & E). destruct (viable_ok D mg ms I S E1) as (C & P & N). split; [exact C|].
  exists ms, sp, h. split; [|exact E]. constructor; auto. destruct C as (_ & _ & L). apply any_module_in in L. destruct L as (m & J & K).
  exists m. split; [exact (Permutation_in _ (Permutation_sym P) J)|exact K].
Qed.
Lemma at_in D (mg : mgrid Q) ms sp h i m : copied D mg ms sp h -> at_index mg i m -> In m ms.
Proof. intros C A. apply (Permutation_in _ (Permutation_sym (cp_perm _ _ _ _ _ C))). eapply nth_error_In. exact A. Qed.
Lemma class_any D (mg : mgrid Q) ms sp h c (P : module Q -> Prop) : copied D mg ms sp h -> (forall m, P m <-> class_of (m_kind m) = c) ->
  (has_class c ms <-> any_module mg P).
Proof.
  intros C F. rewrite any_module_in. unfold has_class. split; intros (m & I & K); exists m; (split; [|apply F; exact K]).
  - exact (Permutation_in _ (cp_perm _ _ _ _ _ C) I).
  - exact (Permutation_in _ (Permutation_sym (cp_perm _ _ _ _ _ C)) I).
Qed.
Lemma mods_ok D (mg : mgrid Q) m : mg_inv D mg -> In m (mg_mods mg) -> mod_ok m.
Proof.
  intros I J. pose proof (iv_mods _ _ I) as F. clear I. induction F as [|d x D' l (O & _) F IH]; [destruct J|]. destruct J as [<-|J]; auto.
Qed.

(** ** Records *)
Lemma class_keys (f : nat -> list string) (ms : list (module Q)) k : (exists m, In m ms /\ In k (f (class_of (m_kind m)))) <->
  (has_class 0 ms /\ In k (f 0%nat)) \/ (has_class 1 ms /\ In k (f 1%nat)) \/ (has_class 2 ms /\ In k (f 2%nat))
  \/ (has_class 3 ms /\ In k (f 3%nat)) \/ (has_class 4 ms /\ In k (f 4%nat)) \/ (has_class 5 ms /\ In k (f 5%nat)).
Proof.
  split.
  - intros (m & I & K). assert (H : has_class (class_of (m_kind m)) ms) by (exists m; auto).
    destruct (m_kind m); cbn [class_of] in *; tauto.
  - intros H. assert (X : exists c, has_class c ms /\ In k (f c)) by (repeat destruct H as [H|H]; eauto).
    destruct X as (c & (m & I & <-) & K). eauto.
Qed.
Lemma co2_stays ms : forall sp0 sp, add_all round1 poly ms sp0 = Ok sp -> (exists m, In m ms /\ co2_of m <> None) \/ dget "cost_co2" (sp_parameters sp0) <> None ->
  dget "cost_co2" (sp_parameters sp) <> None.
Proof.
  induction ms as [|m ms IH]; intros sp0 sp E H; cbn [add_all] in E.
  - injection E as <-. destruct H as [(m & [] & _)|H]; exact H.
  - apply rbind_ok in E. destruct E as (sp1 & E1 & E2). apply (IH _ _ E2). rewrite add_params_contrib in E1. apply rbind_ok in E1. destruct E1 as (c & K & E1).
    assert (sp1 = applied m c sp0) as -> by congruence. destruct (contribution_keys _ _ _ _ K) as (K1 & _ & _ & _ & _ & K6).
    unfold applied. cbn [sp_parameters]. fold (co2_of m) in K6. rewrite K6.
    destruct (co2_of m) as [x|] eqn:X.
    + right. rewrite dget_dupdate by (repeat constructor; simpl; tauto). cbn [dget]. rewrite String.eqb_refl. discriminate.
    + destruct H as [(m' & [<-|J] & NE)|H]; [contradiction|left; eauto|]. right.
      rewrite dget_dupdate by (rewrite K1; apply par_keys_nodup). destruct (dget "cost_co2" (c_par c)); [discriminate|exact H].
Qed.
Section Wired.
Variables (D : list (mdef Q)) (mg : mgrid Q) (ms : list (module Q)) (sp : nm_spec Q) (h : nat).
Hypothesis C : copied D mg ms sp h.
Let G := add_all_grown _ _ _ _ _ (cp_add _ _ _ _ _ C).
Lemma has_load : has_class 0 ms.
Proof. destruct (cp_load _ _ _ _ _ C) as (m & I & K). exists m. split; [exact I|]. apply is_load_iff. exact K. Qed.
Lemma flags : (has_pv (sp_arch sp) = true <-> has_class 1 ms) /\ (has_battery (sp_arch sp) = true <-> has_class 2 ms)
  /\ (has_grid (sp_arch sp) = true <-> has_class 3 ms) /\ (has_genset (sp_arch sp) = true <-> has_class 4 ms).
Proof.
  conj; [rewrite (gn_has_pv _ _ _ G)|rewrite (gn_has_battery _ _ _ G)|rewrite (gn_has_grid _ _ _ G)|rewrite (gn_has_genset _ _ _ G)];
    cbn; (split; [intros [X|X]; [discriminate|exact X]|auto]).
Qed.
Lemma own_par m c k v : In m ms -> contribution m = Ok c -> In (k, v) (c_par c) -> dget k (sp_parameters sp) = Some v.
Proof. intros I E J. exact (par_in_end _ _ _ _ _ _ _ _ _ (cp_add _ _ _ _ _ C) (cp_nodup _ _ _ _ _ C) I E J). Qed.
Lemma own_status m c k v : In m ms -> contribution m = Ok c -> In (k, v) (c_status c) -> dget k (sp_status sp) = Some v.
Proof. intros I E J. exact (status_in_end _ _ _ _ _ _ _ _ _ (cp_add _ _ _ _ _ C) (cp_nodup _ _ _ _ _ C) I E J). Qed.
Lemma own_contrib m : In m ms -> exists c, contribution m = Ok c.
Proof. exact (add_all_contrib _ _ _ _ _ (cp_add _ _ _ _ _ C) m). Qed.
Lemma class_par c k : has_class c ms -> In k (par_keys c) -> exists x, dget k (sp_parameters sp) = Some x.
Proof.
  intros (m & I & <-) K. destruct (own_contrib m I) as (cc & E). destruct (contribution_keys _ _ _ _ E) as (K1 & _). rewrite <- K1 in K.
  apply in_map_iff in K. destruct K as ((k' & v) & <- & J). exists v. eapply own_par; eassumption.
Qed.
Lemma no_class_par c k : ~ has_class c ms -> In k (par_keys c) -> dget k (sp_parameters sp) = None.
Proof.
  intros N K. rewrite (gn_par _ _ _ G k); [reflexivity|intros ->; exact (no_co2_key _ K)|].
  intros m I J. apply N. exists m. split; [exact I|]. exact (par_keys_one _ _ _ J K).
Qed.
Lemma no_nodup_cost : NoDup (map fst (sp_status sp)) /\ NoDup (map fst (sp_generation sp)) /\ NoDup (map fst (sp_cost sp)).
Proof.
  destruct (gn_nodup _ _ _ G) as (N1 & N2 & N3). conj; [apply N1|apply N2|apply N3]; cbn; repeat constructor; cbn; intuition congruence.
Qed.
Ltac bools := destruct (has_pv _), (has_battery _), (has_grid _), (has_genset _).
Lemma gen_columns : has_class 1 ms -> Spec_NonModular.columns (sp_generation sp) (production_columns (sp_arch sp)).
Proof.
  intros H1. pose proof has_load as H0. destruct flags as (_ & F2 & F3 & F4).
  apply NoDup_Permutation; [apply no_nodup_cost| |].
  - unfold production_columns. destruct (has_battery _), (has_grid _), (has_genset _); cbn; repeat constructor; cbn; intuition congruence.
  - intros k. rewrite (gn_gen_in _ _ _ G), class_keys. cbn [gen_keys]. rewrite <- F2, <- F3, <- F4.
    unfold production_columns. destruct (has_battery _), (has_grid _), (has_genset _); cbn; intuition congruence.
Qed.
Lemma cost_columns_ok : has_class 3 ms \/ has_class 4 ms -> Spec_NonModular.columns (sp_cost sp) (cost_columns (sp_arch sp)).
Proof.
  intros H34. destruct flags as (_ & F2 & F3 & F4). rewrite <- F3, <- F4 in H34.
  apply NoDup_Permutation; [apply no_nodup_cost| |].
  - unfold cost_columns. destruct (has_battery _), (has_grid _), (has_genset _); cbn; repeat constructor; cbn; intuition congruence.
  - intros k. rewrite (gn_cost_in _ _ _ G), class_keys. cbn [cost_keys]. rewrite <- F2, <- F3, <- F4.
    unfold cost_columns. destruct (has_battery _), (has_grid _), (has_genset _); cbn; intuition congruence.
Qed.
Lemma status_columns_ok : has_class 1 ms -> Spec_NonModular.columns (sp_status sp) (status_columns (sp_arch sp)).
Proof.
  intros H1. pose proof has_load as H0. destruct flags as (_ & F2 & F3 & F4).
  apply NoDup_Permutation; [apply no_nodup_cost| |].
  - unfold status_columns. destruct (has_battery _), (has_grid _); cbn; repeat constructor; cbn; intuition congruence.
  - intros k. rewrite (gn_status_in _ _ _ G), class_keys. cbn [status_keys]. rewrite <- F2, <- F3.
    unfold status_columns. destruct (has_battery _), (has_grid _); cbn; intuition congruence.
Qed.
Lemma some_co2 : has_class 3 ms \/ has_class 4 ms -> exists x, dget "cost_co2" (sp_parameters sp) = Some x.
Proof.
  intros H. assert (X : exists m, In m ms /\ co2_of m <> None) by (destruct H as [(m & I & K)|(m & I & K)]; exists m; (split; [exact I|apply co2_of_class; auto])).
  destruct (dget "cost_co2" (sp_parameters sp)) eqn:E; [eauto|]. exfalso. destruct X as (m & I & NE).
  apply (co2_stays _ _ _ (cp_add _ _ _ _ _ C)); [left; eauto|exact E].
Qed.
Lemma copied_wired : has_class 1 ms -> has_class 5 ms -> has_class 3 ms \/ has_class 4 ms -> wired sp.
Proof.
  intros H1 H5 H34. pose proof has_load as H0. destruct flags as (_ & F2 & F3 & F4). constructor.
  - intros k K. unfold parameter_names in K.
    assert (X : (exists c, has_class c ms /\ In k (par_keys c)) \/ k = "cost_co2").
    { cbn [app In] in K. destruct K as [<-|[<-|[<-|K]]]; [left; exists 5%nat; cbn; auto|left; exists 5%nat; cbn; auto|right; reflexivity|].
      apply in_app_iff in K. destruct K as [K|K].
      - destruct (has_battery _); [|destruct K]. left. exists 2%nat. split; [tauto|exact K].
      - apply in_app_iff in K. destruct K as [K|K].
        + destruct (has_grid _); [|destruct K]. left. exists 3%nat. split; [tauto|]. right. exact K.
        + destruct (has_genset _); [|destruct K]. left. exists 4%nat. split; [tauto|]. do 4 right. exact K. }
    destruct X as [(c & H & J)| -> ]; [eapply class_par; eassumption|apply some_co2; exact H34].
  - apply gen_columns; exact H1.
  - apply cost_columns_ok; exact H34.
  - rewrite (gn_df _ _ _ G). apply Permutation_refl.
  - apply status_columns_ok; exact H1.
  - eapply Forall_impl; [|apply (gn_first _ _ _ G); cbn; repeat constructor; eexists; reflexivity]. intros kl (x & E). eauto.
  - apply (proj1 (gn_empty _ _ _ G)). repeat constructor.
  - apply (proj1 (proj2 (gn_empty _ _ _ G))). repeat constructor.
  - rewrite (gn_df _ _ _ G). repeat constructor.
  - apply (proj2 (proj2 (gn_empty _ _ _ G))). constructor.
  - intros B. apply F2 in B. destruct B as (m & I & K). destruct (own_contrib m I) as (c & E). pose proof E as E'.
    unfold Proofs_Copy.contribution in E'. destruct (m_kind m) as [b|s|gr t|t|t|u]; try discriminate K. injection E' as <-.
    exists (b_soc b). eapply own_status; [exact I|exact E|left; reflexivity].
Qed.
Lemma two_in (l : list (module Q)) a b : In a l -> In b l -> a <> b -> (exists l1 l2 l3, l = l1 ++ a :: l2 ++ b :: l3) \/ (exists l1 l2 l3, l = l1 ++ b :: l2 ++ a :: l3).
Proof.
  intros I J NE. apply in_split in I. destruct I as (l1 & l2 & ->). apply in_app_iff in J. destruct J as [J|[J|J]]; [|contradiction|].
  - apply in_split in J. destruct J as (x & y & ->). right. exists x, y, l2. rewrite <- app_assoc. reflexivity.
  - apply in_split in J. destruct J as (x & y & ->). left. exists l1, x, y. reflexivity.
Qed.
Lemma co2_single m x : In m ms -> co2_of m = Some x -> (forall n, In n ms -> n <> m -> co2_of n = None) -> dget "cost_co2" (sp_parameters sp) = Some x.
Proof.
  intros I X F. pose proof (cp_nodup _ _ _ _ _ C) as N. pose proof (cp_add _ _ _ _ _ C) as A. apply in_split in I. destruct I as (a & b & E). rewrite E in *.
  destruct (distinct_others _ _ _ N) as (NA & NB).
  rewrite (one_co2 round1 poly a m b empty_params sp x); [reflexivity|exact A|exact X| |].
  - intros n J. apply F; [apply in_app_iff; auto|intros ->; exact (NA m J eq_refl)].
  - intros n J. apply F; [apply in_app_iff; right; right; exact J|intros ->; exact (NB m J eq_refl)].
Qed.
Lemma co2_double m n x y : In m ms -> In n ms -> m <> n -> co2_of m = Some x -> co2_of n = Some y ->
  (forall k, In k ms -> k <> m -> k <> n -> co2_of k = None) ->
  exists z, dget "cost_co2" (sp_parameters sp) = Some z /\ z == (x + y) / 2.
Proof.
  intros I J NE X Y F. pose proof (cp_nodup _ _ _ _ _ C) as N. pose proof (cp_add _ _ _ _ _ C) as A.
  assert (ND : NoDup ms) by (apply NoDup_map_inv in N; exact N).
  assert (K : forall p q x y, co2_of p = Some x -> co2_of q = Some y -> (forall k, In k ms -> k <> p -> k <> q -> co2_of k = None) ->
    (exists l1 l2 l3, ms = l1 ++ p :: l2 ++ q :: l3) -> exists z, dget "cost_co2" (sp_parameters sp) = Some z /\ z == (x + y) / 2).
  { clear m n x y I J NE X Y F. intros m n x y X Y F (a & b & e & E). rewrite E in *. exists (mix y (Some x)). split; [|apply mix_mean].
    assert (N1 : NoDup (b ++ n :: e) /\ ~ In m (a ++ b ++ n :: e)).
    { split; [|exact (NoDup_remove_2 _ _ _ ND)]. apply NoDup_remove_1 in ND. clear - ND. induction a; [exact ND|inversion ND; auto]. }
    destruct N1 as (N1 & N2). assert (N3 : ~ In n (b ++ e)) by exact (NoDup_remove_2 _ _ _ N1).
    assert (N4 : ~ In n a).
    { intros I. replace (a ++ m :: b ++ n :: e) with ((a ++ m :: b) ++ n :: e) in ND by (rewrite <- app_assoc; reflexivity).
      apply NoDup_remove_2 in ND. apply ND. rewrite !in_app_iff. auto. }
    apply (two_co2 round1 poly a m b n e empty_params); auto.
    - intros k J. apply F; [rewrite !in_app_iff; auto|intros ->; apply N2; rewrite !in_app_iff; auto|intros ->; contradiction].
    - intros k J. apply F; [rewrite !in_app_iff; cbn; rewrite in_app_iff; auto|intros ->; apply N2; rewrite !in_app_iff; auto|intros ->; apply N3; rewrite !in_app_iff; auto].
    - intros k J. apply F; [rewrite !in_app_iff; cbn; rewrite in_app_iff; cbn; auto|intros ->; apply N2; rewrite !in_app_iff; cbn; auto|intros ->; apply N3; rewrite !in_app_iff; auto]. }
  destruct (two_in ms m n I J NE) as [H|H].
  - exact (K m n x y X Y F H).
  - destruct (K n m y x Y X) as (z & E & Z); [intros k Kk K1 K2; apply F; auto|exact H|]. exists z. split; [exact E|]. rewrite Z, Qplus_comm. reflexivity.
Qed.
Lemma same_in m n : In m ms -> In n ms -> class_of (m_kind m) = class_of (m_kind n) -> m = n.
Proof.
  intros I J E. apply in_split in I. destruct I as (a & b & X). pose proof (cp_nodup _ _ _ _ _ C) as N. rewrite X in *.
  destruct (distinct_others _ _ _ N) as (NA & NB). apply in_app_iff in J. destruct J as [J|[J|J]]; [|exact J|]; exfalso.
  - exact (NA n J (eq_sym E)).
  - exact (NB n J (eq_sym E)).
Qed.
End Wired.
End Copy4.
