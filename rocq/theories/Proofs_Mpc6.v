(** * What the model predictive control tells its microgrid, and what happens then *)

From Coq Require Import ZArith QArith Qabs Qminmax Bool String List Lia Lqa Permutation.
From Verif Require Import Num Py Space Logger Forecast Module Container Microgrid NonModular Conversion MPC
  Spec_Module Spec_Reach Spec_Sane Spec_Microgrid Spec_Conversion Spec_MPC
  Proofs_Num Proofs_Module Proofs_Battery Proofs_Genset Proofs_Ts Proofs_Any Proofs_Data Proofs_Sane Proofs_Mgrid Proofs_Balance Proofs_MgProps Proofs_Episode Proofs_NonModular Proofs_Build Proofs_Obs Proofs_RbcRun Proofs_Twin
  Proofs_Copy2 Proofs_Copy3 Proofs_Copy5 Proofs_Mpc Proofs_Mpc2 Proofs_Mpc3 Proofs_Mpc4 Proofs_Mpc5.
Import ListNotations.
Local Open Scope string_scope.
Local Open Scope list_scope.
Local Open Scope py_scope.
Local Open Scope Q_scope.

Section Told.
Variables (round1 : Q -> Q) (poly : nat -> Q).
Variables (D : list (mdef Q)) (mg0 : mgrid Q) (c : mpc Q).
Hypothesis V0 : mg_inv D mg0.
Hypothesis SEP : names_separate D.
Hypothesis MADE : new_mpc round1 poly mg0 = Ok c.

Let INV := new_mpc_inv round1 poly D mg0 c V0 SEP MADE.
Lemma to_name i d : nth_error D i = Some d -> dget (class_name (m_kind (snd d))) (mp_names c) = Some (mdef_name d).
Proof. intros N. apply (st_names round1 poly D mg0 c V0 SEP MADE). exists i, d. auto. Qed.
Lemma to_def k nm : dget k (mp_names c) = Some nm -> exists i d, nth_error D i = Some d /\ mdef_name d = nm /\ class_name (m_kind (snd d)) = k.
Proof. intros E. apply (st_names round1 poly D mg0 c V0 SEP MADE) in E. exact E. Qed.
Lemma to_other i j d d' : nth_error D i = Some d -> nth_error D j = Some d' -> class_name (m_kind (snd d)) <> class_name (m_kind (snd d')) -> mdef_name d <> mdef_name d'.
Proof.
  intros N N' C E. apply C. pose proof (st_nodup round1 poly D mg0 c V0 SEP MADE) as ND.
  assert (In j (positions (mdef_name d) D)) as J by (apply in_positions; exists d'; auto).
  rewrite (positions_one D i d ND N) in J. destruct J as [<-|[]]. congruence.
Qed.
Lemma str_in_get k (names : dict string) : str_in k (dkeys names) = match dget k names with Some _ => true | None => false end.
Proof.
  unfold str_in. destruct (dget k names) eqn:E.
  - apply existsb_exists. exists k. split; [|apply String.eqb_refl]. apply Proofs_Num.dget_In in E. unfold dkeys. apply in_map_iff. exists (k, s). auto.
  - destruct (existsb _ _) eqn:X; [|reflexivity]. apply existsb_exists in X. destruct X as (y & I & Q). apply String.eqb_eq in Q. subst y.
    apply Proofs_Num.dget_None in E. contradiction.
Qed.

Lemma control_told p u s rest : is_plan (has_gen c) p u (s :: rest) -> exists ctl, extract_control c (Some (p, u)) = Ok ctl /\ told D s ctl.
Proof.
  intros (-> & EU). unfold extract_control.
  destruct (st_battery round1 poly D mg0 mg0 c V0 V0 SEP MADE) as (ib & bm & b & AB & KB & _).
  destruct (mod_def D mg0 V0 ib bm AB) as (db & NB & _ & LB). assert (CB : class_name (m_kind (snd db)) = "battery") by (rewrite <- (like_class _ _ LB), KB; reflexivity).
  pose proof (to_name ib db NB) as DB. rewrite CB in DB.
  set (nb := mdef_name db) in *.
  (* the grid *)
  set (vg := COne (pl_import s - pl_export s)). set (vb := COne (pl_discharge s - pl_charge s)). set (vs := CList [VA [pl_on s; pl_genset s]]).
  assert (G : forall ctl0 : control Q, (forall nm, dget nm ctl0 = if match dget "genset" (mp_names c) with Some n => String.eqb nm n | None => false end then Some vs else None) ->
    told D s (dset nb vb (if str_in "grid" (dkeys (mp_names c)) then match dget "grid" (mp_names c) with Some name => dset name vg ctl0 | None => ctl0 end else ctl0))).
  { intros ctl0 C0. rewrite str_in_get.
    assert (X : forall nm, dget nm (dset nb vb (if match dget "grid" (mp_names c) with Some _ => true | None => false end then match dget "grid" (mp_names c) with Some name => dset name vg ctl0 | None => ctl0 end else ctl0))
      = if String.eqb nm nb then Some vb else if match dget "grid" (mp_names c) with Some n => String.eqb nm n | None => false end then Some vg
        else if match dget "genset" (mp_names c) with Some n => String.eqb nm n | None => false end then Some vs else None).
    { intros nm. rewrite Proofs_Balance.dget_dset. destruct (String.eqb nm nb); [reflexivity|]. destruct (dget "grid" (mp_names c)) as [ng|]; [rewrite Proofs_Balance.dget_dset; destruct (String.eqb nm ng); [reflexivity|]|]; apply C0. }
    split.
    - intros d I. apply In_nth_error in I. destruct I as (i & N). rewrite X.
      assert (O : forall k n, dget k (mp_names c) = Some n -> String.eqb (mdef_name d) n = String.eqb k (class_name (m_kind (snd d)))).
      { intros k n E. destruct (to_def k n E) as (j & d' & N' & M' & C'). subst n k. destruct (String.eqb (class_name (m_kind (snd d'))) _) eqn:Y.
        - apply String.eqb_eq in Y. pose proof (to_name i d N) as T1. pose proof (to_name j d' N') as T2. rewrite Y in T2. rewrite T1 in T2. injection T2 as ->. apply String.eqb_refl.
        - apply String.eqb_neq. apply String.eqb_neq in Y. apply (to_other i j); auto. }
      rewrite (O "battery" nb DB). pose proof (to_name i d N) as TN.
      destruct (dget "grid" (mp_names c)) as [ng|] eqn:EG; [rewrite (O _ _ EG)|]; (destruct (dget "genset" (mp_names c)) as [nn|] eqn:EN; [rewrite (O _ _ EN)|]);
        destruct (m_kind (snd d)); cbn [class_name] in *; cbn; try reflexivity; try congruence.
    - intros nm E. rewrite X in E.
      assert (O : forall k n, dget k (mp_names c) = Some n -> exists d, In d D /\ mdef_name d = n).
      { intros k n E'. destruct (to_def k n E') as (j & d' & N' & M' & _). exists d'. split; [eapply nth_error_In; exact N'|exact M']. }
      destruct (String.eqb nm nb) eqn:Q1; [apply String.eqb_eq in Q1; subst nm; exact (O _ _ DB)|].
      destruct (dget "grid" (mp_names c)) as [ng|] eqn:EG; [destruct (String.eqb nm ng) eqn:Q2; [apply String.eqb_eq in Q2; subst nm; exact (O _ _ EG)|]|];
        (destruct (dget "genset" (mp_names c)) as [nn|] eqn:EN; [destruct (String.eqb nm nn) eqn:Q3; [apply String.eqb_eq in Q3; subst nm; exact (O _ _ EN)|]|]); contradiction. }
  assert (HG : has_gen c = match dget "genset" (mp_names c) with Some _ => true | None => false end) by apply str_in_get.
  clear INV. destruct (has_gen c).
  - rewrite (EU eq_refl). destruct (dget "genset" (mp_names c)) as [nn|] eqn:EN; [|discriminate]. unfold dfind. rewrite EN. cbn [rbind concat map variables app].
    rewrite DB. cbn [rbind]. eexists. split; [reflexivity|]. apply G. intros nm. cbn. reflexivity.
  - destruct (dget "genset" (mp_names c)) as [nn|] eqn:EN; [discriminate|]. cbn [rbind concat map variables app]. unfold dfind.
    rewrite DB. cbn [rbind]. eexists. split; [reflexivity|]. apply G. intros nm. reflexivity.
Qed.
End Told.
