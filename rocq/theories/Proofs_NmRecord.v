(** * What a run of a non-modular microgrid adds to its records *)

From Coq Require Import ZArith QArith Qabs Qminmax Bool String List Lia Lqa Permutation.
From Verif Require Import Num Py Proofs_Num Proofs_Run NonModular Spec_NonModular Proofs_NonModular Proofs_NmRun
  Proofs_NmHistory Proofs_NmBattery.
Import ListNotations.
Local Open Scope string_scope.
Local Open Scope list_scope.
Local Open Scope Q_scope.

(** *** The room of the battery *)

Lemma run_room control (g : nonmod Q) g' v l m : nm_run control g = (g', Ok v) -> has_battery (nm_arch g) = true ->
  dget "capa_to_charge" (nm_state g) = Some l -> dget "capa_to_discharge" (nm_state g) = Some m ->
  exists soc' r r', gained (nm_state g) (nm_state g') "battery_soc" (CNum soc')
    /\ gained (nm_state g) (nm_state g') "capa_to_charge" (CNum r) /\ charge_room g soc' r
    /\ gained (nm_state g) (nm_state g') "capa_to_discharge" (CNum r') /\ discharge_room g soc' r'.
Proof.
  intros H HB L M. apply run_records in H. destruct H as (prod & R & _).
  destruct (rc_state _ _ _ _ _ _ _ R) as (u & E). unfold update_status in E. rewrite HB in E. minv. unfind.
  match goal with H : latest _ _ (CNum ?a) |- _ => rename a into soc; rename H into HS end.
  match goal with H : capa_to_charge _ ?s = _ |- _ => set (soc' := s) in *; rename H into CC end.
  match goal with H : capa_to_discharge _ _ = _ |- _ => rename H into CD end.
  match goal with H : append_row _ _ = _ |- _ => rename H into AR end.
  match goal with H : Ok (_ :: _) = Ok _ |- _ => injection H as <- end.
  destruct HS as (k & K).
  destruct (append_row_ok _ _ _ _ _ _ AR K) as (z1 & X1 & Y1).
  destruct (append_row_ok _ _ _ _ _ _ AR L) as (z2 & X2 & Y2).
  destruct (append_row_ok _ _ _ _ _ _ AR M) as (z3 & X3 & Y3).
  simpl in X1, X2, X3. injection X1 as <-. injection X2 as <-. injection X3 as <-.
  eexists soc', _, _.
  split; [eexists; split; [exact K|exact Y1]|]. split; [eexists; split; [exact L|exact Y2]|].
  split; [exact (capa_charge_ok _ _ _ CC)|].
  split; [eexists; split; [exact M|exact Y3]|exact (capa_discharge_ok _ _ _ CD)].
Qed.

(** *** The actions *)

Lemma record_action_get control (df : record Q) k l : dget k df = Some l ->
  dget k (record_action control df)
  = Some (l ++ [match dget k control with Some x => CNum x | None => CMissing k end]).
Proof.
  unfold record_action. induction df as [|[k' l'] df IH]; simpl; intros E; [discriminate|].
  destruct (String.eqb k k') eqn:K; [|apply IH; exact E].
  apply String.eqb_eq in K. subst k'. injection E as <-. reflexivity.
Qed.

Lemma run_actions control (g : nonmod Q) g' v k l : nm_run control g = (g', Ok v) -> dget k (nm_actions g) = Some l ->
  gained (nm_actions g) (nm_actions g') k (asked g control k).
Proof.
  intros H E. apply run_records in H. destruct H as (_ & _ & A & _). exists l. split; [exact E|]. rewrite A.
  unfold actions_after. rewrite (record_action_get _ _ _ _ E). unfold asked.
  destruct (String.eqb k "pv") eqn:P.
  - apply String.eqb_eq in P. subst k. rewrite dget_dset_same. reflexivity.
  - apply String.eqb_neq in P. rewrite dget_dset_other by congruence.
    destruct (String.eqb k "load") eqn:Q'.
    + apply String.eqb_eq in Q'. subst k. rewrite dget_dset_same. reflexivity.
    + apply String.eqb_neq in Q'. rewrite dget_dset_other by congruence. reflexivity.
Qed.
