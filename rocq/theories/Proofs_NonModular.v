(** * Lemmas on the non-modular microgrid *)

From Coq Require Import ZArith QArith Qabs Qminmax Bool String List Lia Lqa Permutation.
From Verif Require Import Num Py Proofs_Num Proofs_Run NonModular Spec_NonModular.
Import ListNotations.
Local Open Scope string_scope.
Local Open Scope list_scope.
Local Open Scope Q_scope.

(** ** Records *)

Lemma append_ok key (x : cell Q) r r' u : append key x r = (r', Ok u) ->
  exists l, dget key r = Some l /\ r' = dset key (l ++ [x]) r.
Proof.
  unfold append. destruct (dget key r) as [l|] eqn:E; intros H; inversion H. eauto.
Qed.

Lemma last_of_snoc {A} (l : list A) x : last_of (l ++ [x]) = Ok x.
Proof. unfold last_of. rewrite rev_app_distr. reflexivity. Qed.

Lemma last_of_ok {A} (l : list A) x : last_of l = Ok x -> exists l', l = l' ++ [x].
Proof.
  unfold last_of. destruct (rev l) as [|y r] eqn:E; intros H; inversion H; subst.
  exists (rev r). rewrite <- (rev_involutive l), E. reflexivity.
Qed.

Lemma last_row_get (r : record Q) d k l : last_row r = Ok d -> dget k r = Some l ->
  exists x, last_of l = Ok x /\ dget k d = Some x.
Proof.
  unfold last_row. revert d. induction r as [|[k' l'] r IH]; simpl; intros d H E; [discriminate|].
  minv. destruct (String.eqb k k') eqn:D; subst.
  - inversion E; subst. exists x1. split; [assumption|]. simpl. rewrite D. reflexivity.
  - destruct (IH _ H E) as (y & Y1 & Y2). exists y. split; [assumption|]. simpl. rewrite D. assumption.
Qed.

Lemma dfind_ok {A} (d : dict A) k x : dfind d k = Ok x <-> dget k d = Some x.
Proof. unfold dfind. destruct (dget k d); split; intros H; inversion H; reflexivity. Qed.

Lemma num_ok (c : cell Q) x : num c = Ok x <-> c = CNum x.
Proof. destruct c; simpl; split; intros H; inversion H; reflexivity. Qed.

Lemma last_num_ok (r : record Q) k x : last_num r k = Ok x <-> latest r k (CNum x).
Proof.
  unfold last_num, latest. split.
  - intros H. minv. apply dfind_ok in H0. apply num_ok in H. subst. apply last_of_ok in H1.
    destruct H1 as (l & ->). eauto.
  - intros (l & E). apply dfind_ok in E. rewrite E. simpl. rewrite last_of_snoc. reflexivity.
Qed.

(** Columns of a record changed by literal appends. *)
Ltac cols := repeat (rewrite dget_dset_same || (rewrite dget_dset_other by discriminate)).
Ltac colsin H := repeat (rewrite dget_dset_same in H || (rewrite dget_dset_other in H by discriminate)).

(** ** Clipping *)

Lemma limited_1 x : (if Qltb x 0 then 0 else x) == Qmax 0 x.
Proof.
  destruct (Qltb x 0) eqn:E; qprop.
  - rewrite Q.max_l by lra. reflexivity.
  - rewrite Q.max_r by lra. reflexivity.
Qed.
Lemma limited_2 x m : (if Qltb m x then m else x) == Qmin x m.
Proof.
  destruct (Qltb m x) eqn:E; qprop.
  - rewrite Q.min_r by lra. reflexivity.
  - rewrite Q.min_l by lra. reflexivity.
Qed.
Lemma nmax_Q (a b : Q) : nmax a b == Qmax a b.
Proof.
  unfold nmax. unum. destruct (Qltb a b) eqn:E; qprop.
  - rewrite Q.max_r by lra. reflexivity.
  - rewrite Q.max_l by lra. reflexivity.
Qed.
Lemma nmin_Q (a b : Q) : nmin a b == Qmin a b.
Proof.
  unfold nmin. unum. destruct (Qltb b a) eqn:E; qprop.
  - rewrite Q.min_r by lra. reflexivity.
  - rewrite Q.min_l by lra. reflexivity.
Qed.
Lemma limited_3 x a b : (if Qltb a x || Qltb b x then nmin a b else x) == Qmin x (Qmin a b).
Proof.
  destruct (Qltb a x || Qltb b x) eqn:E; qprop.
  - rewrite nmin_Q. symmetry. apply Q.min_r. destruct E as [E|E]; qprop.
    + eapply Qle_trans; [apply Q.le_min_l|]; lra.
    + eapply Qle_trans; [apply Q.le_min_r|]; lra.
  - symmetry. apply Q.min_l. apply Q.min_glb; assumption.
Qed.

(** ** Production *)

(** What one production step computes, from the control [c] (with 'load' and 'pv'). *)
Definition battery_part (par : dict Q) (ar : arch) (c : dict Q) (status : record Q) (o : outcome) : Prop :=
  if has_battery ar then
    exists x y soc, dget "battery_charge" c = Some x /\ dget "battery_discharge" c = Some y
      /\ latest status "battery_soc" (CNum soc)
      /\ check_battery par x y soc = Ok (oc_charge o, oc_discharge o)
  else oc_charge o = 0 /\ oc_discharge o = 0.
Definition grid_part (par : dict Q) (ar : arch) (c : dict Q) (o : outcome) : Prop :=
  if has_grid ar then
    exists x y, dget "grid_import" c = Some x /\ dget "grid_export" c = Some y
      /\ check_grid par x y = Ok (oc_import o, oc_export o)
  else oc_import o = 0 /\ oc_export o = 0.
Definition genset_part (par : dict Q) (ar : arch) (c : dict Q) (o : outcome) : Prop :=
  if has_genset ar then
    exists x, dget "genset" c = Some x /\ check_genset par x = Ok (oc_genset o)
  else oc_genset o = 0.
Definition pv_part (c : dict Q) (o : outcome) : Prop :=
  exists load pv req, dget "load" c = Some load /\ dget "pv" c = Some pv
    /\ req == load + oc_charge o + oc_export o - (oc_discharge o + oc_import o + oc_genset o)
    /\ balance_pv req pv = Ok (oc_pv o, oc_loss o, oc_curtailed o, oc_over o).

Definition columns_gained (ar : arch) (p p' : record Q) (o : outcome) : Prop :=
  (if has_battery ar
   then gained p p' "battery_charge" (CNum (oc_charge o))
        /\ gained p p' "battery_discharge" (CNum (oc_discharge o))
   else oc_charge o = 0 /\ oc_discharge o = 0)
  /\ (if has_grid ar
      then gained p p' "grid_import" (CNum (oc_import o)) /\ gained p p' "grid_export" (CNum (oc_export o))
      else oc_import o = 0 /\ oc_export o = 0)
  /\ (if has_genset ar then gained p p' "genset" (CNum (oc_genset o)) else oc_genset o = 0)
  /\ gained p p' "pv_consummed" (CNum (oc_pv o)) /\ gained p p' "loss_load" (CNum (oc_loss o))
  /\ gained p p' "pv_curtailed" (CNum (oc_curtailed o)) /\ gained p p' "overgeneration" (CNum (oc_over o)).

Ltac apps :=
  repeat match goal with
  | H : append _ _ _ = (_, Ok _) |- _ =>
      apply append_ok in H; destruct H as (? & ? & ?); subst
  end.
Ltac gains := unfold gained; repeat match goal with
  | H : dget ?k _ = Some ?l |- exists l, dget ?k _ = Some l /\ _ => exists l; colsin H; split; [exact H|cols; reflexivity]
  end.


Ltac unfind := repeat match goal with
  | H : dfind _ _ = Ok _ |- _ => apply dfind_ok in H
  | H : last_num _ _ = Ok _ |- _ => apply last_num_ok in H
  end.

Lemma record_production_ok par ar c st p p' u :
  record_production par ar c st p = (p', Ok u) ->
  exists o, battery_part par ar c st o /\ grid_part par ar c o /\ genset_part par ar c o /\ pv_part c o
    /\ columns_gained ar p p' o.
Proof.
  unfold record_production. intros H.
  apply mbind_ok in H. destruct H as (s0 & load & EL & H).
  apply mbind_ok in H. destruct H as (p1 & b & EB & H).
  apply mbind_ok in H. destruct H as (p2 & g & EG & H).
  apply mbind_ok in H. destruct H as (p3 & s & ES & H).
  apply mbind_ok in H. destruct H as (p4 & av & EA & H).
  apply mbind_ok in H. destruct H as (p5 & r & ER & H).
  destruct r as [[[pv loss] cur] over].
  unfold mlift in EL, EA, ER.
  injection EL; intros EL' <-; clear EL. injection EA; intros EA' <-; clear EA.
  injection ER; intros ER' <-; clear ER. apply dfind_ok in EL', EA'.
  assert (CB : exists ch di, b = (if has_battery ar then (0 + di, load + ch) else (0, load))
     /\ (if has_battery ar then exists x y soc, dget "battery_charge" c = Some x /\ dget "battery_discharge" c = Some y
           /\ latest st "battery_soc" (CNum soc) /\ check_battery par x y soc = Ok (ch, di) else ch = 0 /\ di = 0)
     /\ (if has_battery ar then exists l1 l2, dget "battery_charge" p = Some l1 /\ dget "battery_discharge" p = Some l2
           /\ p1 = dset "battery_discharge" (l2 ++ [CNum di]) (dset "battery_charge" (l1 ++ [CNum ch]) p) else p1 = p)).
  { clear - EB. destruct (has_battery ar).
    - minv. apps. unfind. match goal with H : check_battery _ _ _ _ = Ok ?x |- _ => destruct x as [ch di] end.
      simpl in *. exists ch, di. cols.
      repeat match goal with H : dget _ _ = Some _ |- _ => progress colsin H end.
      split; [reflexivity|]. split; [do 3 eexists; eauto|]. eauto.
    - minv. exists 0, 0. auto. }
  clear EB. destruct CB as (ch & di & Eb & BP & P1).
  assert (CG : exists im ex, g = (if has_grid ar then (fst b + im, snd b + ex) else b)
     /\ (if has_grid ar then exists x y, dget "grid_import" c = Some x /\ dget "grid_export" c = Some y
           /\ check_grid par x y = Ok (im, ex) else im = 0 /\ ex = 0)
     /\ (if has_grid ar then exists l1 l2, dget "grid_import" p1 = Some l1 /\ dget "grid_export" p1 = Some l2
           /\ p2 = dset "grid_export" (l2 ++ [CNum ex]) (dset "grid_import" (l1 ++ [CNum im]) p1) else p2 = p1)).
  { clear - EG. destruct (has_grid ar).
    - minv. apps. unfind. match goal with H : check_grid _ _ _ = Ok ?x |- _ => destruct x as [im ex] end.
      simpl in *. exists im, ex.
      repeat match goal with H : dget _ _ = Some _ |- _ => progress colsin H end.
      split; [reflexivity|]. split; [do 2 eexists; eauto|]. eauto.
    - minv. exists 0, 0. auto. }
  clear EG. destruct CG as (im & ex & Eg & GP & P2).
  assert (CS : exists ge, s = (if has_genset ar then (fst g + ge, snd g) else g)
     /\ (if has_genset ar then exists x, dget "genset" c = Some x /\ check_genset par x = Ok ge else ge = 0)
     /\ (if has_genset ar then exists l, dget "genset" p2 = Some l
           /\ p3 = dset "genset" (l ++ [CNum ge]) p2 else p3 = p2)).
  { clear - ES. destruct (has_genset ar).
    - minv. apps. unfind. eexists.
      split; [reflexivity|]. split; [eexists; eauto|]. eauto.
    - minv. exists 0. auto. }
  clear ES. destruct CS as (ge & Es & SP & P3).
  exists (mkOutcome ch di im ex ge pv loss cur over).
  minv. apps.
  unfold battery_part, grid_part, genset_part, pv_part, columns_gained. simpl.
  split; [exact BP|]. split; [exact GP|]. split; [exact SP|]. split.
  - exists load, av. eexists. split; [exact EL'|]. split; [exact EA'|]. split; [|exact ER'].
    clear - BP GP SP. unum. destruct (has_genset ar), (has_grid ar), (has_battery ar); simpl;
      repeat match goal with H : _ /\ _ |- _ => destruct H end; subst; lra.
  - clear ER' EA' EL'. destruct (has_genset ar), (has_grid ar), (has_battery ar);
      repeat match goal with H : exists _, _ |- _ => destruct H | H : _ /\ _ |- _ => destruct H end; subst;
      repeat match goal with |- _ /\ _ => split end; try reflexivity; try assumption;
      repeat match goal with H : dget _ _ = Some _ |- _ => progress colsin H end;
      unfold gained;
      match goal with |- exists l, dget ?k ?p = Some l /\ _ =>
        match goal with H : dget k p = Some ?l |- _ => exists l; split; [exact H|cols; reflexivity] end end.
Qed.
