(** * When a non-modular microgrid runs *)

From Coq Require Import ZArith QArith Qabs Qminmax Bool String List Lia Lqa Permutation.
From Verif Require Import Num Py Proofs_Num Proofs_Run Proofs_Progress NonModular Spec_NonModular Proofs_NonModular
  Proofs_NmRun Proofs_NmHistory Proofs_NmBattery Proofs_NmCost Proofs_NmClock.
Import ListNotations.
Local Open Scope string_scope.
Local Open Scope list_scope.
Local Open Scope Q_scope.

Definition present {A} (k : string) (d : dict A) : Prop := exists l, dget k d = Some l.

Lemma present_in {A} k (d : dict A) : In k (map fst d) -> present k d.
Proof.
  unfold present. induction d as [|[k' x] d IH]; simpl; [tauto|]. intros I.
  destruct (String.eqb k k') eqn:E; [eauto|]. apply IH. destruct I as [->|I]; [|exact I].
  rewrite String.eqb_refl in E. discriminate.
Qed.

Lemma append_total k (x : cell Q) r : present k r -> exists r', append k x r = (r', Ok tt)
  /\ (forall k', present k' r -> present k' r') /\ latest r' k x
  /\ (forall k' l, k' <> k -> dget k' r = Some l -> dget k' r' = Some l).
Proof.
  intros (l & E). unfold append. rewrite E. exists (dset k (l ++ [x]) r). split; [reflexivity|]. split; [|split].
  - intros k' (l' & E'). unfold present. destruct (String.eqb k' k) eqn:D.
    + apply String.eqb_eq in D. subst. rewrite dget_dset_same. eauto.
    + apply String.eqb_neq in D. rewrite dget_dset_other by assumption. eauto.
  - exists l. apply dget_dset_same.
  - intros k' l' N E'. rewrite dget_dset_other by assumption. exact E'.
Qed.

(** A computation that succeeds on records with given columns, and keeps columns *)
Definition fine {A} (f : M (record Q) A) (r : record Q) (a : A) (r' : record Q) : Prop :=
  f r = (r', Ok a) /\ grown r r'.

Lemma latest_grown_present r r' k : grown r r' -> present k r -> present k r'.
Proof. intros G (l & E). destruct (proj2 G _ _ E) as (m & E'). exists (l ++ m). exact E'. Qed.

Lemma append_fine k x r : present k r -> exists r', append k x r = (r', Ok tt) /\ grown r r'.
Proof.
  intros (l & E). unfold append. rewrite E. eexists. split; [reflexivity|]. apply grown_dset. exact E.
Qed.

Ltac pres := match goal with
  | H : present ?k ?r |- present ?k ?r => exact H
  | G : grown ?r ?r' |- present ?k ?r' => apply (latest_grown_present r r' k G); pres
  end.
Ltac app_step := match goal with
  | |- context [append ?k ?x ?r] => 
     let r' := fresh "r" in let E := fresh "E" in let G := fresh "G" in
     let P := fresh "P" in
     assert (P : present k r) by pres;
     destruct (append_fine k x r P) as (r' & E & G)
  end.

Lemma record_production_total par ar c st p o load pv :
  battery_part par ar c st o -> grid_part par ar c o -> genset_part par ar c o ->
  dget "load" c = Some load -> dget "pv" c = Some pv ->
  (forall k, In k (production_columns ar) -> present k p) ->
  exists req p', req == load + oc_charge o + oc_export o - (oc_discharge o + oc_import o + oc_genset o)
    /\ record_production par ar c st p = (p', match balance_pv req pv with Ok _ => Ok tt | Err e => Err e end).
Proof.
  intros BP GP SP EL EP PR. unfold record_production.
  assert (B : exists p1, (if has_battery ar then
          c0 <- mlift (dfind c "battery_charge") ;;
          d <- mlift (dfind c "battery_discharge") ;;
          soc <- mlift (last_num st "battery_soc") ;;
          cd <- mlift (check_battery par c0 d soc) ;;
          append "battery_charge" (CNum (fst cd)) ;;
          append "battery_discharge" (CNum (snd cd)) ;;
          mret (nadd n0 (snd cd), nadd load (fst cd))
        else mret (n0, load))%py p =
       (p1, Ok (if has_battery ar then (0 + oc_discharge o, load + oc_charge o) else (0, load))) /\ grown p p1).
  { unfold battery_part in BP. unfold production_columns in PR. destruct (has_battery ar).
    - destruct BP as (x & y & soc & X & Y & S & CB).
      assert (P1 : present "battery_charge" p) by (apply PR; simpl; auto 10).
      assert (P2 : present "battery_discharge" p) by (apply PR; simpl; auto 10).
      rewrite (lift_bind _ _ _ _ (proj2 (dfind_ok _ _ _) X)), (lift_bind _ _ _ _ (proj2 (dfind_ok _ _ _) Y)),
        (lift_bind _ _ _ _ (proj2 (last_num_ok _ _ _) S)), (lift_bind _ _ _ _ CB).
      cbn [fst snd].
      destruct (append_fine "battery_charge" (CNum (oc_charge o)) p P1) as (p1 & E1 & G1).
      rewrite (mbind_eq _ _ _ _ _ E1).
      destruct (append_fine "battery_discharge" (CNum (oc_discharge o)) p1 ltac:(pres)) as (p2 & E2 & G2).
      rewrite (mbind_eq _ _ _ _ _ E2). exists p2. split; [reflexivity|]. eapply grown_trans; eassumption.
    - exists p. split; [reflexivity|]. apply grown_refl. }
  destruct B as (p1 & E1 & G1).
  rewrite (lift_bind _ _ _ _ (proj2 (dfind_ok _ _ _) EL)). rewrite (mbind_eq _ _ _ _ _ E1). clear E1.
  set (b := if has_battery ar then (0 + oc_discharge o, load + oc_charge o) else (0, load)).
  assert (B : exists p2, (if has_grid ar then
          i <- mlift (dfind c "grid_import") ;;
          e <- mlift (dfind c "grid_export") ;;
          ie <- mlift (check_grid par i e) ;;
          append "grid_import" (CNum (fst ie)) ;;
          append "grid_export" (CNum (snd ie)) ;;
          mret (nadd (fst b) (fst ie), nadd (snd b) (snd ie))
        else mret b)%py p1 =
       (p2, Ok (if has_grid ar then (fst b + oc_import o, snd b + oc_export o) else b)) /\ grown p1 p2).
  { unfold grid_part in GP. unfold production_columns in PR. destruct (has_grid ar).
    - destruct GP as (x & y & X & Y & CB).
      assert (P1 : present "grid_import" p) by (apply PR; rewrite !in_app_iff; simpl; auto 10).
      assert (P2 : present "grid_export" p) by (apply PR; rewrite !in_app_iff; simpl; auto 10).
      rewrite (lift_bind _ _ _ _ (proj2 (dfind_ok _ _ _) X)), (lift_bind _ _ _ _ (proj2 (dfind_ok _ _ _) Y)),
        (lift_bind _ _ _ _ CB).
      cbn [fst snd].
      destruct (append_fine "grid_import" (CNum (oc_import o)) p1 ltac:(pres)) as (p2 & E1 & G2).
      rewrite (mbind_eq _ _ _ _ _ E1).
      destruct (append_fine "grid_export" (CNum (oc_export o)) p2 ltac:(pres)) as (p3 & E2 & G3).
      rewrite (mbind_eq _ _ _ _ _ E2). exists p3. split; [reflexivity|]. eapply grown_trans; eassumption.
    - exists p1. split; [reflexivity|]. apply grown_refl. }
  destruct B as (p2 & E2 & G2). rewrite (mbind_eq _ _ _ _ _ E2). clear E2.
  set (g := if has_grid ar then (fst b + oc_import o, snd b + oc_export o) else b).
  assert (B : exists p3, (if has_genset ar then
          p <- mlift (dfind c "genset") ;;
          p <- mlift (check_genset par p) ;;
          append "genset" (CNum p) ;;
          mret (nadd (fst g) p, snd g)
        else mret g)%py p2 =
       (p3, Ok (if has_genset ar then (fst g + oc_genset o, snd g) else g)) /\ grown p2 p3).
  { unfold genset_part in SP. unfold production_columns in PR. destruct (has_genset ar).
    - destruct SP as (x & X & CB).
      assert (P1 : present "genset" p) by (apply PR; rewrite !in_app_iff; simpl; auto 10).
      rewrite (lift_bind _ _ _ _ (proj2 (dfind_ok _ _ _) X)), (lift_bind _ _ _ _ CB).
      destruct (append_fine "genset" (CNum (oc_genset o)) p2 ltac:(pres)) as (p3 & E1 & G3).
      rewrite (mbind_eq _ _ _ _ _ E1). exists p3. split; [reflexivity|assumption].
    - exists p2. split; [reflexivity|]. apply grown_refl. }
  destruct B as (p3 & E3 & G3). rewrite (mbind_eq _ _ _ _ _ E3). clear E3.
  set (s := if has_genset ar then (fst g + oc_genset o, snd g) else g).
  rewrite (lift_bind _ _ _ _ (proj2 (dfind_ok _ _ _) EP)).
  exists (nsub (snd s) (fst s)).
  assert (RQ : nsub (snd s) (fst s) == load + oc_charge o + oc_export o - (oc_discharge o + oc_import o + oc_genset o)).
  { unfold s, g, b, battery_part, grid_part, genset_part in *. clear - BP GP SP. unum.
    destruct (has_battery ar), (has_grid ar), (has_genset ar); simpl;
      repeat match goal with H : _ /\ _ |- _ => destruct H | H : _ = 0 |- _ => rewrite H in * end; lra. }
  destruct (balance_pv (nsub (snd s) (fst s)) pv) as [[[[c1 c2] c3] c4]|e] eqn:EB.
  2:{ exists p3. split; [exact RQ|]. reflexivity. }
  unfold mbind at 1, mlift at 1. cbv beta iota.
  assert (P1 : present "pv_consummed" p) by (apply PR; simpl; auto 10).
  assert (P2 : present "loss_load" p) by (apply PR; simpl; auto 10).
  assert (P3 : present "pv_curtailed" p) by (apply PR; simpl; auto 10).
  assert (P4 : present "overgeneration" p) by (apply PR; simpl; auto 10).
  destruct (append_fine "pv_consummed" (CNum c1) p3 ltac:(pres)) as (q1 & F1 & H1).
  rewrite (mbind_eq _ _ _ _ _ F1).
  destruct (append_fine "loss_load" (CNum c2) q1 ltac:(pres)) as (q2 & F2 & H2).
  rewrite (mbind_eq _ _ _ _ _ F2).
  destruct (append_fine "pv_curtailed" (CNum c3) q2 ltac:(pres)) as (q3 & F3 & H3).
  rewrite (mbind_eq _ _ _ _ _ F3).
  destruct (append_fine "overgeneration" (CNum c4) q3 ltac:(pres)) as (q4 & F4 & H4).
  exists q4. split; [exact RQ|exact F4].
Qed.

Lemma last_row_total (p : record Q) : NoDup (map fst p) ->
  (forall k, In k (map fst p) -> exists x, latest p k x) -> exists d, last_row p = Ok d.
Proof.
  intros ND L.
  assert (L' : forall k l, In (k, l) p -> exists x, last_of l = Ok x).
  { intros k l I. assert (I' : In k (map fst p)) by (apply in_map_iff; exists (k, l); auto).
    destruct (L _ I') as (x & l' & E).
    assert (X : dget k p = Some l) by (apply Proofs_Num.In_dget; assumption).
    rewrite X in E. injection E as ->. exists x. apply last_of_snoc. }
  clear ND L. unfold last_row. induction p as [|[k l] p IH]; simpl; [eauto|].
  destruct (L' k l (or_introl eq_refl)) as (x & ->). simpl.
  destruct IH as (d & ->); [intros; eapply L'; simpl; eauto|]. simpl. eauto.
Qed.

Lemma record_co2_total (par : dict Q) ar prod x o :
  (has_genset ar = true -> (exists a, find_num prod "genset" = Ok a) /\ present "genset_co2" par) ->
  (has_grid ar = true -> exists a, find_num prod "grid_import" = Ok a) ->
  present "co2" o -> exists o' , record_co2 par ar prod x o = (o', Ok tt).
Proof.
  intros A1 A2 (l & P). unfold record_co2.
  assert (B : exists gen, (if has_genset ar then
      rbind (find_num prod "genset") (fun p => rbind (dfind par "genset_co2") (fun c => Ok (nadd n0 (nmul p c))))
      else Ok n0) = Ok gen).
  { destruct (has_genset ar); [|eauto]. destruct (A1 eq_refl) as ((a & ->) & (d & D)). simpl.
    rewrite (proj2 (dfind_ok _ _ _) D). simpl. eauto. }
  destruct B as (gen & B). rewrite (lift_bind _ _ _ _ B).
  assert (C : exists all, (if has_grid ar then
      rbind (find_num prod "grid_import") (fun p => Ok (nadd gen (nmul x p))) else Ok gen) = Ok all).
  { destruct (has_grid ar); [|eauto]. destruct (A2 eq_refl) as (a & ->). simpl. eauto. }
  destruct C as (all & C). rewrite (lift_bind _ _ _ _ C). unfold append. rewrite P. eauto.
Qed.

Lemma row_values_total (df : record Q) : NoDup (map fst df) ->
  (forall k, In k (map fst df) -> ordinary k = true -> exists x, latest df k (CNum x)) ->
  exists vals, rmapM (fun kl => rbind (last_of (snd kl)) (fun x => num x)) (filter (fun kl => ordinary (fst kl)) df) = Ok vals.
Proof.
  intros ND L.
  assert (L' : forall k l, In (k, l) df -> ordinary k = true -> exists x, last_of l = Ok (CNum x)).
  { intros k l I O. assert (I' : In k (map fst df)) by (apply in_map_iff; exists (k, l); auto).
    destruct (L _ I' O) as (x & l' & E).
    assert (X : dget k df = Some l) by (apply Proofs_Num.In_dget; assumption).
    rewrite X in E. injection E as ->. exists x. apply last_of_snoc. }
  clear L ND. induction df as [|[k l] df IH]; simpl.
  - eauto.
  - destruct IH as (vs & IH); [intros; eapply L'; simpl; eauto|].
    destruct (ordinary k) eqn:O; [|eauto]. simpl.
    destruct (L' k l (or_introl eq_refl) O) as (x & ->). simpl. rewrite IH. simpl. eauto.
Qed.

Lemma cost_columns_nodup ar : NoDup (cost_columns ar).
Proof.
  unfold cost_columns. destruct (has_genset ar), (has_grid ar), (has_battery ar); simpl;
    repeat constructor; simpl; intuition discriminate.
Qed.
Lemma production_columns_nodup ar : NoDup (production_columns ar).
Proof.
  unfold production_columns. destruct (has_genset ar), (has_grid ar), (has_battery ar); simpl;
    repeat constructor; simpl; intuition discriminate.
Qed.
Lemma status_columns_nodup ar : NoDup (status_columns ar).
Proof.
  unfold status_columns. destruct (has_grid ar), (has_battery ar); simpl;
    repeat constructor; simpl; intuition discriminate.
Qed.

Ltac astep := match goal with
  | |- exists c', mbind (append ?k ?x) ?f ?r = _ =>
      match goal with H : dget k _ = Some ?l |- _ =>
        let E := fresh in
        assert (E : append k x r = (dset k (l ++ [x]) r, Ok tt)) by (unfold append; cols; rewrite H; reflexivity);
        rewrite (mbind_eq _ _ _ _ _ E); clear E
      end
  end.
Ltac lstep := match goal with
  | H : find_num ?p ?k = Ok ?a |- exists c', mbind (mlift (find_num ?p ?k)) _ _ = _ => rewrite (lift_bind _ _ _ _ H)
  | H : dget ?k ?p = Some ?a |- exists c', mbind (mlift (dfind ?p ?k)) _ _ = _ => rewrite (lift_bind _ _ _ _ (proj2 (dfind_ok _ _ _) H))
  | H : latest ?p ?k (CNum ?a) |- exists c', mbind (mlift (last_num ?p ?k)) _ _ = _ => rewrite (lift_bind _ _ _ _ (proj2 (last_num_ok _ _ _) H))
  | |- exists c', mbind (mbind _ _) _ _ = _ => rewrite bind_bind
  | |- exists c', mbind (mret _) _ _ = _ => rewrite bind_ret
  end.

Lemma record_cost_total par ar prod o pi pe c :
  columns c (cost_columns ar) ->
  (forall k, In k (production_columns ar) -> exists x, find_num prod k = Ok x) ->
  (forall k, In k (parameter_names ar) -> present k par) ->
  (exists em, latest o "co2" (CNum em)) ->
  exists c', record_cost par ar prod o pi pe c = (c', Ok tt).
Proof.
  intros CC FN PN (em & EM). unfold record_cost.
  assert (PC : forall k, In k (cost_columns ar) -> present k c).
  { intros k I. apply present_in. eapply Permutation_in; [symmetry; exact CC|exact I]. }
  assert (MK : forall k, In k (map fst c) -> In k (cost_columns ar)).
  { intros k I. eapply Permutation_in; [exact CC|exact I]. }
  assert (ND : NoDup (map fst c)) by (eapply Permutation_NoDup; [symmetry; exact CC|apply cost_columns_nodup]).
  clear CC. unfold cost_columns, production_columns, parameter_names in *.
  destruct (FN "loss_load") as (v1 & V1); [simpl; auto|]. destruct (FN "overgeneration") as (v2 & V2); [simpl; auto|].
  destruct (PN "cost_loss_load") as (w1 & W1); [simpl; auto|]. destruct (PN "cost_overgeneration") as (w2 & W2); [simpl; auto|].
  destruct (PN "cost_co2") as (w3 & W3); [simpl; auto|].
  destruct (PC "loss_load") as (l1 & L1); [simpl; auto|]. destruct (PC "overgeneration") as (l2 & L2); [simpl; auto|].
  destruct (PC "co2") as (l3 & L3); [simpl; auto|]. destruct (PC "total_cost") as (l4 & L4); [simpl; auto|].
  assert (XG : if has_genset ar then (exists v, find_num prod "genset" = Ok v) /\ present "fuel_cost" par /\ present "genset" c else True).
  { destruct (has_genset ar); [|exact I]. split; [apply FN|split; [apply PN|apply PC]]; rewrite !in_app_iff; simpl; auto 20. }
  assert (XI : if has_grid ar then (exists v, find_num prod "grid_import" = Ok v) /\ (exists v, find_num prod "grid_export" = Ok v)
     /\ present "grid_import" c /\ present "grid_export" c else True).
  { destruct (has_grid ar); [|exact I]. split; [apply FN|split; [apply FN|split; apply PC]]; rewrite !in_app_iff; simpl; auto 20. }
  assert (XB : if has_battery ar then (exists v, find_num prod "battery_charge" = Ok v) /\ (exists v, find_num prod "battery_discharge" = Ok v)
     /\ present "battery_cost_cycle" par /\ present "battery" c else True).
  { destruct (has_battery ar); [|exact I]. split; [apply FN|split; [apply FN|split; [apply PN|apply PC]]]; rewrite !in_app_iff; simpl; auto 20. }
  clear FN PN PC. unfold present in *.
  destruct (has_genset ar), (has_grid ar), (has_battery ar);
    repeat match goal with H : exists _, _ |- _ => destruct H | H : _ /\ _ |- _ => destruct H end;
    repeat first [lstep | astep];
    (match goal with |- exists c', mbind mget _ ?r = _ =>
      assert (KK : map fst r = map fst c) by (repeat (erewrite dset_keys; [|cols; eassumption]); reflexivity);
      assert (RV : exists vals, rmapM (fun kl => rbind (last_of (snd kl)) (fun x => num x)) (filter (fun kl => ordinary (fst kl)) r) = Ok vals);
      [ apply row_values_total; [rewrite KK; exact ND|]; rewrite KK; intros k I O; apply MK in I; simpl in I;
        repeat match goal with H : _ \/ _ |- _ => destruct H as [<-|H] end; try contradiction; try discriminate O;
        unfold latest; cols; do 2 eexists; reflexivity
      | destruct RV as (vals & RV); unfold mbind at 1, mget at 1; cbv beta iota;
        rewrite (lift_bind _ _ _ _ RV); unfold append; cols; rewrite L4; eexists; reflexivity ]
    end).
Qed.

Lemma append_row_total row (df : record Q) : (forall k, In k (map fst df) -> present k row) ->
  exists df', append_row row df = (df', Ok tt).
Proof.
  induction df as [|[k l] df IH]; simpl; intros P; [eauto|].
  destruct (P k (or_introl eq_refl)) as (x & ->). destruct IH as (d & ->); [auto|]. eauto.
Qed.

Lemma update_status_total par ar t src nx st :
  columns st (status_columns ar) ->
  (forall k, In k (parameter_names ar) -> present k par) ->
  (has_battery ar = true -> (exists soc, latest st "battery_soc" (CNum soc))
     /\ (exists c, find_num src "battery_charge" = Ok c) /\ (exists d, find_num src "battery_discharge" = Ok d)) ->
  exists s, update_status par ar t src nx st = (s, Ok tt).
Proof.
  intros CC PN HB. unfold update_status. unfold mbind at 1, mget at 1. cbv beta iota.
  assert (MK : forall k, In k (map fst st) -> In k (status_columns ar)).
  { intros k I. eapply Permutation_in; [exact CC|exact I]. }
  unfold status_columns, parameter_names in *. destruct (has_battery ar).
  - destruct (HB eq_refl) as ((soc & S) & (c & C) & (d & D)).
    assert (P1 : present "battery_efficiency" par) by (apply PN; rewrite !in_app_iff; simpl; auto 20).
    assert (P2 : present "battery_capacity" par) by (apply PN; rewrite !in_app_iff; simpl; auto 20).
    assert (P3 : present "battery_soc_max" par) by (apply PN; rewrite !in_app_iff; simpl; auto 20).
    assert (P4 : present "battery_soc_min" par) by (apply PN; rewrite !in_app_iff; simpl; auto 20).
    destruct P1 as (p1 & P1), P2 as (p2 & P2), P3 as (p3 & P3), P4 as (p4 & P4).
    apply dfind_ok in P1, P2, P3, P4. apply last_num_ok in S.
    unfold capa_to_charge, capa_to_discharge. rewrite S, C, P1, D, P2, P3, P4. simpl.
    unfold mbind at 1, mlift at 1. cbv beta iota. apply append_row_total.
    intros k I. apply MK in I. apply present_in. rewrite !in_app_iff in I. destruct (has_grid ar); simpl in *; intuition.
  - unfold mbind at 1, mlift at 1. cbv beta iota. apply append_row_total.
    intros k I. apply MK in I. apply present_in. rewrite !in_app_iff in I. destruct (has_grid ar); simpl in *; intuition.
Qed.
