(** * What a non-modular microgrid records as costs *)

From Coq Require Import ZArith QArith Qabs Qminmax Bool String List Lia Lqa Permutation.
From Verif Require Import Num Py Proofs_Num Proofs_Run NonModular Spec_NonModular Proofs_NonModular Proofs_NmRun
  Proofs_NmHistory Proofs_NmBattery.
Import ListNotations.
Local Open Scope string_scope.
Local Open Scope list_scope.
Local Open Scope Q_scope.

Lemma nsum_permutation (l m : list Q) : Permutation l m -> nsum l == nsum m.
Proof.
  induction 1 as [|x l m P IH|x y l|l m n P1 IH1 P2 IH2].
  - reflexivity.
  - rewrite !nsum_cons, IH. reflexivity.
  - rewrite !nsum_cons. ring.
  - rewrite IH1. exact IH2.
Qed.
Lemma filter_permutation {A} (p : A -> bool) l m : Permutation l m -> Permutation (filter p l) (filter p m).
Proof.
  induction 1 as [|x l m P IH|x y l|l m n P1 IH1 P2 IH2]; simpl.
  - constructor.
  - destruct (p x); [constructor|]; exact IH.
  - destruct (p x), (p y); try reflexivity. apply perm_swap.
  - etransitivity; eassumption.
Qed.

Definition ordinary (k : string) : bool := negb (String.eqb k "total_cost").

Lemma row_values (f : string -> Q) (df : record Q) vals :
  NoDup (map fst df) ->
  (forall k, In k (map fst df) -> ordinary k = true -> latest df k (CNum (f k))) ->
  rmapM (fun kl => rbind (last_of (snd kl)) (fun x => num x)) (filter (fun kl => ordinary (fst kl)) df) = Ok vals ->
  vals = map f (filter ordinary (map fst df)).
Proof.
  intros ND L. assert (L' : forall k l, In (k, l) df -> ordinary k = true -> last_of l = Ok (CNum (f k))).
  { intros k l I O. assert (I' : In k (map fst df)) by (apply in_map_iff; exists (k, l); auto).
    destruct (L _ I' O) as (l' & E).
    assert (dget k df = Some l) by (apply Proofs_Num.In_dget; assumption).
    rewrite H in E. injection E as ->. apply last_of_snoc. }
  clear L ND. revert vals. induction df as [|[k l] df IH]; simpl; intros vals H.
  - injection H as <-. reflexivity.
  - destruct (ordinary k) eqn:O.
    + simpl in H. rewrite (L' k l) in H by (simpl; auto). simpl in H.
      apply rbind_ok in H. destruct H as (vs & H1 & H2). injection H2 as <-.
      simpl. f_equal. apply IH; [|exact H1]. intros; apply L'; simpl; auto.
    + apply IH; [|exact H]. intros; apply L'; simpl; auto.
Qed.

Lemma record_co2_ok par ar prod x o o' u : record_co2 par ar prod x o = (o', Ok u) ->
  exists gen imp dirt,
    (if has_genset ar then find_num prod "genset" = Ok gen /\ dget "genset_co2" par = Some dirt
     else gen = 0 /\ dirt = 0)
    /\ (if has_grid ar then find_num prod "grid_import" = Ok imp else imp = 0)
    /\ exists e, gained o o' "co2" (CNum e) /\ e == dirt * gen + x * imp.
Proof.
  unfold record_co2. intros H. destruct (has_genset ar), (has_grid ar); minv; apps; unfind;
    repeat match goal with H : Ok _ = Ok _ |- _ => injection H as <- end;
    first [match goal with H : find_num _ "genset" = Ok ?a |- _ => exists a end | exists 0];
    first [match goal with H : find_num _ "grid_import" = Ok ?a |- _ => exists a end | exists 0];
    first [match goal with H : dget "genset_co2" _ = Some ?a |- _ => exists a end | exists 0];
    (split; [auto|]); (split; [auto|]); eexists;
    (split; [unfold gained; eexists; split; [eassumption|apply dget_dset_same]|unum; ring]).
Qed.

(** What is charged under each heading *)
Definition headings (loss over fuel pi pe cycle co2 l o g i e b em : Q) (k : string) : Q :=
  if String.eqb k "loss_load" then l * loss
  else if String.eqb k "overgeneration" then o * over
  else if String.eqb k "genset" then g * fuel
  else if String.eqb k "grid_import" then pi * i
  else if String.eqb k "grid_export" then - pe * e
  else if String.eqb k "battery" then b * cycle
  else co2 * em.

Definition optional (n : bool) (r : res Q) (x : Q) : Prop := if n then r = Ok x else x = 0.
Definition optional_par (n : bool) (r : option Q) (x : Q) : Prop := if n then r = Some x else x = 0.

Lemma record_cost_ok par ar prod o pi pe c c' u :
  columns c (cost_columns ar) ->
  record_cost par ar prod o pi pe c = (c', Ok u) ->
  exists loss over co2 fuel cycle l ov g i e ch di em,
    dget "cost_loss_load" par = Some loss /\ dget "cost_overgeneration" par = Some over
    /\ dget "cost_co2" par = Some co2 /\ optional_par (has_genset ar) (dget "fuel_cost" par) fuel
    /\ optional_par (has_battery ar) (dget "battery_cost_cycle" par) cycle
    /\ find_num prod "loss_load" = Ok l /\ find_num prod "overgeneration" = Ok ov
    /\ optional (has_genset ar) (find_num prod "genset") g
    /\ optional (has_grid ar) (find_num prod "grid_import") i
    /\ optional (has_grid ar) (find_num prod "grid_export") e
    /\ optional (has_battery ar) (find_num prod "battery_charge") ch
    /\ optional (has_battery ar) (find_num prod "battery_discharge") di
    /\ latest o "co2" (CNum em)
    /\ (forall k, In k (cost_columns ar) -> ordinary k = true ->
          gained c c' k (CNum (headings loss over fuel pi pe cycle co2 l ov g i e (ch + di) em k)))
    /\ exists t, gained c c' "total_cost" (CNum t)
        /\ t == loss * l + over * ov + fuel * g + pi * i - pe * e + cycle * (ch + di) + co2 * em.
Proof.
  intros CC H. unfold record_cost in H.
  assert (K : exists loss over co2 fuel cycle l ov g i e ch di em c1 vals tl,
    dget "cost_loss_load" par = Some loss /\ dget "cost_overgeneration" par = Some over
    /\ dget "cost_co2" par = Some co2 /\ optional_par (has_genset ar) (dget "fuel_cost" par) fuel
    /\ optional_par (has_battery ar) (dget "battery_cost_cycle" par) cycle
    /\ find_num prod "loss_load" = Ok l /\ find_num prod "overgeneration" = Ok ov
    /\ optional (has_genset ar) (find_num prod "genset") g
    /\ optional (has_grid ar) (find_num prod "grid_import") i
    /\ optional (has_grid ar) (find_num prod "grid_export") e
    /\ optional (has_battery ar) (find_num prod "battery_charge") ch
    /\ optional (has_battery ar) (find_num prod "battery_discharge") di
    /\ latest o "co2" (CNum em)
    /\ rmapM (fun kl => rbind (last_of (snd kl)) (fun x => num x)) (filter (fun kl => ordinary (fst kl)) c1) = Ok vals
    /\ dget "total_cost" c = Some tl /\ c' = dset "total_cost" (tl ++ [CNum (nsum vals)]) c1
    /\ map fst c1 = map fst c
    /\ (forall k, In k (cost_columns ar) -> ordinary k = true ->
          gained c c1 k (CNum (headings loss over fuel pi pe cycle co2 l ov g i e (ch + di) em k)))).
  { clear CC. unfold optional, optional_par, cost_columns.
    destruct (has_genset ar), (has_grid ar), (has_battery ar); minv;
    apps; unfind;
    repeat match goal with H : dget _ (dset _ _ _) = Some _ |- _ => progress colsin H end;
    match goal with H : dget "cost_loss_load" _ = Some ?a |- _ => exists a end;
    match goal with H : dget "cost_overgeneration" _ = Some ?a |- _ => exists a end;
    match goal with H : dget "cost_co2" _ = Some ?a |- _ => exists a end;
    first [match goal with H : dget "fuel_cost" _ = Some ?a |- _ => exists a end | exists 0];
    first [match goal with H : dget "battery_cost_cycle" _ = Some ?a |- _ => exists a end | exists 0];
    match goal with H : find_num _ "loss_load" = Ok ?a |- _ => exists a end;
    match goal with H : find_num _ "overgeneration" = Ok ?a |- _ => exists a end;
    first [match goal with H : find_num _ "genset" = Ok ?a |- _ => exists a end | exists 0];
    first [match goal with H : find_num _ "grid_import" = Ok ?a |- _ => exists a end | exists 0];
    first [match goal with H : find_num _ "grid_export" = Ok ?a |- _ => exists a end | exists 0];
    first [match goal with H : find_num _ "battery_charge" = Ok ?a |- _ => exists a end | exists 0];
    first [match goal with H : find_num _ "battery_discharge" = Ok ?a |- _ => exists a end | exists 0];
    match goal with H : latest _ "co2" (CNum ?a) |- _ => exists a end;
    do 3 eexists; do 13 (split; [first [assumption | reflexivity]|]);
    (split; [eassumption|]); (split; [eassumption|]); (split; [reflexivity|]); split.
    all: try (intros k I O; simpl in I;
      repeat match goal with H : _ \/ _ |- _ => destruct H as [<-|H] end;
      try contradiction; try discriminate O;
      match goal with |- gained ?p _ ?k _ =>
        match goal with H : dget k p = Some ?l |- _ => exists l; split; [exact H|cols; reflexivity] end end).
    all: repeat (erewrite dset_keys; [|cols; eassumption]); reflexivity. }
  clear H. destruct K as (loss & over & co2 & fuel & cycle & l & ov & g & i & e & ch & di & em & c1 & vals & tl
    & H1 & H2 & H3 & H4 & H5 & H6 & H7 & H8 & H9 & H10 & H11 & H12 & H13 & HV & TL & -> & HK & H14).
  set (f := headings loss over fuel pi pe cycle co2 l ov g i e (ch + di) em) in *.
  exists loss, over, co2, fuel, cycle, l, ov, g, i, e, ch, di, em.
  do 13 (split; [assumption|]).
  split.
  - intros k I O. destruct (H14 k I O) as (lk & G1 & G2). exists lk. split; [exact G1|].
    rewrite dget_dset_other; [exact G2|]. intros ->. discriminate O.
  - exists (nsum vals). split; [exists tl; split; [exact TL|apply dget_dset_same]|].
    apply (row_values f) in HV.
    + subst vals. rewrite HK.
      assert (P : Permutation (map f (filter ordinary (map fst c))) (map f (filter ordinary (cost_columns ar)))).
      { apply Permutation_map, filter_permutation, CC. }
      rewrite (nsum_permutation _ _ P). unfold cost_columns, optional, optional_par, f in *. clear - H4 H5 H8 H9 H10 H11 H12.
      destruct (has_genset ar), (has_grid ar), (has_battery ar); simpl; unfold nsum, headings; unum; simpl; subst; ring.
    + rewrite HK. eapply Permutation_NoDup; [symmetry; exact CC|]. unfold cost_columns.
      destruct (has_genset ar), (has_grid ar), (has_battery ar); simpl;
        repeat constructor; simpl; intuition discriminate.
    + intros k I O. eapply gained_latest. apply H14; [|exact O]. rewrite HK in I.
      eapply Permutation_in; [exact CC|exact I].
Qed.

Lemma run_bill control (g : nonmod Q) g' v : columns (nm_cost g) (cost_columns (nm_arch g)) ->
  nm_run control g = (g', Ok v) ->
  exists o emitted total, produced g g' o /\ gained (nm_co2 g) (nm_co2 g') "co2" (CNum emitted)
    /\ gained (nm_cost g) (nm_cost g') "total_cost" (CNum total) /\ bill g o emitted total.
Proof.
  intros CC H. apply run_records in H. destruct H as (prod & R & _).
  destruct (recorded_outcome _ _ _ _ _ _ _ R) as (x & C & F & BP & PV).
  destruct R as [_ RL (u1 & RO) (u2 & RC) _].
  apply record_co2_ok in RO. destruct RO as (gen & imp & dirt & O1 & O2 & em & GO & EO).
  apply record_cost_ok in RC; [|exact CC].
  destruct RC as (loss & over & co2 & fuel & cycle & l & ov & ge & i & e & ch & di & em' & R1 & R2 & R3 & R4 & R5 & R6
    & R7 & R8 & R9 & R10 & R11 & R12 & R13 & _ & t & GT & ET).
  assert (em' = em) as ->.
  { destruct GO as (lo & _ & G). destruct R13 as (lo' & G'). rewrite G in G'. injection G' as G'.
    apply app_inj_tail in G'. destruct G' as [_ G']. congruence. }
  exists x, em, t. split; [exact C|]. split; [exact GO|]. split; [exact GT|].
  destruct C as (C1 & C2 & C3 & C4 & C5 & C6 & C7).
  assert (X : forall k y z, gained (nm_production g) (nm_production g') k (CNum y) -> find_num prod k = Ok z -> z = y).
  { intros k y z G E. apply gained_latest in G. rewrite (find_last _ _ _ _ RL G) in E. congruence. }
  exists loss, over, co2, fuel, dirt, cycle. unfold parameter.
  do 3 (split; [assumption|]).
  unfold optional, optional_par, grid_now in *.
  pose proof (X _ _ _ C5 R6) as ->. pose proof (X _ _ _ C7 R7) as ->. clear R6 R7 C4 C5 C6 C7.
  destruct (has_genset (nm_arch g)), (has_grid (nm_arch g)), (has_battery (nm_arch g));
    repeat match goal with H : _ /\ _ |- _ => destruct H end;
    repeat match goal with
      | H : find_num prod ?k = Ok ?z, G : gained _ _ ?k (CNum ?y) |- _ => 
          pose proof (X _ _ _ G H); clear H; subst
      end; subst;
    repeat match goal with H : ?a = 0 |- _ => rewrite H in * end;
    (split; [auto|]); (split; [auto|]); (split; [rewrite EO; ring|rewrite ET; ring]).
Qed.
