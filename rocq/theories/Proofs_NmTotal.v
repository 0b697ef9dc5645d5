(** * When a run of a non-modular microgrid returns *)

From Coq Require Import ZArith QArith Qabs Qminmax Bool String List Lia Lqa Permutation.
From Verif Require Import Num Py Spec_Module Proofs_Num Proofs_Run Proofs_Progress Proofs_Env NonModular Spec_NonModular
  Proofs_NonModular Proofs_NmRun Proofs_NmHistory Proofs_NmBattery Proofs_NmCost Proofs_NmClock Proofs_NmProgress
  Proofs_NmEpisode.
Import ListNotations.
Local Open Scope string_scope.
Local Open Scope list_scope.
Local Open Scope Q_scope.

(** ** The records *)

Definition required (load : Q) (o : outcome) : Q :=
  load + oc_charge o + oc_export o - (oc_discharge o + oc_import o + oc_genset o).

Lemma production_present g : equipped g -> forall k, In k (production_columns (nm_arch g)) -> present k (nm_production g).
Proof.
  intros E k I. apply present_in. eapply Permutation_in; [symmetry; exact (eq_production _ E)|exact I].
Qed.

Lemma production_verdict g control : equipped g ->
  (forall k, In k (control_names (nm_arch g)) -> present k control) ->
  (exactly_balanced g control /\ exists p e,
     record_production (nm_par g) (nm_arch g) (full_control control g) (nm_state g) (nm_production g) = (p, Err e)
     /\ ex_class e = AssertionError)
  \/ (~ exactly_balanced g control /\ exists p,
     record_production (nm_par g) (nm_arch g) (full_control control g) (nm_state g) (nm_production g) = (p, Ok tt)).
Proof.
  intros E PC. destruct (parts_total g control E PC) as (ch & di & im & ex & ge & H).
  destruct (H 0 0 0 0) as (BP & GP & SP). set (o := mkOutcome ch di im ex ge 0 0 0 0) in *.
  pose proof (parts_follow _ _ _ BP GP SP) as F.
  destruct (record_production_total _ _ _ _ _ _ _ _ BP GP SP (full_control_load control g) (full_control_pv control g)
    (production_present _ E)) as (req & p & RQ & RP).
  assert (D : exactly_balanced g control <-> req == 0 /\ 1 # 1000 <= now_pv (nm_now g)).
  { split.
    - intros (o' & F' & B & P). split; [|exact P].
      destruct (follows_unique _ _ _ _ F F') as (X1 & X2 & X3 & X4 & X5). rewrite RQ, X1, X2, X3, X4, X5. lra.
    - intros (R & P). exists o. split; [exact F|]. split; [lra|exact P]. }
  destruct (balance_pv_total req (now_pv (nm_now g))) as [K|(x & K)].
  - left. split; [apply D; exact K|]. destruct K as (K1 & K2).
    destruct (balance_pv_stuck _ _ K1 K2) as (e & EE & C). rewrite EE in RP. eauto.
  - rewrite K in RP. right. split; [|eauto]. intros X. apply D in X. destruct X as (K1 & K2).
    destruct (balance_pv_stuck _ _ K1 K2) as (e & EE & C). congruence.
Qed.

Lemma gained_present (p p' : record Q) k x : gained p p' k (CNum x) -> exists y, latest p' k (CNum y).
Proof. intros G. exists x. eapply gained_latest. exact G. Qed.

Lemma columns_latest ar p p' o : columns_gained ar p p' o ->
  forall k, In k (production_columns ar) -> exists y, latest p' k (CNum y).
Proof.
  intros C k I. unfold columns_gained, production_columns in *.
  destruct C as (C1 & C2 & C3 & C4 & C5 & C6 & C7).
  destruct (has_battery ar), (has_grid ar), (has_genset ar); simpl in I;
    repeat match goal with H : _ /\ _ |- _ => destruct H end;
    repeat match goal with H : _ \/ _ |- _ => destruct H as [<-|H] end; try contradiction;
    eapply gained_present; eassumption.
Qed.

Lemma records_total g control p : equipped g ->
  (forall k, In k (control_names (nm_arch g)) -> present k control) ->
  record_production (nm_par g) (nm_arch g) (full_control control g) (nm_state g) (nm_production g) = (p, Ok tt) ->
  exists c o s prod, recorded control g p c o s prod.
Proof.
  intros E PC RP. pose proof (record_production_ok _ _ _ _ _ _ _ RP) as (oc & BP & _ & _ & _ & CG).
  pose proof (columns_latest _ _ _ _ CG) as L.
  pose proof (record_production_grows _ _ _ _ _ _ _ RP) as GR.
  assert (KP : map fst p = map fst (nm_production g)) by (destruct GR as (K & _); congruence).
  assert (ND : NoDup (map fst p)).
  { rewrite KP. eapply Permutation_NoDup; [symmetry; exact (eq_production _ E)|apply production_columns_nodup]. }
  destruct (last_row_total p ND) as (prod & LP).
  { intros k I. rewrite KP in I. destruct (L k) as (y & Y); [|eauto].
    eapply Permutation_in; [exact (eq_production _ E)|exact I]. }
  assert (FN : forall k, In k (production_columns (nm_arch g)) -> exists x, find_num prod k = Ok x).
  { intros k I. destruct (L k I) as (x & X). exists x. eapply find_last; eassumption. }
  destruct (record_co2_total (nm_par g) (nm_arch g) prod (grid_now g now_co2) (nm_co2 g)) as (o & RO).
  { intros G. split; [apply FN; unfold production_columns; rewrite G, !in_app_iff; simpl; auto 20|].
    apply (eq_par _ E). unfold parameter_names. rewrite G, !in_app_iff. simpl. auto 20. }
  { intros G. apply FN. unfold production_columns. rewrite G, !in_app_iff. simpl. auto 20. }
  { apply present_in. eapply Permutation_in; [symmetry; exact (eq_co2 _ E)|simpl; auto]. }
  destruct (record_cost_total (nm_par g) (nm_arch g) prod o (grid_now g now_import) (grid_now g now_export) (nm_cost g)) as (c & RC).
  { exact (eq_cost _ E). }
  { exact FN. }
  { exact (eq_par _ E). }
  { apply record_co2_ok in RO. destruct RO as (gen & imp & dirt & _ & _ & e & G & _). exists e. eapply gained_latest. exact G. }
  destruct (update_status_total (nm_par g) (nm_arch g) (nm_t g) (status_source g prod control) (nm_next g) (nm_state g)) as (s & RS).
  { exact (eq_state _ E). }
  { exact (eq_par _ E). }
  { intros HB. unfold battery_part in BP. rewrite HB in BP. destruct BP as (x & y & soc & X & Y & LS & _).
    split; [eauto|]. unfold status_source. destruct (has_grid (nm_arch g)).
    - split; apply FN; unfold production_columns; rewrite HB, !in_app_iff; simpl; auto 20.
    - unfold find_num, dfind. rewrite !map_get, X, Y. simpl. split; eauto. }
  exists c, o, s, prod. constructor; eauto.
Qed.

(** ** The run *)

Lemma run_stuck control (g : nonmod Q) p e :
  record_production (nm_par g) (nm_arch g) (full_control control g) (nm_state g) (nm_production g) = (p, Err e) ->
  snd (nm_run control g) = Err e.
Proof.
  intros H. unfold nm_run. unfold mbind at 1, mget at 1. unfold mbind at 1, mmodify at 1. cbv beta iota.
  unfold mbind at 1, on_production at 1. cbn [nm_production set_records].
  unfold full_control in H. rewrite H. reflexivity.
Qed.

Lemma run_go control (g : nonmod Q) p c o s prod : recorded control g p c o s prod ->
  let g1 := after_records control g p c o s in
  nm_run control g =
    if ended g then (set_clock (nm_t g) (nm_len g) true g1, last_row s)
    else match update_variables (set_clock (nm_t g + 1) (nm_len g) (nm_done g) g1) with
         | (g2, Ok _) => (g2, last_row (nm_state g2))
         | (g2, Err e) => (g2, Err e)
         end.
Proof.
  intros [(u1 & R1) R2 (u3 & R3) (u4 & R4) (u5 & R5)] g1. unfold nm_run.
  unfold mbind at 1, mget at 1. unfold mbind at 1, mmodify at 1. cbv beta iota.
  unfold mbind at 1, on_production at 1. cbn [nm_production set_records].
  change (dremove "pv_consummed" (dset "pv" (now_pv (nm_now g)) (dset "load" (now_load (nm_now g)) control)))
    with (full_control control g). rewrite R1. cbv beta iota.
  unfold mbind at 1, mget at 1. cbn [nm_production set_records]. rewrite (lift_bind _ _ _ _ R2).
  match goal with |- mbind ?f ?k ?st = _ => assert (X : f st = (g1, Ok tt)) end.
  { unfold grid_now, status_source in *. destruct (has_grid (nm_arch g)).
    - unfold mbind at 1, on_co2 at 1. cbn [nm_co2 set_records]. rewrite R3. cbv beta iota.
      unfold mbind at 1, mget at 1. unfold mbind at 1, on_cost at 1. cbn [nm_co2 nm_cost set_records]. rewrite R4. cbv beta iota.
      unfold on_state. cbn [nm_state set_records]. rewrite R5. destruct u5. reflexivity.
    - change (record_co2 (nm_par g) (nm_arch g) prod (@n0 Q Q_ops) (nm_co2 g) = (o, Ok u3)) in R3.
      change (record_cost (nm_par g) (nm_arch g) prod o (@n0 Q Q_ops) (@n0 Q Q_ops) (nm_cost g) = (c, Ok u4)) in R4.
      unfold mbind at 1, on_co2 at 1. cbn [nm_co2 set_records]. rewrite R3. cbv beta iota.
      unfold mbind at 1, mget at 1. unfold mbind at 1, on_cost at 1. cbn [nm_co2 nm_cost set_records]. rewrite R4. cbv beta iota.
      unfold on_state. cbn [nm_state set_records]. rewrite R5. destruct u5. reflexivity. }
  rewrite (mbind_eq _ _ _ _ _ X). clear X.
  change (((nm_t g =? nm_len g - nm_horizon g) || (nm_t g =? nm_len g - 1))%Z) with (ended g).
  destruct (ended g).
  - reflexivity.
  - unfold mbind at 1, mmodify at 1. cbv beta iota. 
    change (nm_t g1) with (nm_t g). change (nm_len g1) with (nm_len g). change (nm_done g1) with (nm_done g).
    unfold mbind at 1. destruct (update_variables _) as [g2 [u|e]]; reflexivity.
Qed.

(** ** The clock *)

Record clock_ok (g : nonmod Q) : Prop := mkClockOk {
  ck_len : nm_len g = data_length (nm_use g) g;
  ck_t : (0 <= nm_t g < nm_len g)%Z;
  ck_default : match nm_default g with
               | All => nm_use g = All
               | Training => nm_use g <> All /\ (0 < nm_limit g < all_rows g)%nat
               | Testing => False
               end;
  ck_split : nm_split g = match nm_default g with All => false | _ => true end
}.

Lemma data_length_all g : data_length All g = Z.of_nat (all_rows g).
Proof. unfold data_length, all_rows, part. lia. Qed.
Lemma data_length_training g : data_length Training g = Z.min (Z.of_nat (nm_limit g)) (Z.of_nat (all_rows g)).
Proof. unfold data_length, all_rows, part. rewrite !firstn_length. lia. Qed.
Lemma data_length_testing g : data_length Testing g = Z.max 0 (Z.of_nat (all_rows g) - Z.of_nat (nm_limit g)).
Proof. unfold data_length, all_rows, part. rewrite !skipn_length. lia. Qed.

Lemma data_length_pos u g : (0 < all_rows g)%nat ->
  (u = All \/ (0 < nm_limit g < all_rows g)%nat) -> (0 < data_length u g)%Z.
Proof.
  intros P C. destruct u; rewrite ?data_length_all, ?data_length_training, ?data_length_testing;
    destruct C as [C|C]; try discriminate C; lia.
Qed.

Lemma iloc_in (l : list Q) i : (0 <= i < Z.of_nat (length l))%Z -> exists x, iloc l i = Ok x /\ nth_error l (Z.to_nat i) = Some x.
Proof. intros R. unfold iloc. destruct (py_nth_in l i R) as (x & -> & E). eauto. Qed.
Lemma iloc_ok (l : list Q) i x : (0 <= i)%Z -> iloc l i = Ok x -> nth_error l (Z.to_nat i) = Some x.
Proof.
  intros R. unfold iloc, py_nth. destruct (Z.leb_spec 0 i); [|lia].
  destruct (Z.ltb_spec i 0); [lia|]. rewrite andb_false_r. simpl.
  destruct (Z.ltb_spec i (Z.of_nat (length l))); simpl; [|discriminate].
  destruct (nth_error l (Z.to_nat i)); [|discriminate]. congruence.
Qed.
Lemma iloc_out (l : list Q) i : (Z.of_nat (length l) <= i)%Z -> raises IndexError (iloc l i).
Proof.
  intros R. unfold iloc, py_nth. destruct (Z.ltb_spec i (Z.of_nat (length l))); [lia|].
  destruct (Z.ltb_spec i 0); [lia|]. rewrite !andb_false_r. simpl. eexists. split; reflexivity.
Qed.

Lemma part_long u g (l : list Q) : (all_rows g <= length l)%nat ->
  (data_length u g <= Z.of_nat (length (part u (nm_limit g) l)))%Z.
Proof.
  intros L. destruct u; rewrite ?data_length_all, ?data_length_training, ?data_length_testing; unfold part;
    rewrite ?firstn_length, ?skipn_length; lia.
Qed.

Lemma now_total g (l : list Q) : clock_ok g -> (all_rows g <= length l)%nat ->
  exists x, iloc (in_use g l) (nm_t g) = Ok x.
Proof.
  intros [C1 C2 _ _] L. pose proof (part_long (nm_use g) g l L). destruct (iloc_in (in_use g l) (nm_t g)) as (x & X & _); [unfold in_use; lia|eauto].
Qed.
Lemma next_total g (l : list Q) : clock_ok g -> (all_rows g <= length l)%nat ->
  (nm_use g = All \/ nm_t g + 1 < nm_len g)%Z -> exists x, next_value g l = Ok x.
Proof.
  intros [C1 C2 _ _] L D. pose proof (part_long (nm_use g) g l L) as PL. unfold next_value.
  destruct (nm_use g) eqn:U; unfold in_use; rewrite ?U.
  - destruct (Z.ltb_spec (nm_t g) (nm_len g - 1)); [|eauto].
    destruct (iloc_in l (nm_t g + 1)) as (x & -> & _); [unfold part in PL; lia|]. simpl. eauto.
  - destruct D as [D|D]; [discriminate|].
    destruct (iloc_in (part Training (nm_limit g) l) (nm_t g + 1)) as (x & -> & _); [lia|]. simpl. eauto.
  - destruct D as [D|D]; [discriminate|].
    destruct (iloc_in (part Testing (nm_limit g) l) (nm_t g + 1)) as (x & -> & _); [lia|]. simpl. eauto.
Qed.

Lemma latest_some (r : record Q) k : (exists x l, dget k r = Some (x :: l)) -> exists y, latest r k y.
Proof.
  intros (x & l & E). destruct (exists_last (l := x :: l)) as (l' & y & EL); [discriminate|].
  rewrite EL in E. exists y, l'. exact E.
Qed.

Lemma shows_total g : clock_ok g -> aligned g ->
  (forall k, In k (status_columns (nm_arch g)) -> exists x l, dget k (nm_state g) = Some (x :: l)) ->
  (nm_use g = All \/ nm_t g + 1 < nm_len g)%Z -> exists n x b, shows g n x b.
Proof.
  intros C (AP & AG) F D.
  assert (L1 : (all_rows g <= length (nm_load_ts g))%nat) by (unfold all_rows; lia).
  assert (L2 : (all_rows g <= length (nm_pv_ts g))%nat) by (unfold all_rows; lia).
  destruct (now_total g _ C L1) as (n1 & N1). destruct (now_total g _ C L2) as (n2 & N2).
  destruct (next_total g _ C L1 D) as (x1 & X1). destruct (next_total g _ C L2 D) as (x2 & X2).
  assert (B : exists b, if has_battery (nm_arch g) then
      latest (nm_state g) "battery_soc" (bv_soc b) /\ latest (nm_state g) "capa_to_charge" (bv_charge b)
      /\ latest (nm_state g) "capa_to_discharge" (bv_discharge b)
    else b = nm_battery g).
  { unfold status_columns in F. destruct (has_battery (nm_arch g)); [|eauto].
    destruct (latest_some (nm_state g) "battery_soc") as (b1 & B1); [apply F; rewrite !in_app_iff; simpl; auto 20|].
    destruct (latest_some (nm_state g) "capa_to_charge") as (b2 & B2); [apply F; rewrite !in_app_iff; simpl; auto 20|].
    destruct (latest_some (nm_state g) "capa_to_discharge") as (b3 & B3); [apply F; rewrite !in_app_iff; simpl; auto 20|].
    exists (mkBview b1 b2 b3). auto. }
  destruct B as (b & B).
  destruct (has_grid (nm_arch g)) eqn:G.
  - specialize (AG eq_refl). rewrite Forall_forall in AG.
    pose proof (AG (nm_status_ts g) ltac:(simpl; auto)) as M1. pose proof (AG (nm_import_ts g) ltac:(simpl; auto)) as M2.
    pose proof (AG (nm_export_ts g) ltac:(simpl; auto)) as M3. pose proof (AG (nm_co2_ts g) ltac:(simpl; auto)) as M4.
    destruct (now_total g _ C M1) as (n3 & N3). destruct (now_total g _ C M2) as (n4 & N4).
    destruct (now_total g _ C M3) as (n5 & N5). destruct (now_total g _ C M4) as (n6 & N6).
    destruct (next_total g _ C M1 D) as (x3 & X3). destruct (next_total g _ C M2 D) as (x4 & X4).
    destruct (next_total g _ C M3 D) as (x5 & X5). destruct (next_total g _ C M4 D) as (x6 & X6).
    exists (mkNow n1 n2 n3 n4 n5 n6), (mkNext x1 x2 x3 x4 x5 x6), b.
    constructor; rewrite ?G; cbn [now_pv now_load now_status now_import now_export now_co2
      nx_pv nx_load nx_status nx_import nx_export nx_co2]; try assumption. auto 20.
  - exists (mkNow n1 n2 (now_status (nm_now g)) (now_import (nm_now g)) (now_export (nm_now g)) (now_co2 (nm_now g))),
      (mkNext x1 x2 (nx_status (nm_next g)) (nx_import (nm_next g)) (nx_export (nm_next g)) (nx_co2 (nm_next g))), b.
    constructor; rewrite ?G; cbn [now_pv now_load now_status now_import now_export now_co2
      nx_pv nx_load nx_status nx_import nx_export nx_co2]; try assumption. auto 20.
Qed.

Lemma update_variables_stuck (g : nonmod Q) : clock_ok g -> nm_use g <> All -> (nm_t g + 1 = nm_len g)%Z ->
  raises IndexError (snd (update_variables g)).
Proof.
  intros C U T. destruct C as [C1 C2 _ _].
  assert (R : forall l, (data_length (nm_use g) g <= Z.of_nat (length (in_use g l)))%Z -> exists x, iloc (in_use g l) (nm_t g) = Ok x).
  { intros l L. destruct (iloc_in (in_use g l) (nm_t g)) as (x & X & _); [lia|eauto]. }
  destruct (R (nm_pv_ts g)) as (x1 & X1); [unfold data_length, in_use; lia|].
  destruct (R (nm_load_ts g)) as (x2 & X2); [unfold data_length, in_use; lia|].
  unfold update_variables. unfold mbind at 1, mget at 1. rewrite (lift_bind _ _ _ _ X1).
  unfold mbind at 1, now_grid at 1, mmodify at 1. cbv beta iota. rewrite (lift_bind _ _ _ _ X2).
  unfold mbind at 1, now_grid at 1, mmodify at 1. cbv beta iota.
  assert (NV : forall l, next_value g l = rmap CNum (iloc (in_use g l) (nm_len g))).
  { intros l. unfold next_value. rewrite T. destruct (nm_use g); congruence. }
  rewrite !NV. unfold mbind at 1, mlift at 1. unfold iloc at 1.
  assert (Q : (Z.of_nat (length (in_use g (nm_pv_ts g))) <= nm_len g)%Z \/ (Z.of_nat (length (in_use g (nm_load_ts g))) <= nm_len g)%Z).
  { rewrite C1. unfold data_length, in_use. lia. }
  destruct (py_nth (in_use g (nm_pv_ts g)) (nm_len g)) as [y|] eqn:EY; simpl.
  - unfold mbind at 1, next_grid at 1, mmodify at 1. cbv beta iota. unfold mbind at 1, mlift at 1.
    destruct Q as [Q|Q]; apply iloc_out in Q; destruct Q as (e & E & K).
    + unfold iloc in E. rewrite EY in E. discriminate E.
    + rewrite E. simpl. exists e. auto.
  - eexists. split; reflexivity.
Qed.

(** *** It goes on whatever the user calls. *)

Lemma all_rows_eq g g' : nm_load_ts g' = nm_load_ts g -> nm_pv_ts g' = nm_pv_ts g -> all_rows g' = all_rows g.
Proof. unfold all_rows. intros -> ->. reflexivity. Qed.

Lemma firsts_total (r : record Q) : (forall k l, In (k, l) r -> l <> []) -> exists r', firsts r = Ok r'.
Proof.
  induction r as [|[k l] r IH]; intros F; [eexists; reflexivity|].
  destruct IH as (r' & IH); [intros; eapply F; simpl; eauto|].
  destruct l as [|x l]; [exfalso; eapply F; [left; reflexivity|reflexivity]|].
  unfold firsts in *. cbn [rmapM]. simpl. rewrite IH. simpl. eauto.
Qed.

Lemma equipped_firsts g : equipped g -> exists st, firsts (nm_state g) = Ok st.
Proof.
  intros E. apply firsts_total. intros k l I ->.
  assert (K : In k (map fst (nm_state g))) by (apply in_map_iff; exists (k, []); auto).
  pose proof (Permutation_in _ (eq_state _ E) K) as K'.
  destruct (eq_first _ E _ K') as (x & l' & D).
  assert (ND : NoDup (map fst (nm_state g))) by (eapply Permutation_NoDup; [symmetry; exact (eq_state _ E)|apply status_columns_nodup]).
  rewrite (Proofs_Num.In_dget _ _ _ ND I) in D. discriminate D.
Qed.

Definition set_right (g : nonmod Q) : Prop :=
  (0 < all_rows g)%nat
  /\ match nm_default g with All => True | Training => (0 < nm_limit g < all_rows g)%nat | Testing => False end
  /\ nm_split g = match nm_default g with All => false | _ => true end.

Lemma clock_reset testing g : equipped g -> set_right g -> clock_ok (fst (nm_reset testing g)).
Proof.
  intros E (S1 & S2 & S3). destruct (nm_reset testing g) as [g' r] eqn:H. simpl.
  apply nm_reset_any in H. destruct (equipped_firsts _ E) as (st0 & F0).
  destruct H as [(e & _ & F & _)|(st & g1 & r1 & _ & U & K)]; [congruence|].
  apply update_variables_varies in U. destruct U as (n & x & b & ->).
  assert (X : clock_ok (rewound testing st g)).
  { constructor; cbn [rewound nm_len nm_use nm_t nm_default nm_split nm_limit set_epochs set_clock set_data set_records].
    - reflexivity.
    - split; [lia|]. apply data_length_pos; [exact S1|]. unfold use_after. destruct (nm_default g); [left; destruct testing; reflexivity|right; exact S2|contradiction].
    - unfold use_after. destruct (nm_default g); [destruct testing; reflexivity| |contradiction].
      split; [destruct testing; discriminate|exact S2].
    - exact S3. }
  destruct X as [X1 X2 X3 X4].
  destruct r1; destruct K as (_ & ->); constructor; assumption.
Qed.

Lemma clock_do c g : equipped g -> (0 < all_rows g)%nat -> proper (all_rows g) c -> clock_ok g -> clock_ok (nm_do c g).
Proof.
  intros E S1 PR C. pose proof C as [C1 C2 C3 C4].
  assert (SR : set_right g).
  { split; [exact S1|]. split; [|exact C4]. destruct (nm_default g); [exact I|apply C3|exact C3]. }
  destruct c as [control|testing|limit cancel|h|x]; simpl.
  - destruct (nm_run control g) as [g' r] eqn:H. apply nm_run_any in H. simpl.
    destruct H as (p & cc & o & s & _ & _ & _ & _ & CK).
    destruct CK as [|D|n x b D]; constructor; try assumption.
    cbn [nm_t nm_len set_battery set_next set_now set_clock]. unfold ended in D.
    apply orb_false_iff in D. destruct D as (_ & D). apply Z.eqb_neq in D. lia.
  - apply clock_reset; assumption.
  - unfold train_test_split. unfold mbind at 1, mmodify at 1. cbv beta iota. apply clock_reset.
    + destruct E. destruct (negb (nm_split g)); [constructor; assumption|destruct cancel; constructor; assumption].
    + destruct SR as (_ & S2 & S3). destruct (nm_split g) eqn:SP; simpl.
      * destruct cancel; split; try exact S1; split; cbn; auto; congruence.
      * split; [exact S1|]. split; [exact PR|reflexivity].
  - constructor; assumption.
  - constructor; assumption.
Qed.

Lemma clock_after cs g0 : equipped g0 -> (0 < all_rows g0)%nat -> clock_ok g0 ->
  Forall (proper (all_rows g0)) cs -> clock_ok (nm_after cs g0).
Proof.
  intros E S1 C F. induction cs as [|c cs IH] using rev_ind; [exact C|].
  apply Forall_app in F. destruct F as (F1 & F2). inversion F2; subst.
  unfold nm_after. rewrite fold_left_app. simpl. fold (nm_after cs g0).
  pose proof (descends_after cs g0) as D.
  assert (X : all_rows (nm_after cs g0) = all_rows g0) by (apply all_rows_eq; [apply (ds_load _ _ D)|apply (ds_pv _ _ D)]).
  apply clock_do; [apply equipped_after; exact E|rewrite X; exact S1|rewrite X; assumption|apply IH; exact F1].
Qed.

Lemma aligned_after cs g0 : aligned g0 -> aligned (nm_after cs g0).
Proof.
  intros (A1 & A2). pose proof (descends_after cs g0) as [D1 D2 D3 D4 D5 D6 D7 _ _ _ _ _ _ _ _].
  unfold aligned, all_rows in *. rewrite D1, D2, D3, D4, D5, D6, D7. auto.
Qed.

Lemma clock_new (sp : nm_spec Q) h g : new_nonmodular sp h = Ok g -> (0 < all_rows g)%nat -> clock_ok g.
Proof.
  intros H P. apply new_nonmodular_ok in H.
  destruct H as (_ & _ & _ & _ & _ & _ & _ & _ & _ & _ & _ & _ & _ & _ & _ & T & L & _ & _ & _ & _ & SP & DF & US).
  constructor; rewrite ?US, ?DF, ?T, ?SP; auto. rewrite L, data_length_all. lia.
Qed.

Lemma new_rows (sp : nm_spec Q) h g : new_nonmodular sp h = Ok g -> (1 < all_rows g)%nat.
Proof.
  intros H. apply new_nonmodular_ok in H.
  destruct H as (_ & _ & _ & _ & _ & _ & _ & _ & _ & _ & _ & _ & (x & X & _) & (y & Y & _) & _).
  apply iloc_ok in X, Y; try lia. change (Z.to_nat 1) with 1%nat in *.
  assert (1 < length (nm_load_ts g))%nat by (apply nth_error_Some; congruence).
  assert (1 < length (nm_pv_ts g))%nat by (apply nth_error_Some; congruence). unfold all_rows. lia.
Qed.

(** ** When a run returns *)

Lemma run_verdict g control : equipped g -> aligned g -> clock_ok g ->
  (forall k, In k (control_names (nm_arch g)) -> exists x, dget k control = Some x) ->
  (exactly_balanced g control -> raises AssertionError (snd (nm_run control g)))
  /\ (~ exactly_balanced g control ->
      (last_step g \/ nm_use g = All \/ (nm_t g + 2 < nm_len g)%Z -> exists v, snd (nm_run control g) = Ok v)
      /\ (~ last_step g -> nm_use g <> All -> (nm_t g + 2 = nm_len g)%Z -> raises IndexError (snd (nm_run control g)))).
Proof.
  intros E A C PC.
  assert (LS : last_step g <-> ended g = true).
  { unfold last_step, ended. rewrite orb_true_iff, !Z.eqb_eq. reflexivity. }
  destruct (production_verdict g control E PC) as [(B & p & e & RP & K)|(B & p & RP)].
  - split; [|tauto]. intros _. exists e. split; [apply run_stuck in RP; exact RP|exact K].
  - split; [tauto|]. intros _. destruct (records_total g control p E PC RP) as (c & o & s & prod & R).
    pose proof (run_go _ _ _ _ _ _ _ R) as RG. cbv zeta in RG.
    destruct (rc_state _ _ _ _ _ _ _ R) as (u & US).
    pose proof (update_status_grows _ _ _ _ _ _ _ _ US) as GS.
    assert (KS : map fst s = map fst (nm_state g)) by (destruct GS as (K & _); congruence).
    assert (FS : forall k, In k (status_columns (nm_arch g)) -> exists x l, dget k s = Some (x :: l)).
    { intros k I. destruct (eq_first _ E k I) as (x & l & D). destruct (proj2 GS _ _ D) as (m & D'). simpl in D'. eauto. }
    assert (LR : exists v, last_row s = Ok v).
    { apply last_row_total.
      - rewrite KS. eapply Permutation_NoDup; [symmetry; exact (eq_state _ E)|apply status_columns_nodup].
      - intros k I. rewrite KS in I. apply latest_some. apply FS. eapply Permutation_in; [exact (eq_state _ E)|exact I]. }
    destruct (ended g) eqn:D.
    + split; [|intros X; exfalso; apply X; apply LS; reflexivity]. intros _. rewrite RG. exact LR.
    + assert (NL : ~ last_step g) by (intros X; apply LS in X; discriminate X).
      set (g1 := set_clock (nm_t g + 1) (nm_len g) (nm_done g) (after_records control g p c o s)) in *.
      assert (C1 : clock_ok g1).
      { destruct C as [K1 K2 K3 K4]. constructor; try assumption. cbn.
        unfold last_step in NL. lia. }
      split.
      * intros X. destruct (shows_total g1 C1) as (n & x & b & SH).
        { exact A. }
        { exact FS. }
        { destruct X as [X|[X|X]]; [contradiction|left; exact X|right; cbn; lia]. }
        rewrite (update_variables_total _ _ _ _ SH) in RG. rewrite RG. exact LR.
      * intros _ U T. destruct (update_variables_stuck g1 C1 U) as (e & EE & K); [cbn; lia|].
        rewrite RG. destruct (update_variables g1) as [g2 [y|e']]; simpl in *; [discriminate|]. injection EE as ->. exists e; auto.
Qed.
