(** * Whole runs of the rule-based control of non-modular microgrids *)

From Coq Require Import ZArith QArith Qabs Qminmax Bool String List Lia Lqa Permutation.
From Verif Require Import Num Py Spec_Module Proofs_Num Proofs_Run Proofs_Data NonModular Spec_NonModular Proofs_NonModular Proofs_NmRun
  Proofs_NmHistory Proofs_NmBattery Proofs_NmCost Proofs_NmClock Proofs_NmProgress Proofs_NmEpisode Proofs_NmTotal Proofs_NmRecord
  NmRbc Spec_NmRbc Spec_NmRbcRun Proofs_NmRbc.
Import ListNotations.
Local Open Scope string_scope.
Local Open Scope list_scope.
Local Open Scope Q_scope.

(** ** One step *)

Lemma control_shape to_int (g : nonmod Q) i st n x c : rows g i n x -> rb_control to_int g (Z.of_nat i) st = Ok c ->
  exists c1 c2 c3 c4 c5 c6 c7 c8,
  c = [("battery_charge", c1); ("battery_discharge", c2); ("genset", c3); ("grid_import", c4); ("grid_export", c5);
       ("loss_load", c6); ("pv_consummed", c7); ("pv_curtailed", c8); ("load", now_load n); ("pv", now_pv n)].
Proof.
  intros R H. unfold rb_control in H. apply rbind_ok in H. destruct H as (pr & _ & H).
  rewrite (iloc_nat _ _ _ (ro_load _ _ _ _ R)), (iloc_nat _ _ _ (ro_pv _ _ _ _ R)) in H. cbn [rbind] in H.
  unfold run_priority_based in H. apply rbind_ok in H. destruct H as (((temp & least) & pr') & _ & H).
  apply rbind_ok in H. destruct H as (d & _ & H). injection H as <-. do 8 eexists. reflexivity.
Qed.

(** What a step records *)
Record noted (c : dict Q) (h : nonmod Q) (p co o s : record Q) (prod : dict (cell Q)) : Prop := mkNoted {
  no_prod : record_production (nm_par h) (nm_arch h) (full_control c h) (nm_state h) (nm_production h) = (p, Ok tt);
  no_last : last_row p = Ok prod;
  no_co2 : record_co2 (nm_par h) (nm_arch h) prod (grid_now h now_co2) (nm_co2 h) = (o, Ok tt);
  no_cost : record_cost (nm_par h) (nm_arch h) prod o (grid_now h now_import) (grid_now h now_export) (nm_cost h) = (co, Ok tt);
  no_state : update_status (nm_par h) (nm_arch h) (nm_t h) prod (nm_next h) (nm_state h) = (s, Ok tt)
}.

Lemma on_copy_ok (f : M (record Q) unit) r r' : on_copy f r = Ok r' <-> f r = (r', Ok tt).
Proof.
  unfold on_copy. destruct (f r) as [q [[]|e]]; simpl; split; intros H; try discriminate; injection H as ->; reflexivity.
Qed.

Lemma row_next (l : list Q) i y : nth_error l (S i) = Some y -> iloc l (Z.of_nat i + 1) = Ok y.
Proof. intros E. replace (Z.of_nat i + 1)%Z with (Z.of_nat (S i)) by lia. apply iloc_nat. exact E. Qed.

Lemma rb_step_iff to_int (g : nonmod Q) i r r' c n x : rows g i n x -> rb_control to_int g (Z.of_nat i) (cp_state r) = Ok c ->
  (rb_step to_int g (Z.of_nat i) r = Ok r' <->
   exists p co o s prod, noted c (at_row g r n x) p co o s prod
     /\ r' = mkCopies (actions_after c (at_row g r n x)) s p co o).
Proof.
  intros R H. destruct (control_shape _ _ _ _ _ _ _ R H) as (c1 & c2 & c3 & c4 & c5 & c6 & c7 & c8 & C).
  assert (F : full_control c (at_row g r n x) = dremove "pv_consummed" c) by (rewrite C; reflexivity).
  assert (A : actions_after c (at_row g r n x) = record_action c (cp_actions r)) by (rewrite C; reflexivity).
  unfold rb_step. rewrite H. cbn [rbind].
  destruct (ro_next_load _ _ _ _ R) as (nl & NL & NL'). destruct (ro_next_pv _ _ _ _ R) as (np & NP & NP').
  rewrite (row_next _ _ _ NL), (row_next _ _ _ NP).
  pose proof (ro_grid _ _ _ _ R) as G.
  assert (NOW : (if has_grid (nm_arch g) then rbind (iloc (nm_co2_ts g) (Z.of_nat i)) (fun c => Ok c) else Ok n0) = Ok (grid_now (at_row g r n x) now_co2)).
  { unfold grid_now. cbn. destruct (has_grid (nm_arch g)); [|reflexivity].
    destruct G as (_ & _ & _ & G & _). rewrite (iloc_nat _ _ _ G). reflexivity. }
  assert (PRI : (if has_grid (nm_arch g) then rbind (iloc (nm_import_ts g) (Z.of_nat i)) (fun im => rbind (iloc (nm_export_ts g) (Z.of_nat i)) (fun ex => Ok (im, ex)))
      else Ok (n0, n0)) = Ok (grid_now (at_row g r n x) now_import, grid_now (at_row g r n x) now_export)).
  { unfold grid_now. cbn. destruct (has_grid (nm_arch g)); [|reflexivity].
    destruct G as (_ & G1 & G2 & _). rewrite (iloc_nat _ _ _ G1), (iloc_nat _ _ _ G2). reflexivity. }
  assert (NXT : (if has_grid (nm_arch g) then
      rbind (iloc (nm_status_ts g) (Z.of_nat i + 1)) (fun s => rbind (iloc (nm_import_ts g) (Z.of_nat i + 1)) (fun im =>
      rbind (iloc (nm_export_ts g) (Z.of_nat i + 1)) (fun ex => rbind (iloc (nm_co2_ts g) (Z.of_nat i + 1)) (fun c =>
        Ok (mkNext (CNum nl) (CNum np) (CNum s) (CNum im) (CNum ex) (CNum c))))))
      else Ok (mkNext (CNum nl) (CNum np) (CNum n0) (CNum n0) (CNum n0) (CNum n0))) = Ok x).
  { destruct (has_grid (nm_arch g)).
    - destruct G as (_ & _ & _ & _ & (y1 & Y1 & Y1') & (y2 & Y2 & Y2') & (y3 & Y3 & Y3') & (y4 & Y4 & Y4')).
      rewrite (row_next _ _ _ Y1), (row_next _ _ _ Y2), (row_next _ _ _ Y3), (row_next _ _ _ Y4). cbn [rbind].
      destruct x as [x1 x2 x3 x4 x5 x6]. cbn in *. congruence.
    - destruct G as (_ & _ & _ & _ & Y1 & Y2 & Y3 & Y4). destruct x as [x1 x2 x3 x4 x5 x6]. cbn in *. unum. congruence. }
  cbn [rbind]. rewrite NXT, NOW, PRI. cbn [rbind fst snd]. rewrite <- F, <- A. split.
  - intros K. repeat (apply rbind_ok in K; let z := fresh "z" in let Z := fresh "Z" in destruct K as (z & Z & K)).
    repeat match goal with H : Ok _ = Ok _ |- _ => injection H as <- | H : on_copy _ _ = Ok _ |- _ => apply on_copy_ok in H end.
    cbn [rbind fst snd] in *.
    do 5 eexists. split; [constructor; eassumption|congruence].
  - intros (p & co & o & s & prod & [N1 N2 N3 N4 N5] & ->).
    change (record_production (nm_par g) (nm_arch g) (full_control c (at_row g r n x)) (cp_state r) (cp_production r) = (p, Ok tt)) in N1.
    change (record_co2 (nm_par g) (nm_arch g) prod (grid_now (at_row g r n x) now_co2) (cp_co2 r) = (o, Ok tt)) in N3.
    change (record_cost (nm_par g) (nm_arch g) prod o (grid_now (at_row g r n x) now_import) (grid_now (at_row g r n x) now_export) (cp_cost r)
      = (co, Ok tt)) in N4.
    change (update_status (nm_par g) (nm_arch g) (nm_t g) prod x (cp_state r) = (s, Ok tt)) in N5.
    apply on_copy_ok in N1, N3, N4, N5.
    rewrite N1. cbn [rbind]. rewrite N2. cbn [rbind]. rewrite N3. cbn [rbind].
    rewrite N5. cbn [rbind]. rewrite N4. reflexivity.
Qed.

Lemma noted_recorded c h p co o s prod : equipped h -> (forall k, In k (control_names (nm_arch h)) -> present k c) ->
  noted c h p co o s prod -> exists s', recorded c h p co o s' prod.
Proof.
  intros E PC [N1 N2 N3 N4 N5]. destruct (records_total h c p E PC N1) as (co' & o' & s' & prod' & [R1 R2 (u3 & R3) (u4 & R4) R5]).
  exists s'. rewrite N2 in R2. injection R2 as <-. rewrite N3 in R3. injection R3 as <- <-. rewrite N4 in R4. injection R4 as <- <-.
  constructor; eauto.
Qed.

Lemma gained_unique (r r' : record Q) k x y : gained r r' k x -> gained r r' k y -> x = y.
Proof.
  intros (l & E & E') (m & F & F'). rewrite E in F. injection F as <-. rewrite E' in F'. injection F' as F'.
  apply app_inj_tail in F'. apply F'.
Qed.
Lemma produced_unique g g' o o' : produced g g' o -> produced g g' o' -> o = o'.
Proof.
  unfold produced. intros P P'.
  assert (N : forall k x y, gained (nm_production g) (nm_production g') k (CNum x) -> gained (nm_production g) (nm_production g') k (CNum y) -> x = y).
  { intros k x y G G'. pose proof (gained_unique _ _ _ _ _ G G') as E. congruence. }
  destruct o, o'. cbn in *.
  destruct (has_battery (nm_arch g)), (has_grid (nm_arch g)), (has_genset (nm_arch g));
    repeat match goal with H : _ /\ _ |- _ => destruct H end; f_equal; try congruence; eapply N; eassumption.
Qed.

(** The same records as a run's *)
Definition closed_clock (h : nonmod Q) : nonmod Q := set_clock (nm_t h) (nm_t h + 1) false h.
Lemma noted_run c h p co o s prod : equipped h -> (forall k, In k (control_names (nm_arch h)) -> present k c) ->
  noted c h p co o s prod -> exists g' v, nm_run c (closed_clock h) = (g', Ok v) /\ nm_production g' = p /\ nm_cost g' = co /\ nm_co2 g' = o
    /\ nm_actions g' = actions_after c h /\ (has_grid (nm_arch h) = true -> nm_state g' = s).
Proof.
  intros E PC N. destruct (noted_recorded _ _ _ _ _ _ _ E PC N) as (s' & R).
  assert (R' : recorded c (closed_clock h) p co o s' prod) by (destruct R as [R1 R2 R3 R4 R5]; constructor; [exact R1|exact R2|exact R3|exact R4|exact R5]).
  pose proof (run_go _ _ _ _ _ _ _ R') as G. cbv zeta in G.
  assert (D : ended (closed_clock h) = true).
  { unfold ended. cbn. rewrite (proj2 (Z.eqb_eq (nm_t h) (nm_t h + 1 - 1))) by lia. apply orb_true_r. }
  rewrite D in G. destruct (rc_state _ _ _ _ _ _ _ R) as (u & US).
  pose proof (update_status_grows _ _ _ _ _ _ _ _ US) as GS.
  assert (KS : map fst s' = map fst (nm_state h)) by (destruct GS as (K & _); congruence).
  assert (LR : exists v, last_row s' = Ok v).
  { apply last_row_total.
    - rewrite KS. eapply Permutation_NoDup; [symmetry; exact (eq_state _ E)|apply status_columns_nodup].
    - intros k I. rewrite KS in I. apply latest_some.
      assert (I' : In k (status_columns (nm_arch h))) by (eapply Permutation_in; [exact (eq_state _ E)|exact I]).
      destruct (eq_first _ E k I') as (x & l & DG). destruct (proj2 GS _ _ DG) as (m & DG'). simpl in DG'. eauto. }
  destruct LR as (v & LR). rewrite LR in G.
  eexists _, v. split; [exact G|]. do 4 (split; [reflexivity|]). intros HG. cbn.
  destruct N as [_ _ _ _ N5]. unfold status_source in US. rewrite HG in US. rewrite N5 in US. congruence.
Qed.

(** The state after an update *)
Lemma status_gained par ar t src nx (st s : record Q) u : columns st (status_columns ar) ->
  update_status par ar t src nx st = (s, Ok u) ->
  gained st s "load" (nx_load nx) /\ gained st s "pv" (nx_pv nx) /\ gained st s "hour" (CNum (inject_Z (t mod 24)))
  /\ (has_grid ar = true -> gained st s "grid_status" (nx_status nx) /\ gained st s "grid_price_import" (nx_import nx)
      /\ gained st s "grid_price_export" (nx_export nx) /\ gained st s "grid_co2" (nx_co2 nx))
  /\ (forall k, In k (status_columns ar) -> exists x, gained st s k x).
Proof.
  intros CC E.
  assert (P : forall k, In k (status_columns ar) -> exists l, dget k st = Some l).
  { intros k I. apply present_in. eapply Permutation_in; [symmetry; exact CC|exact I]. }
  unfold update_status in E. unfold mbind at 1, mget at 1 in E. apply mbind_ok in E.
  destruct E as (s1 & b & E1 & E). unfold mlift in E1. injection E1 as <- E1.
  assert (NB : forall k, k <> "battery_soc" -> k <> "capa_to_charge" -> k <> "capa_to_discharge" -> dget k b = None).
  { intros k K1 K2 K3. destruct (has_battery ar); [|injection E1 as <-; reflexivity].
    minv. injection E1 as <-. simpl.
    destruct (String.eqb_spec k "battery_soc"), (String.eqb_spec k "capa_to_discharge"), (String.eqb_spec k "capa_to_charge"); congruence. }
  assert (GA : forall k x, In k (status_columns ar) ->
    dget k ([("load", nx_load nx); ("pv", nx_pv nx); ("hour", CNum (nofZ (t mod 24)))] ++ b
              ++ (if has_grid ar then
                    [("grid_status", nx_status nx); ("grid_price_import", nx_import nx);
                     ("grid_price_export", nx_export nx); ("grid_co2", nx_co2 nx)]
                  else [])) = Some x -> gained st s k x).
  { intros k x I X. destruct (P k I) as (l & L). destruct (append_row_ok _ _ _ _ _ _ E L) as (y & Y1 & Y2).
    rewrite X in Y1. injection Y1 as <-. exists l. auto. }
  assert (DA : forall A k (d d' : dict A), dget k d = None -> dget k (d ++ d') = dget k d').
  { intros A k d d'. induction d as [|[k' y] d IH]; simpl; [reflexivity|]. destruct (String.eqb k k'); [discriminate|exact IH]. }
  split; [apply GA; [simpl; auto|reflexivity]|].
  split; [apply GA; [simpl; auto 10|reflexivity]|].
  split; [apply GA; [simpl; auto 10|reflexivity]|].
  split.
  { intros G. rewrite G in GA. unfold status_columns in GA. rewrite G in GA.
    split; [|split; [|split]]; apply GA; try (rewrite !in_app_iff; simpl; auto 20);
      cbn [app dget String.eqb Ascii.eqb Bool.eqb]; rewrite DA by (apply NB; discriminate); reflexivity. }
  intros k I. destruct (P k I) as (l & L). destruct (append_row_ok _ _ _ _ _ _ E L) as (y & Y1 & Y2). exists y, l. auto.
Qed.

Lemma shape_names c1 c2 c3 c4 c5 c6 c7 c8 (a b : Q) ar k : In k (control_names ar) ->
  present k [("battery_charge", c1); ("battery_discharge", c2); ("genset", c3); ("grid_import", c4); ("grid_export", c5);
       ("loss_load", c6); ("pv_consummed", c7); ("pv_curtailed", c8); ("load", a); ("pv", b)].
Proof.
  unfold control_names. intros I. destruct (has_battery ar), (has_grid ar), (has_genset ar); simpl in I;
    intuition (subst; eexists; reflexivity).
Qed.

(** Any control that is noted is carried out. *)
Definition after_note (c : dict Q) (h : nonmod Q) (p co o s : record Q) : copies Q := mkCopies (actions_after c h) s p co o.
Lemma noted_carried (g : nonmod Q) r c n x p co o s prod : equipped (at_row g r n x) ->
  (forall k, In k (control_names (nm_arch g)) -> present k c) -> noted c (at_row g r n x) p co o s prod ->
  exists y, carried g c n x r (after_note c (at_row g r n x) p co o s) y.
Proof.
  intros E PC N. unfold after_note. set (h := at_row g r n x) in *.
  destruct (noted_run _ _ _ _ _ _ _ E PC N) as (g' & v & RUN & P1 & P2 & P3 & P4 & _).
  destruct (run_follows _ _ _ _ RUN) as (y & PR & FO).
  destruct (run_balance _ _ _ _ RUN) as (y2 & PR2 & BA & L1 & L2 & L3 & L4). rewrite (produced_unique _ _ _ _ PR2 PR) in *. clear y2 PR2.
  destruct (run_bill c (closed_clock h) g' v (eq_cost _ E) RUN) as (y2 & em & tot & PR2 & B1 & B2 & B3).
  rewrite (produced_unique _ _ _ _ PR2 PR) in *. clear y2 PR2.
  exists y. constructor.
  - unfold produced in *. rewrite P1 in PR. exact PR.
  - exact FO.
  - exact BA.
  - split; [exact L1|split; [exact L2|exact L3]].
  - exact L4.
  - exists em, tot. rewrite P2 in B2. rewrite P3 in B1. split; [exact B1|]. split; [exact B2|exact B3].
  - intros HB. pose proof (no_state _ _ _ _ _ _ _ N) as US.
    pose proof (update_status_soc _ _ _ _ _ _ _ _ (HB : has_battery (nm_arch h) = true) US) as [->|(soc & ch & di & soc' & L & F1 & F2 & SA & _ & G)].
    + exfalso. destruct (status_gained _ _ _ _ _ _ _ _ (eq_state _ E) US) as ((l & D1 & D2) & _).
      rewrite D1 in D2. injection D2 as D2. apply (f_equal (@length _)) in D2. rewrite app_length in D2. simpl in D2. lia.
    + destruct SA as (eff & cap & Q1 & Q2 & ->). exists soc. eexists. exists eff, cap. split; [exact L|]. split; [exact (G tt eq_refl)|].
      split; [exact Q1|]. split; [exact Q2|].
      assert (X : ch = oc_charge y /\ di = oc_discharge y).
      { unfold produced in PR. change (nm_arch (closed_clock h)) with (nm_arch g) in PR. rewrite HB in PR. destruct PR as ((G1 & G2) & _).
        rewrite P1 in G1, G2. apply gained_latest in G1, G2.
        pose proof (no_last _ _ _ _ _ _ _ N) as NL.
        rewrite (find_last _ _ _ _ NL G1) in F1. rewrite (find_last _ _ _ _ NL G2) in F2. split; congruence. }
      destruct X as (-> & ->). reflexivity.
  - destruct (status_gained _ _ _ _ _ _ _ _ (eq_state _ E) (no_state _ _ _ _ _ _ _ N)) as (G1 & G2 & G3 & G4 & _).
    split; [exact G1|]. split; [exact G2|]. split; [exact G3|exact G4].
  - intros k l D. pose proof (run_actions _ _ _ _ k l RUN D) as A. rewrite P4 in A. exact A.
Qed.
Lemma rb_carried to_int (g : nonmod Q) i r r' c n x : rows g i n x -> equipped (at_row g r n x) ->
  rb_control to_int g (Z.of_nat i) (cp_state r) = Ok c -> rb_step to_int g (Z.of_nat i) r = Ok r' ->
  exists o, carried g c n x r r' o.
Proof.
  intros R E H S. apply (rb_step_iff _ _ _ _ _ _ _ _ R H) in S. destruct S as (p & co & o & s & prod & N & ->).
  refine (noted_carried g r c n x p co o s prod E _ N).
  destruct (control_shape _ _ _ _ _ _ _ R H) as (c1 & c2 & c3 & c4 & c5 & c6 & c7 & c8 & ->). intros k. apply shape_names.
Qed.

(** ** Step after step *)

Lemma equipped_row g r n x n' x' : equipped (at_row g r n x) -> equipped (at_row g r n' x').
Proof. intros [E1 E2 E3 E4 E5 E6 E7]. constructor; [exact E1|exact E2|exact E3|exact E4|exact E5|exact E6|exact E7]. Qed.

Lemma grown_longer_keys (r r' : record Q) ks : columns r ks -> grown r r' -> columns r' ks.
Proof. unfold columns. intros C (K & _). rewrite K. exact C. Qed.

Lemma gained_longer (r r' : record Q) ks : grown r r' -> columns r ks -> (forall k, In k ks -> exists x, gained r r' k x) -> longer 1 r r'.
Proof.
  intros (K & _) C G. split; [congruence|]. intros k l D.
  assert (I : In k ks) by (eapply Permutation_in; [exact C|]; apply in_map_iff; exists (k, l); split; [reflexivity|]; apply Proofs_Num.dget_In; exact D).
  destruct (G k I) as (x & l0 & D0 & D'). rewrite D in D0. injection D0 as <-. exists [x]. auto.
Qed.

Lemma noted_kept (g : nonmod Q) r c n x p co o s prod : equipped (at_row g r n x) ->
  (forall k, In k (control_names (nm_arch g)) -> present k c) -> noted c (at_row g r n x) p co o s prod ->
  let r' := after_note c (at_row g r n x) p co o s in equipped (at_row g r' n x) /\ all_longer 1 r r'.
Proof.
  intros E PC N. destruct (noted_carried _ _ _ _ _ _ _ _ _ _ E PC N) as (y & CA). unfold after_note in *. cbv zeta.
  destruct N as [N1 N2 N3 N4 N5].
  pose proof (record_production_grows _ _ _ _ _ _ _ N1) as G1.
  pose proof (record_co2_grows _ _ _ _ _ _ _ N3) as G2.
  pose proof (record_cost_grows _ _ _ _ _ _ _ _ _ N4) as G3.
  pose proof (update_status_grows _ _ _ _ _ _ _ _ N5) as G4.
  pose proof (status_gained _ _ _ _ _ _ _ _ (eq_state _ E) N5) as (_ & _ & _ & _ & SG).
  split.
  - constructor.
    + exact (eq_par _ E).
    + exact (grown_longer_keys _ _ _ (eq_production _ E) G1).
    + exact (grown_longer_keys _ _ _ (eq_cost _ E) G3).
    + exact (grown_longer_keys _ _ _ (eq_co2 _ E) G2).
    + exact (grown_longer_keys _ _ _ (eq_state _ E) G4).
    + intros k I. destruct (eq_first _ E k I) as (a & l & D). destruct (proj2 G4 _ _ D) as (m & D'). simpl in D'. eauto.
    + intros HB l D. destruct (ca_soc _ _ _ _ _ _ _ CA HB) as (soc & soc' & eff & cap & _ & (l0 & D0 & D1) & _).
      cbn in D, D0, D1. rewrite D1 in D. injection D as <-. apply Forall_app. split; [exact (eq_soc _ E HB _ D0)|].
      constructor; [eauto|constructor].
  - split; [|split; [|split; [|split]]].
    + split; [exact (record_action_keys _ _)|].
      intros k l D. destruct (ca_actions _ _ _ _ _ _ _ CA k l D) as (l0 & D0 & D1). rewrite D in D0. injection D0 as <-. eexists. split; [exact D1|reflexivity].
    + apply (gained_longer _ _ _ G4 (eq_state _ E)). exact SG.
    + apply (gained_longer _ _ _ G1 (eq_production _ E)). intros k I.
      pose proof (ca_produced _ _ _ _ _ _ _ CA) as P. unfold produced in P. cbn [at_row nm_arch nm_production set_records set_next set_now cp_production] in P.
      cbn [at_row nm_arch nm_production set_records set_next set_now cp_production] in I |- *.
      unfold production_columns in I. destruct (has_battery (nm_arch g)), (has_grid (nm_arch g)), (has_genset (nm_arch g)); simpl in I;
        repeat match goal with H : _ /\ _ |- _ => destruct H end;
        repeat match goal with H : _ \/ _ |- _ => destruct H as [<-|H] end; try contradiction; eexists; eassumption.
    + apply (gained_longer _ _ _ G3 (eq_cost _ E)). intros k I.
      destruct (record_cost_ok _ _ _ _ _ _ _ _ _ (eq_cost _ E) N4) as
        (loss & over & co2 & fuel & cycle & l & ov & ge & im & e & ch & di & em & _ & _ & _ & _ & _ & _ & _ & _ & _ & _ & _ & _ & _ & HG & t & GT & _).
      destruct (ordinary k) eqn:O; [eexists; apply HG; assumption|].
      unfold ordinary in O. apply negb_false_iff in O. apply String.eqb_eq in O. subst k. eauto.
    + apply (gained_longer _ _ _ G2 (eq_co2 _ E)). intros k [<-|[]].
      destruct (ca_bill _ _ _ _ _ _ _ CA) as (em & tot & B1 & _). cbn in B1. eauto.
Qed.

Lemma step_kept to_int (g : nonmod Q) i r r' c n x : rows g i n x -> equipped (at_row g r n x) ->
  rb_control to_int g (Z.of_nat i) (cp_state r) = Ok c -> rb_step to_int g (Z.of_nat i) r = Ok r' ->
  equipped (at_row g r' n x) /\ all_longer 1 r r'.
Proof.
  intros R E H S. apply (rb_step_iff _ _ _ _ _ _ _ _ R H) in S. destruct S as (p & co & o & s & prod & N & ->).
  refine (noted_kept g r c n x p co o s prod E _ N).
  destruct (control_shape _ _ _ _ _ _ _ R H) as (c1 & c2 & c3 & c4 & c5 & c6 & c7 & c8 & ->). intros k. apply shape_names.
Qed.

(** The states in between *)
Lemma rb_steps_trace to_int (g : nonmod Q) m : forall i r r', rb_steps to_int g (Z.of_nat i) m r = Ok r' ->
  exists rs : nat -> copies Q, rs O = r /\ rs m = r'
    /\ forall k, (k < m)%nat -> rb_step to_int g (Z.of_nat (i + k)) (rs k) = Ok (rs (S k)).
Proof.
  induction m as [|m IH]; intros i r r' H; cbn [rb_steps] in H.
  - injection H as <-. exists (fun _ => r). split; [reflexivity|]. split; [reflexivity|]. intros k K. lia.
  - apply rbind_ok in H. destruct H as (r1 & H1 & H). replace (Z.of_nat i + 1)%Z with (Z.of_nat (S i)) in H by lia.
    destruct (IH _ _ _ H) as (rs & R0 & RM & RS). exists (fun k => match k with O => r | S k' => rs k' end).
    split; [reflexivity|]. split; [exact RM|]. intros [|k] K.
    + rewrite Nat.add_0_r, R0. exact H1.
    + replace (i + S k)%nat with (S i + k)%nat by lia. apply RS. lia.
Qed.
Lemma rb_step_control to_int (g : nonmod Q) i r r' : rb_step to_int g i r = Ok r' -> exists c, rb_control to_int g i (cp_state r) = Ok c.
Proof. unfold rb_step. intros H. apply rbind_ok in H. destruct H as (c & H & _). eauto. Qed.

(** ** Rows of data *)

Lemma nth_in {A} (l : list A) i : (i < length l)%nat -> exists x, nth_error l i = Some x.
Proof. intros H. destruct (nth_error l i) eqn:E; [eauto|]. apply nth_error_None in E. lia. Qed.

Lemma rows_exist (g : nonmod Q) i : aligned g -> (S i < all_rows g)%nat -> exists n x, rows g i n x.
Proof.
  intros (_ & AG) L.
  assert (L1 : (all_rows g <= length (nm_load_ts g))%nat) by (unfold all_rows; lia).
  assert (L2 : (all_rows g <= length (nm_pv_ts g))%nat) by (unfold all_rows; lia).
  destruct (nth_in (nm_load_ts g) i ltac:(lia)) as (a1 & A1). destruct (nth_in (nm_load_ts g) (S i) ltac:(lia)) as (b1 & B1).
  destruct (nth_in (nm_pv_ts g) i ltac:(lia)) as (a2 & A2). destruct (nth_in (nm_pv_ts g) (S i) ltac:(lia)) as (b2 & B2).
  destruct (has_grid (nm_arch g)) eqn:HG.
  - specialize (AG eq_refl). rewrite Forall_forall in AG.
    pose proof (AG (nm_status_ts g) ltac:(simpl; auto)) as M1. pose proof (AG (nm_import_ts g) ltac:(simpl; auto)) as M2.
    pose proof (AG (nm_export_ts g) ltac:(simpl; auto)) as M3. pose proof (AG (nm_co2_ts g) ltac:(simpl; auto)) as M4.
    destruct (nth_in (nm_status_ts g) i ltac:(lia)) as (a3 & A3). destruct (nth_in (nm_status_ts g) (S i) ltac:(lia)) as (b3 & B3).
    destruct (nth_in (nm_import_ts g) i ltac:(lia)) as (a4 & A4). destruct (nth_in (nm_import_ts g) (S i) ltac:(lia)) as (b4 & B4).
    destruct (nth_in (nm_export_ts g) i ltac:(lia)) as (a5 & A5). destruct (nth_in (nm_export_ts g) (S i) ltac:(lia)) as (b5 & B5).
    destruct (nth_in (nm_co2_ts g) i ltac:(lia)) as (a6 & A6). destruct (nth_in (nm_co2_ts g) (S i) ltac:(lia)) as (b6 & B6).
    exists (mkNow a1 a2 a3 a4 a5 a6), (mkNext (CNum b1) (CNum b2) (CNum b3) (CNum b4) (CNum b5) (CNum b6)).
    constructor; rewrite ?HG; cbn; eauto 20.
  - exists (mkNow a1 a2 0 0 0 0), (mkNext (CNum b1) (CNum b2) (CNum 0) (CNum 0) (CNum 0) (CNum 0)).
    constructor; rewrite ?HG; cbn; eauto 20.
Qed.

Lemma count_length (g : nonmod Q) length : Z.to_nat (rb_length g length - nm_horizon g) = rb_count g length.
Proof.
  unfold rb_length, rb_count. destruct length as [l|]; [|reflexivity].
  destruct (Z.leb_spec (nm_len g) l); f_equal; lia.
Qed.
Lemma data_all_rows u (g : nonmod Q) : (data_length u g <= Z.of_nat (all_rows g))%Z.
Proof.
  unfold data_length, all_rows, part. destruct u; rewrite ?firstn_length, ?skipn_length; lia.
Qed.
Lemma count_rows (g : nonmod Q) length k : clock_ok g -> (0 <= nm_horizon g)%Z -> (k < rb_count g length)%nat -> (S k < all_rows g)%nat.
Proof.
  intros C H K. pose proof (ck_len _ C). pose proof (data_all_rows (nm_use g) g). unfold rb_count in K. destruct length; lia.
Qed.

(** ** All steps *)

Section Run.
  Variables (to_int : Q -> Z) (g : nonmod Q).
  Hypothesis E : equipped g.
  Hypothesis A : aligned g.

  Lemma equipped_start n x : equipped (at_row g (copies_of g) n x).
  Proof. destruct E as [E1 E2 E3 E4 E5 E6 E7]. constructor; [exact E1|exact E2|exact E3|exact E4|exact E5|exact E6|exact E7]. Qed.

  Lemma longer_refl (r : record Q) : longer 0 r r.
  Proof. split; [reflexivity|]. intros k l D. exists []. rewrite app_nil_r. auto. Qed.
  Lemma longer_trans a b (r1 r2 r3 : record Q) : longer a r1 r2 -> longer b r2 r3 -> longer (a + b) r1 r3.
  Proof.
    intros (K1 & L1) (K2 & L2). split; [congruence|]. intros k l D. destruct (L1 k l D) as (m & D1 & N1). destruct (L2 k _ D1) as (m' & D2 & N2).
    exists (m ++ m'). rewrite app_assoc. split; [exact D2|]. rewrite app_length. lia.
  Qed.

  Lemma trace_kept m (rs : nat -> copies Q) : rs O = copies_of g -> (m < all_rows g)%nat \/ m = O ->
    (forall k, (k < m)%nat -> rb_step to_int g (Z.of_nat k) (rs k) = Ok (rs (S k))) ->
    forall k, (k <= m)%nat -> (forall n x, equipped (at_row g (rs k) n x)) /\ all_longer k (copies_of g) (rs k).
  Proof.
    intros R0 LM RS. induction k as [|k IH]; intros K.
    - rewrite R0. split; [exact equipped_start|]. unfold all_longer. do 4 (split; [apply longer_refl|]). apply longer_refl.
    - destruct (IH ltac:(lia)) as (EK & LK).
      destruct (rows_exist g k A ltac:(lia)) as (n & x & R).
      pose proof (RS k ltac:(lia)) as S. destruct (rb_step_control _ _ _ _ _ S) as (c & C).
      destruct (step_kept _ _ _ _ _ _ _ _ R (EK n x) C S) as (E' & (L1 & L2 & L3 & L4 & L5)).
      split; [intros n' x'; eapply equipped_row; exact E'|].
      destruct LK as (M1 & M2 & M3 & M4 & M5). assert (T := fun r1 r2 r3 L L' => eq_ind _ (fun z => longer z r1 r3) (longer_trans k 1 r1 r2 r3 L L') _ (Nat.add_1_r k)).
      split; [|split; [|split; [|split]]]; eapply T; eassumption.
  Qed.

  Lemma run_trace length r : clock_ok g -> (0 <= nm_horizon g)%Z -> run_rule_based to_int g length = Ok r ->
    exists rs : nat -> copies Q, rs O = copies_of g /\ rs (rb_count g length) = r
      /\ (forall k, (k < rb_count g length)%nat -> rb_step to_int g (Z.of_nat k) (rs k) = Ok (rs (S k))
          /\ exists n x c o, rows g k n x /\ rb_control to_int g (Z.of_nat k) (cp_state (rs k)) = Ok c
               /\ carried g c n x (rs k) (rs (S k)) o)
      /\ forall k, (k <= rb_count g length)%nat -> (forall n x, equipped (at_row g (rs k) n x)) /\ all_longer k (copies_of g) (rs k).
  Proof.
    intros CK HZ H. unfold run_rule_based in H. rewrite count_length in H.
    destruct (rb_steps_trace to_int g _ O _ _ H) as (rs & R0 & RM & RS). exists rs. split; [exact R0|]. split; [exact RM|].
    assert (LM : (rb_count g length < all_rows g)%nat \/ rb_count g length = O).
    { destruct (rb_count g length) as [|m] eqn:CE; [auto|left]. apply (count_rows g length m CK HZ). lia. }
    pose proof (trace_kept _ rs R0 LM RS) as KEPT.
    split; [|exact KEPT]. intros k K. split; [exact (RS k K)|].
    destruct (KEPT k ltac:(lia)) as (EK & _). destruct (rows_exist g k A ltac:(lia)) as (n & x & R).
    pose proof (RS k K) as S. destruct (rb_step_control _ _ _ _ _ S) as (c & C).
    destruct (rb_carried _ _ _ _ _ _ _ _ R (EK n x) C S) as (o & CA). exists n, x, c, o. auto.
  Qed.
End Run.

(** ** Shorter runs *)

Lemma rb_steps_snoc to_int (g : nonmod Q) n : forall i r,
  rb_steps to_int g (Z.of_nat i) (S n) r = rbind (rb_steps to_int g (Z.of_nat i) n r) (rb_step to_int g (Z.of_nat (i + n))).
Proof.
  induction n as [|n IH]; intros i r.
  - cbn [rb_steps rbind]. rewrite Nat.add_0_r. destruct (rb_step to_int g (Z.of_nat i) r); reflexivity.
  - cbn [rb_steps] in *. destruct (rb_step to_int g (Z.of_nat i) r) as [r1|e]; [|reflexivity]. cbn [rbind].
    replace (Z.of_nat i + 1)%Z with (Z.of_nat (S i)) by lia. rewrite IH. replace (S i + n)%nat with (i + S n)%nat by lia. reflexivity.
Qed.
Lemma rb_steps_prefix to_int (g : nonmod Q) (rs : nat -> copies Q) m :
  (forall k, (k < m)%nat -> rb_step to_int g (Z.of_nat k) (rs k) = Ok (rs (S k))) ->
  forall k, (k <= m)%nat -> rb_steps to_int g (Z.of_nat 0) k (rs O) = Ok (rs k).
Proof.
  intros RS. induction k as [|k IH]; intros K; [reflexivity|]. rewrite rb_steps_snoc, IH by lia. apply RS. lia.
Qed.
Lemma count_short (g : nonmod Q) length k : (k <= rb_count g length)%nat -> rb_count g (Some (Z.of_nat k + nm_horizon g)%Z) = k.
Proof. unfold rb_count. destruct length; lia. Qed.
Lemma run_prefix to_int (g : nonmod Q) length (rs : nat -> copies Q) : rs O = copies_of g ->
  (forall k, (k < rb_count g length)%nat -> rb_step to_int g (Z.of_nat k) (rs k) = Ok (rs (S k))) ->
  forall k, (k <= rb_count g length)%nat -> run_rule_based to_int g (Some (Z.of_nat k + nm_horizon g)%Z) = Ok (rs k).
Proof.
  intros R0 RS k K. unfold run_rule_based. rewrite count_length, (count_short g length k K), <- R0. eapply rb_steps_prefix; eassumption.
Qed.
