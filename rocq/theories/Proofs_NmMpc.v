(** * One step of the predictive control of non-modular microgrids *)

From Coq Require Import ZArith QArith Qabs Qminmax Bool String List Lia Lqa Permutation.
From Verif Require Import Num Py Spec_Module Proofs_Num Proofs_Run Proofs_Data NonModular Spec_NonModular Proofs_NonModular Proofs_NmRun
  Proofs_NmHistory Proofs_NmBattery Proofs_NmCost Proofs_NmClock Proofs_NmProgress Proofs_NmEpisode Proofs_NmTotal Proofs_NmRecord
  NmRbc Spec_NmRbc Spec_NmRbcRun Proofs_NmRbc Proofs_NmRbcRun Proofs_NmRbcServe MPC NmMpc Spec_MPC Proofs_Mpc Spec_NmMpc.
Import ListNotations.
Local Open Scope string_scope.
Local Open Scope list_scope.
Local Open Scope Q_scope.

(** ** Slices *)

Lemma slice_at {A} (l : list A) (i h : nat) : (i + h <= length l)%nat ->
  length (py_slice l (Z.of_nat i) (Z.of_nat i + Z.of_nat h)) = h
  /\ forall k, (k < h)%nat -> nth_error (py_slice l (Z.of_nat i) (Z.of_nat i + Z.of_nat h)) k = nth_error l (i + k).
Proof.
  intros L. unfold py_slice, py_clamp.
  destruct (Z.ltb_spec (Z.of_nat i) 0); [lia|]. destruct (Z.ltb_spec (Z.of_nat i + Z.of_nat h) 0); [lia|].
  rewrite !Z.min_l by lia. replace (Z.to_nat (Z.of_nat i + Z.of_nat h) - Z.to_nat (Z.of_nat i))%nat with h by lia. rewrite Nat2Z.id.
  split; [rewrite firstn_length, skipn_length; lia|]. intros k K. clear L H H0.
  revert h K. assert (F : forall (m : list A) k h, (k < h)%nat -> nth_error (firstn h m) k = nth_error m k).
  { induction m as [|x m IH]; intros [|k'] [|h] K; try lia; try reflexivity. cbn. apply IH. lia. }
  intros h K. rewrite F by exact K. revert l. induction i as [|i IH]; intros l; [reflexivity|]. destruct l as [|x l]; [destruct k; reflexivity|]. cbn. apply IH.
Qed.
Lemma slice_start {A} (l : list A) (k : Z) : (0 <= k)%Z -> py_slice l 0 k = firstn (Z.to_nat k) l.
Proof.
  intros K. unfold py_slice, py_clamp. destruct (Z.ltb_spec 0 0); [lia|]. destruct (Z.ltb_spec k 0); [lia|].
  replace (Z.to_nat (Z.min 0 (Z.of_nat (length l)))) with O by lia. rewrite Nat.sub_0_r. cbn [skipn].
  destruct (Z.le_ge_cases k (Z.of_nat (length l))).
  - rewrite Z.min_l by lia. reflexivity.
  - rewrite Z.min_r by lia. rewrite Nat2Z.id, firstn_all, firstn_all2 by lia. reflexivity.
Qed.
Lemma nth_firstn {A} (m : list A) : forall k h, (k < h)%nat -> nth_error (firstn h m) k = nth_error m k.
Proof. induction m as [|x m IH]; intros [|k] [|h] K; try lia; try reflexivity. cbn. apply IH. lia. Qed.

(** ** What is recorded *)

Lemma production_ext par ar (c c' : dict Q) st : (forall k, k <> "pv_consummed" -> dget k c = dget k c') ->
  record_production par ar c st = record_production par ar c' st.
Proof.
  intros H. unfold record_production, dfind.
  rewrite (H "load"), (H "battery_charge"), (H "battery_discharge"), (H "grid_import"), (H "grid_export"), (H "genset"), (H "pv") by discriminate.
  reflexivity.
Qed.

(** The values of row [i] that a record is made from.  What the next row shows need not be
    in the data. *)
Definition prices_at (g : nonmod Q) (i : nat) (n : now Q) (x : next Q) : Prop :=
  if has_grid (nm_arch g) then
    nth_error (nm_import_ts g) i = Some (now_import n) /\ nth_error (nm_export_ts g) i = Some (now_export n)
    /\ nth_error (nm_co2_ts g) i = Some (now_co2 n)
    /\ (exists y, nth_error (nm_import_ts g) (S i) = Some y /\ nx_import x = CNum y)
    /\ (exists y, nth_error (nm_export_ts g) (S i) = Some y /\ nx_export x = CNum y)
    /\ (exists y, nth_error (nm_co2_ts g) (S i) = Some y /\ nx_co2 x = CNum y)
  else nx_status x = CNum 0 /\ nx_import x = CNum 0 /\ nx_export x = CNum 0 /\ nx_co2 x = CNum 0.

Lemma rows_prices g i n x : rows g i n x -> prices_at g i n x.
Proof. intros R. pose proof (ro_grid _ _ _ _ R) as G. unfold prices_at. destruct (has_grid (nm_arch g)); intuition. Qed.

Lemma record_step_iff (g : nonmod Q) i r r' c n x load pv status : prices_at g i n x ->
  nx_load x = CNum load -> nx_pv x = CNum pv -> (has_grid (nm_arch g) = true -> exists y, status = Ok y /\ nx_status x = CNum y) ->
  dset "pv" (now_pv n) (dset "load" (now_load n) c) = c ->
  (record_step g (Z.of_nat i) c load pv status r = Ok r' <->
   exists p co o s prod, noted c (at_row g r n x) p co o s prod /\ r' = after_note c (at_row g r n x) p co o s).
Proof.
  intros G NL NP NS SH.
  assert (F : full_control c (at_row g r n x) = dremove "pv_consummed" c).
  { unfold full_control. cbn [at_row nm_now set_records set_next set_now]. rewrite SH. reflexivity. }
  assert (A : actions_after c (at_row g r n x) = record_action c (cp_actions r)).
  { unfold actions_after. cbn [at_row nm_now nm_actions set_records set_next set_now]. rewrite SH. reflexivity. }
  assert (EX : record_production (nm_par g) (nm_arch g) c (cp_state r)
    = record_production (nm_par g) (nm_arch g) (full_control c (at_row g r n x)) (cp_state r)).
  { apply production_ext. intros k K. rewrite F, dget_dremove by exact K. reflexivity. }
  unfold record_step. unfold prices_at in G.
  assert (NOW : (if has_grid (nm_arch g) then iloc (nm_co2_ts g) (Z.of_nat i) else Ok n0) = Ok (grid_now (at_row g r n x) now_co2)).
  { unfold grid_now. cbn. destruct (has_grid (nm_arch g)); [|reflexivity].
    destruct G as (_ & _ & G & _). rewrite (iloc_nat _ _ _ G). reflexivity. }
  assert (PRI : (if has_grid (nm_arch g) then rbind (iloc (nm_import_ts g) (Z.of_nat i)) (fun im => rbind (iloc (nm_export_ts g) (Z.of_nat i)) (fun ex => Ok (im, ex)))
      else Ok (n0, n0)) = Ok (grid_now (at_row g r n x) now_import, grid_now (at_row g r n x) now_export)).
  { unfold grid_now. cbn. destruct (has_grid (nm_arch g)); [|reflexivity].
    destruct G as (G1 & G2 & _). rewrite (iloc_nat _ _ _ G1), (iloc_nat _ _ _ G2). reflexivity. }
  assert (NXT : (if has_grid (nm_arch g) then
      rbind status (fun s => rbind (iloc (nm_import_ts g) (Z.of_nat i + 1)) (fun im =>
      rbind (iloc (nm_export_ts g) (Z.of_nat i + 1)) (fun ex => rbind (iloc (nm_co2_ts g) (Z.of_nat i + 1)) (fun c =>
        Ok (mkNext (CNum load) (CNum pv) (CNum s) (CNum im) (CNum ex) (CNum c))))))
      else Ok (mkNext (CNum load) (CNum pv) (CNum n0) (CNum n0) (CNum n0) (CNum n0))) = Ok x).
  { destruct (has_grid (nm_arch g)).
    - destruct (NS eq_refl) as (y1 & -> & Y1'). destruct G as (_ & _ & _ & (y2 & Y2 & Y2') & (y3 & Y3 & Y3') & (y4 & Y4 & Y4')).
      rewrite (row_next _ _ _ Y2), (row_next _ _ _ Y3), (row_next _ _ _ Y4). cbn [rbind].
      destruct x as [x1 x2 x3 x4 x5 x6]. cbn in *. congruence.
    - destruct G as (Y1 & Y2 & Y3 & Y4). destruct x as [x1 x2 x3 x4 x5 x6]. cbn in *. unum. congruence. }
  rewrite EX, NXT, NOW, PRI, <- A. cbn [rbind fst snd]. split.
  - intros K. repeat (apply rbind_ok in K; let z := fresh "z" in let Z := fresh "Z" in destruct K as (z & Z & K)).
    repeat match goal with H : Ok _ = Ok _ |- _ => injection H as <- | H : on_copy _ _ = Ok _ |- _ => apply on_copy_ok in H end.
    cbn [rbind fst snd] in *.
    do 5 eexists. split; [constructor; eassumption|]. unfold after_note. congruence.
  - intros (p & co & o & s & prod & [N1 N2 N3 N4 N5] & ->).
    change (record_production (nm_par g) (nm_arch g) (full_control c (at_row g r n x)) (cp_state r) (cp_production r) = (p, Ok tt)) in N1.
    change (record_co2 (nm_par g) (nm_arch g) prod (grid_now (at_row g r n x) now_co2) (cp_co2 r) = (o, Ok tt)) in N3.
    change (record_cost (nm_par g) (nm_arch g) prod o (grid_now (at_row g r n x) now_import) (grid_now (at_row g r n x) now_export) (cp_cost r)
      = (co, Ok tt)) in N4.
    change (update_status (nm_par g) (nm_arch g) (nm_t g) prod x (cp_state r) = (s, Ok tt)) in N5.
    apply on_copy_ok in N1, N3, N4, N5.
    rewrite N1. cbn [rbind]. rewrite N2. cbn [rbind]. rewrite N3. cbn [rbind].
    rewrite N5. cbn [rbind]. rewrite N4. reflexivity.
Qed.

(** When the production cannot be recorded, neither can the step. *)
Lemma record_step_stuck (g : nonmod Q) i r c n x load pv status p e : dset "pv" (now_pv n) (dset "load" (now_load n) c) = c ->
  record_production (nm_par g) (nm_arch g) (full_control c (at_row g r n x)) (cp_state r) (cp_production r) = (p, Err e) ->
  record_step g i c load pv status r = Err e.
Proof.
  intros SH H. unfold record_step.
  rewrite (production_ext _ _ c (full_control c (at_row g r n x))).
  - unfold on_copy. rewrite H. reflexivity.
  - intros k K. unfold full_control. cbn [at_row nm_now set_records set_next set_now]. rewrite SH, dget_dremove by exact K. reflexivity.
Qed.

(** ** The controller *)

Lemma made_shape c (g : nonmod Q) : made_for c g ->
  exists p, parse_nonmodular g = Ok p /\ c = mkMpc (gen_names (has_genset (nm_arch g))) (Z.to_nat (nm_horizon g)) p /\ (0 < nm_horizon g)%Z.
Proof.
  intros (g' & M & E1 & E2 & E3). unfold nm_new_mpc in M.
  destruct (Conversion.to_modular false g') as [mg|e]; [|destruct (ex_class e); discriminate M].
  destruct (Z.leb_spec (nm_horizon g') 0); [discriminate|]. apply rbind_ok in M. destruct M as (p & P & M).
  exists p. unfold parse_nonmodular in *. rewrite E1, E2 in P. split; [exact P|].
  rewrite E2, E3 in *. destruct (_ && _) in M; [discriminate|]. injection M as <-. split; [reflexivity|lia].
Qed.
Lemma made_gen b h p : has_gen (mkMpc (gen_names b) h p : mpc Q) = b.
Proof. destruct b; reflexivity. Qed.

Lemma parameter_unique (g : nonmod Q) k x y : parameter g k x -> parameter g k y -> x = y.
Proof. unfold parameter. congruence. Qed.

(** ** The sample *)

(** The first [L] rows of the data *)
Record sampled (g : nonmod Q) (L : nat) (s : sample Q) : Prop := mkSampled {
  sd_load : sm_load s = firstn L (nm_load_ts g);
  sd_pv : sm_pv s = firstn L (nm_pv_ts g);
  sd_grid : has_grid (nm_arch g) = true -> sm_grid s = firstn L (nm_status_ts g);
  sd_rows : (L <= all_rows g)%nat
}.

Lemma sampled_data (g : nonmod Q) : aligned g -> (0 <= nm_len g <= Z.of_nat (all_rows g))%Z ->
  sampled g (Z.to_nat (nm_len g)) (cut_sample (nm_len g) (underlying_data g)).
Proof.
  intros (_ & AG) L. unfold cut_sample, underlying_data.
  set (grid := if has_grid (nm_arch g) then nm_status_ts g else zeros (length (nm_load_ts g))).
  assert (G : (all_rows g <= length grid)%nat).
  { unfold grid. destruct (has_grid (nm_arch g)).
    - specialize (AG eq_refl). rewrite Forall_forall in AG. apply AG. simpl. auto.
    - rewrite zeros_length. unfold all_rows. lia. }
  cbn [sm_load sm_pv sm_grid].
  assert (N : Nat.min (Nat.min (length (nm_load_ts g)) (length (nm_pv_ts g))) (length grid) = all_rows g) by (unfold all_rows in *; lia).
  rewrite N. clear N. constructor; cbn [sm_load sm_pv sm_grid]; rewrite ?slice_start by lia; rewrite ?firstn_firstn.
  - f_equal. lia.
  - f_equal. lia.
  - intros HG. unfold grid. rewrite HG. f_equal. lia.
  - lia.
Qed.

Section Step.
  Variables (c : mpc Q) (solve : solver Q) (g : nonmod Q) (L : nat) (s : sample Q).
  Hypothesis HB : has_battery (nm_arch g) = true.
  Hypothesis AL : aligned g.
  Hypothesis MF : made_for c g.
  Hypothesis SD : sampled g L s.

  Let h := Z.to_nat (nm_horizon g).

  Lemma mh : mp_horizon c = h /\ (0 < h)%nat /\ Z.of_nat h = nm_horizon g.
  Proof. destruct (made_shape _ _ MF) as (p & _ & -> & H). unfold h. cbn. lia. Qed.
  Lemma mgen : has_gen c = has_genset (nm_arch g).
  Proof. destruct (made_shape _ _ MF) as (p & _ & -> & H). apply made_gen. Qed.

  Lemma row_len : length (sm_load s) = L /\ length (sm_pv s) = L /\ (has_grid (nm_arch g) = true -> length (sm_grid s) = L).
  Proof.
    destruct SD as [S1 S2 S3 S4]. assert ((all_rows g <= length (nm_load_ts g))%nat /\ (all_rows g <= length (nm_pv_ts g))%nat) by (unfold all_rows; lia).
    rewrite S1, S2, !firstn_length. split; [lia|]. split; [lia|]. intros HG. rewrite (S3 HG), firstn_length.
    destruct AL as (_ & AG). specialize (AG HG). rewrite Forall_forall in AG. specialize (AG (nm_status_ts g) ltac:(simpl; auto)). lia.
  Qed.

  (** What is known at step [i] *)
  Lemma values_ok i r n x : equipped (at_row g r n x) -> (i + h <= L)%nat ->
    exists d soc pr, nm_values g s (Z.of_nat i) (cp_state r) = Ok d /\ latest (cp_state r) "battery_soc" (CNum soc)
      /\ da_soc d = soc /\ vectors_fit c d /\ make_problem c d = Ok pr
      /\ posed_at g i (equipment_of c d) (expected_of d (mp_horizon c))
      /\ (forall y, nth_error (nm_load_ts g) i = Some y -> nth_error (da_load d) 0 = Some y)
      /\ (forall y, nth_error (nm_pv_ts g) i = Some y -> nth_error (da_pv d) 0 = Some y).
  Proof.
    intros E LE. destruct (soc_latest _ E HB) as (soc & LS). destruct mh as (MH & HP & HZ).
    destruct (made_shape _ _ MF) as (p & PA & CE & _). pose proof mgen as MG.
    assert (PN : forall k, In k (parameter_names (nm_arch g)) -> exists x, dget k (nm_par g) = Some x).
    { intros k I. destruct (eq_par _ E k I) as (y & Y). exists y. exact Y. }
    assert (PB : forall k, In k ["battery_soc_min"; "battery_soc_max"; "battery_power_charge"; "battery_power_discharge"; "battery_capacity"; "battery_efficiency"; "battery_cost_cycle"]
       -> exists x, dget k (nm_par g) = Some x).
    { intros k I. apply PN. unfold parameter_names. rewrite HB, !in_app_iff. simpl in *. intuition (subst; auto 20). }
    destruct (PB "battery_soc_min" ltac:(simpl; auto 20)) as (q1 & Q1). destruct (PB "battery_soc_max" ltac:(simpl; auto 20)) as (q2 & Q2).
    destruct (PB "battery_power_charge" ltac:(simpl; auto 20)) as (q3 & Q3). destruct (PB "battery_power_discharge" ltac:(simpl; auto 20)) as (q4 & Q4).
    destruct (PB "battery_capacity" ltac:(simpl; auto 20)) as (q5 & Q5). destruct (PB "battery_efficiency" ltac:(simpl; auto 20)) as (q6 & Q6).
    destruct (PB "battery_cost_cycle" ltac:(simpl; auto 20)) as (q7 & Q7).
    destruct (PN "cost_co2" ltac:(simpl; auto 20)) as (q8 & Q8). destruct (PN "cost_loss_load" ltac:(simpl; auto 20)) as (q9 & Q9).
    assert (LN : last_num (cp_state r) "battery_soc" = Ok soc).
    { destruct LS as (l & LS). cbn [at_row nm_state set_records] in LS. unfold last_num, dfind. rewrite LS. cbn. unfold last_of. rewrite rev_app_distr. reflexivity. }
    destruct row_len as (R1 & R2 & R3).
    assert (UP : forall l : list Q, (L <= length l)%nat -> length (py_slice l (Z.of_nat i) (Z.of_nat i + nm_horizon g)) = h
      /\ forall k, (k < h)%nat -> nth_error (py_slice l (Z.of_nat i) (Z.of_nat i + nm_horizon g)) k = nth_error l (i + k)).
    { intros l LL. rewrite <- HZ. apply slice_at. lia. }
    destruct (UP (sm_load s) ltac:(lia)) as (UL & UL'). destruct (UP (sm_pv s) ltac:(lia)) as (UV & UV').
    assert (NL : forall k, (k < h)%nat -> nth_error (sm_load s) (i + k) = nth_error (nm_load_ts g) (i + k)).
    { intros k K. rewrite (sd_load _ _ _ SD). apply nth_firstn. lia. }
    assert (NV : forall k, (k < h)%nat -> nth_error (sm_pv s) (i + k) = nth_error (nm_pv_ts g) (i + k)).
    { intros k K. rewrite (sd_pv _ _ _ SD). apply nth_firstn. lia. }
    (* the grid *)
    assert (GR : exists grid imp exp gco2 pimp pexp,
      (if has_grid (nm_arch g) then
         rbind (dfind (nm_par g) "grid_power_import") (fun pi => rbind (dfind (nm_par g) "grid_power_export") (fun pe =>
           Ok (py_slice (sm_grid s) (Z.of_nat i) (Z.of_nat i + nm_horizon g), py_slice (nm_import_ts g) (Z.of_nat i) (Z.of_nat i + nm_horizon g),
               py_slice (nm_export_ts g) (Z.of_nat i) (Z.of_nat i + nm_horizon g), py_slice (nm_co2_ts g) (Z.of_nat i) (Z.of_nat i + nm_horizon g), pi, pe)))
       else Ok (zeros (Z.to_nat (nm_horizon g)), zeros (Z.to_nat (nm_horizon g)), zeros (Z.to_nat (nm_horizon g)), zeros (Z.to_nat (nm_horizon g)), n0, n0))
      = Ok (grid, imp, exp, gco2, pimp, pexp)
      /\ length grid = h /\ length imp = h /\ length exp = h /\ length gco2 = h
      /\ (if has_grid (nm_arch g) then parameter g "grid_power_import" pimp /\ parameter g "grid_power_export" pexp else pimp = 0 /\ pexp = 0)
      /\ forall k, (k < h)%nat -> if has_grid (nm_arch g)
         then nth_error (nm_status_ts g) (i + k) = Some (nth k grid 0) /\ nth_error (nm_export_ts g) (i + k) = Some (nth k exp 0)
           /\ nth_error (nm_import_ts g) (i + k) = Some (nth k imp 0) /\ nth_error (nm_co2_ts g) (i + k) = Some (nth k gco2 0)
         else nth k grid 0 = 0 /\ nth k imp 0 = 0 /\ nth k exp 0 = 0 /\ nth k gco2 0 = 0).
    { destruct (has_grid (nm_arch g)) eqn:HG.
      - destruct (PN "grid_power_import") as (a & A); [unfold parameter_names; rewrite HG, !in_app_iff; simpl; auto 20|].
        destruct (PN "grid_power_export") as (b & B); [unfold parameter_names; rewrite HG, !in_app_iff; simpl; auto 20|].
        destruct AL as (_ & AG). specialize (AG HG). rewrite Forall_forall in AG. pose proof (sd_rows _ _ _ SD) as LR.
        pose proof (AG (nm_import_ts g) ltac:(simpl; auto)) as M2. pose proof (AG (nm_export_ts g) ltac:(simpl; auto)) as M3. pose proof (AG (nm_co2_ts g) ltac:(simpl; auto)) as M4.
        pose proof (AG (nm_status_ts g) ltac:(simpl; auto)) as M1.
        destruct (UP (sm_grid s) ltac:(rewrite (R3 eq_refl); lia)) as (V1 & V1').
        destruct (UP (nm_import_ts g) ltac:(lia)) as (V2 & V2'). destruct (UP (nm_export_ts g) ltac:(lia)) as (V3 & V3'). destruct (UP (nm_co2_ts g) ltac:(lia)) as (V4 & V4').
        unfold dfind. rewrite A, B. cbn [rbind]. do 6 eexists. split; [reflexivity|]. do 4 (split; [assumption|]). split; [split; assumption|].
        assert (NT : forall (l m : list Q), length m = h -> (forall k, (k < h)%nat -> nth_error m k = nth_error l (i + k)) -> forall k, (k < h)%nat -> nth_error l (i + k) = Some (nth k m 0)).
        { intros l m LM EM k K. rewrite <- EM by exact K. apply nth_error_nth'. lia. }
        intros k K. split; [|split; [|split]].
        + apply (NT _ _ V1); [|exact K]. intros j J. rewrite V1' by exact J. rewrite (sd_grid _ _ _ SD HG). apply nth_firstn. lia.
        + apply (NT _ _ V3 V3' k K).
        + apply (NT _ _ V2 V2' k K).
        + apply (NT _ _ V4 V4' k K).
      - do 6 eexists. split; [reflexivity|]. rewrite !zeros_length. unfold h. do 4 (split; [reflexivity|]). split; [split; reflexivity|].
        intros k K. assert (Z : nth k (@zeros Q Q_ops (Z.to_nat (nm_horizon g))) 0 = 0) by (unfold zeros; apply nth_repeat). rewrite Z. auto. }
    destruct GR as (grid & imp & exp & gco2 & pimp & pexp & GE & G1 & G2 & G3 & G4 & G5 & G6).
    (* the genset *)
    unfold parse_nonmodular in PA. 
    assert (GS : exists gmax fuel gmin gc, (if has_genset (nm_arch g) then
          rbind (dfind (nm_par g) "genset_pmax") (fun pmax => rbind (dfind (nm_par g) "genset_rated_power") (fun rated => Ok (nmul pmax rated))) else Ok n0) = Ok gmax
      /\ p = mkParams q6 q5 fuel q7 q9 gmin gmax q8 gc
      /\ (has_genset (nm_arch g) = true -> exists rated pmin pmax, parameter g "genset_rated_power" rated /\ parameter g "genset_pmin" pmin
          /\ parameter g "genset_pmax" pmax /\ parameter g "fuel_cost" fuel /\ parameter g "genset_co2" gc
          /\ gmin = pmin * rated /\ gmax = pmax * rated)).
    { unfold dfind in PA |- *. rewrite Q6, Q5, Q7, Q9, Q8 in PA. cbn [rbind] in PA.
      destruct (has_genset (nm_arch g)) eqn:HS.
      - destruct (PN "genset_rated_power") as (a1 & A1); [unfold parameter_names; rewrite HS, !in_app_iff; simpl; auto 20|].
        destruct (PN "genset_pmin") as (a2 & A2); [unfold parameter_names; rewrite HS, !in_app_iff; simpl; auto 20|].
        destruct (PN "genset_pmax") as (a3 & A3); [unfold parameter_names; rewrite HS, !in_app_iff; simpl; auto 20|].
        destruct (PN "fuel_cost") as (a4 & A4); [unfold parameter_names; rewrite HS, !in_app_iff; simpl; auto 20|].
        destruct (PN "genset_co2") as (a5 & A5); [unfold parameter_names; rewrite HS, !in_app_iff; simpl; auto 20|].
        rewrite A1, A2, A3, A4, A5 in PA. rewrite A3, A1. cbn [rbind] in *. injection PA as <-.
        do 4 eexists. split; [reflexivity|]. split; [reflexivity|]. intros _. exists a1, a2, a3. unfold parameter. auto 10.
      - cbn [rbind] in *. injection PA as <-. do 4 eexists. split; [reflexivity|]. split; [reflexivity|]. discriminate. }
    destruct GS as (gmax & fuel & gmin & gc & GM & PE & GP).
    set (d := mkData (py_slice (sm_load s) (Z.of_nat i) (Z.of_nat i + nm_horizon g)) (py_slice (sm_pv s) (Z.of_nat i) (Z.of_nat i + nm_horizon g))
                grid imp exp q2 q1 q3 q4 pimp pexp soc gmax (Some q8) gco2).
    assert (VF : vectors_fit c d).
    { split; [|rewrite CE, PE; reflexivity]. rewrite MH. unfold d. cbn. repeat (constructor; [assumption|]). constructor. }
    assert (MP : exists pr, make_problem c d = Ok pr).
    { unfold make_problem. rewrite MH. unfold equality_rhs, np_sub.
      assert (NN : (if Nat.eqb (length (da_load d)) 1 then length (da_pv d) else length (da_load d)) = h) by (destruct (Nat.eqb _ _); [exact UV|exact UL]).
      rewrite NN. rewrite (broadcast_same h (da_load d)), (broadcast_same h (da_pv d)) by assumption. cbn [rbind].
      rewrite broadcast_same by (rewrite zip_length; [exact UL|exact (eq_trans UL (eq_sym UV))]). cbn [rbind].
      unfold inequality_rhs. rewrite !broadcast_same by (rewrite ?map_length; assumption). cbn [rbind].
      unfold costs_of. change (da_co2 d) with (Some q8). cbv beta iota. change (da_import d) with imp. change (da_gridco2 d) with gco2. change (da_export d) with exp.
      rewrite G2, G4, Nat.eqb_refl. rewrite (broadcast_same h (map _ (combine _ _))) by (rewrite map_length, combine_length; lia). cbn [rbind].
      rewrite broadcast_same by assumption. cbn [rbind]. eauto. }
    destruct MP as (pr & MP).
    exists d, soc, pr. split.
    { unfold nm_values, dfind in *. rewrite GE. cbn [rbind]. rewrite Q1, Q2, Q3, Q4, Q8. cbn [rbind]. rewrite LN. cbn [rbind]. rewrite GM. reflexivity. }
    split; [exact LS|]. split; [reflexivity|]. split; [exact VF|]. split; [exact MP|].
    assert (DL : forall k, (k < h)%nat -> nth_error (nm_load_ts g) (i + k) = Some (nth k (da_load d) 0)).
    { intros k K. rewrite <- NL by exact K. rewrite <- UL' by exact K. apply nth_error_nth'. change (k < length (py_slice (sm_load s) (Z.of_nat i) (Z.of_nat i + nm_horizon g)))%nat. lia. }
    assert (DV : forall k, (k < h)%nat -> nth_error (nm_pv_ts g) (i + k) = Some (nth k (da_pv d) 0)).
    { intros k K. rewrite <- NV by exact K. rewrite <- UV' by exact K. apply nth_error_nth'. change (k < length (py_slice (sm_pv s) (Z.of_nat i) (Z.of_nat i + nm_horizon g)))%nat. lia. }
    split; [|split].
    - constructor.
      + rewrite CE, PE. unfold parameter. cbn. auto 10.
      + rewrite CE, PE. unfold parameter. cbn. auto 10.
      + unfold equipment_of. cbn [eq_gen eq_gen_min eq_gen_max eq_gen_cost]. rewrite MG. split; [reflexivity|]. intros HS.
        destruct (GP HS) as (rated & pmin & pmax & P1 & P2 & P3 & P4 & P5 & P6 & P7).
        exists rated, pmin, pmax, fuel, gc, q8. rewrite CE, PE. cbn. rewrite P6, P7. unfold parameter in *. repeat (split; [assumption|]).
        split; [reflexivity|]. split; reflexivity.
      + exact G5.
      + unfold expected_of. rewrite map_length, seq_length, MH. exact HZ.
      + intros k y Y. unfold expected_of in Y. rewrite MH in Y.
        assert (K : (k < h)%nat).
        { assert (nth_error (map (fun k => mkExpected (nth k (da_load d) 0) (nth k (da_pv d) 0) (nth k (da_grid d) 0)
              (nth k (da_import d) 0 + nth k (da_gridco2 d) 0 * match da_co2 d with Some x => x | None => 0 end) (nth k (da_export d) 0)) (seq 0 h)) k <> None) as NE by (rewrite Y; discriminate).
          apply nth_error_Some in NE. rewrite map_length, seq_length in NE. exact NE. }
        rewrite nth_error_map, (nth_error_seq 0 h k K) in Y. cbn [option_map Nat.add] in Y. injection Y as <-.
        cbn [ex_load ex_pv ex_grid ex_import ex_export]. split; [exact (DL k K)|]. split; [exact (DV k K)|].
        pose proof (G6 k K) as G6k. cbn [da_grid da_import da_export da_gridco2 da_co2 d]. destruct (has_grid (nm_arch g)).
        * destruct G6k as (X1 & X2 & X3 & X4). split; [exact X1|]. split; [exact X2|].
          exists (nth k imp 0), (nth k gco2 0), q8. split; [exact X3|]. split; [exact X4|]. split; [exact Q8|reflexivity].
        * destruct G6k as (X1 & X2 & X3 & X4). rewrite X2, X4. split; [exact X1|]. split; [ring|exact X3].
    - intros y Y. pose proof (DL 0%nat HP) as D0. rewrite Nat.add_0_r in D0. rewrite Y in D0. injection D0 as ->. apply nth_error_nth'. change (0 < length (py_slice (sm_load s) (Z.of_nat i) (Z.of_nat i + nm_horizon g)))%nat. lia.
    - intros y Y. pose proof (DV 0%nat HP) as D0. rewrite Nat.add_0_r in D0. rewrite Y in D0. injection D0 as ->. apply nth_error_nth'. change (0 < length (py_slice (sm_pv s) (Z.of_nat i) (Z.of_nat i + nm_horizon g)))%nat. lia.
  Qed.

  (** The control of a solution *)
  Lemma first_control gen (st : planned) rest (load pv : list Q) n :
    nth_error load 0 = Some (now_load n) -> nth_error pv 0 = Some (now_pv n) ->
    step_control gen (concat (map (variables gen) (st :: rest))) load pv 0 = Ok (decided_by gen n st).
  Proof.
    intros LO PV. unfold step_control. destruct gen; cbn [map concat variables app Nat.mul Nat.add entry_at nth_error rbind];
      unfold entry_at; rewrite LO, PV; reflexivity.
  Qed.
  Lemma decided_set gen n st : dset "pv" (now_pv n) (dset "load" (now_load n) (decided_by gen n st)) = decided_by gen n st.
  Proof. destruct gen; reflexivity. Qed.
  Lemma decided_names n st k : In k (control_names (nm_arch g)) -> present k (decided_by (has_genset (nm_arch g)) n st).
  Proof.
    unfold control_names. intros I. destruct (has_battery (nm_arch g)), (has_grid (nm_arch g)), (has_genset (nm_arch g)); simpl in I;
      intuition (subst; eexists; reflexivity).
  Qed.

  Lemma solution_steps d pr p : vectors_fit c d -> make_problem c d = Ok pr -> length p = length (pr_costs pr) ->
    exists st rest, p = concat (map (variables (has_gen c)) (st :: rest)).
  Proof.
    intros VF MP LP. rewrite (costs_length c d pr VF MP) in LP. destruct (plan_of _ _ _ LP) as (plan & LP' & PE & _).
    destruct mh as (MH & HP & _). destruct plan as [|st rest]; [simpl in LP'; lia|]. exists st, rest. exact PE.
  Qed.

  Lemma next_rows i n x : rows g i n x -> (S i < L)%nat ->
    (exists y, row_at (sm_load s) (S i) = Ok y /\ nx_load x = CNum y) /\ (exists y, row_at (sm_pv s) (S i) = Ok y /\ nx_pv x = CNum y)
    /\ (has_grid (nm_arch g) = true -> exists y, row_at (sm_grid s) (S i) = Ok y /\ nx_status x = CNum y).
  Proof.
    intros R LI. destruct (ro_next_load _ _ _ _ R) as (a & A & A'). destruct (ro_next_pv _ _ _ _ R) as (b & B & B').
    unfold row_at. rewrite (sd_load _ _ _ SD), (sd_pv _ _ _ SD), !nth_firstn, A, B by exact LI. split; [eauto|]. split; [eauto|].
    intros HG. rewrite (sd_grid _ _ _ SD HG), nth_firstn by exact LI. pose proof (ro_grid _ _ _ _ R) as G. rewrite HG in G.
    destruct G as (_ & _ & _ & _ & (y & Y & Y') & _). rewrite Y. eauto.
  Qed.

  (** One step *)
  Lemma step_inv i r r' n x : assigns_all solve -> equipped (at_row g r n x) -> rows g i n x -> (i + h <= L)%nat -> (S i < L)%nat ->
    nm_mpc_step c solve g s i r = Ok r' ->
    exists e xs soc pr u st rest p co o sta prod, decides solve g i r e xs soc pr u st rest
      /\ eq_gen e = has_genset (nm_arch g)
      /\ noted (decided_by (eq_gen e) n st) (at_row g r n x) p co o sta prod
      /\ r' = after_note (decided_by (eq_gen e) n st) (at_row g r n x) p co o sta.
  Proof.
    intros AA E R LE LI H. unfold nm_mpc_step in H.
    destruct (values_ok i r n x E LE) as (d & soc & pr & V1 & V2 & V3 & V4 & V5 & V6 & V7 & V8). rewrite V1 in H. cbn [rbind] in H.
    unfold nm_solve in H. rewrite V5 in H. cbn [rbind] in H.
    destruct (solve i pr) as [[(p & u)|]|e] eqn:SO; cbn [rbind values_of] in H; try discriminate.
    destruct (solution_steps d pr p V4 V5 (AA _ _ _ _ SO)) as (st & rest & PE).
    rewrite PE, (first_control _ _ _ _ _ n (V7 _ (ro_load _ _ _ _ R)) (V8 _ (ro_pv _ _ _ _ R))) in H. cbn [rbind] in H.
    destruct (next_rows i n x R LI) as ((y1 & N1 & N1') & (y2 & N2 & N2') & N3). rewrite N1, N2 in H. cbn [rbind] in H.
    apply (record_step_iff g i r r' _ n x _ _ _ (rows_prices _ _ _ _ R) N1' N2' N3 (decided_set _ _ _)) in H.
    destruct H as (p' & co & o & sta & prod & N & ->).
    assert (EG : eq_gen (equipment_of c d) = has_gen c) by reflexivity.
    exists (equipment_of c d), (expected_of d (mp_horizon c)), soc, pr, u, st, rest, p', co, o, sta, prod.
    split; [|split; [rewrite EG; exact mgen|split; [exact N|reflexivity]]].
    split; [exact V6|]. split; [exact V2|]. split; [|rewrite SO, PE; reflexivity].
    rewrite <- V3. split.
    - intros p0 u0. apply (program c d pr V4 V5).
    - intros p0 u0 plan. apply (objective_cost c d pr V4 V5).
  Qed.

  (** A step that is posed a solvable problem returns, unless the sources equal the sinks. *)
  Lemma step_verdict i r n x : equipped (at_row g r n x) -> rows g i n x -> (i + h <= L)%nat -> (S i < L)%nat ->
    exists e xs soc pr, posed_at g i e xs /\ latest (cp_state r) "battery_soc" (CNum soc) /\ program_of pr e soc xs
      /\ (forall st rest u, solve i pr = Ok (Some (concat (map (variables (eq_gen e)) (st :: rest)), u)) ->
            exactly_balanced (at_row g r n x) (decided_by (eq_gen e) n st) /\ raises AssertionError (nm_mpc_step c solve g s i r)
            \/ ~ exactly_balanced (at_row g r n x) (decided_by (eq_gen e) n st) /\ exists p co o sta prod,
                 noted (decided_by (eq_gen e) n st) (at_row g r n x) p co o sta prod
                 /\ nm_mpc_step c solve g s i r = Ok (after_note (decided_by (eq_gen e) n st) (at_row g r n x) p co o sta))
      /\ (solve i pr = Ok None -> raises TypeError (nm_mpc_step c solve g s i r))
      /\ (forall er, solve i pr = Err er -> nm_mpc_step c solve g s i r = Err er).
  Proof.
    intros E R LE LI. destruct (values_ok i r n x E LE) as (d & soc & pr & V1 & V2 & V3 & V4 & V5 & V6 & V7 & V8).
    exists (equipment_of c d), (expected_of d (mp_horizon c)), soc, pr. split; [exact V6|]. split; [exact V2|]. split.
    { rewrite <- V3. split.
      - intros p0 u0. apply (program c d pr V4 V5).
      - intros p0 u0 plan. apply (objective_cost c d pr V4 V5). }
    unfold nm_mpc_step. rewrite V1. cbn [rbind]. unfold nm_solve. rewrite V5. cbn [rbind].
    split; [|split].
    2:{ intros ->. cbn. eexists. split; reflexivity. }
    2:{ intros er ->. reflexivity. }
    intros st rest u SO. change (eq_gen (equipment_of c d)) with (has_gen c) in *. rewrite SO. cbn [rbind values_of].
    rewrite (first_control _ _ _ _ _ n (V7 _ (ro_load _ _ _ _ R)) (V8 _ (ro_pv _ _ _ _ R))). cbn [rbind].
    destruct (next_rows i n x R LI) as ((y1 & N1 & N1') & (y2 & N2 & N2') & N3). rewrite N1, N2. cbn [rbind].
    assert (PC : forall k, In k (control_names (nm_arch (at_row g r n x))) -> present k (decided_by (has_gen c) n st)).
    { intros k I. rewrite mgen. apply decided_names. exact I. }
    destruct (production_verdict _ _ E PC) as [(B & p & e & RP & EC)|(B & p & RP)]; [left|right]; (split; [exact B|]).
    - rewrite (record_step_stuck g (Z.of_nat i) r _ n x y1 y2 _ p e (decided_set _ _ _) RP). exists e. auto.
    - destruct (noted_total _ _ _ E PC RP) as (co & o & sta & prod & N).
      exists p, co, o, sta, prod. split; [exact N|].
      apply (record_step_iff g i r _ _ n x _ _ _ (rows_prices _ _ _ _ R) N1' N2' N3 (decided_set _ _ _)). do 5 eexists. split; [exact N|reflexivity].
  Qed.
End Step.
