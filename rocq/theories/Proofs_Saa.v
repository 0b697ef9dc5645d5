(** * The choice, the samples and the plans of the sample average approximation *)

From Coq Require Import ZArith QArith Qabs Qminmax Bool String List Lia Lqa Permutation.
From Verif Require Import Num Py Spec_Module Proofs_Num Proofs_Run Proofs_Data NonModular Spec_NonModular Proofs_NonModular Proofs_NmRun
  Proofs_NmHistory Proofs_NmEpisode Proofs_NmTotal Proofs_NmRecord Proofs_NmProgress
  NmRbc Spec_NmRbc Spec_NmRbcRun Proofs_NmRbcRun Proofs_NmRbcServe
  MPC NmMpc Spec_MPC Proofs_Mpc Spec_NmMpc Proofs_NmMpc Saa Spec_Saa.
Import ListNotations.
Local Open Scope string_scope.
Local Open Scope list_scope.
Local Open Scope Q_scope.

(** ** The choice *)

Lemma filter_perm {A} (f : A -> bool) l m : Permutation l m -> length (filter f l) = length (filter f m).
Proof.
  induction 1 as [|x l m _ IH|x y l|l m n _ IH1 _ IH2]; cbn; [reflexivity| | |congruence].
  - destruct (f x); cbn; congruence.
  - destruct (f x), (f y); reflexivity.
Qed.
Lemma filter_few {A} (f : A -> bool) (l : list A) : forall k, (forall i x, nth_error l i = Some x -> f x = true -> (i < k)%nat) ->
  (length (filter f l) <= k)%nat.
Proof.
  induction l as [|y l IH]; intros k H; cbn; [lia|].
  assert (IH' : (length (filter f l) <= Nat.pred k)%nat).
  { apply IH. intros i x X F. pose proof (H (S i) x X F). lia. }
  destruct (f y) eqn:E; cbn; [|lia]. pose proof (H O y eq_refl E). lia.
Qed.
Lemma filter_after {A} (f : A -> bool) (l : list A) : forall k, (forall i x, nth_error l i = Some x -> f x = true -> (k <= i)%nat) ->
  (k <= length l)%nat -> (length (filter f l) + k <= length l)%nat.
Proof.
  induction l as [|y l IH]; intros k H L; cbn in *; [lia|].
  destruct (f y) eqn:E.
  - pose proof (H O y eq_refl E). replace k with O by lia. cbn. assert (length (filter f l) <= length l)%nat; [|lia].
    clear. induction l as [|z l IH]; cbn; [lia|]. destruct (f z); cbn; lia.
  - destruct k as [|k]; [specialize (IH O ltac:(intros; lia)); lia|].
    specialize (IH k). assert (X : (length (filter f l) + k <= length l)%nat); [|lia]. apply IH; [|lia].
    intros i x X F. pose proof (H (S i) x X F). lia.
Qed.

Section Choice.
  Variables (fl : Q -> Z) (part : list (horizon_output Q) -> nat -> list (horizon_output Q)).
  Hypothesis FL : floors fl.
  Hypothesis PA : partitions part.

  Lemma floor_small n p : 0 <= p -> p < 1 -> (0 < n)%nat ->
    (0 <= fl (inject_Z (Z.of_nat n) * p) < Z.of_nat n)%Z /\ position n p (Z.to_nat (fl (inject_Z (Z.of_nat n) * p))).
  Proof.
    intros P0 P1 N. set (x := inject_Z (Z.of_nat n) * p). destruct (FL x) as (F1 & F2).
    assert (N1 : 0 < inject_Z (Z.of_nat n)) by (change 0 with (inject_Z 0); rewrite <- Zlt_Qlt; lia).
    assert (X0 : 0 <= x) by (unfold x; apply Qmult_le_0_compat; lra).
    assert (X1 : x < inject_Z (Z.of_nat n)).
    { unfold x. rewrite <- (Qmult_1_r (inject_Z (Z.of_nat n))) at 2. apply Qmult_lt_l; assumption. }
    assert (R : (0 <= fl x < Z.of_nat n)%Z).
    { split.
      - assert (Y : inject_Z 0 < inject_Z (fl x + 1)) by (change (inject_Z 0) with 0; lra). rewrite <- Zlt_Qlt in Y. lia.
      - assert (Y : inject_Z (fl x) < inject_Z (Z.of_nat n)) by lra. rewrite <- Zlt_Qlt in Y. exact Y. }
    split; [exact R|]. unfold position. rewrite Z2Nat.id by lia. auto.
  Qed.

  Lemma choice_ok (os : list (horizon_output Q)) p o : determine_optimal_actions fl part os p = Ok o ->
    exists k, position (length os) p k /\ In o os /\ ranked k (map ho_cost os) (ho_cost o).
  Proof.
    unfold determine_optimal_actions. unum.
    destruct (_ || _) eqn:B; [discriminate|]. set (k := fl (inject_Z (Z.of_nat (length os)) * p)).
    destruct ((k <? 0)%Z || (Z.of_nat (length os) <=? k)%Z) eqn:B2; [discriminate|]. apply orb_false_elim in B2. destruct B2 as (K1 & K2).
    unfold entry_at. destruct (nth_error (part os (Z.to_nat k)) (Z.to_nat k)) as [x|] eqn:NE; [|discriminate]. intros H. injection H as <-.
    destruct (PA os (Z.to_nat k) ltac:(lia)) as (PE & OR). exists (Z.to_nat k). split; [|split].
    - destruct (FL (inject_Z (Z.of_nat (length os)) * p)) as (F1 & F2). unfold position. rewrite Z2Nat.id by lia. auto.
    - apply nth_error_In in NE. eapply Permutation_in; [apply Permutation_sym; exact PE|exact NE].
    - unfold ranked. rewrite map_length. split; [|split].
      + apply in_map. apply nth_error_In in NE. eapply Permutation_in; [apply Permutation_sym; exact PE|exact NE].
      + rewrite (filter_perm _ _ _ (Permutation_map ho_cost PE)). apply filter_few. intros i y Y F.
        rewrite nth_error_map in Y. destruct (nth_error (part os (Z.to_nat k)) i) as [z|] eqn:Z; [|discriminate]. injection Y as <-.
        apply negb_true_iff in F. destruct (le_lt_dec (Z.to_nat k) i) as [LI|]; [|assumption]. exfalso.
        pose proof (OR _ _ _ _ NE Z ltac:(lia)) as LE. apply Qle_bool_iff in LE. congruence.
      + rewrite (filter_perm _ _ _ (Permutation_map ho_cost PE)).
        assert (A : (length (filter (fun y => negb (Qle_bool y (ho_cost x))) (map ho_cost (part os (Z.to_nat k)))) + S (Z.to_nat k)
          <= length (map ho_cost (part os (Z.to_nat k))))%nat).
        { apply filter_after.
          - intros i y Y F. rewrite nth_error_map in Y. destruct (nth_error (part os (Z.to_nat k)) i) as [z|] eqn:Z; [|discriminate]. injection Y as <-.
            apply negb_true_iff in F. destruct (le_lt_dec (S (Z.to_nat k)) i) as [LI|]; [assumption|]. exfalso.
            pose proof (OR _ _ _ _ Z NE ltac:(lia)) as LE. apply Qle_bool_iff in LE. congruence.
          - rewrite map_length, <- (Permutation_length PE). lia. }
        rewrite map_length, <- (Permutation_length PE) in A. lia.
  Qed.

  Lemma choice_total (os : list (horizon_output Q)) p : (0 < length os)%nat -> 0 <= p -> p < 1 ->
    exists o, determine_optimal_actions fl part os p = Ok o.
  Proof.
    intros L P0 P1. unfold determine_optimal_actions. unum. destruct (floor_small (length os) p P0 P1 L) as ((K1 & K2) & _).
    set (k := fl (inject_Z (Z.of_nat (length os)) * p)) in *.
    replace (_ || _) with false.
    2:{ symmetry. apply orb_false_intro; apply negb_false_iff; apply Qle_bool_iff; lra. }
    replace ((k <? 0)%Z || (Z.of_nat (length os) <=? k)%Z) with false by (symmetry; apply orb_false_intro; lia).
    destruct (PA os (Z.to_nat k) ltac:(lia)) as (PE & _). unfold entry_at.
    destruct (nth_error (part os (Z.to_nat k)) (Z.to_nat k)) as [x|] eqn:NE; [eauto|]. apply nth_error_None in NE.
    rewrite <- (Permutation_length PE) in NE. lia.
  Qed.

  Lemma choice_range (os : list (horizon_output Q)) p : p < 0 \/ 1 <= p -> raises ValueError (determine_optimal_actions fl part os p).
  Proof.
    intros P. unfold determine_optimal_actions. unum. destruct (_ || _) eqn:B; [eexists; split; reflexivity|].
    apply orb_false_elim in B. destruct B as (B1 & B2). apply negb_false_iff in B1, B2. apply Qle_bool_iff in B1, B2.
    destruct P as [P|P]; [lra|]. assert (PE : p == 1) by lra.
    set (k := fl (inject_Z (Z.of_nat (length os)) * p)). destruct (FL (inject_Z (Z.of_nat (length os)) * p)) as (F1 & F2). fold k in F1, F2.
    rewrite PE, Qmult_1_r in F1, F2. rewrite <- Zle_Qle in F1. rewrite <- Zlt_Qlt in F2.
    replace ((k <? 0)%Z || (Z.of_nat (length os) <=? k)%Z) with true; [eexists; split; reflexivity|].
    symmetry. apply orb_true_intro. right. lia.
  Qed.
End Choice.

(** ** Samples *)

Lemma put_length {A} (x : A) : forall l i, length (put i x l) = length l.
Proof. induction l as [|y l IH]; intros [|i]; cbn; congruence. Qed.
Lemma put_same {A} (x : A) : forall l i, (i < length l)%nat -> nth_error (put i x l) i = Some x.
Proof. induction l as [|y l IH]; intros [|i] L; cbn in *; try lia; [reflexivity|]. apply IH. lia. Qed.
Lemma put_other {A} (x : A) : forall l i j, i <> j -> nth_error (put i x l) j = nth_error l j.
Proof. induction l as [|y l IH]; intros [|i] [|j] NE; cbn; try congruence; try lia. apply IH. lia. Qed.

Lemma saa_shape (a : saa Q) (g : nonmod Q) : saa_for a g -> made_for (sa_mpc a) g /\ sa_data a = underlying_data g.
Proof.
  intros (g' & d & NS & E1 & E2 & E3 & E4 & E5 & E6). unfold new_saa in NS. destruct (8760 <? d)%Z; [discriminate|].
  apply rbind_ok in NS. destruct NS as (c & C & NS). injection NS as <-. split; [exists g'; auto|].
  cbn [sa_data]. unfold underlying_data. rewrite E2, E4, E5, E6. reflexivity.
Qed.

(** The data as a sample *)
Lemma data_sample (g : nonmod Q) : aligned g ->
  sm_load (underlying_data g) = firstn (all_rows g) (nm_load_ts g) /\ sm_pv (underlying_data g) = firstn (all_rows g) (nm_pv_ts g)
  /\ sm_grid (underlying_data g) = firstn (all_rows g) (if has_grid (nm_arch g) then nm_status_ts g else zeros (length (nm_load_ts g))).
Proof.
  intros (_ & AG). unfold underlying_data.
  set (grid := if has_grid (nm_arch g) then nm_status_ts g else zeros (length (nm_load_ts g))).
  assert (G : (all_rows g <= length grid)%nat).
  { unfold grid. destruct (has_grid (nm_arch g)).
    - specialize (AG eq_refl). rewrite Forall_forall in AG. apply AG. simpl. auto.
    - rewrite zeros_length. unfold all_rows. lia. }
  assert (NN : Nat.min (Nat.min (length (nm_load_ts g)) (length (nm_pv_ts g))) (length grid) = all_rows g) by (unfold all_rows in *; lia).
  cbn [sm_load sm_pv sm_grid]. fold grid. rewrite NN. auto.
Qed.
Lemma nth_some {A} (l : list A) i : (i < length l)%nat -> exists x, nth_error l i = Some x.
Proof. intros L. destruct (nth_error l i) eqn:E; [eauto|]. apply nth_error_None in E. lia. Qed.
Lemma data_row (g : nonmod Q) j : aligned g -> (j < all_rows g)%nat ->
  exists l p x, nth_error (nm_load_ts g) j = Some l /\ nth_error (nm_pv_ts g) j = Some p /\ status_at g j = Some x
    /\ nth_error (sm_load (underlying_data g)) j = Some l /\ nth_error (sm_pv (underlying_data g)) j = Some p
    /\ nth_error (sm_grid (underlying_data g)) j = Some x.
Proof.
  intros AL J. destruct (data_sample g AL) as (-> & -> & ->).
  assert (R : (all_rows g <= length (nm_load_ts g))%nat /\ (all_rows g <= length (nm_pv_ts g))%nat) by (unfold all_rows; lia).
  destruct (nth_some (nm_load_ts g) j ltac:(lia)) as (l & LL). destruct (nth_some (nm_pv_ts g) j ltac:(lia)) as (p & PP).
  rewrite !nth_firstn by exact J. unfold status_at. destruct (has_grid (nm_arch g)) eqn:HG.
  - destruct AL as (_ & AG). specialize (AG HG). rewrite Forall_forall in AG.
    destruct (nth_some (nm_status_ts g) j) as (x & X); [specialize (AG (nm_status_ts g) ltac:(simpl; auto)); lia|].
    exists l, p, x. auto 10.
  - exists l, p, 0. repeat (split; [assumption|]). split; [reflexivity|]. split; [exact LL|]. split; [exact PP|].
    unfold zeros. unum. rewrite (nth_error_nth' _ 0) by (rewrite repeat_length; lia). rewrite nth_repeat. reflexivity.
Qed.

Lemma known_refl (g : nonmod Q) s : known_upto g 0 s s.
Proof. constructor; [auto|intros; lia|auto]. Qed.

Lemma fits_known (g : nonmod Q) k s s' : fits g s -> known_upto g k s s' -> fits g s'.
Proof. intros (F1 & F2 & F3 & F4) [(K1 & K2 & K3) _ _]. unfold fits. rewrite K1, K2, K3. auto. Qed.

Lemma overwrite_known (g : nonmod Q) j s s0 : aligned g -> fits g s0 -> known_upto g j s0 s -> (j < length (sm_load s0))%nat ->
  exists s1, overwrite (underlying_data g) j s = Ok s1 /\ known_upto g (S j) s0 s1.
Proof.
  intros AL FI KN J. pose proof FI as (F1 & F2 & F3 & F4). destruct (data_row g j AL ltac:(lia)) as (l & p & x & D1 & D2 & D3 & D4 & D5 & D6).
  destruct KN as [(K1 & K2 & K3) KP KF].
  unfold overwrite, entry_at. rewrite D4, D5, D6. cbn [rbind]. rewrite K1.
  destruct (Nat.ltb_spec j (length (sm_load s0))); [|lia]. eexists. split; [reflexivity|]. constructor; cbn [sm_load sm_pv sm_grid].
  - rewrite !put_length. auto.
  - intros i I. destruct (Nat.eq_dec i j) as [->|NE].
    + rewrite !put_same by lia. rewrite D1, D2, D3. auto.
    + rewrite !put_other by lia. apply KP. lia.
  - intros i I. rewrite !put_other by lia. apply KF. lia.
Qed.

(** ** The microgrid of a sample *)

Section Expecting.
  Variables (g : nonmod Q) (s : sample Q).
  Hypothesis AL : aligned g.
  Hypothesis FI : fits g s.
  Lemma expecting_rows : all_rows (expecting g s) = length (sm_load s).
  Proof. destruct FI as (F1 & _). unfold all_rows. cbn. rewrite F1. lia. Qed.
  Lemma expecting_aligned : aligned (expecting g s).
  Proof.
    pose proof FI as (F1 & F2 & F3 & F4). unfold aligned. rewrite expecting_rows. split; [exact F3|]. cbn. intros HG.
    destruct AL as (_ & AG). specialize (AG HG). inversion_clear AG as [|? ? A1 A2]. inversion_clear A2 as [|? ? A3 A4].
    inversion_clear A4 as [|? ? A5 A6]. inversion_clear A6 as [|? ? A7 A8].
    repeat (constructor; [lia|]). constructor.
  Qed.
  Lemma expecting_sampled : sampled (expecting g s) (length (sm_load s)) s.
  Proof.
    pose proof FI as (F1 & F2 & F3 & F4). constructor; [| |intros _|rewrite expecting_rows; lia]; cbn; symmetry; apply firstn_all2; lia.
  Qed.
  Lemma expecting_made c : made_for c g -> made_for c (expecting g s).
  Proof. intros (g' & M). exists g'. exact M. Qed.
  Lemma expecting_equipped r n x : equipped (at_row g r n x) -> equipped (at_row (expecting g s) r n x).
  Proof. intros [E1 E2 E3 E4 E5 E6 E7]. constructor; assumption. Qed.
End Expecting.

(** ** Plans *)

Lemma blocks_at {A B} (f : A -> list B) w : (forall x, length (f x) = w) ->
  forall plan j x b, nth_error plan j = Some x -> (b < w)%nat -> nth_error (concat (map f plan)) (j * w + b) = nth_error (f x) b.
Proof.
  intros W. induction plan as [|y plan IH]; intros [|j] x b X L; cbn in X; try discriminate.
  - injection X as ->. cbn. rewrite nth_error_app1 by (rewrite W; exact L). reflexivity.
  - cbn [map concat]. rewrite nth_error_app2 by (rewrite W; cbn; lia). rewrite W. replace (S j * w + b - w)%nat with (j * w + b)%nat by (cbn; lia).
    apply IH; assumption.
Qed.
Definition row_now (l v : Q) : now Q := mkNow l v 0 0 0 0.
Lemma control_at gen plan j st (load pv : list Q) l v : nth_error plan j = Some st -> nth_error load j = Some l -> nth_error pv j = Some v ->
  step_control gen (concat (map (variables gen) plan)) load pv j = Ok (decided_by gen (row_now l v) st).
Proof.
  intros P LL VV. unfold step_control, entry_at. destruct gen.
  - assert (W : forall x, length (variables true x) = 8%nat) by reflexivity.
    assert (B := fun b => blocks_at (variables true) 8 W plan j st b P).
    replace (j * 8)%nat with (j * 8 + 0)%nat at 1 by lia. rewrite B by lia.
    rewrite <- !Nat.add_assoc, !B by (cbn; lia). cbn [variables app nth_error Nat.add rbind]. rewrite LL, VV. reflexivity.
  - assert (W : forall x, length (variables false x) = 7%nat) by reflexivity.
    assert (B := fun b => blocks_at (variables false) 7 W plan j st b P).
    pose proof (B O ltac:(lia)) as B0. rewrite Nat.add_0_r in B0. rewrite B0, !B by (cbn; lia).
    cbn [variables app nth_error Nat.add rbind]. rewrite LL, VV. reflexivity.
Qed.

Lemma rmapM_nth {A B} (f : A -> res B) l : forall m, length m = length l -> (forall i x y, nth_error l i = Some x -> nth_error m i = Some y -> f x = Ok y) ->
  rmapM f l = Ok m.
Proof.
  induction l as [|x l IH]; intros [|y m] L H; cbn in L; try discriminate; [reflexivity|]. cbn.
  rewrite (H O x y eq_refl eq_refl). cbn. rewrite (IH m) by (congruence || (intros i a b X Y; exact (H (S i) a b X Y))). reflexivity.
Qed.

(** ** Costs *)

Fixpoint psum (series : list Q) (i : nat) (f : planned -> Q) (plan : list planned) : Q :=
  match plan with [] => 0 | s :: plan' => nth i series 0 * f s + psum series (S i) f plan' end.
Lemma priced_sum (f : planned -> Q) (series : list Q) : forall plan ps i, length ps = length plan ->
  (forall k, (k < length ps)%nat -> nth_error ps k = nth_error series (i + k)) ->
  nsum (map (fun x => fst x * snd x) (combine ps (map f plan))) == psum series i f plan.
Proof.
  induction plan as [|st plan IH]; intros [|p ps] i L H; cbn in L; try discriminate; [reflexivity|].
  cbn [map combine psum fst snd]. rewrite nsum_cons. cbn [fst snd].
  pose proof (H O ltac:(cbn; lia)) as H0. cbn in H0. rewrite Nat.add_0_r in H0. symmetry in H0.
  rewrite (nth_error_nth _ _ 0 H0). rewrite (IH ps (S i)); [reflexivity|congruence|].
  intros k K. specialize (H (S k) ltac:(cbn; lia)). cbn in H. rewrite H. f_equal. lia.
Qed.
Lemma bill_sum (g : nonmod Q) loss fuel plan : forall i, plan_bill g loss fuel i plan ==
  nsum (map pl_loss plan) * loss + (if has_genset (nm_arch g) then nsum (map pl_genset plan) * fuel else 0)
  + (if has_grid (nm_arch g) then psum (nm_import_ts g) i pl_import plan - psum (nm_export_ts g) i pl_export plan else 0).
Proof.
  induction plan as [|st plan IH]; intros i; cbn [plan_bill psum map].
  - rewrite nsum_nil. destruct (has_genset (nm_arch g)), (has_grid (nm_arch g)); ring.
  - rewrite IH. destruct (has_genset (nm_arch g)), (has_grid (nm_arch g)); rewrite !nsum_cons; ring.
Qed.

(** The steps of a plan, with the load and the PV of each *)
Definition controls (gen : bool) (load pv : list Q) (plan : list planned) (ds : list (dict Q)) : Prop :=
  length ds = length plan /\ forall i d, nth_error ds i = Some d -> exists st l v,
    nth_error plan i = Some st /\ nth_error load i = Some l /\ nth_error pv i = Some v /\ d = decided_by gen (row_now l v) st.
Lemma column_at gen load pv plan ds name f : controls gen load pv plan ds -> (0 < length plan)%nat ->
  (forall l v st, dget name (decided_by gen (row_now l v) st) = Some (f st)) -> frame_column ds name = Ok (map f plan).
Proof.
  intros (L & C) P D. unfold frame_column. destruct ds as [|d0 ds0]; [cbn in L; lia|]. apply rmapM_nth; [rewrite map_length; congruence|].
  intros i x y X Y. destruct (C i x X) as (st & l & v & S1 & _ & _ & ->). rewrite nth_error_map, S1 in Y. injection Y as <-.
  unfold dfind. rewrite D. reflexivity.
Qed.

Lemma cost_plan (g : nonmod Q) i load pv plan ds loss fuel : Z.of_nat (length plan) = nm_horizon g -> (0 < length plan)%nat ->
  controls (has_genset (nm_arch g)) load pv plan ds -> parameter g "cost_loss_load" loss ->
  (has_genset (nm_arch g) = true -> parameter g "fuel_cost" fuel) ->
  (has_grid (nm_arch g) = true -> (i + length plan <= length (nm_import_ts g))%nat /\ (i + length plan <= length (nm_export_ts g))%nat) ->
  exists cost, cost_over_horizon g (Z.of_nat i) ds = Ok cost /\ bills g i plan cost.
Proof.
  intros H0 HP CO PL PF PG. unfold cost_over_horizon.
  assert (COL := fun name f => column_at _ load pv plan ds name f CO HP).
  rewrite (COL "loss_load" pl_loss) by (intros; destruct (has_genset (nm_arch g)); reflexivity). cbn [rbind]. clear COL.
  assert (COL := fun name f => column_at _ load pv plan ds name f CO HP).
  unfold dfind. rewrite PL. cbn [rbind].
  set (cost1 := nadd n0 (nmul (nsum (map pl_loss plan)) loss)).
  assert (GEN : exists cost2, (if has_genset (nm_arch g) then
       rbind (frame_column ds "genset") (fun gen => rbind (match dget "fuel_cost" (nm_par g) with Some x => Ok x | None => raise KeyError "fuel_cost" end)
         (fun fuel => Ok (nadd cost1 (nmul (nsum gen) fuel))))
       else Ok cost1) = Ok cost2
     /\ cost2 == nsum (map pl_loss plan) * loss + (if has_genset (nm_arch g) then nsum (map pl_genset plan) * fuel else 0)).
  { destruct (has_genset (nm_arch g)) eqn:HS.
    - rewrite (COL "genset" pl_genset) by reflexivity. cbn [rbind]. rewrite (PF eq_refl). cbn [rbind]. eexists. split; [reflexivity|].
      unfold cost1. unum. ring.
    - eexists. split; [reflexivity|]. unfold cost1. unum. ring. }
  destruct GEN as (cost2 & -> & C2). cbn [rbind].
  assert (BI : forall cost, cost == cost2 + (if has_grid (nm_arch g) then psum (nm_import_ts g) i pl_import plan - psum (nm_export_ts g) i pl_export plan else 0) ->
    bills g i plan cost).
  { intros cost E. exists loss, fuel. split; [exact PL|]. split; [exact PF|]. rewrite bill_sum, E, C2. reflexivity. }
  destruct (has_grid (nm_arch g)) eqn:HG; [|exists cost2; split; [reflexivity|apply BI; ring]].
  rewrite (COL "grid_import" pl_import) by (intros; destruct (has_genset (nm_arch g)); reflexivity). cbn [rbind].
  rewrite (COL "grid_export" pl_export) by (intros; destruct (has_genset (nm_arch g)); reflexivity). cbn [rbind].
  destruct (PG eq_refl) as (G1 & G2). rewrite <- H0.
  destruct (slice_at (nm_import_ts g) i (length plan) G1) as (U1 & U1'). destruct (slice_at (nm_export_ts g) i (length plan) G2) as (U2 & U2').
  unfold priced. rewrite !map_length, !broadcast_same by assumption. cbn [rbind]. eexists. split; [reflexivity|]. apply BI. unum.
  rewrite (priced_sum pl_import (nm_import_ts g) plan _ i U1) by (rewrite U1; exact U1').
  rewrite (priced_sum pl_export (nm_export_ts g) plan _ i U2) by (rewrite U2; exact U2'). reflexivity.
Qed.

(** ** One program *)

Section Single.
  Variables (c : mpc Q) (solve : solver Q) (g : nonmod Q) (s : sample Q).
  Hypothesis HB : has_battery (nm_arch g) = true.
  Hypothesis AL : aligned g.
  Hypothesis MF : made_for c g.
  Hypothesis FI : fits g s.
  Let h := Z.to_nat (nm_horizon g).

  Lemma single_verdict i q r n x : equipped (at_row g r n x) -> (i + h <= length (sm_load s))%nat ->
    nth_error (sm_load s) i = Some (now_load n) -> nth_error (sm_pv s) i = Some (now_pv n) ->
    exists e xs soc pr, posed_at (expecting g s) i e xs /\ latest (cp_state r) "battery_soc" (CNum soc) /\ program_of pr e soc xs
      /\ eq_gen e = has_genset (nm_arch g)
      /\ (exists d, nm_values g s (Z.of_nat i) (cp_state r) = Ok d /\ make_problem c d = Ok pr)
      /\ (forall p u, solve q pr = Ok (Some (p, u)) -> length p = length (pr_costs pr) ->
            exists st rest o, p = concat (map (variables (eq_gen e)) (st :: rest))
              /\ mpc_single_step c solve q g s (cp_state r) i = Ok o
              /\ ho_step o = Z.of_nat i /\ ho_first o = decided_by (eq_gen e) n st
              /\ length (st :: rest) = length xs /\ bills g i (st :: rest) (ho_cost o))
      /\ (solve q pr = Ok None -> raises TypeError (mpc_single_step c solve q g s (cp_state r) i))
      /\ (forall er, solve q pr = Err er -> mpc_single_step c solve q g s (cp_state r) i = Err er).
  Proof.
    intros E LE LL VV. pose proof (expecting_aligned g s AL FI) as AL'. pose proof (expecting_sampled g s FI) as SD.
    pose proof (expecting_made g s c MF) as MF'. pose proof (expecting_equipped g s r n x E) as E'.
    destruct (mh c g MF) as (MH & HP & HZ). fold h in MH, HP, HZ.
    destruct (values_ok c (expecting g s) (length (sm_load s)) s HB AL' MF' SD i r n x E' LE) as (d & soc & pr & V1 & V2 & V3 & V4 & V5 & V6 & V7 & V8).
    change (nm_values (expecting g s) s (Z.of_nat i) (cp_state r)) with (nm_values g s (Z.of_nat i) (cp_state r)) in V1.
    exists (equipment_of c d), (expected_of d (mp_horizon c)), soc, pr. split; [exact V6|]. split; [exact V2|]. split.
    { rewrite <- V3. split.
      - intros p0 u0. apply (program c d pr V4 V5).
      - intros p0 u0 plan. apply (objective_cost c d pr V4 V5). }
    split; [exact (mgen c g MF)|]. split; [exists d; auto|].
    unfold mpc_single_step. rewrite V1. cbn [rbind]. unfold nm_solve_steps. rewrite V5. cbn [rbind]. fold h.
    destruct (Nat.ltb_spec (mp_horizon c) h) as [LT|_]; [lia|].
    split; [|split].
    2:{ intros ->. cbn [rbind]. unfold h. destruct (Z.to_nat (nm_horizon g)) eqn:HH; [unfold h in HP; lia|]. cbn. eexists. split; reflexivity. }
    2:{ intros er ->. reflexivity. }
    intros p u SO LP. rewrite SO. cbn [rbind].
    pose proof LP as LP'. rewrite (costs_length c d pr V4 V5) in LP'. destruct (plan_of _ _ _ LP') as (plan & LPL & PE & _). rewrite MH in LPL.
    change (eq_gen (equipment_of c d)) with (has_gen c).
    destruct V4 as (VL & _). rewrite MH in VL. pose proof VL as VL'.
    assert (LD : length (da_load d) = h /\ length (da_pv d) = h).
    { clear -VL. inversion_clear VL as [|? ? A1 A2]. inversion_clear A2 as [|? ? A3 A4]. auto. }
    destruct LD as (LD1 & LD2).
    assert (DS : exists ds, rmapM (fun j => rbind (Ok p) (fun p => step_control (has_gen c) p (da_load d) (da_pv d) j)) (seq 0 h) = Ok ds
       /\ controls (has_gen c) (da_load d) (da_pv d) plan ds).
    { exists (map (fun k => decided_by (has_gen c) (row_now (nth k (da_load d) 0) (nth k (da_pv d) 0)) (nth k plan (mkPlanned 0 0 0 0 0 0 0 0 0))) (seq 0 h)). split.
      - apply rmapM_nth; [rewrite map_length; reflexivity|]. intros k y z Y ZZ.
        assert (K : (k < h)%nat) by (assert (nth_error (seq 0 h) k <> None) as NE by (rewrite Y; discriminate); apply nth_error_Some in NE; rewrite seq_length in NE; exact NE).
        rewrite nth_error_map in ZZ. rewrite (nth_error_seq 0 h k K) in *. cbn [option_map Nat.add] in *. injection Y as <-. injection ZZ as <-.
        cbn [rbind]. rewrite PE. apply control_at; apply nth_error_nth'; lia.
      - split; [rewrite map_length, seq_length; congruence|]. intros k y Y.
        assert (K : (k < h)%nat).
        { match type of Y with nth_error ?l _ = _ => assert (NE : nth_error l k <> None) by (rewrite Y; discriminate) end.
          apply nth_error_Some in NE. rewrite map_length, seq_length in NE. exact NE. }
        rewrite nth_error_map, (nth_error_seq 0 h k K) in Y. cbn [option_map Nat.add] in Y. injection Y as <-.
        do 3 eexists. split; [apply nth_error_nth'; lia|]. split; [apply nth_error_nth'; lia|]. split; [apply nth_error_nth'; lia|]. reflexivity. }
    destruct DS as (ds & DSE & CO).
    change (values_of (Some (p, u))) with (Ok p). rewrite DSE. cbn [rbind]. unfold new_horizon_output.
    destruct (made_shape _ _ MF) as (pp & PAR & CE & _). rewrite (mgen c g MF) in *.
    assert (PN : forall k, In k (parameter_names (nm_arch g)) -> exists y, parameter g k y).
    { intros k I. destruct (eq_par _ E k I) as (y & Y). exists y. exact Y. }
    destruct (PN "cost_loss_load" ltac:(simpl; auto 20)) as (loss & PLO).
    assert (PFU : exists fuel, has_genset (nm_arch g) = true -> parameter g "fuel_cost" fuel).
    { destruct (has_genset (nm_arch g)) eqn:HS; [|exists 0; discriminate].
      destruct (PN "fuel_cost") as (f & F); [unfold parameter_names; rewrite HS, !in_app_iff; simpl; auto 20|exists f; auto]. }
    destruct PFU as (fuel & PFU).
    assert (PG : has_grid (nm_arch g) = true -> (i + length plan <= length (nm_import_ts g))%nat /\ (i + length plan <= length (nm_export_ts g))%nat).
    { intros HG. destruct AL as (_ & AG). specialize (AG HG). rewrite Forall_forall in AG. destruct FI as (_ & _ & _ & F4).
      pose proof (AG (nm_import_ts g) ltac:(simpl; auto)). pose proof (AG (nm_export_ts g) ltac:(simpl; auto)). lia. }
    destruct (cost_plan g i (da_load d) (da_pv d) plan ds loss fuel ltac:(lia) ltac:(lia) CO PLO PFU PG) as (cost & CC & BI).
    rewrite CC. cbn [rbind]. destruct plan as [|st rest]; [cbn in LPL; lia|].
    destruct CO as (LDS & CO). destruct (nth_some ds O ltac:(cbn in *; lia)) as (d0 & D0). unfold entry_at. rewrite D0. cbn [rbind].
    destruct (CO O d0 D0) as (st0 & l0 & v0 & S0 & L0 & V0 & ->). cbn in S0. injection S0 as <-.
    exists st, rest. eexists. split; [exact PE|]. split; [reflexivity|]. split; [reflexivity|].
    cbn [ho_first ho_cost]. split.
    - pose proof (V7 _ LL) as W1. pose proof (V8 _ VV) as W2. rewrite L0 in W1. rewrite V0 in W2. injection W1 as W1. injection W2 as W2.
      unfold decided_by. cbn [row_now now_load now_pv]. rewrite W1, W2. reflexivity.
    - split; [|exact BI]. unfold expected_of. rewrite map_length, seq_length. congruence.
  Qed.

  Lemma single_step i q r n x o : assigns_all solve -> equipped (at_row g r n x) -> (i + h <= length (sm_load s))%nat ->
    nth_error (sm_load s) i = Some (now_load n) -> nth_error (sm_pv s) i = Some (now_pv n) ->
    mpc_single_step c solve q g s (cp_state r) i = Ok o ->
    exists st rest, ho_step o = Z.of_nat i /\ ho_first o = decided_by (has_genset (nm_arch g)) n st
      /\ proposes solve g i q r s (st :: rest) (ho_cost o).
  Proof.
    intros AA E LE LL VV H. destruct (single_verdict i q r n x E LE LL VV) as (e & xs & soc & pr & PO & LS & PG & EG & _ & V1 & V2 & V3).
    destruct (solve q pr) as [[(p & u)|]|er] eqn:SO.
    - destruct (V1 p u eq_refl (AA _ _ _ _ SO)) as (st & rest & o' & PE & HO & O1 & O2 & O3 & O4).
      rewrite H in HO. injection HO as <-. exists st, rest. split; [exact O1|]. split; [rewrite <- EG; exact O2|].
      exists e, xs, soc, pr, u. split; [exact PO|]. split; [exact LS|]. split; [exact PG|]. split; [rewrite SO, PE; reflexivity|]. split; [exact O3|exact O4].
    - destruct (V2 eq_refl) as (er & X & _). congruence.
    - rewrite (V3 _ eq_refl) in H. discriminate.
  Qed.
End Single.
