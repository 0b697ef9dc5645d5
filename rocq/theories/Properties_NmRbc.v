(** * C70: what the rule-based control of non-modular microgrids decides *)

From Coq Require Import ZArith QArith Qabs Qminmax Bool String List Lia Lqa.
From Verif Require Import Num Py Spec_Module Proofs_Num NonModular Spec_NonModular Properties_NonModular NmRbc Spec_NmRbc Proofs_NmRbc.
Import ListNotations.
Local Open Scope string_scope.
Local Open Scope list_scope.
Local Open Scope Q_scope.

Section C70.
  Variables (to_int : Q -> Z) (g : nonmod Q) (i : nat) (st : record Q) (load pv soc room take : Q) (on first : bool) (c : dict Q).
  Hypothesis CO : converts to_int.
  Hypothesis SU : situation g i st load pv soc room on.
  Hypothesis FU : furnished g.

  (** A decision is always made. *)
  Theorem C70_decides : exists c, rb_control to_int g (Z.of_nat i) st = Ok c
    /\ dget "load" c = Some load /\ dget "pv" c = Some pv.
  Proof.
    destruct (rb_decides to_int g i st load pv soc room on CO SU FU) as (d & t & _ & E & _). exists (decision_of load pv d).
    split; [exact E|]. split; reflexivity.
  Qed.

  Hypothesis TK : takes g soc take.
  Hypothesis BF : battery_first g i first.
  Hypothesis DE : rb_control to_int g (Z.of_nat i) st = Ok c.

  Lemma decided_one : exists d, c = decision_of load pv d /\ decided g i load pv room take on d.
  Proof.
    destruct (rb_decides to_int g i st load pv soc room on CO SU FU) as (d & t & T & E & D). rewrite DE in E. injection E as ->.
    exists d. split; [reflexivity|].
    assert (X : t == take).
    { destruct T as (q1 & q2 & q3 & q4 & L1 & L2 & L3 & L4 & ->), TK as (r1 & r2 & r3 & r4 & M1 & M2 & M3 & M4 & ->).
      unfold parameter in *. rewrite L1 in M1. rewrite L2 in M2. rewrite L3 in M3. rewrite L4 in M4.
      injection M1 as <-. injection M2 as <-. injection M3 as <-. injection M4 as <-. reflexivity. }
    destruct D as [f N B M|l N P L M|l N P L]; [apply (D_usual _ _ _ _ _ _ _ _ f)|apply (D_aside _ _ _ _ _ _ _ _ l)|apply (D_alone _ _ _ _ _ _ _ _ l)]; auto.
    - destruct M; constructor; intros; rewrite <- ?X; auto.
    - destruct M; constructor; intros; rewrite <- ?X; auto.
  Qed.

  Lemma same_first f : on = true -> battery_first g i f -> f = first.
  Proof.
    intros O B. destruct (proj1 (su_on _ _ _ _ _ _ _ _ SU) O) as (HG & s & S & S1).
    destruct (su_grid _ _ _ _ _ _ _ _ SU HG) as (s' & im & ex & _ & I & X & _).
    destruct (su_room _ _ _ _ _ _ _ _ SU) as (_ & _ & eff & _ & _ & _ & E & _).
    specialize (B eff im ex E I X). specialize (BF eff im ex E I X). destruct f, first; try reflexivity; exfalso.
    - assert (X' := proj1 B eq_refl). apply BF in X'. discriminate.
    - assert (X' := proj1 BF eq_refl). apply B in X'. discriminate.
  Qed.

  Lemma take_nonneg : 0 <= take.
  Proof. destruct TK as (? & ? & ? & ? & _ & _ & _ & _ & ->). apply Q.le_max_l. Qed.
  Lemma room_pos : 0 <= room.
  Proof. apply (room_nonneg g soc room (su_room _ _ _ _ _ _ _ _ SU) (su_power _ _ _ _ _ _ _ _ SU)). Qed.

  Ltac entries := unfold entry, decision_of; cbn [dget String.eqb Ascii.eqb Bool.eqb].
  Ltac start := destruct decided_one as (d & -> & D); pose proof take_nonneg; pose proof room_pos;
    pose proof (su_load0 _ _ _ _ _ _ _ _ SU); pose proof (su_pv0 _ _ _ _ _ _ _ _ SU); entries.

  (** Within the limits of the PV and the battery, in one direction at a time *)
  Theorem C70_limits :
    0 <= entry c "battery_charge" <= take /\ 0 <= entry c "battery_discharge" <= room
    /\ 0 <= entry c "grid_import" /\ 0 <= entry c "grid_export"
    /\ 0 <= entry c "pv_consummed" <= pv /\ entry c "pv_consummed" + entry c "pv_curtailed" == pv
    /\ entry c "battery_charge" + entry c "grid_export" <= entry c "pv_consummed"
    /\ (entry c "battery_charge" == 0 \/ entry c "battery_discharge" == 0)
    /\ (entry c "grid_import" == 0 \/ entry c "grid_export" == 0)
    /\ (on = false -> entry c "grid_import" == 0 /\ entry c "grid_export" == 0)
    /\ (has_genset (nm_arch g) = false -> entry c "genset" == 0)
    /\ (entry c "loss_load" = 0 \/ entry c "loss_load" = 1).
  Proof.
    start. assert (K : (if Qltb 0 (di_load d) then 1 else 0) = 0 \/ (if Qltb 0 (di_load d) then 1 else 0) = 1)
      by (destruct (Qltb 0 (di_load d)); auto).
    destruct D as [f N B M|l N P L M|l N P L T1 T2 T3 T4 T5 T6 T7].
    - destruct M. repeat split; try lra; try assumption; try tauto.
    - destruct M. destruct (me_off eq_refl) as (O1 & O2). repeat split; try lra; try assumption; try tauto.
      intros X. destruct N as (N & _). congruence.
    - repeat split; try lra; try assumption; try tauto.
      intros X. destruct N as (N & _). congruence.
  Qed.

  (** Unless only the genset can meet the load: PV comes first, then the battery and the grid in
      the order of [first], and all of the load is met that can be met. *)
  Theorem C70_order : ~ genset_needed g load pv room on ->
    entry c "genset" == 0
    /\ (pv <= load -> entry c "pv_consummed" == pv /\ entry c "battery_charge" == 0 /\ entry c "grid_export" == 0)
    /\ (load <= pv -> entry c "battery_discharge" == 0 /\ entry c "grid_import" == 0)
    /\ (on = true -> first = true ->
        (pv <= load -> entry c "battery_discharge" == Qmin room (load - pv))
        /\ (load <= pv -> entry c "battery_charge" == Qmin take (pv - load)))
    /\ (on = true -> first = false -> entry c "battery_charge" == 0 /\ entry c "battery_discharge" == 0)
    /\ (on = true -> entry c "pv_curtailed" == 0)
    /\ (on = false ->
        (pv <= load -> entry c "battery_discharge" == Qmin room (load - pv))
        /\ (load <= pv -> entry c "battery_charge" == Qmin take (pv - load)))
    /\ (on = true \/ load <= pv + room -> supplied c == used load c /\ entry c "loss_load" = 0)
    /\ (on = false -> pv + room < load -> used load c - supplied c == load - pv - room /\ entry c "loss_load" = 1).
  Proof.
    intros NN. start. unfold supplied, used. entries. destruct D as [f N B M|l N|l N]; [|contradiction|contradiction].
    assert (F := fun O => same_first f O B). destruct M.
    assert (G : di_genset d == 0).
    { destruct on; [apply me_no_genset; auto|]. destruct (Qlt_le_dec (pv + room) load); [|apply me_no_genset; auto].
      apply me_no_genset. left. destruct (has_genset (nm_arch g)) eqn:HG; [|reflexivity]. exfalso. apply NN. repeat split; auto. }
    split; [exact G|]. split; [intros L; destruct (me_whole L); repeat split; lra|].
    split; [intros L; pose proof (me_surplus L); split; lra|].
    assert (MC : forall y, (y == pv - load /\ pv - load <= take \/ y == take /\ take <= pv - load) -> y == Qmin take (pv - load)).
    { intros y [(Y1 & Y2)|(Y1 & Y2)]; rewrite Y1; symmetry; [apply Q.min_r|apply Q.min_l]; exact Y2. }
    split; [|split; [|split; [|split; [|split]]]].
    - intros O FI. specialize (F O). rewrite FI in F. split; [|intros L; apply MC; auto].
      intros L. destruct (me_whole L) as (W1 & W2). assert (S := me_sum (or_introl O)).
      destruct (Qlt_le_dec 0 (di_import d)) as [I|I].
      + pose proof (me_import_last O F I) as IL. rewrite IL. symmetry. apply Q.min_l. lra.
      + assert (EQ : di_discharge d == load - pv) by lra. rewrite EQ. symmetry. apply Q.min_r. lra.
    - intros O FI. specialize (F O). rewrite FI in F. auto.
    - intros O. pose proof (me_on O). lra.
    - intros O. split; [|intros L; apply MC; auto]. intros L. destruct (me_whole L) as (W1 & W2).
      destruct (Qlt_le_dec (pv + room) load) as [I|I].
      + destruct (me_all I O) as (A1 & A2). rewrite A2. symmetry. apply Q.min_l. lra.
      + assert (S := me_sum (or_intror I)). destruct (me_off O). rewrite Q.min_r by lra. lra.
    - intros X. pose proof (me_sum X). split; [lra|]. destruct (Qltb 0 (di_load d)) eqn:E; [|reflexivity].
      apply Qltb_lt in E. pose proof (me_none X). lra.
    - intros O X. destruct (me_all X O) as (A1 & A2). destruct (me_off O). destruct (me_whole ltac:(lra)).
      split; [lra|]. assert (GF : has_genset (nm_arch g) = false).
      { destruct (has_genset (nm_arch g)) eqn:HG; [|reflexivity]. exfalso. apply NN. repeat split; auto. }
      pose proof (me_left GF O X). assert (Y : Qltb 0 (di_load d) = true) by (apply Qltb_lt; lra). rewrite Y. reflexivity.
  Qed.

  (** When only the genset can meet the load: it does so if more than its smallest power is
      needed beside the PV and the battery; otherwise it is not used, and the load is short of
      exactly its smallest power; and a load below its smallest power is met with twice that. *)
  Theorem C70_genset least : genset_needed g load pv room on -> least_power g least -> 0 <= least ->
    entry c "loss_load" = 0 /\ entry c "grid_import" == 0 /\ entry c "grid_export" == 0
    /\ (pv + room < load - least ->
        entry c "genset" == load - pv - room /\ entry c "pv_consummed" == pv /\ entry c "battery_discharge" == room
        /\ entry c "battery_charge" == 0)
    /\ (least <= load -> load - least <= pv + room ->
        entry c "genset" == 0 /\ used load c - supplied c == least)
    /\ (load < least ->
        entry c "genset" == 2 * least /\ entry c "pv_consummed" == 0 /\ entry c "battery_discharge" == 0
        /\ entry c "battery_charge" == 0).
  Proof.
    intros NN LP L0. start. unfold supplied, used. entries.
    assert (LU : forall l, least_power g l -> l == least).
    { intros l (r1 & m1 & A1 & A2 & ->). destruct LP as (r2 & m2 & B1 & B2 & ->). unfold parameter in *.
      rewrite A1 in B1. rewrite A2 in B2. injection B1 as <-. injection B2 as <-. reflexivity. }
    destruct D as [f N|l N P L M|l N P L T1 T2 T3 T4 T5 T6 T7]; [contradiction| |].
    - specialize (LU l P). destruct M. destruct (me_off eq_refl) as (O1 & O2).
      assert (LO : di_load d == 0).
      { destruct (Qlt_le_dec (pv + room) (load - l)) as [X|X]; [apply (me_genset eq_refl eq_refl X)|apply me_none; auto]. }
      split; [destruct (Qltb 0 (di_load d)) eqn:E; [apply Qltb_lt in E; lra|reflexivity]|].
      split; [exact O1|]. split; [exact O2|]. split; [|split].
      + intros X. assert (X' : pv + room < load - l) by lra. destruct (me_genset eq_refl eq_refl X'), (me_all X' eq_refl).
        destruct (me_whole ltac:(lra)). repeat split; lra.
      + intros _ X. assert (X' : load - l <= pv + room) by lra.
        pose proof (me_no_genset (or_intror (or_intror X'))). pose proof (me_sum (or_intror X')). split; lra.
      + intros X. exfalso. lra.
    - specialize (LU l P). split; [destruct (Qltb 0 (di_load d)) eqn:E; [apply Qltb_lt in E; lra|reflexivity]|].
      repeat split; try lra; intros; exfalso; lra.
  Qed.
End C70.
Print Assumptions C70_decides.
Print Assumptions C70_limits.
Print Assumptions C70_order.
Print Assumptions C70_genset.

(** *** Cases *)

Definition whole (x : Q) : Z := Z.quot (Qnum x) (Zpos (Qden x)).
Lemma whole_converts : converts whole.
Proof.
  intros z x E. unfold whole. unfold Qeq in E. simpl in E. rewrite Z.mul_1_r in E. rewrite E. apply Z.quot_mul. discriminate.
Qed.
Definition rb_island : nonmod Q := nm_get (new_nonmodular (nm_example island_arch [10; 31; 40; 1; 10; 10] [5; 5; 5; 0; 50; 10]) 2).
Definition at_soc (x : Q) : record Q := [("battery_soc", [CNum x])].

Lemma example_furnished (g : nonmod Q) : nm_par g = nm_parameters -> furnished g.
Proof.
  intros E. constructor; unfold parameter; rewrite E; [eexists; reflexivity|eexists; reflexivity|].
  intros _. eexists _, _. split; reflexivity.
Qed.
Lemma example_discharge (g : nonmod Q) soc : nm_par g = nm_parameters ->
  discharge_limit g soc (Qmin (Qmax 0 ((soc - (1 # 5)) * 100 * (9 # 10))) 25).
Proof.
  intros E. eexists _, _, _, _. unfold parameter. rewrite E. repeat (split; [reflexivity|]). reflexivity.
Qed.
Lemma limit_eq (g : nonmod Q) soc x y : discharge_limit g soc x -> x == y -> discharge_limit g soc y.
Proof. intros (a & b & c & d & A & B & C & D & E) X. exists a, b, c, d. rewrite <- X. auto. Qed.

Lemma island_situation i st load pv soc room : nth_error (nm_load_ts rb_island) i = Some load -> nth_error (nm_pv_ts rb_island) i = Some pv ->
  0 <= load -> 0 <= pv -> st = at_soc soc -> room == Qmin (Qmax 0 ((soc - (1 # 5)) * 100 * (9 # 10))) 25 ->
  situation rb_island i st load pv soc room false.
Proof.
  intros H1 H2 H3 H4 -> R. constructor; try assumption; try (vm_compute; reflexivity).
  - exists []. reflexivity.
  - eapply limit_eq; [apply example_discharge; vm_compute; reflexivity|symmetry; exact R].
  - exists 25. split; [vm_compute; reflexivity|lra].
  - intros H. vm_compute in H. discriminate H.
  - split; [discriminate|]. intros (H & _). vm_compute in H. discriminate H.
Qed.

(** Just above what the battery and the PV give, the genset is left out. *)
Theorem C70_genset_refuted : ~ (forall to_int (g : nonmod Q) i st load pv soc room on c,
  converts to_int -> situation g i st load pv soc room on -> furnished g -> rb_control to_int g (Z.of_nat i) st = Ok c ->
  entry c "loss_load" = 0 -> used load c <= supplied c).
Proof.
  intros H.
  destruct (rb_control whole rb_island (Z.of_nat 1) (at_soc (1 # 2))) as [c|e] eqn:E; [|vm_compute in E; discriminate E].
  assert (S : situation rb_island 1 (at_soc (1 # 2)) 31 5 (1 # 2) 25 false)
    by (apply island_situation; try (vm_compute; reflexivity); lra).
  specialize (H whole rb_island 1%nat _ _ _ _ _ _ c whole_converts S (example_furnished rb_island eq_refl) E).
  vm_compute in E. injection E as <-. specialize (H eq_refl). vm_compute in H. apply H. reflexivity.
Qed.
Print Assumptions C70_genset_refuted.

Example C70_genset_example :
  (** 31 is asked, the PV gives 5 and the battery 25, but the smallest power of the genset is 2. *)
  (situation rb_island 1 (at_soc (1 # 2)) 31 5 (1 # 2) 25 false /\ genset_needed rb_island 31 5 25 false
   /\ least_power rb_island 2
   /\ exists c, rb_control whole rb_island 1 (at_soc (1 # 2)) = Ok c
      /\ entry c "genset" == 0 /\ entry c "battery_discharge" == 24 /\ supplied c == 29)
  (** 40 is asked. *)
  /\ (situation rb_island 2 (at_soc (1 # 2)) 40 5 (1 # 2) 25 false
      /\ exists c, rb_control whole rb_island 2 (at_soc (1 # 2)) = Ok c
         /\ entry c "genset" == 10 /\ entry c "battery_discharge" == 25 /\ supplied c == 40)
  (** 1 is asked of an empty battery. *)
  /\ (situation rb_island 3 (at_soc (1 # 5)) 1 0 (1 # 5) 0 false
      /\ exists c, rb_control whole rb_island 3 (at_soc (1 # 5)) = Ok c /\ entry c "genset" == 4 /\ supplied c == 4).
Proof.
  split; [|split].
  - split; [apply island_situation; try (vm_compute; reflexivity); lra|].
    split; [split; [reflexivity|split; [reflexivity|lra]]|].
    split; [exists 40, (1 # 20); vm_compute; repeat split; reflexivity|].
    eexists. split; [vm_compute; reflexivity|]. vm_compute. repeat split; reflexivity.
  - split; [apply island_situation; try (vm_compute; reflexivity); lra|].
    eexists. split; [vm_compute; reflexivity|]. vm_compute. repeat split; reflexivity.
  - split; [apply island_situation; try (vm_compute; reflexivity); lra|].
    eexists. split; [vm_compute; reflexivity|]. vm_compute. repeat split; reflexivity.
Qed.

Lemma full_situation i st load pv soc room on s im ex : nth_error (nm_load_ts full_grid) i = Some load -> nth_error (nm_pv_ts full_grid) i = Some pv ->
  nth_error (nm_status_ts full_grid) i = Some s -> nth_error (nm_import_ts full_grid) i = Some im -> nth_error (nm_export_ts full_grid) i = Some ex ->
  (s == 0 /\ on = false \/ s == 1 /\ on = true) ->
  0 <= load -> 0 <= pv -> st = at_soc soc -> room == Qmin (Qmax 0 ((soc - (1 # 5)) * 100 * (9 # 10))) 25 ->
  situation full_grid i st load pv soc room on.
Proof.
  intros H1 H2 S I X D H3 H4 -> R. constructor; try assumption; try (vm_compute; reflexivity).
  - exists []. reflexivity.
  - eapply limit_eq; [apply example_discharge; vm_compute; reflexivity|symmetry; exact R].
  - exists 25. split; [vm_compute; reflexivity|lra].
  - intros _. exists s, im, ex. repeat split; try assumption. tauto.
  - rewrite S. split.
    + intros ->. destruct D as [(_ & D)|(D & _)]; [discriminate|]. split; [reflexivity|]. exists s. auto.
    + intros (_ & s' & E & D'). injection E as <-. destruct D as [(D & _)|(_ & D)]; [lra|exact D].
Qed.

Example C70_example :
  (** The PV gives 50 of which the load takes 20 and the battery as much as it may. *)
  (situation full_grid 1 (at_soc (1 # 2)) 20 50 (1 # 2) 25 true
   /\ takes full_grid (1 # 2) 25 /\ battery_first full_grid 1 true /\ ~ genset_needed full_grid 20 50 25 true
   /\ exists c, rb_control whole full_grid 1 (at_soc (1 # 2)) = Ok c
      /\ entry c "battery_charge" == 25 /\ entry c "grid_export" == 5 /\ supplied c == 50 /\ used 20 c == 50)
  (** The grid is out, and the battery gives what it has. *)
  /\ (situation full_grid 2 (at_soc (3 # 5)) 30 0 (3 # 5) 25 false
      /\ genset_needed full_grid 30 0 25 false
      /\ exists c, rb_control whole full_grid 2 (at_soc (3 # 5)) = Ok c
      /\ entry c "battery_discharge" == 25 /\ entry c "genset" == 5 /\ supplied c == 30).
Proof.
  split.
  - split; [apply (full_situation 1 _ _ _ _ _ _ 1 (2 # 10) (1 # 10)); try (vm_compute; reflexivity); try lra;
      right; split; reflexivity|].
    split; [eexists _, _, _, _; repeat (split; [vm_compute; reflexivity|]); vm_compute; reflexivity|].
    split; [|split; [intros (_ & X & _); discriminate|
      eexists; split; [vm_compute; reflexivity|]; vm_compute; repeat split; reflexivity]].
    intros eff im ex P I X. vm_compute in P, I, X. injection P as <-. injection I as <-. injection X as <-.
    split; [reflexivity|]. intros _. vm_compute. reflexivity.
  - split; [apply (full_situation 2 _ _ _ _ _ _ 0 (3 # 10) (2 # 10)); try (vm_compute; reflexivity); try lra;
      left; split; reflexivity|].
    split; [split; [reflexivity|split; [reflexivity|lra]]|].
    eexists; split; [vm_compute; reflexivity|]. vm_compute. repeat split; reflexivity.
Qed.

(** Without a battery there is no decision as soon as there is a grid or a genset. *)
Theorem C70_battery_needed to_int (g : nonmod Q) i st load pv :
  nth_error (nm_load_ts g) i = Some load -> nth_error (nm_pv_ts g) i = Some pv ->
  (has_grid (nm_arch g) = true -> exists s im ex, nth_error (nm_status_ts g) i = Some s
     /\ nth_error (nm_import_ts g) i = Some im /\ nth_error (nm_export_ts g) i = Some ex) ->
  dget "battery_efficiency" (nm_par g) = None -> dget "battery_soc" st = None ->
  has_grid (nm_arch g) = true \/ has_genset (nm_arch g) = true ->
  raises KeyError (rb_control to_int g (Z.of_nat i) st).
Proof.
  intros L P G E S D. unfold rb_control, priorities.
  destruct (has_grid (nm_arch g)) eqn:HG.
  - destruct (G eq_refl) as (s & im & ex & A & B & C).
    rewrite (iloc_nat _ _ _ A), (iloc_nat _ _ _ B), (iloc_nat _ _ _ C). cbn [rbind].
    unfold dfind at 1. rewrite E. cbn [rbind]. eexists. split; reflexivity.
  - destruct D as [D|D]; [discriminate|]. cbn [rbind]. rewrite (iloc_nat _ _ _ L), (iloc_nat _ _ _ P). cbn [rbind].
    unfold run_priority_based, genset_first. rewrite D. unfold rb_room, last_num, dfind at 1. rewrite S. cbn [rbind].
    eexists. split; reflexivity.
Qed.
Print Assumptions C70_battery_needed.
