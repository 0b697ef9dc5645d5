(** * Lemmas on the actions of the environments of non-modular microgrids *)

From Coq Require Import ZArith QArith Qabs Qminmax Bool String List Lia Lqa.
From Verif Require Import Num Py NonModular OldEnv Spec_Module Spec_NonModular Spec_OldEnv Proofs_Num Proofs_NmRun.
Import ListNotations.
Local Open Scope string_scope.
Local Open Scope list_scope.
Local Open Scope Q_scope.

Lemma nmax_case (a b : Q) : (a <= b /\ nmax a b = b) \/ (b <= a /\ nmax a b = a).
Proof.
  unfold nmax. change (@nltb Q Q_ops) with Qltb. destruct (Qltb a b) eqn:E.
  - left. apply Qltb_lt in E. split; [lra|reflexivity].
  - right. apply Qltb_ge in E. split; [lra|reflexivity].
Qed.
Lemma nmin_case (a b : Q) : (a <= b /\ nmin a b = a) \/ (b <= a /\ nmin a b = b).
Proof.
  unfold nmin. change (@nltb Q Q_ops) with Qltb. destruct (Qltb b a) eqn:E.
  - right. apply Qltb_lt in E. split; [lra|reflexivity].
  - left. apply Qltb_ge in E. split; [lra|reflexivity].
Qed.
Lemma Qmax_cases (a b : Q) : (a <= b /\ Qmax a b = b) \/ (b <= a /\ Qmax a b = a).
Proof.
  unfold Qmax, GenericMinMax.gmax. destruct (a ?= b) eqn:E.
  - right. apply Qeq_alt in E. split; [lra|reflexivity].
  - left. apply Qlt_alt in E. split; [lra|reflexivity].
  - right. apply Qgt_alt in E. split; [lra|reflexivity].
Qed.
Lemma Qmin_cases (a b : Q) : (a <= b /\ Qmin a b = a) \/ (b <= a /\ Qmin a b = b).
Proof.
  unfold Qmin, GenericMinMax.gmin. destruct (a ?= b) eqn:E.
  - left. apply Qeq_alt in E. split; [lra|reflexivity].
  - left. apply Qlt_alt in E. split; [lra|reflexivity].
  - right. apply Qgt_alt in E. split; [lra|reflexivity].
Qed.
Lemma Qabs_cases (a : Q) : (0 <= a /\ Qabs a == a) \/ (a <= 0 /\ Qabs a == - a).
Proof.
  destruct (Qlt_le_dec a 0).
  - right. split; [lra|]. apply Qabs_neg. lra.
  - left. split; [assumption|]. now apply Qabs_pos.
Qed.

(** Split every minimum and maximum, the innermost first. *)
Ltac plain a :=
  lazymatch a with
  | context [@nmax] => fail | context [@nmin] => fail | context [Qmax] => fail | context [Qmin] => fail | _ => idtac
  end.
Ltac mm1 lem a b :=
  plain a; plain b;
  let L := fresh "L" in let E := fresh "E" in
  destruct (lem a b) as [(L & E)|(L & E)]; rewrite !E in *; clear E.
Ltac mm :=
  unfold min3 in *;
  repeat match goal with
  | |- context [@nmax Q _ ?a ?b] => mm1 nmax_case a b
  | |- context [@nmin Q _ ?a ?b] => mm1 nmin_case a b
  | |- context [Qmax ?a ?b] => mm1 Qmax_cases a b
  | |- context [Qmin ?a ?b] => mm1 Qmin_cases a b
  | H : context [@nmax Q _ ?a ?b] |- _ => mm1 nmax_case a b
  | H : context [@nmin Q _ ?a ?b] |- _ => mm1 nmin_case a b
  | H : context [Qmax ?a ?b] |- _ => mm1 Qmax_cases a b
  | H : context [Qmin ?a ?b] |- _ => mm1 Qmin_cases a b
  end.

(** ** The choices of the priority list *)

Lemma num_ok (c : cell Q) x : num c = Ok x -> c = CNum x.
Proof. destruct c; cbn; intros H; try discriminate. now injection H as ->. Qed.
Lemma dfind_par (g : nonmod Q) k x : dfind (nm_par g) k = Ok x -> parameter g k x.
Proof. unfold dfind, parameter. destruct (dget k (nm_par g)); intros H; [now injection H as ->|discriminate]. Qed.

Lemma rooms_ok (g : nonmod Q) cc pc cd pd : battery_rooms g = Ok (cc, pc, cd, pd) ->
  has_battery (nm_arch g) = true
  /\ bv_charge (nm_battery g) = CNum cc /\ parameter g "battery_power_charge" pc
  /\ bv_discharge (nm_battery g) = CNum cd /\ parameter g "battery_power_discharge" pd.
Proof.
  unfold battery_rooms. destruct (has_battery (nm_arch g)); [|discriminate]. intros H.
  apply rbind_ok in H. destruct H as (a & Ha & H). apply rbind_ok in H. destruct H as (b & Hb & H).
  apply rbind_ok in H. destruct H as (c & Hc & H). apply rbind_ok in H. destruct H as (d & Hd & H).
  injection H as <- <- <- <-.
  repeat split; auto using num_ok, dfind_par.
Qed.

Definition amounts_of (c : dict Q) : amounts :=
  let at_ k := match dget k c with Some x => x | None => 0 end in
  mkAmounts (at_ "battery_charge") (at_ "battery_discharge") (at_ "grid_import") (at_ "grid_export") (at_ "genset").

Lemma control_dict_controls (p a b c d e : Q) : controls (control_dict p a b c d e) (mkAmounts a b c d e).
Proof. repeat split. Qed.

(** The numbers behind the choices *)
Section Numbers.
Variables (pv load cc pc cd pd s : Q).
Let net := load - pv.
Let c := Qmax 0 (Qmin cc pc).
Let d := Qmax 0 (Qmin cd pd).
Let m := Qmax 0 net.
Let l := Qmax 0 (pv - load).

Lemma from_pv_spec : nmax n0 (min3 (nopp (nsub load pv)) cc pc) == Qmin c l.
Proof. unfold c, l. unum. mm; lra. Qed.
Lemma from_grid_spec : nmax n0 (nmin cc pc) == c.
Proof. unfold c. unum. mm; lra. Qed.
Lemma discharge_spec : nmax n0 (min3 (nsub load pv) cd pd) == Qmin d m.
Proof. unfold d, m, net. unum. mm; lra. Qed.
Lemma rest_export x : 0 <= x <= l -> nmax n0 (nsub (nsub pv (nmin pv load)) x) == l - x.
Proof. unfold l. unum. intros H. mm; lra. Qed.
Lemma rest_import x : 0 <= x <= m -> nmax n0 (nsub (nsub load (nmin pv load)) x) == m - x.
Proof. unfold m, net. unum. intros H. mm; lra. Qed.
Lemma all_import : nmax n0 (nsub load pv) == m.
Proof. unfold m, net. unum. mm; lra. Qed.
Lemma all_import' : nmax (nsub load pv) n0 == m.
Proof. unfold m, net. unum. mm; lra. Qed.
Lemma all_import'' : nmax n0 (nsub load (nmin pv load)) == m.
Proof. unfold m, net. unum. mm; lra. Qed.
Lemma all_export : nabs (nmin (nsub load pv) n0) == l.
Proof.
  unfold l. unum. destruct (Qabs_cases (nmin (load - pv) 0)) as [(A & ->)|(A & ->)]; mm; lra.
Qed.
Lemma charge_import x : nmax n0 (nsub (nadd load x) (nmin pv (nadd load x))) == Qmax 0 (net + x).
Proof. unfold net. unum. mm; lra. Qed.
Lemma charge_export x : 0 <= x -> nmax n0 (nsub (nsub pv (nmin pv (nadd load x))) x) == Qmax 0 (- net - 2 * x).
Proof. unfold net. unum. intros H. mm; lra. Qed.
Lemma charge_bounds : 0 <= Qmin c l <= l.
Proof. unfold c, l. mm; lra. Qed.
Lemma discharge_bounds : 0 <= Qmin d m <= m.
Proof. unfold d, m, net. mm; lra. Qed.
Lemma c_pos : 0 <= c.
Proof. unfold c. mm; lra. Qed.
End Numbers.

Ltac numbers :=
  repeat first
  [ rewrite rest_export by (rewrite from_pv_spec; apply charge_bounds)
  | rewrite rest_import by (rewrite discharge_spec; apply discharge_bounds)
  | rewrite charge_import | rewrite charge_export by (rewrite from_grid_spec; apply c_pos)
  | rewrite all_import'' | rewrite all_import | rewrite all_import' | rewrite all_export
  | rewrite from_pv_spec | rewrite from_grid_spec | rewrite discharge_spec ].

Lemma priority_asks (g : nonmod Q) k c : action_priority g k = Ok c ->
  exists i x y a, meaning (nm_arch g) k = Some i /\ can_charge g x /\ can_discharge g y /\ controls c a /\ asks g i x y a.
Proof.
  unfold action_priority. intros H.
  apply rbind_ok in H. destruct H as ((((cc & pc) & cd) & pd) & HB & H).
  pose proof (rooms_ok g cc pc cd pd HB) as (Hb & C1 & C2 & C3 & C4).
  assert (CC : can_charge g (Qmax 0 (Qmin cc pc))) by (exists cc, pc; repeat split; auto; reflexivity).
  assert (CD : can_discharge g (Qmax 0 (Qmin cd pd))) by (exists cd, pd; repeat split; auto; reflexivity).
  match goal with |- ?X => set (P := X) end.
  assert (G : forall i p a1 a2 a3 a4 a5, meaning (nm_arch g) k = Some i -> control_dict p a1 a2 a3 a4 a5 = c ->
    asks g i (Qmax 0 (Qmin cc pc)) (Qmax 0 (Qmin cd pd)) (mkAmounts a1 a2 a3 a4 a5) ->
    P).
  { intros i p a1 a2 a3 a4 a5 M <- A. unfold P. do 4 eexists. repeat (split; [eassumption|]). split; [apply control_dict_controls|exact A]. }
  unfold action_grid_genset, action_genset, action_grid in H. rewrite !HB in H.
  unfold meaning in G.
  unfold asks, line, missing, left_over in G.
  destruct (has_genset (nm_arch g)) eqn:HG; destruct (has_grid (nm_arch g)) eqn:HR; cbn [andb orb negb] in H, G;
    cbn [rbind] in H.
  1,2: apply rbind_ok in H; destruct H as (rated & _ & H); apply rbind_ok in H; destruct H as (pmax & _ & H).
  all: repeat match type of H with
    | (if Z.eqb ?kk ?n then _ else _) = _ =>
        destruct (Z.eqb_spec kk n); [subst kk; injection H as H; eapply G; [reflexivity|exact H|]; clear G|]
    | no_choice = _ => discriminate H
    end.
  all: cbn [am_charge am_discharge am_import am_export am_genset].
  all: repeat apply conj; try reflexivity; numbers; try reflexivity; try (unum; lra).
Qed.

Lemma priority_rooms (g : nonmod Q) x y : has_battery (nm_arch g) = true -> can_charge g x -> can_discharge g y ->
  exists r, battery_rooms g = Ok r.
Proof.
  intros HB (a & b & A1 & A2 & _) (c & d & C1 & C2 & _). unfold parameter in *.
  unfold battery_rooms, dfind. rewrite HB, A1, A2, C1, C2. cbn. eauto.
Qed.

(** Which numbers are choices *)
Lemma priority_verdict (g : nonmod Q) k x y : has_battery (nm_arch g) = true -> can_charge g x -> can_discharge g y ->
  (has_genset (nm_arch g) = true -> (exists a, parameter g "genset_rated_power" a) /\ exists b, parameter g "genset_pmax" b) ->
  match meaning (nm_arch g) k with
  | Some _ => exists c, action_priority g k = Ok c
  | None => raises NameError (action_priority g k)
  end.
Proof.
  intros HB C D GP. destruct (priority_rooms g x y HB C D) as ((((cc & pc) & cd) & pd) & HR).
  unfold action_priority, action_grid_genset, action_genset, action_grid. rewrite !HR. cbn [rbind].
  assert (N : raises NameError (@no_choice Q)) by (eexists; split; reflexivity).
  assert (KK : forall (l : list intent), nth_intent l k <> None -> (0 <= k < Z.of_nat (length l))%Z).
  { intros l H. unfold nth_intent in H. destruct (Z.ltb_spec k 0); [congruence|]. apply nth_error_Some in H. lia. }
  assert (KN : forall (l : list intent), nth_intent l k = None -> (k < 0 \/ Z.of_nat (length l) <= k)%Z).
  { intros l H. unfold nth_intent in H. destruct (Z.ltb_spec k 0); [lia|]. apply nth_error_None in H. lia. }
  unfold meaning. destruct (has_genset (nm_arch g)) eqn:HG; destruct (has_grid (nm_arch g)) eqn:HR'; cbn [andb].
  1,2: destruct (GP eq_refl) as ((ra & RA) & (pm & PM)); unfold parameter in RA, PM; unfold dfind; rewrite RA, PM; cbn [rbind].
  all: match goal with |- match nth_intent ?l ?kk with _ => _ end =>
         specialize (KK l); specialize (KN l); destruct (nth_intent l kk) as [i|];
         [assert (R := KK ltac:(discriminate))|assert (R := KN eq_refl)]; cbn [length] in R end.
  all: repeat match goal with |- context [Z.eqb ?kk ?n] => destruct (Z.eqb_spec kk n); [try (exfalso; lia)|] end; try (exfalso; lia).
  all: first [exact N|eexists; reflexivity].
Qed.

(** ** What a run makes of a choice *)

Lemma parameter_unique (g : nonmod Q) k x y : parameter g k x -> parameter g k y -> x = y.
Proof. unfold parameter. congruence. Qed.

Lemma unclipped_charge g x soc r room cc ch : can_charge g x -> bv_charge (nm_battery g) = CNum r -> charge_room g soc room ->
  r <= room -> powers_ok g -> charge_limit g soc cc -> 0 <= ch <= x -> limited ch cc == ch.
Proof.
  intros (r1 & pw & B & PW & X) B' (smax & cap & eff & P1 & P2 & P3 & RM) L OK (smax' & cap' & eff' & pw' & P1' & P2' & P3' & P4' & CC) CH.
  rewrite B in B'. injection B' as ->.
  rewrite <- (parameter_unique _ _ _ _ P1 P1'), <- (parameter_unique _ _ _ _ P2 P2'), <- (parameter_unique _ _ _ _ P3 P3'),
    <- (parameter_unique _ _ _ _ PW P4') in CC.
  assert (0 <= pw) by (apply (OK "battery_power_charge"); [simpl; tauto|exact PW]).
  assert (0 <= room) by (rewrite RM; apply Q.le_max_l).
  rewrite <- RM in CC. unfold limited. rewrite CC. mm; lra.
Qed.
Lemma unclipped_discharge g x soc r room cc ch : can_discharge g x -> bv_discharge (nm_battery g) = CNum r ->
  discharge_room g soc room -> r <= room -> powers_ok g -> discharge_limit g soc cc -> 0 <= ch <= x -> limited ch cc == ch.
Proof.
  intros (r1 & pw & B & PW & X) B' (smax & cap & eff & P1 & P2 & P3 & RM) L OK (smax' & cap' & eff' & pw' & P1' & P2' & P3' & P4' & CC) CH.
  rewrite B in B'. injection B' as ->.
  rewrite <- (parameter_unique _ _ _ _ P1 P1'), <- (parameter_unique _ _ _ _ P2 P2'), <- (parameter_unique _ _ _ _ P3 P3'),
    <- (parameter_unique _ _ _ _ PW P4') in CC.
  assert (0 <= pw) by (apply (OK "battery_power_discharge"); [simpl; tauto|exact PW]).
  assert (0 <= room) by (rewrite RM; apply Q.le_max_l).
  rewrite <- RM in CC. unfold limited. rewrite CC. mm; lra.
Qed.

Lemma can_pos g x : can_charge g x -> 0 <= x.
Proof. intros (? & ? & _ & _ & X). rewrite X. apply Q.le_max_l. Qed.
Lemma can_pos' g x : can_discharge g x -> 0 <= x.
Proof. intros (? & ? & _ & _ & X). rewrite X. apply Q.le_max_l. Qed.

(** What is asked of the battery is possible. *)
Lemma asks_charge g i x y a : asks g i x y a -> 0 <= x -> 0 <= y -> 0 <= am_charge a <= x /\ 0 <= am_discharge a <= y.
Proof.
  intros A X Y. unfold asks in A. set (m := missing g) in *. set (l := left_over g) in *.
  assert (M : 0 <= m) by apply Q.le_max_l. assert (L : 0 <= l) by apply Q.le_max_l.
  destruct i; destruct A as (A1 & A2 & _); rewrite A1, A2;
    try (pose proof (Q.le_min_l x l); pose proof (Q.min_glb x l 0 X L));
    try (pose proof (Q.le_min_l y m); pose proof (Q.min_glb y m 0 Y M)); lra.
Qed.

Lemma latest_num (r : record Q) k x y : latest r k (CNum x) -> latest r k (CNum y) -> x = y.
Proof.
  intros (l & E) (l' & E'). rewrite E in E'. injection E' as E'. apply app_inj_tail in E'. destruct E' as (_ & E'). congruence.
Qed.

Lemma choice_asked g k c i a o : action_priority g k = Ok c -> meaning (nm_arch g) k = Some i -> controls c a ->
  shows_room g -> powers_ok g -> follows g c o ->
  exists x y, can_charge g x /\ can_discharge g y /\ asks g i x y a
    /\ oc_charge o == am_charge a /\ oc_discharge o == am_discharge a.
Proof.
  intros AP M CA (soc & r & room & r' & room' & LS & B1 & R1 & S1 & B2 & R2 & S2) OK F.
  destruct (priority_asks g k c AP) as (i' & x & y & a' & M' & C & D & CA' & A).
  rewrite M in M'. injection M' as <-.
  assert (a' = a) as ->.
  { destruct a, a'. destruct CA as (X1 & X2 & X3 & X4 & X5), CA' as (Y1 & Y2 & Y3 & Y4 & Y5). cbn in *. congruence. }
  exists x, y.
  assert (HB : has_battery (nm_arch g) = true).
  { unfold action_priority in AP. apply rbind_ok in AP. destruct AP as ((((? & ?) & ?) & ?) & E & _). apply rooms_ok in E. apply E. }
  repeat (split; [assumption|]). pose proof (asks_charge g i x y a A (can_pos _ _ C) (can_pos' _ _ D)) as (K1 & K2).
  destruct F as (F & _). rewrite HB in F. destruct F as (x1 & y1 & soc1 & cc & cd & X1 & Y1 & LS1 & CC & CD & O1 & O2).
  rewrite (latest_num _ _ _ _ LS LS1) in *.
  destruct CA as (D1 & D2 & _). rewrite D1 in X1. injection X1 as <-. rewrite D2 in Y1. injection Y1 as <-.
  rewrite O1, O2. split; [eapply unclipped_charge|eapply unclipped_discharge]; eauto.
Qed.

Lemma choice_followed g k c g' v i a : action_priority g k = Ok c -> meaning (nm_arch g) k = Some i -> controls c a ->
  shows_room g -> powers_ok g -> nm_run c g = (g', Ok v) ->
  exists x y o, can_charge g x /\ can_discharge g y /\ asks g i x y a /\ produced g g' o /\ follows g c o
    /\ oc_charge o == am_charge a /\ oc_discharge o == am_discharge a.
Proof.
  intros AP M CA SR OK H. destruct (run_follows c g g' v H) as (o & P & F).
  destruct (choice_asked g k c i a o AP M CA SR OK F) as (x & y & K1 & K2 & K3 & K4 & K5).
  exists x, y, o. auto 10.
Qed.
