(** * When a non-modular microgrid runs, and on what data *)

From Coq Require Import ZArith QArith Qabs Qminmax Bool String List Lia Lqa Permutation.
From Verif Require Import Num Py Proofs_Num Proofs_Run NonModular Spec_NonModular Proofs_NonModular Proofs_NmRun
  Proofs_NmHistory Proofs_NmBattery Proofs_NmCost.
Import ListNotations.
Local Open Scope string_scope.
Local Open Scope list_scope.
Local Open Scope Q_scope.

(** ** The variables *)

(** What the variables show after an update. *)
Record shows (g : nonmod Q) (n : now Q) (x : next Q) (b : battery_view Q) : Prop := mkShows {
  sh_pv : iloc (in_use g (nm_pv_ts g)) (nm_t g) = Ok (now_pv n);
  sh_load : iloc (in_use g (nm_load_ts g)) (nm_t g) = Ok (now_load n);
  sh_nx_pv : next_value g (nm_pv_ts g) = Ok (nx_pv x);
  sh_nx_load : next_value g (nm_load_ts g) = Ok (nx_load x);
  sh_grid : if has_grid (nm_arch g) then
      iloc (in_use g (nm_status_ts g)) (nm_t g) = Ok (now_status n)
      /\ iloc (in_use g (nm_import_ts g)) (nm_t g) = Ok (now_import n)
      /\ iloc (in_use g (nm_export_ts g)) (nm_t g) = Ok (now_export n)
      /\ iloc (in_use g (nm_co2_ts g)) (nm_t g) = Ok (now_co2 n)
      /\ next_value g (nm_status_ts g) = Ok (nx_status x)
      /\ next_value g (nm_import_ts g) = Ok (nx_import x)
      /\ next_value g (nm_export_ts g) = Ok (nx_export x)
      /\ next_value g (nm_co2_ts g) = Ok (nx_co2 x)
    else now_status n = now_status (nm_now g) /\ now_import n = now_import (nm_now g)
      /\ now_export n = now_export (nm_now g) /\ now_co2 n = now_co2 (nm_now g)
      /\ nx_status x = nx_status (nm_next g) /\ nx_import x = nx_import (nm_next g)
      /\ nx_export x = nx_export (nm_next g) /\ nx_co2 x = nx_co2 (nm_next g);
  sh_battery : if has_battery (nm_arch g) then
      latest (nm_state g) "battery_soc" (bv_soc b) /\ latest (nm_state g) "capa_to_charge" (bv_charge b)
      /\ latest (nm_state g) "capa_to_discharge" (bv_discharge b)
    else b = nm_battery g
}.

Lemma latest_iff (r : record Q) k c : rbind (dfind r k) (fun l => last_of l) = Ok c <-> latest r k c.
Proof.
  unfold latest. split.
  - intros H. minv. unfind. apply last_of_ok in H. destruct H as (l & ->). eauto.
  - intros (l & E). apply dfind_ok in E. rewrite E. simpl. apply last_of_snoc.
Qed.

(** A state with its variables *)
Definition vars (n : now Q) (x : next Q) (b : battery_view Q) (g : nonmod Q) : nonmod Q :=
  set_battery b (set_next x (set_now n g)).
Lemma vars_self g : g = vars (nm_now g) (nm_next g) (nm_battery g) g.
Proof. destruct g; reflexivity. Qed.
Lemma vars_full g : g = vars
  (mkNow (now_load (nm_now g)) (now_pv (nm_now g)) (now_status (nm_now g)) (now_import (nm_now g))
     (now_export (nm_now g)) (now_co2 (nm_now g)))
  (mkNext (nx_load (nm_next g)) (nx_pv (nm_next g)) (nx_status (nm_next g)) (nx_import (nm_next g))
     (nx_export (nm_next g)) (nx_co2 (nm_next g)))
  (mkBview (bv_soc (nm_battery g)) (bv_charge (nm_battery g)) (bv_discharge (nm_battery g))) g.
Proof. destruct g as [? ? ? ? ? ? ? ? [] [] []]; reflexivity. Qed.
Lemma bind_lift {St A C} (r : res A) (k : A -> M St C) s s' u :
  mbind (mlift r) k s = (s', Ok u) -> exists a, r = Ok a /\ k a s = (s', Ok u).
Proof. unfold mbind, mlift. destruct r as [a|e]; intros H; [eauto|discriminate H]. Qed.
Lemma lift_bind {St A C} (r : res A) (k : A -> M St C) s a : r = Ok a -> mbind (mlift r) k s = k a s.
Proof. intros ->. reflexivity. Qed.
Lemma bind_now {C} f (k : unit -> M _ C) n x b g : mbind (now_grid f) k (vars n x b g) = k tt (vars (f n) x b g).
Proof. reflexivity. Qed.
Lemma bind_next {C} f (k : unit -> M _ C) n x b g : mbind (next_grid f) k (vars n x b g) = k tt (vars n (f x) b g).
Proof. reflexivity. Qed.
Lemma bind_soc {C} c (k : unit -> M _ C) n x b g :
  mbind (mmodify (fun g => set_battery (mkBview c (bv_charge (nm_battery g)) (bv_discharge (nm_battery g))) g)) k (vars n x b g)
  = k tt (vars n x (mkBview c (bv_charge b) (bv_discharge b)) g).
Proof. reflexivity. Qed.
Lemma bind_discharge {C} c (k : unit -> M _ C) n x b g :
  mbind (mmodify (fun g => set_battery (mkBview (bv_soc (nm_battery g)) (bv_charge (nm_battery g)) c) g)) k (vars n x b g)
  = k tt (vars n x (mkBview (bv_soc b) (bv_charge b) c) g).
Proof. reflexivity. Qed.
Lemma do_charge c n x b g :
  mmodify (fun g => set_battery (mkBview (bv_soc (nm_battery g)) c (bv_discharge (nm_battery g))) g) (vars n x b g)
  = (vars n x (mkBview (bv_soc b) c (bv_discharge b)) g, Ok tt).
Proof. reflexivity. Qed.
Lemma do_next f n x b g : next_grid f (vars n x b g) = (vars n (f x) b g, Ok tt).
Proof. reflexivity. Qed.
Lemma bind_bind {St A C D} (f : M St A) (k : A -> M St C) (h : C -> M St D) s :
  mbind (mbind f k) h s = mbind f (fun a => mbind (k a) h) s.
Proof. unfold mbind. destruct (f s) as [s1 [a|e]]; reflexivity. Qed.
Lemma bind_ret {St A C} (a : A) (k : A -> M St C) s : mbind (mret a) k s = k a s.
Proof. reflexivity. Qed.

Lemma eq_left {A} (a b c : A) : a = b -> a = c -> b = c.
Proof. congruence. Qed.

Ltac vstep H :=
  match type of H with
  | mbind (mlift _) _ _ = _ => apply bind_lift in H; let a := fresh "a" in let E := fresh "E" in destruct H as (a & E & H)
  | mbind (mbind _ _) _ _ = _ => apply (eq_left _ _ _ (bind_bind _ _ _ _)) in H
  | mbind (now_grid _) _ _ = _ => apply (eq_left _ _ _ (bind_now _ _ _ _ _ _)) in H
  | mbind (next_grid _) _ _ = _ => apply (eq_left _ _ _ (bind_next _ _ _ _ _ _)) in H
  | mbind (mret _) _ _ = _ => apply (eq_left _ _ _ (bind_ret _ _ _)) in H
  | mbind (mmodify _) _ _ = _ => 
      first [apply (eq_left _ _ _ (bind_soc _ _ _ _ _ _)) in H | apply (eq_left _ _ _ (bind_discharge _ _ _ _ _ _)) in H]
  | mmodify _ _ = _ => apply (eq_left _ _ _ (do_charge _ _ _ _ _)) in H
  | next_grid _ _ = _ => apply (eq_left _ _ _ (do_next _ _ _ _ _)) in H
  end; cbv beta iota delta [now_pv now_load now_status now_import now_export now_co2
      nx_pv nx_load nx_status nx_import nx_export nx_co2 bv_soc bv_charge bv_discharge] in H.

Lemma update_variables_ok (g : nonmod Q) g' u : update_variables g = (g', Ok u) ->
  exists n x b, g' = vars n x b g /\ shows g n x b.
Proof.
  unfold update_variables. unfold mbind at 1, mget at 1. intros H0.
  match type of H0 with ?f g = ?r =>
    match type of (vars_full g) with _ = ?v => assert (H : f v = r) by (rewrite <- vars_full; exact H0) end end.
  clear H0. 
  set (a1 := now_load (nm_now g)) in *. set (a2 := now_pv (nm_now g)) in *. set (a3 := now_status (nm_now g)) in *.
  set (a4 := now_import (nm_now g)) in *. set (a5 := now_export (nm_now g)) in *. set (a6 := now_co2 (nm_now g)) in *.
  set (c1 := nx_load (nm_next g)) in *. set (c2 := nx_pv (nm_next g)) in *. set (c3 := nx_status (nm_next g)) in *.
  set (c4 := nx_import (nm_next g)) in *. set (c5 := nx_export (nm_next g)) in *. set (c6 := nx_co2 (nm_next g)) in *.
  set (d1 := bv_soc (nm_battery g)) in *. set (d2 := bv_charge (nm_battery g)) in *. set (d3 := bv_discharge (nm_battery g)) in *.
  assert (DB : mkBview d1 d2 d3 = nm_battery g) by (unfold d1, d2, d3; destruct (nm_battery g); reflexivity).
  destruct (has_grid (nm_arch g)) eqn:G, (has_battery (nm_arch g)) eqn:B.
  all: repeat vstep H; injection H as <-; do 3 eexists; (split; [reflexivity|]);
    repeat match goal with H : rbind (dfind _ _) _ = Ok _ |- _ => apply latest_iff in H end;
    (constructor; rewrite ?G, ?B; cbn [now_pv now_load now_status now_import now_export now_co2
      nx_pv nx_load nx_status nx_import nx_export nx_co2 bv_soc bv_charge bv_discharge]; auto 10).
Qed.

Ltac vgo :=
  match goal with
  | |- mbind (mlift _) _ _ = _ => erewrite lift_bind by eassumption
  | |- mbind (mbind _ _) _ _ = _ => etransitivity; [apply bind_bind|]
  | |- mbind (now_grid _) _ _ = _ => etransitivity; [apply bind_now|]
  | |- mbind (next_grid _) _ _ = _ => etransitivity; [apply bind_next|]
  | |- mbind (mret _) _ _ = _ => etransitivity; [apply bind_ret|]
  | |- mbind (mmodify _) _ _ = _ =>
      first [etransitivity; [apply bind_soc|] | etransitivity; [apply bind_discharge|]]
  | |- mmodify _ _ = _ => etransitivity; [apply do_charge|]
  | |- next_grid _ _ = _ => etransitivity; [apply do_next|]
  end; cbv beta iota delta [now_pv now_load now_status now_import now_export now_co2
      nx_pv nx_load nx_status nx_import nx_export nx_co2 bv_soc bv_charge bv_discharge].

Lemma update_variables_total (g : nonmod Q) n x b : shows g n x b ->
  update_variables g = (vars n x b g, Ok tt).
Proof.
  intros [S1 S2 S3 S4 S5 S6]. unfold update_variables. unfold mbind at 1, mget at 1.
  match goal with |- ?f g = ?r =>
    match type of (vars_full g) with _ = ?v => assert (H : f v = r); [|rewrite <- vars_full in H; exact H] end end.
  set (a1 := now_load (nm_now g)) in *. set (a2 := now_pv (nm_now g)) in *. set (a3 := now_status (nm_now g)) in *.
  set (a4 := now_import (nm_now g)) in *. set (a5 := now_export (nm_now g)) in *. set (a6 := now_co2 (nm_now g)) in *.
  set (c1 := nx_load (nm_next g)) in *. set (c2 := nx_pv (nm_next g)) in *. set (c3 := nx_status (nm_next g)) in *.
  set (c4 := nx_import (nm_next g)) in *. set (c5 := nx_export (nm_next g)) in *. set (c6 := nx_co2 (nm_next g)) in *.
  set (d1 := bv_soc (nm_battery g)) in *. set (d2 := bv_charge (nm_battery g)) in *. set (d3 := bv_discharge (nm_battery g)) in *.
  assert (DB : mkBview d1 d2 d3 = nm_battery g) by (unfold d1, d2, d3; destruct (nm_battery g); reflexivity).
  destruct n as [n1 n2 n3 n4 n5 n6], x as [x1 x2 x3 x4 x5 x6].
  cbn [now_pv now_load now_status now_import now_export now_co2 nx_pv nx_load nx_status nx_import nx_export nx_co2] in *.
  destruct (has_grid (nm_arch g)) eqn:G; destruct S5 as (T1 & T2 & T3 & T4 & T5 & T6 & T7 & T8);
  destruct (has_battery (nm_arch g)) eqn:B;
    try (destruct S6 as (U1 & U2 & U3); apply latest_iff in U1, U2, U3; destruct b as [b1 b2 b3];
         cbn [bv_soc bv_charge bv_discharge] in * );
    repeat vgo; try rewrite S6, <- DB; try rewrite T1, T2, T3, T4, T5, T6, T7, T8; reflexivity.
Qed.
