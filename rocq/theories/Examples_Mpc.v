(** * A concrete microgrid for the model predictive control *)

From Coq Require Import ZArith QArith Bool String List Lia.
From Verif Require Import Num Py Space Logger Forecast Module Container Microgrid NonModular Conversion MPC
  Spec_Module Spec_Reach Spec_Sane Spec_Microgrid Spec_Conversion Spec_MPC Examples_Mg.
Import ListNotations.
Local Open Scope string_scope.
Local Open Scope list_scope.

Definition pc_load : module Q := or_balancing (new_load [[5]; [7]; [1]; [3]] FPOracle 2 false 0 4 false mg_rnd).
Definition pc_pv : module Q :=
  or_balancing (new_renewable [[3]; [0]; [9]; [2]] FPOracle 2 false 0 4 false "renewable_used" mg_rnd).
Definition pc_grid : module Q :=
  or_balancing (new_grid 10 20 [[1; 2; 3]; [4; 5; 6]; [7; 8; 9]; [1; 1; 1]]%Q FPOracle 2 false 0 4 (1#10) false Controllable mg_rnd).
Definition pc_defs : list (mdef Q) :=
  [(Some "load", pc_load); (Some "pv", pc_pv); (None, mg_battery); (None, mg_genset); (None, pc_grid)].
Definition pc_all : list (mdef Q) := all_defs pc_defs true 10 2.
Lemma pc_reachable : Forall (fun d => reachable (snd d)) pc_defs.
Proof.
  repeat constructor; apply or_balancing_reachable; intros m E.
  - eapply built_load; [|exact E]. repeat constructor.
  - eapply built_renewable; [|exact E]. repeat constructor.
  - eapply built_battery; exact E.
  - eapply built_genset; exact E.
  - eapply built_grid; exact E.
Qed.
Lemma pc_separate : names_separate pc_all.
Proof. apply separate_b_ok. vm_compute. reflexivity. Qed.
Notation pc_mg := (new_microgrid pc_defs true 10%Q 2%Q None None).
Lemma pc_from g cs : pc_mg = Ok g -> from_modules pc_all (mplay cs g).
Proof.
  intros E. exists pc_defs, true, 10%Q, 2%Q, None, None, g, cs.
  split; [split; [exact pc_reachable|exact E]|]. split; reflexivity.
Qed.
Lemma pc_sane : Forall (fun d => sane_reachable (snd d)) pc_all.
Proof.
  repeat constructor; (eexists; exists []; split; [|reflexivity]); cbn [snd].
  - eapply (sane_load [[5]; [7]; [1]; [3]] FPOracle 2 false 0 4 false mg_rnd); [vm_compute; repeat (constructor; [reflexivity|]); constructor|intros (? & H); discriminate H|vm_compute; reflexivity].
  - eapply (sane_renewable [[3]; [0]; [9]; [2]] FPOracle 2 false 0 4 false "renewable_used" mg_rnd); [vm_compute; repeat (constructor; [reflexivity|]); constructor|intros (? & H); discriminate H|vm_compute; reflexivity].
  - eapply (sane_battery 2 10 4 3 (9#10) (1#50) (Some 5%Q) None 0 false); vm_compute; first [reflexivity | congruence].
  - eapply (sane_genset 1 20 (FuelLin (2#5)) (1#10) 3 0 0 true true 0 false "genset_production"); vm_compute; first [reflexivity | congruence].
  - eapply (sane_grid 10 20 [[1; 2; 3]; [4; 5; 6]; [7; 8; 9]; [1; 1; 1]]%Q FPOracle 2 false 0 4 (1#10) false Controllable mg_rnd); [discriminate|intros (? & H); discriminate H|vm_compute; reflexivity].
  - apply sane_unbalanced; vm_compute; congruence.
Qed.
Lemma pc_lenient : Forall (fun d => lenient (snd d)) pc_all.
Proof. repeat constructor. Qed.
Lemma pc_names : no_reserved_name pc_all.
Proof. intros d I. simpl in I. repeat (destruct I as [<-|I]; [vm_compute; split; discriminate|]). destruct I. Qed.

(** The controller, and the program it poses first *)
Definition no_round (x : Q) : Q := x.
Definition no_poly (_ : nat) : Q := 0%Q.
Definition pc_posed : res (mgrid Q * mpc Q * mpc_data Q * problem Q) :=
  rbind pc_mg (fun g => rbind (new_mpc no_round no_poly g) (fun c =>
  rbind (state_values c g) (fun d => rbind (make_problem c d) (fun pr => Ok (g, c, d, pr))))).
