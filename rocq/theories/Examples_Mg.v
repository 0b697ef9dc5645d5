(** * A concrete microgrid, used to show that hypotheses can be met *)

From Coq Require Import ZArith QArith Bool String List Lia.
From Verif Require Import Num Py Space Logger Forecast Module Container Microgrid
  Spec_Module Spec_Reach Spec_Microgrid Proofs_Container.
Import ListNotations.
Local Open Scope string_scope.
Local Open Scope list_scope.

(** ** Deciding the hypotheses *)
Definition cat_eqb (a b : category) : bool := mtype_eqb (fst a) (fst b) && ssink_eqb (snd a) (snd b).
Lemma cat_eqb_eq a b : cat_eqb a b = true -> a = b.
Proof.
  destruct a as [[] []], b as [[] []]; intros E; vm_compute in E; try discriminate E; reflexivity.
Qed.
Definition separate_b (ds : list (mdef Q)) : bool :=
  forallb (fun d => forallb (fun d' => negb (String.eqb (mdef_name d) (mdef_name d'))
                                       || cat_eqb (category_of (snd d)) (category_of (snd d'))) ds) ds.
Lemma separate_b_ok ds : separate_b ds = true -> names_separate ds.
Proof.
  intros H d d' I I' E. unfold separate_b in H. rewrite forallb_forall in H. pose proof (H d I) as H1.
  rewrite forallb_forall in H1. pose proof (H1 d' I') as H2. rewrite E, String.eqb_refl in H2. apply cat_eqb_eq. exact H2.
Qed.
Definition complete_b (ds : list (mdef Q)) (c : control Q) : bool :=
  forallb (fun d => match fst (category_of (snd d)), dget (mdef_name d) c with
                    | Controllable, Some v =>
                        Nat.leb (length (members (mdef_name d) (category_of (snd d)) 0 ds)) (length (ctrl_list v))
                    | Controllable, None => false
                    | _, _ => true
                    end) ds.
Lemma complete_b_ok ds c : complete_b ds c = true -> complete ds c.
Proof.
  intros H nm s NE. unfold complete_b in H. rewrite forallb_forall in H.
  destruct (members nm (Controllable, s) 0 ds) as [|j l] eqn:M; [congruence|].
  assert (I : In j (members nm (Controllable, s) 0 ds)) by (rewrite M; simpl; auto).
  apply members_iff in I. destruct I as (d & N & _ & NM & C). apply nth_error_In in N.
  specialize (H _ N). rewrite C, NM in H. cbn [fst] in H. rewrite M in H. destruct (dget nm c) as [v|]; [|discriminate].
  exists v. split; [reflexivity|]. apply Nat.leb_le. exact H.
Qed.

(** ** The microgrid *)
Definition or_balancing (r : res (module Q)) : module Q :=
  match r with Ok m => m | Err _ => new_unbalanced false 0 1 1 end.
Definition mg_rnd : frand Q := mkFrand 0 (fun k i j => 0%Q).
Definition mg_load : module Q :=
  or_balancing (new_load [[5]; [7]; [1]; [3]] FPOracle 2 false 0 4 false mg_rnd).
Definition mg_pv : module Q :=
  or_balancing (new_renewable [[3]; [0]; [9]; [2]] FPNone 0 false 0 4 false "renewable_used" mg_rnd).
Definition mg_battery : module Q :=
  or_balancing (new_battery 2 10 4 3 (9#10) (1#50) None (Some 5%Q) None 0 false).
Definition mg_genset : module Q :=
  or_balancing (new_genset 1 20 (FuelLin (2#5)) (1#10) 3 0 0 true true 0 false "genset_production").
Definition mg_grid : module Q :=
  or_balancing (new_grid 10 20 [[1; 2; 3]; [4; 5; 6]; [7; 8; 9]; [1; 1; 1]]%Q FPNone 0 false 0 4 (1#10) false Controllable mg_rnd).
Definition ex_defs : list (mdef Q) :=
  [(Some "load", mg_load); (Some "pv", mg_pv); (None, mg_battery); (None, mg_genset); (None, mg_grid)].

Lemma or_balancing_reachable r : (forall m, r = Ok m -> built m) -> reachable (or_balancing r).
Proof.
  intros H. destruct r as [m|e]; simpl; (eexists; exists []; split; [|reflexivity]); [auto|apply built_unbalanced].
Qed.
Lemma ex_defs_reachable : Forall (fun d => reachable (snd d)) ex_defs.
Proof.
  repeat constructor; apply or_balancing_reachable; intros m E.
  - eapply built_load; [|exact E]. repeat constructor.
  - eapply built_renewable; [|exact E]. repeat constructor.
  - eapply built_battery; exact E.
  - eapply built_genset; exact E.
  - eapply built_grid; exact E.
Qed.
Lemma ex_defs_fresh : Forall (fun d => fresh (snd d)) ex_defs.
Proof. repeat constructor. Qed.
Definition ex_all : list (mdef Q) := all_defs ex_defs true 10 2.
Lemma ex_separate : names_separate ex_all.
Proof. apply separate_b_ok. vm_compute. reflexivity. Qed.

(** Charge the battery by 2, genset on with 3, sell or buy [x]. *)
Definition ex_control (x : Q) : control Q :=
  [("battery", CList [VS (-2)]); ("genset", CList [VA [1; 3]%Q]); ("grid", CList [VS x])].
Lemma ex_complete x : complete ex_all (ex_control x).
Proof. apply complete_b_ok. vm_compute. reflexivity. Qed.

(** The microgrid after some calls. *)
Definition ex_mg : res (mgrid Q) := new_microgrid ex_defs true 10 2 None None.
Definition after (cs : list mcall) (g : mgrid Q) : mgrid Q := mplay cs g.
Lemma ex_built g : ex_mg = Ok g -> mbuilt ex_defs true 10 2 None None g.
Proof. intros E. split; [exact ex_defs_reachable|exact E]. Qed.
Lemma ex_from g cs : ex_mg = Ok g -> from_modules ex_all (mplay cs g).
Proof.
  intros E. exists ex_defs, true, 10%Q, 2%Q, None, None, g, cs.
  split; [apply ex_built; exact E|]. split; reflexivity.
Qed.
