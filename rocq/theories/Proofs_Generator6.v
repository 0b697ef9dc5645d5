(** * Proofs about generated microgrids: the first row of the states *)

From Coq Require Import ZArith QArith Qminmax Lqa Lia Bool String List.
From Verif Require Import Num Py Module NonModular Generator Proofs_Num Proofs_Ts Spec_NonModular Spec_Generator
  Proofs_NonModular Proofs_NmEpisode Proofs_NmTotal.
Import ListNotations.
Local Open Scope string_scope.
Local Open Scope Q_scope.

Lemma nmax_Qmax (a b c : Q) : a == c -> nmax a b == Qmax c b.
Proof.
  intros E. unfold nmax. change (@nltb Q Q_ops) with Qltb. destruct (Q.max_spec c b) as [(L & M)|(L & M)]; rewrite M.
  - destruct (Qltb a b) eqn:X; [reflexivity|]. apply Qltb_ge in X. lra.
  - destruct (Qltb a b) eqn:X; [apply Qltb_lt in X; lra|exact E].
Qed.

Lemma dfind_ok {A} (d : dict A) k x : dfind d k = Ok x -> dget k d = Some x.
Proof. unfold dfind. destruct (dget k d); [|discriminate]. congruence. Qed.
Lemma new_views (sp : nm_spec Q) h g : new_nonmodular sp h = Ok g -> has_battery (sp_arch sp) = true ->
  exists cc cd soc, dget "capa_to_charge" (sp_status sp) = Some cc /\ dget "capa_to_discharge" (sp_status sp) = Some cd
    /\ dget "battery_soc_0" (sp_parameters sp) = Some soc
    /\ exists x y, first_of cc = Ok x /\ first_of cd = Ok y /\ nm_battery g = mkBview (CNum soc) x y.
Proof.
  unfold new_nonmodular. intros H HB. rewrite HB in H.
  do 6 (apply rbind_ok in H; destruct H as (? & _ & H)).
  apply rbind_ok in H. destruct H as (((((s & i) & e) & c) & (((s0 & i0) & e0) & c0)) & _ & H).
  apply rbind_ok in H. destruct H as (bat & B & H).
  apply rbind_ok in H. destruct H as (? & _ & H). apply rbind_ok in H. destruct H as (? & _ & H). injection H as <-.
  apply rbind_ok in B. destruct B as (bx & X & B). apply rbind_ok in X. destruct X as (cc & CC & X).
  apply rbind_ok in B. destruct B as (by_ & Y & B). apply rbind_ok in Y. destruct Y as (cd & CD & Y).
  apply rbind_ok in B. destruct B as (soc & S0 & B). apply rbind_ok in B. destruct B as (? & _ & B). injection B as <-.
  apply dfind_ok in CC, CD, S0. exists cc, cd, soc. split; [exact CC|]. split; [exact CD|]. split; [exact S0|]. exists bx, by_. auto.
Qed.

Theorem created_starts ceil trunc around (fs : folders Q) d g : create_microgrid ceil trunc around fs d = Ok g -> starts around g.
Proof.
  unfold create_microgrid, microgrid_spec. intros H. apply rbind_ok in H. destruct H as (sp & ES & NG).
  destruct (bin_genset_grid (dr_arch d)) as (bg & br).
  apply rbind_ok in ES. destruct ES as (lf & _ & ES). set (load := scale_ts lf _) in ES. clearbody load.
  apply rbind_ok in ES. destruct ES as (sz & _ & ES). apply rbind_ok in ES. destruct ES as (load0 & L0 & ES).
  apply rbind_ok in ES. destruct ES as (pf & _ & ES). set (pv := scale_ts pf _) in ES. clearbody pv.
  apply rbind_ok in ES. destruct ES as (pv0 & P0 & ES). apply rbind_ok in ES. destruct ES as (grid & GR & ES).
  injection ES as ES. symmetry in ES.
  apply iloc_ok in L0; [|lia]. apply iloc_ok in P0; [|lia]. change (Z.to_nat 0) with 0%nat in L0, P0.
  destruct (new_nonmodular_ok sp 24 g NG) as (O1 & O2 & _ & _ & _ & O6 & _ & O8 & O9 & O10 & _).
  assert (EL : nm_load_ts g = load) by (rewrite ES in O8; cbn [assemble_spec sp_load] in O8; congruence).
  assert (EP : nm_pv_ts g = pv) by (rewrite ES in O9; cbn [assemble_spec sp_pv] in O9; congruence).
  assert (HB : has_battery (sp_arch sp) = true) by (rewrite ES; reflexivity).
  destruct (new_views sp 24 g NG HB) as (cc & cd & soc & CC & CD & S0 & x & y & X & Y & BV).
  unfold starts, parameter. rewrite O1, O2, O6, EL, EP, BV. clear O1 O6 O8 O9 EL EP BV HB NG.
  split; [|split].
  - exists load0, pv0. rewrite ES. auto 10.
  - subst sp. set (b := get_battery ceil (sz_battery sz) (dr_soc d)) in *.
    cbn in CC, CD, S0. injection CC as <-. injection CD as <-. injection S0 as <-. cbn in X, Y. injection X as <-. injection Y as <-.
    eexists (bi_capa b), (bi_soc_0 b), (bi_soc_min b), (bi_soc_max b), (bi_efficiency b), _, _.
    split; [reflexivity|]. split; [reflexivity|]. split; [reflexivity|]. split; [reflexivity|]. split; [reflexivity|].
    split; [|split; [|split; [reflexivity|split; [reflexivity|reflexivity]]]].
    + apply nmax_Qmax. fold b. clearbody b. change (@ndiv Q Q_ops) with Qdiv. change (@nsub Q Q_ops) with Qminus. change (@nmul Q Q_ops) with Qmult. unfold Qdiv. ring.
    + apply nmax_Qmax. fold b. clearbody b. change (@nsub Q Q_ops) with Qminus. change (@nmul Q Q_ops) with Qmult. ring.
  - intros HG. destruct (O10 HG) as (Q1 & Q2 & Q3 & Q4 & _). subst sp. destruct br; [|injection GR as <-; discriminate HG].
    apply rbind_ok in GR. destruct GR as (gp & GP & GR). injection GR as <-.
    cbn [assemble_spec sp_grid_ts sp_import sp_export sp_co2 option_map] in Q1, Q2, Q3, Q4.
    injection Q1 as <-. injection Q2 as <-. injection Q3 as <-. injection Q4 as <-.
    unfold grid_addition_of in GP. set (gi := get_grid _ _ _ _) in GP. clearbody gi.
    apply rbind_ok in GP. destruct GP as (s0 & S0' & GP). apply rbind_ok in GP. destruct GP as (co2 & _ & GP).
    apply rbind_ok in GP. destruct GP as (c0 & C0 & GP). apply rbind_ok in GP. destruct GP as (i0 & I0 & GP).
    apply rbind_ok in GP. destruct GP as (e0 & E0 & GP). injection GP as <-. cbn [gp_info gp_co2 gp_status].
    apply iloc_ok in S0'; [|lia]. apply iloc_ok in C0; [|lia]. apply iloc_ok in I0; [|lia]. apply iloc_ok in E0; [|lia].
    exists s0, i0, e0, c0. change (Z.to_nat 0) with 0%nat in *. auto 10.
Qed.
