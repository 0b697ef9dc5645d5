From Coq Require Import ZArith QArith Qabs Bool String List Lia Lqa.
From Verif Require Import Num Py Space Logger Forecast Module Proofs_Num Spec_Module.
Import ListNotations.
Local Open Scope Q_scope.

Lemma entries_as_list v : as_list v = entries v.
Proof. destruct v; reflexivity. Qed.

Lemma shape_check_ok sp v f : fits sp v -> shape_check sp v f = Ok tt.
Proof.
  unfold fits, shape_check. destruct v; simpl; intros E.
  - rewrite <- E. reflexivity.
  - rewrite E, Nat.eqb_refl. reflexivity.
Qed.

Lemma shape_check_err sp v f : ~ fits sp v -> raises TypeError (shape_check sp v f).
Proof.
  unfold fits, shape_check, raises. destruct v; simpl; intros E.
  - destruct (Nat.eqb_spec (length (sp_low sp)) 1); [congruence|].
    eexists; split; reflexivity.
  - destruct (Nat.eqb_spec (length xs) (length (sp_low sp))); [congruence|].
    eexists; split; reflexivity.
Qed.

Lemma entries_item xs : entries (item_or_arr xs) = xs.
Proof. destruct xs as [|x [|]]; reflexivity. Qed.

Definition nvals (lo sp xs : list Q) : list Q :=
  map2 (fun x ls => norm1 (fst ls) (snd ls) x) xs (combine lo sp).
Definition dvals (lo sp ys : list Q) : list Q :=
  map2 (fun x ls => denorm1 (fst ls) (snd ls) x) ys (combine lo sp).

Lemma normalize_eq sp v : fits sp v ->
  normalize sp v = Ok (item_or_arr (nvals (sp_low sp) (sp_spread sp) (entries v))).
Proof.
  intros F. unfold normalize. rewrite shape_check_ok by assumption. simpl.
  rewrite entries_as_list. reflexivity.
Qed.
Lemma denormalize_eq sp v : fits sp v ->
  denormalize sp v = Ok (item_or_arr (dvals (sp_low sp) (sp_spread sp) (entries v))).
Proof.
  intros F. unfold denormalize. rewrite shape_check_ok by assumption. simpl.
  rewrite entries_as_list. reflexivity.
Qed.

Lemma spread1_nz lo hi : ~ spread1 lo hi == 0.
Proof.
  unfold spread1. unum. destruct (Qeq_bool (hi - lo) 0) eqn:E; qprop; [lra|assumption].
Qed.

Lemma spread_len sp : box sp -> length (sp_spread sp) = length (sp_low sp).
Proof. intros B. unfold sp_spread. apply map2_length. exact B. Qed.

Lemma vals_len {C} (f : Q -> Q * Q -> C) xs (lo sp : list Q) :
  length lo = length sp -> length xs = length lo ->
  length (map2 f xs (combine lo sp)) = length xs.
Proof.
  intros. apply map2_length. rewrite combine_length. lia.
Qed.

Lemma roundtrip1 lo hi : forall xs,
  length lo = length hi -> length xs = length lo ->
  let s := map2 spread1 lo hi in
  Forall2 Qeq (dvals lo s (nvals lo s xs)) xs.
Proof.
  revert hi. induction lo as [|l lo IH]; intros [|h hi] [|x xs]; simpl; intros; try discriminate;
    constructor.
  - unfold denorm1, norm1. unum. simpl. field. apply spread1_nz.
  - apply IH; congruence.
Qed.

Lemma roundtrip2 lo hi : forall xs,
  length lo = length hi -> length xs = length lo ->
  let s := map2 spread1 lo hi in
  Forall2 Qeq (nvals lo s (dvals lo s xs)) xs.
Proof.
  revert hi. induction lo as [|l lo IH]; intros [|h hi] [|x xs]; simpl; intros; try discriminate;
    constructor.
  - unfold denorm1, norm1. unum. simpl. field. apply spread1_nz.
  - apply IH; congruence.
Qed.

Lemma normalize_shape_err sp v : ~ fits sp v -> raises TypeError (normalize sp v).
Proof.
  intros N. destruct (shape_check_err sp v "normalize" N) as (e & E & C).
  unfold normalize. rewrite E. exists e. split; [reflexivity|assumption].
Qed.
Lemma denormalize_shape_err sp v : ~ fits sp v -> raises TypeError (denormalize sp v).
Proof.
  intros N. destruct (shape_check_err sp v "denormalize" N) as (e & E & C).
  unfold denormalize. rewrite E. exists e. split; [reflexivity|assumption].
Qed.

Lemma C01_lemma (sp : space Q) (v : pyval Q) : box sp ->
  (fits sp v ->
     (exists w v', normalize sp v = Ok w /\ denormalize sp w = Ok v' /\ same_value v' v)
  /\ (exists w v', denormalize sp v = Ok w /\ normalize sp w = Ok v' /\ same_value v' v))
  /\ (~ fits sp v -> raises TypeError (normalize sp v) /\ raises TypeError (denormalize sp v)).
Proof.
  intros B. split; [intros F; split|intros N; split].
  - set (w := item_or_arr (nvals (sp_low sp) (sp_spread sp) (entries v))).
    assert (Fw : fits sp w).
    { unfold fits, w. rewrite entries_item. unfold nvals. rewrite vals_len; auto.
      rewrite spread_len; auto. }
    exists w. eexists. rewrite normalize_eq by assumption.
    split; [reflexivity|]. rewrite denormalize_eq by assumption. split; [reflexivity|].
    unfold same_value. rewrite entries_item. unfold w. rewrite entries_item.
    apply roundtrip1; auto.
  - set (w := item_or_arr (dvals (sp_low sp) (sp_spread sp) (entries v))).
    assert (Fw : fits sp w).
    { unfold fits, w. rewrite entries_item. unfold dvals. rewrite vals_len; auto.
      rewrite spread_len; auto. }
    exists w. eexists. rewrite denormalize_eq by assumption.
    split; [reflexivity|]. rewrite normalize_eq by assumption. split; [reflexivity|].
    unfold same_value. rewrite entries_item. unfold w. rewrite entries_item.
    apply roundtrip2; auto.
  - apply normalize_shape_err; assumption.
  - apply denormalize_shape_err; assumption.
Qed.

Lemma spread1_pos lo hi : lo < hi -> spread1 lo hi == hi - lo /\ 0 < spread1 lo hi.
Proof.
  intros L. unfold spread1. unum. destruct (Qeq_bool (hi - lo) 0) eqn:E; qprop; split; lra.
Qed.
Lemma spread1_pos' lo hi : lo <= hi -> 0 < spread1 lo hi.
Proof.
  intros L. unfold spread1. unum. destruct (Qeq_bool (hi - lo) 0) eqn:E; qprop; lra.
Qed.

Lemma Qdiv_le_1 x y : 0 < y -> x <= y -> x / y <= 1.
Proof. intros. apply Qle_shift_div_r; lra. Qed.

Lemma norm_range lo hi : forall xs,
  Forall2 Qle lo hi -> Forall2 Qle lo xs -> Forall2 Qle xs hi ->
  Forall (fun y => 0 <= y /\ y <= 1) (nvals lo (map2 spread1 lo hi) xs).
Proof.
  intros xs F; revert xs. induction F as [|l h lo hi L F IH]; intros xs A B.
  - inversion A; subst. constructor.
  - inversion A as [|? x ? xs' A1 A2]; subst. inversion B as [|? ? ? ? B1 B2]; subst.
    simpl. constructor.
    + unfold norm1. unum. simpl. pose proof (spread1_pos' l h L) as P.
      split; [apply Qdiv_pos; lra|].
      apply Qdiv_le_1; [assumption|]. unfold spread1 in *. unum.
      destruct (Qeq_bool (h - l) 0) eqn:E; qprop; lra.
    + apply IH; assumption.
Qed.

Lemma norm_range_inv lo hi : forall xs,
  Forall2 Qlt lo hi -> length xs = length lo ->
  Forall (fun y => 0 <= y /\ y <= 1) (nvals lo (map2 spread1 lo hi) xs) ->
  Forall2 Qle lo xs /\ Forall2 Qle xs hi.
Proof.
  intros xs F; revert xs. induction F as [|l h lo hi L F IH]; intros [|x xs] E A;
    simpl in *; try discriminate.
  - split; constructor.
  - inversion A as [|? ? [A1 A2] A3]; subst. destruct (IH xs) as [I J]; auto.
    unfold norm1 in *. unum. simpl in *. destruct (spread1_pos l h L) as [S P].
    assert (K : x - l == (x - l) / spread1 l h * spread1 l h) by (field; apply spread1_nz).
    split; constructor; auto; nra.
Qed.

Lemma denorm_range lo hi : forall ys,
  Forall2 Qlt lo hi -> length ys = length lo ->
  Forall (fun y => 0 <= y /\ y <= 1) ys ->
  Forall2 Qle lo (dvals lo (map2 spread1 lo hi) ys)
  /\ Forall2 Qle (dvals lo (map2 spread1 lo hi) ys) hi.
Proof.
  intros ys F; revert ys. induction F as [|l h lo hi L F IH]; intros [|y ys] E A;
    simpl in *; try discriminate.
  - split; constructor.
  - inversion A as [|? ? [A1 A2] A3]; subst. destruct (IH ys) as [I J]; auto.
    destruct (spread1_pos l h L) as [S P]. unfold denorm1. unum. simpl.
    assert (K1 : 0 <= spread1 l h * y) by (apply Qmult_le_0_compat; lra).
    assert (K2 : 0 <= spread1 l h * (1 - y)) by (apply Qmult_le_0_compat; lra).
    split; constructor; auto; unfold denorm1; unum; simpl; lra.
Qed.

Lemma C02_lemma (sp : space Q) (v : pyval Q) :
  Forall2 Qlt (sp_low sp) (sp_high sp) -> fits sp v ->
  (exists w, normalize sp v = Ok w /\ (in_unit w <-> in_range sp v))
  /\ (in_unit v -> exists w, denormalize sp v = Ok w /\ in_range sp w).
Proof.
  intros L F. split.
  - eexists. rewrite normalize_eq by assumption. split; [reflexivity|].
    unfold in_unit, in_range. rewrite entries_item. split.
    + intros U. apply norm_range_inv; auto.
    + intros [A B]. apply norm_range; auto.
      clear - L. induction L; constructor; auto. lra.
  - intros U. eexists. rewrite denormalize_eq by assumption. split; [reflexivity|].
    unfold in_range. rewrite entries_item. apply denorm_range; auto.
Qed.

Lemma C02_degenerate_lemma (lo : Q) :
  exists x, denormalize (mkSpace [lo] [lo]) (VS 1) = Ok (VS x) /\ x == lo + 1
            /\ ~ in_range (mkSpace [lo] [lo]) (VS x).
Proof.
  eexists. split; [reflexivity|].
  assert (E : spread1 lo lo == 1).
  { unfold spread1. unum. destruct (Qeq_bool (lo - lo) 0) eqn:E; qprop; [lra|].
    exfalso. apply E. lra. }
  unfold denorm1. unum. simpl.
  split; [nra|]. intros [_ C]. inversion C; subst. nra.
Qed.
