(** * Proofs about MicrogridGenerator.py: what is assembled *)

From Coq Require Import ZArith QArith Qminmax Lqa Lia Bool String List Permutation.
From Verif Require Import Num Py Module NonModular Generator Proofs_Num Proofs_Ts Spec_NonModular Spec_Generator
  Proofs_NonModular Proofs_NmEpisode Proofs_NmTotal Proofs_Generator Proofs_Generator2.
Import ListNotations.
Local Open Scope string_scope.
Local Open Scope list_scope.
Local Open Scope Q_scope.

Section Assembled.
Variables (ceil : Q -> Z) (around : Z -> Q -> Q).

(** What the grid adds to the parameters and to the status *)
Definition grid_entries (grid : option (grid_addition Q)) : Prop :=
  match grid with
  | None => True
  | Some p => exists w a b s c i e,
      gp_parameters p = [("grid_weak", w); ("grid_power_import", a); ("grid_power_export", b)]
      /\ gp_status p = [("grid_status", [CNum s]); ("grid_co2", [CNum c]); ("grid_price_import", [CNum i]); ("grid_price_export", [CNum e])]
  end.
Lemma empty_names names : map fst (@empty_columns Q names) = names.
Proof. unfold empty_columns. rewrite map_map. simpl. apply map_id. Qed.
Lemma empty_rows names : Forall (fun kl => snd kl = []) (@empty_columns Q names).
Proof. unfold empty_columns. apply Forall_forall. intros kl I. apply in_map_iff in I. destruct I as (k & <- & _). reflexivity. Qed.

Variables (d : draws Q) (bg : bool) (load pv : list Q) (load0 pv0 : Q) (sz : sizes Q) (grid : option (grid_addition Q)).
Let sp := assemble_spec ceil around d bg load pv load0 pv0 sz grid.
Hypothesis GE : grid_entries grid.

Lemma assembled_wired : wired sp.
Proof.
  unfold sp, assemble_spec. set (ge := bg || _). clearbody ge. destruct (dr_poly d) as ((pa, pb), pc) eqn:EP.
  constructor; cbn [sp_parameters sp_arch sp_generation sp_cost sp_df_co2 sp_status sp_actions].
  - intros k I. unfold genset_parameters. cbv beta iota. destruct grid as [p|].
    + destruct GE as (w & a & b & s & c & i & e & E1 & E2). rewrite E1. destruct ge; cbn in I; intuition (subst; eexists; reflexivity).
    + destruct ge; cbn in I; intuition (subst; eexists; reflexivity).
  - unfold columns. rewrite empty_names. destruct grid, ge; apply Permutation_refl.
  - unfold columns. rewrite empty_names. unfold cost_columns. cbn [has_battery has_grid has_genset app].
    do 3 apply perm_skip. destruct grid, ge; cbn [app]; apply Permutation_sym.
    + exact (Permutation_cons_append ["battery"; "grid_import"; "grid_export"; "genset"] "total_cost").
    + exact (Permutation_cons_append ["battery"; "grid_import"; "grid_export"] "total_cost").
    + exact (Permutation_cons_append ["battery"; "genset"] "total_cost").
    + exact (Permutation_cons_append ["battery"] "total_cost").
  - apply Permutation_refl.
  - unfold columns. destruct grid as [p|].
    + destruct GE as (w & a & b & s & c & i & e & E1 & E2). rewrite E2. apply Permutation_refl.
    + apply Permutation_refl.
  - destruct grid as [p|].
    + destruct GE as (w & a & b & s & c & i & e & E1 & E2). rewrite E2. cbn [battery_status app].
      repeat (constructor; [eexists; reflexivity|]); constructor.
    + cbn [battery_status app]. repeat (constructor; [eexists; reflexivity|]); constructor.
  - apply empty_rows.
  - apply empty_rows.
  - apply empty_rows.
  - apply empty_rows.
  - intros _. eexists. reflexivity.
Qed.

Let b := get_battery ceil (sz_battery sz) (dr_soc d).
Lemma assembled_parameters :
  let p := sp_parameters sp in
  dget "cost_loss_load" p = Some (inject_Z 10) /\ dget "cost_overgeneration" p = Some 1 /\ dget "cost_co2" p = Some (nfrac 1 10)
  /\ dget "battery_soc_0" p = Some (bi_soc_0 b) /\ dget "battery_power_charge" p = Some (bi_pcharge b)
  /\ dget "battery_power_discharge" p = Some (bi_pdischarge b) /\ dget "battery_capacity" p = Some (bi_capa b)
  /\ dget "battery_efficiency" p = Some (bi_efficiency b) /\ dget "battery_soc_min" p = Some (bi_soc_min b)
  /\ dget "battery_soc_max" p = Some (bi_soc_max b) /\ dget "battery_cost_cycle" p = Some (bi_cost_cycle b).
Proof. repeat split; reflexivity. Qed.
Lemma assembled_soc : dget "battery_soc" (sp_status sp) = Some [CNum (bi_soc_0 b)].
Proof. reflexivity. Qed.
Lemma assembled_grid gp k x : grid = Some gp -> dget k (gp_parameters gp) = Some x -> In k ["grid_weak"; "grid_power_import"; "grid_power_export"] ->
  dget k (sp_parameters sp) = Some x.
Proof.
  intros E H I. unfold sp, assemble_spec. rewrite E in *. cbn [sp_parameters]. destruct GE as (w & a & b' & s & c & i & e & E1 & _).
  rewrite E1 in *. cbn in I. intuition (subst; exact H).
Qed.
Lemma assembled_genset : has_genset (sp_arch sp) = true ->
  let p := sp_parameters sp in
  dget "genset_rated_power" p = Some (inject_Z (sz_genset sz)) /\ dget "genset_pmin" p = Some (nfrac 5 100)
  /\ dget "genset_pmax" p = Some (nfrac 9 10) /\ dget "fuel_cost" p = Some (nfrac 4 10) /\ dget "genset_co2" p = Some (inject_Z 2).
Proof.
  unfold sp, assemble_spec. set (ge := bg || _). clearbody ge. cbn [sp_arch has_genset sp_parameters]. intros ->.
  destruct (dr_poly d) as ((pa, pb), pc) eqn:EP. unfold genset_parameters. cbv beta iota. destruct grid as [p|].
  - destruct GE as (w & a & b' & s & c & i & e & E1 & _). rewrite E1. repeat split; reflexivity.
  - repeat split; reflexivity.
Qed.
End Assembled.

(** ** Sizes *)

Lemma whole_unique (z y : Z) x : x == inject_Z y -> inject_Z z <= x -> x < inject_Z z + 1 -> z = y.
Proof.
  intros E A B. rewrite E in A, B. rewrite <- Zle_Qle in A. change 1 with (inject_Z 1) in B. rewrite <- inject_Z_plus in B. rewrite <- Zlt_Qlt in B. lia.
Qed.
Lemma battery_powers ceil cap randn : ceils ceil -> exists power, let b := get_battery ceil cap randn in
  bi_capa b = inject_Z cap /\ bi_pcharge b = inject_Z power /\ bi_pdischarge b = inject_Z power
  /\ inject_Z cap <= 4 * inject_Z power /\ 4 * inject_Z power < inject_Z cap + 4.
Proof.
  intros C. exists (ceil (inject_Z cap / inject_Z 4)). cbn zeta.
  destruct (C (inject_Z cap / inject_Z 4)) as (A & B).
  assert (E : inject_Z cap / inject_Z 4 == inject_Z cap * (1 # 4)) by (unfold Qdiv; reflexivity).
  rewrite E in A at 1. rewrite E in B at 2. repeat split; try reflexivity; lra.
Qed.
Lemma battery_soc ceil cap randn : let b := get_battery ceil cap randn in
  bi_soc_min b == 1 # 5 /\ bi_soc_max b == 1 /\ bi_efficiency b == 9 # 10 /\ bi_cost_cycle b == 1 # 50
  /\ bi_soc_min b <= bi_soc_0 b /\ bi_soc_0 b <= bi_soc_max b
  /\ (bi_soc_min b <= randn -> randn <= bi_soc_max b -> bi_soc_0 b == randn)
  /\ (randn <= bi_soc_min b -> bi_soc_0 b == bi_soc_min b) /\ (bi_soc_max b <= randn -> bi_soc_0 b == bi_soc_max b).
Proof.
  cbn zeta. unfold get_battery. cbn [bi_soc_min bi_soc_max bi_efficiency bi_cost_cycle bi_soc_0].
  assert (EM : @nfrac Q Q_ops 1 5 == 1 # 5) by reflexivity. set (mn := @nfrac Q Q_ops 1 5) in *. clearbody mn.
  unfold nmin, nmax. unum.
  destruct (Qltb randn mn) eqn:E1; qprop; destruct (Qltb 1 _) eqn:E2; qprop; repeat split; intros; try reflexivity; try lra.
Qed.
Lemma size_mg_ok ceil trunc (l : list Q) (L : Z) pct hours : ceils ceil -> truncates trunc -> (0 < L)%Z -> peak l (inject_Z L) ->
  exists sz m, size_mg ceil trunc l pct hours = Ok sz /\ average l m
    /\ sz_pv sz == inject_Z L * inject_Z pct / 100
    /\ inject_Z hours * m <= inject_Z (sz_battery sz) /\ inject_Z (sz_battery sz) < inject_Z hours * m + 1
    /\ inject_Z L <= inject_Z (sz_genset sz) * (9 # 10) /\ inject_Z (sz_genset sz - 1) * (9 # 10) < inject_Z L
    /\ sz_grid sz = (2 * L)%Z.
Proof.
  intros C TR PL PK. assert (NE : l <> []) by (intros ->; destruct PK as ((x & [] & _) & _)).
  destruct (list_max_ok l NE) as (m & E & _). pose proof (list_max_peak l m E) as PM. assert (M : m == inject_Z L) by exact (peak_unique _ _ _ PM PK).
  unfold size_mg. rewrite E. cbn [rbind]. eexists. exists (mean l). split; [reflexivity|]. split; [exact (mean_average l NE)|].
  cbn [sz_pv sz_battery sz_genset sz_grid].
  assert (ML : 0 < m) by (rewrite M; change 0 with (inject_Z 0); rewrite <- Zlt_Qlt; exact PL).
  split; [|split; [|split; [|split; [|split]]]].
  - change (@nmul Q Q_ops m (nfrac pct 100)) with (m * (inject_Z pct / inject_Z 100)). rewrite M. change (inject_Z 100) with 100. field.
  - apply C.
  - apply C.
  - unfold size_genset. destruct (C (@ndiv Q Q_ops m (nfrac 9 10))) as (A & _). assert (X : @ndiv Q Q_ops m (nfrac 9 10) == m * (10 # 9)) by (unfold ndiv, nfrac; cbn; unfold Qdiv; reflexivity).
    rewrite X in A at 1. lra.
  - unfold size_genset. destruct (C (@ndiv Q Q_ops m (nfrac 9 10))) as (_ & A). assert (X : @ndiv Q Q_ops m (nfrac 9 10) == m * (10 # 9)) by (unfold ndiv, nfrac; cbn; unfold Qdiv; reflexivity).
    rewrite X in A at 2. unfold Z.sub. rewrite inject_Z_plus. change (inject_Z (- (1))) with (- (1)). lra.
  - change (@nmul Q Q_ops m (nofZ 2)) with (m * inject_Z 2). destruct (TR (m * inject_Z 2)) as (A & B); [change (inject_Z 2) with 2; lra|].
    apply (whole_unique _ _ (m * inject_Z 2)); [|exact A|exact B]. rewrite M. rewrite <- inject_Z_mult. apply inject_Z_injective. lia.
Qed.
