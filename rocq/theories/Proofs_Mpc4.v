(** * The program that the model predictive control poses in a state *)

From Coq Require Import ZArith QArith Bool String List Lia Lqa Permutation.
From Verif Require Import Num Py Space Logger Forecast Module Container Microgrid NonModular Conversion MPC
  Spec_Module Spec_Reach Spec_Sane Spec_Microgrid Spec_Conversion Spec_MPC
  Proofs_Num Proofs_Module Proofs_Battery Proofs_Genset Proofs_Ts Proofs_Any Proofs_Data Proofs_Sane Proofs_Mgrid Proofs_MgProps Proofs_Episode Proofs_NonModular Proofs_Build Proofs_Obs Proofs_RbcRun Proofs_Twin
  Proofs_Copy2 Proofs_Copy3 Proofs_Copy5 Proofs_Mpc Proofs_Mpc2 Proofs_Mpc3.
Import ListNotations.
Local Open Scope string_scope.
Local Open Scope list_scope.
Local Open Scope py_scope.
Local Open Scope Q_scope.

Lemma like_horizon (m m' : module Q) : mod_like m m' -> horizon m' = horizon m.
Proof.
  intros [K _ _ _ _ _]. unfold horizon. destruct (m_kind m), (m_kind m'); simpl in K; try contradiction; try reflexivity; cbn [kind_ts].
  - destruct K as (_ & f & K). rewrite (same_horizon _ _ K). reflexivity.
  - destruct K as (f & K). rewrite (same_horizon _ _ K). reflexivity.
  - destruct K as (f & K). rewrite (same_horizon _ _ K). reflexivity.
Qed.
Lemma like_is_ts (m m' : module Q) : mod_like m m' -> is_ts m -> is_ts m'.
Proof. intros [K _ _ _ _ _]. unfold is_ts. destruct (m_kind m), (m_kind m'); simpl in K; try contradiction; cbn; auto; discriminate. Qed.
Lemma nth_map_seq0 (f : nat -> Q) n k : (k < n)%nat -> nth k (map f (seq 0 n)) 0 = f k.
Proof. intros L. rewrite (nth_indep _ 0 (f 0%nat)) by (rewrite map_length, seq_length; exact L). rewrite map_nth, seq_nth by exact L. reflexivity. Qed.
Lemma nth_repeat0 (x : Q) n k : (k < n)%nat -> nth k (repeat x n) 0 = x.
Proof. revert k. induction n as [|n IH]; intros [|k] L; try lia; cbn; [reflexivity|]. apply IH. lia. Qed.

Section State.
Variables (round1 : Q -> Q) (poly : nat -> Q).
Variables (D : list (mdef Q)) (mg0 mg : mgrid Q) (c : mpc Q).
Hypothesis V0 : mg_inv D mg0.
Hypothesis V : mg_inv D mg.
Hypothesis SEP : names_separate D.
Hypothesis MADE : new_mpc round1 poly mg0 = Ok c.

Let h := mp_horizon c.
Let INV := new_mpc_inv round1 poly D mg0 c V0 SEP MADE.
Lemma st_nodup : NoDup (map mdef_name D). Proof. destruct INV as (C & _). apply (convertible_one D mg0 V0 C). Qed.
Lemma st_one : one_each D. Proof. destruct INV as (C & _). apply (convertible_one D mg0 V0 C). Qed.
Lemma st_names : named_by D (mp_names c). Proof. apply INV. Qed.
Lemma st_same i m : at_index mg i m -> exists m0 d, at_index mg0 i m0 /\ nth_error D i = Some d /\ mod_ok m /\ mod_like (snd d) m /\ mod_like (snd d) m0.
Proof.
  intros A. destruct (mod_def D mg V i m A) as (d & N & O & L). destruct (def_mod D mg0 V0 i d N) as (m0 & A0 & _ & L0). exists m0, d. auto.
Qed.
Lemma st_before i m0 : at_index mg0 i m0 -> exists m d, at_index mg i m /\ nth_error D i = Some d /\ mod_ok m /\ mod_like (snd d) m /\ mod_like (snd d) m0.
Proof.
  intros A. destruct (mod_def D mg0 V0 i m0 A) as (d & N & O & L). destruct (def_mod D mg V i d N) as (m & A0 & O' & L0). exists m, d. auto.
Qed.
Lemma st_any k : (exists i m, at_index mg0 i m /\ class_name (m_kind m) = k) -> exists i m, at_index mg i m /\ class_name (m_kind m) = k /\ mod_ok m.
Proof.
  intros (i & m0 & A & C). destruct (st_before i m0 A) as (m & d & A' & N & O & L & L0). exists i, m. split; [exact A'|]. split; [|exact O].
  rewrite (like_class _ _ L), <- (like_class _ _ L0). exact C.
Qed.
Lemma st_horizon i m : at_index mg i m -> is_ts m -> S (horizon m) = h.
Proof.
  intros A T. destruct (st_same i m A) as (m0 & d & A0 & N & O & L & L0). destruct INV as (_ & _ & _ & _ & (hh & EH & E) & _).
  unfold h. rewrite E. f_equal. rewrite (like_horizon _ _ L), <- (like_horizon _ _ L0). apply (forecast_horizon_ok D mg0 hh V0 EH i m0 A0).
  unfold is_ts in *. destruct L as [K _ _ _ _ _], L0 as [K0 _ _ _ _ _]. destruct (m_kind m), (m_kind (snd d)), (m_kind m0); simpl in *; try contradiction; try congruence; discriminate.
Qed.
Lemma st_state i m : at_index mg i m -> is_ts m -> exists s, state m = Ok s /\ length s = (h * columns m)%nat.
Proof.
  intros A T. destruct (st_same i m A) as (_ & _ & _ & _ & O & _). pose proof (st_horizon i m A T) as H. unfold is_ts in T. destruct (kind_ts (m_kind m)) as [t|] eqn:K; [|contradiction].
  destruct (ts_state m t O K) as (r & E & _ & _ & _ & _ & L). exists (r ++ concat (fc_view t)). split; [exact E|]. rewrite L, <- H. unfold horizon. rewrite K. reflexivity.
Qed.
Lemma st_class i m k : at_index mg i m -> class_name (m_kind m) = k -> by_class (mp_names c) mg k = Ok m.
Proof. intros A C. exact (class_ok D mg V SEP st_nodup (mp_names c) i m k st_one st_names A C). Qed.
Lemma st_unique i j m m' : at_index mg i m -> at_index mg j m' -> class_name (m_kind m) = class_name (m_kind m') -> i = j /\ m = m'.
Proof.
  intros A B C. destruct (mod_def D mg V i m A) as (d & N & _ & L). destruct (mod_def D mg V j m' B) as (d' & N' & _ & L').
  assert (i = j). { apply (st_one i j d d' N N'). rewrite <- (like_class _ _ L), <- (like_class _ _ L'). exact C. }
  split; [assumption|]. subst. unfold at_index in *. congruence.
Qed.
Lemma st_key k : str_in k (dkeys (mp_names c)) = true <-> exists i m, at_index mg i m /\ class_name (m_kind m) = k.
Proof. exact (class_key D mg V (mp_names c) k st_names). Qed.
Lemma st_gen : has_gen c = true <-> any_module mg is_a_genset.
Proof. unfold has_gen. rewrite st_key. apply gen_class. Qed.
Lemma st_battery : exists i m b, at_index mg i m /\ m_kind m = KBattery b /\ battery_item mg = Ok b
  /\ pa_eta (mp_params c) = b_efficiency b /\ pa_capacity (mp_params c) = b_max_capacity b /\ pa_cycle (mp_params c) = b_cost_cycle b.
Proof.
  destruct INV as (_ & _ & _ & P & _). destruct P as [(b & (i & d & m & N & M & A & K) & P1 & P2 & P3) _ _].
  destruct (def_mod D mg V i d N) as (m' & A' & O & L). destruct (def_mod D mg0 V0 i d N) as (m0 & A0 & _ & L0).
  assert (m0 = m) by (unfold at_index in *; congruence). subst m0. destruct L as [K1 _ _ _ _ _], L0 as [K2 _ _ _ _ _]. rewrite K in K2.
  destruct (m_kind (snd d)) as [b0| | | | |] eqn:KD; simpl in K2; try contradiction. destruct (m_kind m') as [b'| | | | |] eqn:K'; simpl in K1; try contradiction.
  destruct K1 as (c1 & s1 & E1), K2 as (c2 & s2 & E2). exists i, m', b'. split; [exact A'|]. split; [exact K'|]. split.
  { apply (battery_item_iff D mg V SEP st_nodup). exists i, d, m'. auto. }
  rewrite P1, P2, P3, E1, E2. auto.
Qed.
Lemma st_loss i m u : at_index mg i m -> m_kind m = KUnbalanced u -> pa_loss (mp_params c) = u_loss_load_cost u.
Proof.
  intros A K. destruct INV as (_ & _ & _ & P & _). destruct P as [_ (i0 & m0 & u0 & A0 & K0 & P) _]. rewrite P.
  destruct (st_before i0 m0 A0) as (m' & d & A' & N & O & L & L0). assert (X : class_name (m_kind m') = class_name (m_kind m)).
  { rewrite (like_class _ _ L), <- (like_class _ _ L0), K0, K. reflexivity. }
  destruct (st_unique _ _ _ _ A' A X) as (_ & ->). destruct L as [K1 _ _ _ _ _], L0 as [K2 _ _ _ _ _]. rewrite K in K1. rewrite K0 in K2. destruct (m_kind (snd d)); simpl in K1, K2; try contradiction. congruence.
Qed.
Lemma st_genset i m s : at_index mg i m -> m_kind m = KGenset s -> exists cc, g_cost s = FuelLin cc
  /\ pa_fuel (mp_params c) = cc /\ pa_gmin (mp_params c) = g_min_prod s /\ pa_gmax (mp_params c) = g_max_prod s /\ pa_co2 (mp_params c) = g_cost_co2 s /\ pa_gco2 (mp_params c) = g_co2_per_unit s.
Proof.
  intros A K. assert (G : has_gen c = true) by (apply st_gen; exists i, m; split; [exact A|exists s; exact K]).
  destruct INV as (_ & _ & _ & P & _). destruct P as [_ _ PG]. rewrite G in PG. destruct PG as (i0 & m0 & s0 & cc & A0 & K0 & C0 & P1 & P2 & P3 & P4 & P5).
  destruct (st_before i0 m0 A0) as (m' & d & A' & N & O & L & L0). assert (X : class_name (m_kind m') = class_name (m_kind m)).
  { rewrite (like_class _ _ L), <- (like_class _ _ L0), K0, K. reflexivity. }
  destruct (st_unique _ _ _ _ A' A X) as (_ & ->). destruct L as [K1 _ _ _ _ _], L0 as [K2 _ _ _ _ _]. rewrite K in K1. rewrite K0 in K2. destruct (m_kind (snd d)) as [|sd| | | |]; simpl in K1, K2; try contradiction.
  exists cc. unfold same_gen in *. rewrite K1, K2 in *. cbn in *. auto 12.
Qed.
Lemma st_no_gen : has_gen c = false -> pa_gmax (mp_params c) = 0.
Proof. intros G. destruct INV as (_ & _ & _ & P & _). destruct P as [_ _ PG]. rewrite G in PG. apply PG. Qed.

Lemma state_posed : exists d, state_values c mg = Ok d /\ vectors_fit c d /\ posed_for mg (equipment_of c d) (da_soc d) (expected_of d h)
  /\ (da_co2 d = None <-> ~ any_module mg is_grid /\ ~ any_module mg is_a_genset).
Proof.
  destruct (st_any "load") as (il & lm & AL & CL & OL).
  { destruct INV as ((_ & _ & (i & m & A & (t & K))) & _). exists i, m. split; [exact A|]. rewrite K. reflexivity. }
  destruct (st_any "renewable") as (ip & pm & AP & CP & OP).
  { destruct INV as (_ & F & _). destruct (su_renewable _ F) as (i & m & A & (t & K)). exists i, m. split; [exact A|]. rewrite K. reflexivity. }
  destruct (m_kind lm) as [| | |tl| |] eqn:KL; try discriminate. destruct (m_kind pm) as [| | | |tp|] eqn:KP; try discriminate.
  destruct (st_state il lm AL) as (ls & SL & LL). { unfold is_ts. rewrite KL. discriminate. }
  destruct (st_state ip pm AP) as (ps & SP & LP). { unfold is_ts. rewrite KP. discriminate. }
  assert (LL' : length ls = h) by (rewrite LL; unfold columns; rewrite KL; lia). assert (LP' : length ps = h) by (rewrite LP; unfold columns; rewrite KP; lia). clear LL LP.
  destruct st_battery as (ib & bm & b & AB & KB & EB & B1 & B2 & B3).
  unfold state_values. rewrite (st_class il lm "load" AL) by (rewrite KL; reflexivity). cbn [rbind]. rewrite SL. cbn [rbind].
  rewrite (st_class ip pm "renewable" AP) by (rewrite KP; reflexivity). cbn [rbind]. rewrite SP. cbn [rbind]. rewrite EB.
  (* the grid *)
  assert (GR : exists st im ex co cc mi me,
    (if str_in "grid" (dkeys (mp_names c))
     then let? gm := by_class (mp_names c) mg "grid" in
          let? s := state gm in
          match m_kind gm with
          | KGrid gr _ => Ok (repeat n1 (mp_horizon c), every4 0 s, every4 1 s, every4 2 s, [gr_cost_co2 gr], gr_max_import gr, gr_max_export gr)
          | _ => raise AttributeError "import_price"
          end
     else Ok (zeros (mp_horizon c), zeros (mp_horizon c), zeros (mp_horizon c), zeros (mp_horizon c), [], n0, n0)) = Ok (st, im, ex, co, cc, mi, me)
    /\ (length st = h /\ length im = h /\ length ex = h /\ length co = h)
    /\ (any_module mg is_grid -> cc <> []) /\ (cc <> [] -> any_module mg is_grid)
    /\ (forall i m gr t s, at_index mg i m -> m_kind m = KGrid gr t -> state m = Ok s -> mi = gr_max_import gr /\ me = gr_max_export gr /\ cc = [gr_cost_co2 gr]
         /\ forall k, (k < h)%nat -> nth k st 0 = 1 /\ nth k im 0 = nth (4 * k) s 0 /\ nth k ex 0 = nth (1 + 4 * k) s 0 /\ nth k co 0 = nth (2 + 4 * k) s 0)
    /\ (~ any_module mg is_grid -> mi = 0 /\ me = 0 /\ forall k, (k < h)%nat -> nth k st 0 = 0 /\ nth k im 0 = 0 /\ nth k ex 0 = 0 /\ nth k co 0 = 0)).
  { destruct (str_in "grid" (dkeys (mp_names c))) eqn:G.
    - apply st_key in G. destruct G as (ig & gm & AG & CG). destruct (m_kind gm) as [| |gr t| | |] eqn:KG; try discriminate.
      destruct (st_state ig gm AG) as (s & SG & LG). { unfold is_ts. rewrite KG. discriminate. }
      assert (L4 : length s = (4 * h)%nat) by (rewrite LG; unfold columns; rewrite KG; lia).
      rewrite (st_class ig gm "grid" AG) by (rewrite KG; reflexivity). cbn [rbind]. rewrite SG. cbn [rbind]. rewrite KG.
      do 7 eexists. split; [reflexivity|].
      rewrite (every4_spec 0 h s), (every4_spec 1 h s), (every4_spec 2 h s) by (try lia; exact L4). split; [rewrite repeat_length, !map_length, !seq_length; auto|].
      assert (IS : any_module mg is_grid) by (exists ig, gm; split; [exact AG|exists gr, t; exact KG]).
      split; [discriminate|]. split; [auto|]. split; [|contradiction].
      intros i m gr' t' s' A K ST. assert (X : class_name (m_kind m) = class_name (m_kind gm)) by (rewrite K, KG; reflexivity). destruct (st_unique _ _ _ _ A AG X) as (_ & ->).
      rewrite KG in K. injection K as <- <-. rewrite SG in ST. injection ST as <-. conj; auto. intros k LK. rewrite !nth_map_seq0 by exact LK. fold h. rewrite nth_repeat0 by exact LK. auto.
    - assert (NG : ~ any_module mg is_grid). { intros X. apply grid_class in X. apply st_key in X. congruence. }
      do 7 eexists. split; [reflexivity|]. unfold zeros. rewrite repeat_length. split; [auto|]. split; [contradiction|]. split; [congruence|]. split.
      + intros i m gr t s A K _. exfalso. apply NG. exists i, m. split; [exact A|exists gr, t; exact K].
      + intros _. conj; auto. intros k LK. fold h. change (@n0 Q Q_ops) with 0. rewrite nth_repeat0 by exact LK. auto. }
  destruct GR as (st & im & ex & co & cc & mi & me & EG & (L1 & L2 & L3 & L4) & G1 & G1' & G2 & G3).
  rewrite EG. cbn [rbind]. clear EG.
  (* the genset *)
  assert (GE : exists gmax cc',
    (if str_in "genset" (dkeys (mp_names c))
     then let? gm := by_class (mp_names c) mg "genset" in
          match m_kind gm with
          | KGenset s => Ok (g_max_prod s, [g_cost_co2 s])
          | _ => raise AttributeError "running_max_production"
          end
     else Ok (n0, [])) = Ok (gmax, cc')
    /\ gmax = pa_gmax (mp_params c) /\ (forall i m s, at_index mg i m -> m_kind m = KGenset s -> cc' = [g_cost_co2 s]) /\ (~ any_module mg is_a_genset -> cc' = [])).
  { destruct (str_in "genset" (dkeys (mp_names c))) eqn:G.
    - pose proof G as G'. apply st_key in G'. destruct G' as (ig & gm & AG & CG). destruct (m_kind gm) as [|s| | | |] eqn:KG; try discriminate.
      rewrite (st_class ig gm "genset" AG) by (rewrite KG; reflexivity). cbn [rbind]. rewrite KG. do 2 eexists. split; [reflexivity|].
      destruct (st_genset ig gm s AG KG) as (x & _ & _ & _ & P & _). split; [auto|]. split.
      + intros i m s' A K. assert (X : class_name (m_kind m) = class_name (m_kind gm)) by (rewrite K, KG; reflexivity). destruct (st_unique _ _ _ _ A AG X) as (_ & ->). congruence.
      + intros NG. exfalso. apply NG. exists ig, gm. split; [exact AG|exists s; exact KG].
    - do 2 eexists. split; [reflexivity|]. split; [rewrite (st_no_gen G); reflexivity|]. split; [|reflexivity].
      intros i m s A K. exfalso. assert (X : any_module mg is_a_genset) by (exists i, m; split; [exact A|exists s; exact K]). apply st_gen in X. unfold has_gen in X. congruence. }
  destruct GE as (gmax & cc' & EG & PG & G4 & G5). rewrite EG. cbn [rbind]. clear EG.
  eexists. split; [reflexivity|]. split.
  { unfold vectors_fit. cbn [da_load da_pv da_grid da_import da_export da_gridco2 da_gmax]. split; [repeat (constructor; [first [assumption | rewrite map_length; assumption]|]); constructor|exact PG]. }
  split.
  2:{ cbn [da_co2]. split.
      - destruct (cc ++ cc') eqn:X; [|discriminate]. intros _. apply app_eq_nil in X. destruct X as (-> & ->). split; [intros Y; apply (G1 Y); reflexivity|].
        intros (i & m & A & (s & K)). specialize (G4 i m s A K). discriminate.
      - intros (X & Y). rewrite (G5 Y). destruct cc; [reflexivity|]. exfalso. apply X, G1'. discriminate. }
  assert (XK : forall (dd : mpc_data Q) k x, nth_error (expected_of dd h) k = Some x -> (k < h)%nat /\ x = mkExpected (nth k (da_load dd) 0) (nth k (da_pv dd) 0) (nth k (da_grid dd) 0)
      (nth k (da_import dd) 0 + nth k (da_gridco2 dd) 0 * match da_co2 dd with Some x => x | None => 0 end) (nth k (da_export dd) 0)).
  { intros dd k x E. unfold expected_of in E. assert (K : (k < h)%nat). { assert (Y : nth_error (map (fun k => mkExpected (nth k (da_load dd) 0) (nth k (da_pv dd) 0) (nth k (da_grid dd) 0)
                  (nth k (da_import dd) 0 + nth k (da_gridco2 dd) 0 * match da_co2 dd with Some x => x | None => 0 end) (nth k (da_export dd) 0)) (seq 0 h)) k <> None) by congruence.
      apply nth_error_Some in Y. rewrite map_length, seq_length in Y. exact Y. }
    split; [exact K|]. rewrite (map_nth_error _ _ _ (nth_error_seq 0 h k K)) in E. injection E as <-. reflexivity. }
  constructor; cbn [equipment_of eq_gen eq_eta eq_capacity eq_soc_min eq_soc_max eq_charge eq_discharge eq_import eq_export eq_gen_min eq_gen_max eq_gen_cost eq_cycle_cost eq_loss_cost da_soc da_emin da_emax da_pcharge da_pdischarge da_pimport da_pexport].
  - intros i m b' A K. assert (X : class_name (m_kind m) = class_name (m_kind bm)) by (rewrite K, KB; reflexivity). destruct (st_unique _ _ _ _ A AB X) as (_ & ->).
    rewrite KB in K. injection K as <-. conj; auto.
  - exact st_loss.
  - exact st_gen.
  - intros i m s x A K C. destruct (st_genset i m s A K) as (x' & C' & P1 & P2 & P3 & P4 & P5). rewrite P1, P4, P5. assert (x' = x) by congruence. subst. conj; auto. reflexivity.
  - intros i m s k x A (t & K) ST E. apply XK in E. destruct E as (LK & ->). assert (X : class_name (m_kind m) = class_name (m_kind lm)) by (rewrite K, KL; reflexivity). destruct (st_unique _ _ _ _ A AL X) as (_ & ->).
    rewrite SL in ST. injection ST as <-. cbn [ex_load da_load]. rewrite (nth_indep _ 0 (nmul (nopp n1) 0)) by (rewrite map_length; lia). rewrite map_nth. unum. ring.
  - intros i m s k x A (t & K) ST E. apply XK in E. destruct E as (LK & ->). assert (X : class_name (m_kind m) = class_name (m_kind pm)) by (rewrite K, KP; reflexivity). destruct (st_unique _ _ _ _ A AP X) as (_ & ->).
    rewrite SP in ST. injection ST as <-. reflexivity.
  - intros i m gr t s A K ST. destruct (G2 i m gr t s A K ST) as (-> & -> & -> & F). split; [reflexivity|]. split; [reflexivity|].
    exists (match ([gr_cost_co2 gr] ++ cc') with [] => 0 | l => ndiv (fold_right nadd n0 l) (nofZ (Z.of_nat (length l))) end). split; [|split].
    + intros j m' g' A' K'. rewrite (G4 j m' g' A' K'). cbn -[Qplus Qdiv]. rewrite Qplus_0_r. reflexivity.
    + intros NG. rewrite (G5 NG). cbn -[Qplus Qdiv]. rewrite Qplus_0_r. change (inject_Z 1) with 1. field.
    + intros k x E. apply XK in E. destruct E as (LK & ->). cbn [ex_grid ex_import ex_export da_grid da_import da_export da_gridco2 da_co2]. destruct (F k LK) as (-> & -> & -> & ->). conj; auto. cbn [app]. reflexivity.
  - intros NG. destruct (G3 NG) as (-> & -> & F). split; [reflexivity|]. split; [reflexivity|]. intros k x H. apply XK in H. destruct H as (LK & ->). cbn [ex_grid ex_import ex_export da_grid da_import da_export da_gridco2 da_co2]. destruct (F k LK) as (E1 & E2 & E3 & E4). rewrite E1, E2, E3, E4. conj; auto. ring.
  - intros i m A T. unfold expected_of. rewrite map_length, seq_length. symmetry. exact (st_horizon i m A T).
Qed.
End State.
