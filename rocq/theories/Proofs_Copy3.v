(** * When a modular microgrid can be converted *)

From Coq Require Import ZArith QArith Qabs Qminmax Bool String List Lia Lqa Permutation.
From Verif Require Import Num Py Space Logger Forecast Module Container Microgrid NonModular Conversion
  Proofs_Num Proofs_Logger Spec_Module Spec_Reach Proofs_Module Proofs_Ts Proofs_Any
  Spec_Microgrid Proofs_Container Proofs_Run Proofs_Mgrid Proofs_Views Proofs_Data
  Proofs_Build Proofs_MgProps Proofs_Obs Proofs_Episode Proofs_RbcRun Spec_NonModular Proofs_NonModular Proofs_NmEpisode Proofs_NmTotal
  Spec_Conversion Proofs_Twin Proofs_Copy Proofs_Copy2.
Import ListNotations.
Local Open Scope string_scope.
Local Open Scope list_scope.
Local Open Scope py_scope.
Local Open Scope Q_scope.

Lemma any_module_in (mg : mgrid Q) P : any_module mg P <-> exists m, In m (mg_mods mg) /\ P m.
Proof.
  unfold any_module, at_index. split.
  - intros (i & m & A & B). exists m. split; [eapply nth_error_In; exact A|exact B].
  - intros (m & A & B). apply In_nth_error in A. destruct A as (i & A). eauto.
Qed.
Lemma classes_nodup (mg : mgrid Q) : NoDup (classes (mg_mods mg)) <->
  (forall i j m m', at_index mg i m -> at_index mg j m' -> same_class m m' -> i = j).
Proof.
  unfold at_index. rewrite NoDup_nth_error. split.
  - intros N i j m m' A B S. apply same_class_iff in S. apply N; [rewrite map_length; apply nth_error_Some; congruence|].
    rewrite !nth_error_map, A, B. simpl. congruence.
  - intros F i j L E. rewrite map_length in L. apply nth_error_Some in L. rewrite !nth_error_map in E.
    destruct (nth_error (mg_mods mg) i) as [m|] eqn:A; [|congruence]. destruct (nth_error (mg_mods mg) j) as [m'|] eqn:B; [|discriminate].
    apply (F i j m m'); auto. apply same_class_iff. simpl in E. congruence.
Qed.
Lemma check_viability_eq (mg : mgrid Q) : check_viability mg =
  (let? ms := rmapM (pick mg) (all_dict mg) in
   if existsb (fun c => Nat.ltb 1 (class_count c ms)) (seq 0 6) then raise ValueError "module types conflict"
   else if negb (Nat.eqb (class_count 0 ms) 1) then raise ValueError "no LoadModule" else Ok ms).
Proof. reflexivity. Qed.
Lemma viable_ok D (mg : mgrid Q) ms : mg_inv D mg -> names_separate D -> check_viability mg = Ok ms ->
  convertible D mg /\ Permutation ms (mg_mods mg) /\ NoDup (classes ms).
Proof.
  intros I S E. rewrite check_viability_eq in E. apply rbind_ok in E. destruct E as (ms' & E1 & E).
  destruct (existsb _ _) eqn:X; [discriminate|]. destruct (negb _) eqn:Y; [discriminate|]. injection E as ->. apply negb_false_iff in Y.
  apply no_conflict in X. apply (one_load ms X) in Y. pose proof (picked_perm D mg ms I S E1) as P.
  split; [|split; assumption]. unfold convertible. conj.
  - destruct (ListDec.NoDup_dec String.string_dec (map mdef_name D)) as [N|N]; [exact N|].
    destruct (proj2 (picks D mg I S) N) as (e & Z & _). congruence.
  - apply classes_nodup. apply (Permutation_NoDup (l := classes ms)); [apply Permutation_map; exact P|exact X].
  - apply any_module_in. destruct Y as (m & J & K). exists m. split; [apply (Permutation_in _ P J)|exact K].
Qed.
Lemma convertible_viable D (mg : mgrid Q) : mg_inv D mg -> names_separate D -> convertible D mg ->
  exists ms, check_viability mg = Ok ms.
Proof.
  intros I S (N & C & L). destruct (proj1 (picks D mg I S) N) as (ms & E). exists ms. rewrite check_viability_eq, E. cbn [rbind].
  pose proof (picked_perm D mg ms I S E) as P. assert (X : NoDup (classes ms)).
  { apply (Permutation_NoDup (l := classes (mg_mods mg))); [apply Permutation_map, Permutation_sym, P|apply classes_nodup, C]. }
  rewrite (proj2 (no_conflict ms) X). assert (Y : Nat.eqb (class_count 0 ms) 1 = true).
  { apply (one_load ms X). apply any_module_in in L. destruct L as (m & J & K). exists m. split; [apply (Permutation_in _ (Permutation_sym P) J)|exact K]. }
  rewrite Y. reflexivity.
Qed.
Lemma viability_cases D (mg : mgrid Q) : mg_inv D mg -> names_separate D ->
  (exists ms, check_viability mg = Ok ms) \/ raises ValueError (check_viability mg).
Proof.
  intros I S. rewrite check_viability_eq. destruct (ListDec.NoDup_dec String.string_dec (map mdef_name D)) as [N|N].
  - destruct (proj1 (picks D mg I S) N) as (ms & ->). cbn [rbind]. destruct (existsb _ _); [right; eexists; split; reflexivity|].
    destruct (negb _); [right; eexists; split; reflexivity|left; eauto].
  - right. destruct (proj2 (picks D mg I S) N) as (e & -> & C). exists e. split; [reflexivity|exact C].
Qed.

(** ** The forecast horizon *)
Lemma horizons_in D (mg : mgrid Q) h : mg_inv D mg ->
  In h (concat (map (fun i => match nth_error (mg_mods mg) i with
     | Some m => match kind_ts (m_kind m) with Some t => [ts_horizon t] | None => [] end | None => [] end) (all_ids mg)))
  <-> exists i m, at_index mg i m /\ is_ts m /\ h = horizon m.
Proof.
  intros I. rewrite in_concat. split.
  - intros (l & J & K). apply in_map_iff in J. destruct J as (i & E & _). destruct (nth_error (mg_mods mg) i) as [m|] eqn:A; [|subst l; destruct K].
    exists i, m. unfold at_index, is_ts, horizon. destruct (kind_ts (m_kind m)) as [t|]; [|subst l; destruct K]. subst l. destruct K as [<-|[]].
    conj; [exact A|discriminate|reflexivity].
  - intros (i & m & A & T & ->). unfold at_index, is_ts, horizon in *. destruct (kind_ts (m_kind m)) as [t|] eqn:K; [|congruence].
    exists [ts_horizon t]. split; [|left; reflexivity]. apply in_map_iff. exists i. rewrite A, K. split; [reflexivity|].
    apply (Permutation_in _ (Permutation_sym (iv_perm D mg I))). apply in_seq. rewrite <- (D_mods D mg I).
    assert (i < length (mg_mods mg))%nat by (apply nth_error_Some; congruence). lia.
Qed.
Lemma forecast_horizon_ok D (mg : mgrid Q) h : mg_inv D mg -> get_forecast_horizon mg = Ok h ->
  forall i m, at_index mg i m -> is_ts m -> horizon m = h.
Proof.
  intros I E i m A T. pose proof (proj2 (horizons_in D mg (horizon m) I)) as X. specialize (X (ex_intro _ i (ex_intro _ m (conj A (conj T eq_refl))))).
  unfold get_forecast_horizon in E. destruct (concat _) as [|h0 hs]; [destruct X|]. destruct (forallb _ _) eqn:B; [|discriminate]. injection E as <-.
  rewrite forallb_forall in B. specialize (B _ X). apply Nat.eqb_eq in B. congruence.
Qed.
Lemma forecast_horizon_total D (mg : mgrid Q) : mg_inv D mg ->
  (forall i j m m', at_index mg i m -> at_index mg j m' -> is_ts m -> is_ts m' -> horizon m = horizon m') ->
  exists h, get_forecast_horizon mg = Ok h.
Proof.
  intros I F. pose proof (fun h => proj1 (horizons_in D mg h I)) as X. unfold get_forecast_horizon. destruct (concat _) as [|h0 hs]; [eauto|].
  assert (B : forallb (Nat.eqb h0) (h0 :: hs) = true).
  { apply forallb_forall. intros h J. apply Nat.eqb_eq. destruct (X h J) as (i & m & A & T & ->).
    destruct (X h0 (or_introl eq_refl)) as (i0 & m0 & A0 & T0 & ->). eapply F; eassumption. }
  rewrite B. eauto.
Qed.

(** ** Columns of the data *)
Lemma one_column (rows : list (list Q)) : Forall (fun r => length r = 1%nat) rows -> rows = map (fun x => [x]) (ts_column 0 rows).
Proof.
  intros F. induction F as [|r rows L F IH]; [reflexivity|]. destruct r as [|x [|? ?]]; try discriminate. cbn. f_equal. exact IH.
Qed.
Lemma column_length j (rows : list (list Q)) : Forall (fun r => (j < length r)%nat) rows -> length (ts_column j rows) = length rows.
Proof.
  intros F. induction F as [|r rows L F IH]; [reflexivity|]. unfold ts_column in *. cbn [map concat]. apply nth_error_Some in L.
  destruct (nth_error r j); [|congruence]. simpl. f_equal. exact IH.
Qed.
Lemma column_nth j (rows : list (list Q)) : Forall (fun r => (j < length r)%nat) rows -> forall k r, nth_error rows k = Some r ->
  nth_error (ts_column j rows) k = nth_error r j.
Proof.
  intros F. induction F as [|r0 rows L F IH]; intros k r E; [destruct k; discriminate|]. unfold ts_column in *. cbn [map concat].
  apply nth_error_Some in L. destruct (nth_error r0 j) as [x|] eqn:X; [|congruence]. destruct k; simpl in E |- *; [congruence|]. apply IH. exact E.
Qed.
Lemma rows_width (t : tsdata Q) : ts_ok t -> Forall (fun r => length r = length (ts_comps t)) (ts_rows t).
Proof. intros O. eapply Forall_impl; [|exact (ok_rows t O)]. intros r R. apply row_in_length in R. rewrite <- (ok_min t O). tauto. Qed.
Lemma load_width (m : module Q) t : mod_ok m -> m_kind m = KLoad t \/ m_kind m = KRenewable t -> Forall (fun r => length r = 1%nat) (ts_rows t) /\ length (ts_minobs t) = 1%nat /\ length (ts_maxobs t) = 1%nat.
Proof.
  intros O K. pose proof (mo_kind m O) as X. unfold kind_ok in X. destruct K as [K|K]; rewrite K in X;
    destruct X as (_ & _ & _ & (T & _) & C & _); pose proof (rows_width t T) as W; rewrite C in W; split; try exact W;
    pose proof (ok_min t T) as M; rewrite C in M; pose proof (Forall2_length _ _ _ (ok_ord t T)) as L; rewrite M in L; auto.
Qed.
Lemma grid_width (m : module Q) gr t : mod_ok m -> m_kind m = KGrid gr t -> Forall (fun r => length r = 4%nat) (ts_rows t).
Proof.
  intros O K. pose proof (mo_kind m O) as X. unfold kind_ok in X. rewrite K in X. destruct X as (_ & _ & _ & (T & _) & C & _).
  pose proof (rows_width t T) as W. rewrite C in W. exact W.
Qed.
Lemma py_nth_iff {A} (l : list A) i : (exists x, py_nth l i = Some x) <-> (- Z.of_nat (length l) <= i < Z.of_nat (length l))%Z.
Proof.
  unfold py_nth. destruct (Z.leb_spec 0 i), (Z.ltb_spec i (Z.of_nat (length l))), (Z.leb_spec (- Z.of_nat (length l)) i), (Z.ltb_spec i 0); simpl;
    split; intros X; try lia; try (destruct X; discriminate).
  - destruct (nth_error l (Z.to_nat i)) eqn:E; [eauto|]. apply nth_error_None in E. lia.
  - destruct (nth_error l (Z.to_nat (i + Z.of_nat (length l)))) eqn:E; [eauto|]. apply nth_error_None in E. lia.
Qed.
Lemma ts_item_iff (t : tsdata Q) cur : Forall (fun r => length r = 1%nat) (ts_rows t) ->
  ((exists x, ts_item t cur = Ok x) <-> (- Z.of_nat (length (ts_rows t)) <= cur < Z.of_nat (length (ts_rows t)))%Z).
Proof.
  intros F. rewrite <- py_nth_iff. unfold ts_item, ts_row. destruct (py_nth (ts_rows t) cur) as [r|] eqn:E.
  - assert (L : length r = 1%nat). { rewrite Forall_forall in F. apply F. unfold py_nth in E.
      destruct (_ && _); [eapply nth_error_In; exact E|]. destruct (_ && _); [eapply nth_error_In; exact E|discriminate]. }
    destruct r as [|x [|? ?]]; try discriminate. split; eauto.
  - split; intros (x & X); discriminate.
Qed.

(** ** Which modules can be added *)
Section Sufficient.
Variables (round1 : Q -> Q) (poly : nat -> Q).
Notation contribution := (contribution round1 poly).
Definition addable (m : module Q) : Prop :=
  (is_load m \/ is_renewable m -> (- Z.of_nat (length (series m)) <= m_cur m < Z.of_nat (length (series m)))%Z)
  /\ (is_grid m -> series m <> [])
  /\ (forall s, m_kind m = KGenset s -> ~ g_max_prod s == 0 /\ exists c, g_cost s = FuelLin c).
Lemma contribution_iff m : mod_ok m -> ((exists c, contribution m = Ok c) <-> addable m).
Proof.
  intros O. unfold Proofs_Copy.contribution, addable. rewrite is_load_iff, is_renewable_iff, is_grid_iff. unfold series.
  destruct (m_kind m) as [b|s|gr t|t|t|u] eqn:K; cbn [class_of kind_ts].
  - split; [|eauto]. intros _. conj; try discriminate; intros [|]; discriminate.
  - split.
    + intros (c & E). conj; try discriminate; [intros [|]; discriminate|]. intros s0 X. injection X as <-.
      destruct (neqb _ _) eqn:B; [discriminate|]. destruct (g_cost s) as [c0|]; [|discriminate]. split; [|eauto].
      intros Z. unum. apply Qeq_bool_neq in B. apply B. rewrite Z. reflexivity.
    + intros (_ & _ & F). destruct (F s eq_refl) as (NZ & c & C). rewrite C. destruct (neqb _ _) eqn:B; [|eauto]. exfalso. apply NZ.
      unum. apply Qeq_bool_iff in B. rewrite <- (Qmult_0_l (9 # 10)). rewrite <- B. change (@nfrac Q Q_ops 9 10) with (9 # 10). field.
  - pose proof (grid_width m gr t O K) as W. split.
    + intros (c & E). conj; try discriminate; [intros [|]; discriminate|]. intros _ Z. rewrite Z in E. discriminate.
    + intros (_ & F & _). specialize (F eq_refl). destruct (ts_rows t) as [|r rows]; [contradiction|]. inversion W as [|? ? L _]; subst.
      destruct r as [|a0 [|a1 [|a2 [|a3 [|? ?]]]]]; try discriminate. cbn. eauto.
  - destruct (load_width m t O (or_introl K)) as (W & L & _). destruct (ts_minobs t) as [|x [|? ?]]; try discriminate. cbn [first_of rbind].
    rewrite <- (ts_item_iff t (m_cur m) W). unfold current_load, rmap. split.
    + intros (c & E). conj; try discriminate. intros _. destruct (ts_item t (m_cur m)); [eauto|discriminate].
    + intros (F & _). destruct (F (or_introl eq_refl)) as (y & ->). cbn. eauto.
  - destruct (load_width m t O (or_intror K)) as (W & _ & L). destruct (ts_maxobs t) as [|x [|? ?]]; try discriminate. cbn [first_of rbind].
    rewrite <- (ts_item_iff t (m_cur m) W). unfold current_renewable. split.
    + intros (c & E). conj; try discriminate. intros _. destruct (ts_item t (m_cur m)); [eauto|discriminate].
    + intros (F & _). destruct (F (or_intror eq_refl)) as (y & ->). cbn. eauto.
  - split; [|eauto]. intros _. conj; try discriminate; intros [|]; discriminate.
Qed.
End Sufficient.
