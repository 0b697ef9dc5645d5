(** * Proofs about forecasts and samples of microgrids *)

From Coq Require Import ZArith QArith Qabs Qminmax Lqa Lia Bool String List.
From Verif Require Import Num Py Spec_Module NonModular Spec_NonModular NmRbc MPC NmMpc Spec_NmMpc Saa Spec_Saa Sampling Spec_Sampling Proofs_Num Proofs_SampleGrid Proofs_SampleLoad Proofs_SamplePv Proofs_SamplePv2.
Import ListNotations.
Local Open Scope string_scope.
Local Open Scope list_scope.
Local Open Scope Q_scope.

Lemma rows_year days : rows_of days = Nat.min (24 * days) year.
Proof. unfold rows_of. now rewrite year_days. Qed.
Lemma rows_days days : rows_of days = (24 * Nat.min days 365)%nat.
Proof. rewrite rows_year, year_days. lia. Qed.
Lemma first_year_ (l : list Q) : first_year l = firstn year l.
Proof. unfold first_year. now rewrite year_days. Qed.
Lemma firstn_all_ {A} n (l : list A) : (length l <= n)%nat -> firstn n l = l.
Proof. apply firstn_all2. Qed.
Lemma In_firstn {A} n (l : list A) x : In x (firstn n l) -> In x l.
Proof. intro H. rewrite <- (firstn_skipn n l). apply in_or_app. auto. Qed.
Lemma nth_firstn {A} n (l : list A) i x : nth_error (firstn n l) i = Some x -> nth_error l i = Some x.
Proof.
  intro H. rewrite <- (firstn_skipn n l). rewrite nth_error_app1; [exact H|]. now apply nth_error_Some_lt in H.
Qed.

Section Gen.
  Variables (root least most : Q -> Q) (tri : Q -> Q -> Q -> Q -> Q).
  Hypothesis LM : forall t, least t <= most t.

  Lemma load_whole (l : list Q) days scale z : (0 < days)%nat -> whole_days l days -> 0 <= scale -> (forall x, In x l -> 0 <= x) ->
    exists s, sample_load root (new_noisy_load (length l) l) "gaussian" scale z = Ok s /\ load_drawn root scale z (first_year l) s /\ length s = rows_of days.
  Proof.
    intros D W SC NN. destruct (cut_whole l days W D) as [CV [FR LN]]. assert (NC : forall x, In x (firstn year l) -> 0 <= x) by (intros x I; apply NN; now apply In_firstn in I).
    destruct (load_succeeds root l scale z CV SC NC) as [s S1]. exists s. split; [exact S1|]. rewrite first_year_.
    destruct (load_sample root l scale z s CV S1) as [_ [L H]]. rewrite FR in L. split; [split; [exact L|exact H]|].
    rewrite L, LN, rows_year. unfold whole_days in W. now rewrite W.
  Qed.

  Lemma whole_two (l : list Q) days : (0 < days)%nat -> whole_days l days -> (2 <= length l)%nat.
  Proof. unfold whole_days. intros. lia. Qed.

  Lemma pv_forecast (data : list Q) days named pa u z : all_sunny data days -> good_args named pa -> uniform u ->
    exists base c s, sample_pv least most tri pa u z (mkNoisyPv data named None) = (mkNoisyPv data named (Some base), Ok s)
      /\ (forall x, In x base -> length x = 24%nat) /\ length base = days /\ arcs data days (peak_drawn least most pa data) (concat base)
      /\ sampled_around pa z (concat base) c /\ moved_towards (az_each pa) data c s.
  Proof.
    intros SN [A1 A2 [A3 A4] A5 A6 A7] U. destruct (sample_succeeds least most tri pa u z (mkNoisyPv data named None) days A1 A2 U SN LM A3 A4 A5 A6 A7) as [v' [s S1]].
    destruct (sample_new least most tri pa u z _ v' s A1 U S1) as [D [base [c [W [L [[-> K] [AR [SA [_ MV]]]]]]]]]. cbn [pv_data pv_named] in *.
    assert (D = days). { destruct W as [W _], SN as [SN _]. unfold whole_days in *. lia. } subst D.
    exists base, c, s. subst days. repeat (split; [assumption || reflexivity|]). assumption.
  Qed.

  Lemma new_generator_ok (g : nonmod Q) days named a pa scale d : sampleable g days -> args_of a = Ok (pa, "gaussian", scale) -> good_args named pa -> 0 <= scale -> fair d ->
    exists gn, new_generator root least most tri g named a d = Ok gn /\ made root least most g days named pa scale d gn.
  Proof.
    intros [D SN [LW LN] GR] AE GA SC [U1 U2]. destruct (pv_forecast (nm_pv_ts g) days named pa (dr_peak d) (dr_pv d) SN GA U1) as [base [c [s [S1 [K [L [AR [SA MV]]]]]]]].
    destruct (load_whole (nm_load_ts g) days scale (dr_load d) D LW SC LN) as [l [L1 [L2 L3]]].
    unfold new_generator. destruct (has_grid (nm_arch g)) eqn:HG.
    - destruct (GR eq_refl) as [GW GB]. assert (NG : new_noisy_grid (nm_status_ts g) "markov" = Ok (mkNoisyGrid "markov" (nm_status_ts g))) by (apply new_grid_iff; auto).
      rewrite NG. cbn [rmap rbind]. destruct (sample_markov (nm_status_ts g) (dr_grid d) GB (whole_two _ _ D GW) U2) as [gs [G1 G2]].
      unfold create_forecasts. unfold mbind, mlift, mret. rewrite AE. unfold new_noisy_pv. rewrite S1. rewrite L1. rewrite G1. cbn [rbind].
      eexists. split; [reflexivity|]. constructor; cbn [gn_pv gn_forecasts gn_data gn_samples fo_pv fo_load fo_grid]; try reflexivity.
      + exists base, c. auto 10.
      + auto.
      + rewrite HG. exact G2.
    - cbn [rbind]. unfold create_forecasts. unfold mbind, mlift, mret. rewrite AE. unfold new_noisy_pv. rewrite S1. rewrite L1. cbn [rbind].
      eexists. split; [reflexivity|]. constructor; cbn [gn_pv gn_forecasts gn_data gn_samples fo_pv fo_load fo_grid]; try reflexivity.
      + exists base, c. auto 10.
      + auto.
      + rewrite HG. unfold zeros. unfold whole_days in LW. rewrite LW. reflexivity.
  Qed.

  Lemma binary_zeros n : Forall binary (repeat 0 n).
  Proof. apply Forall_forall. intros x I. apply repeat_spec in I. subst x. left. reflexivity. Qed.
  Lemma made_sizes g days named pa scale d gn : sampleable g days -> made root least most g days named pa scale d gn ->
    length (fo_pv (gn_forecasts gn)) = (24 * days)%nat /\ length (fo_load (gn_forecasts gn)) = rows_of days /\ length (fo_grid (gn_forecasts gn)) = (24 * days)%nat
    /\ Forall binary (fo_grid (gn_forecasts gn)) /\ forall x, In x (fo_load (gn_forecasts gn)) -> 0 <= x.
  Proof.
    intros [D SN [LW LN] GR] [[base [c [_ [K [L [[AL _] [[SL _] [ML _]]]]]]]] [[_ LD] LL] MG _ _]. split; [lia|]. split; [exact LL|].
    assert (NN : forall x, In x (fo_load (gn_forecasts gn)) -> 0 <= x). { intros x I. apply In_nth_error in I. destruct I as [i I]. now destruct (LD i x I). }
    destruct (has_grid (nm_arch g)).
    - destruct (GR eq_refl) as [GW _]. destruct MG as [M1 [M2 _]]. unfold whole_days in GW. split; [lia|]. auto.
    - rewrite MG. split; [apply repeat_length|]. split; [apply binary_zeros|exact NN].
  Qed.

  Lemma base_positive named (pa : pv_args Q) data days base : good_args named pa -> arcs data days (peak_drawn least most pa data) base -> forall x, In x base -> 0 <= x.
  Proof.
    intros [A1 A2 [A3 A4] A5 A6 A7] AR. apply (arcs_positive _ _ _ _ AR). intros dd dawn dusk peak S1. now apply (drawn_positive least most pa data).
  Qed.

  Section Made.
    Variables (g : nonmod Q) (days : nat) (named : bool) (pa : pv_args Q) (scale : Q) (d : draws Q) (gn : generator Q).
    Hypothesis SB : sampleable g days.
    Hypothesis GA : good_args named pa.
    Hypothesis MD : made root least most g days named pa scale d gn.

    Lemma sample_made sa sc dd : sampling_args sa -> 0 <= sc -> fair dd ->
      exists s, one_sample root least most tri (new_noisy_load (fo_rows (gn_forecasts gn)) (fo_load (gn_forecasts gn))) (mkNoisyGrid "markov" (fo_grid (gn_forecasts gn))) sa "gaussian" sc dd (gn_pv gn)
        = (gn_pv gn, Ok s) /\ good_sample g days gn s.
    Proof.
      intros [Z1 Z2 Z3 Z4] SC [U1 U2]. destruct (made_sizes _ _ _ _ _ _ _ SB MD) as [PL [LL [GL [GB LN]]]].
      pose proof SB as [D SN [LW _] _]. pose proof MD as [[base [c [PV [K [BL [AR _]]]]]] _ _ _ _].
      assert (RW : fo_rows (gn_forecasts gn) = (24 * days)%nat). { unfold fo_rows. rewrite PL, LL, GL. unfold rows_of. lia. }
      assert (W : length (nm_pv_ts g) = (24 * days)%nat) by (destruct SN as [W _]; exact W).
      pose proof (base_positive _ _ _ _ _ GA AR) as BP.
      destruct (again_succeeds least most tri sa (dr_peak dd) (dr_pv dd) (gn_pv gn) base Z1 Z2 ltac:(now rewrite PV) K BP Z3 ltac:(rewrite Z4; congruence)) as [p P1].
      destruct (sample_again least most tri sa (dr_peak dd) (dr_pv dd) (gn_pv gn) (gn_pv gn) p base Z1 ltac:(now rewrite PV) K ltac:(rewrite PV; cbn [pv_data]; lia) P1) as [_ [c' [C1 [C2 C3]]]].
      rewrite Z4 in C3.
      assert (LP : length p = (24 * days)%nat). { destruct C3 as [C3 _], C1 as [C1 _], AR as [AR _]. lia. }
      assert (PC : forall i x, nth_error p i = Some x -> exists y, nth_error c' i = Some y /\ x == y).
      { intros i x X. destruct C3 as [C3 C4]. destruct (nth_error c' i) as [y|] eqn:Y; [|apply nth_error_None in Y; apply nth_error_Some_lt in X; lia]. exists y. split; [reflexivity|].
        destruct (nth_error (pv_data (gn_pv gn)) i) as [w|] eqn:WI; [|apply nth_error_None in WI; rewrite PV in WI; cbn [pv_data] in WI; apply nth_error_Some_lt in X; lia].
        destruct (C4 i y w Y WI) as [v [V E]]. rewrite X in V. injection V as <-. exact E. }
      set (fl := fo_load (gn_forecasts gn)) in *. set (fg := fo_grid (gn_forecasts gn)) in *.
      assert (LFL : (length fl <= year)%nat). { rewrite LL, rows_year. lia. }
      assert (NLE : new_noisy_load (fo_rows (gn_forecasts gn)) fl = new_noisy_load (length fl) fl).
      { unfold new_noisy_load. f_equal. rewrite RW, LL, rows_year. lia. }
      assert (WL : whole_days fl (Nat.min days 365)). { unfold whole_days. now rewrite LL, rows_days. }
      destruct (load_whole fl (Nat.min days 365) sc (dr_load dd) ltac:(lia) WL SC LN) as [l [L1 [[_ L2] L3]]].
      destruct (sample_markov fg (dr_grid dd) GB ltac:(lia) U2) as [gs [G1 G2]].
      unfold one_sample. unfold mbind, mget, mlift, mret. rewrite P1. rewrite NLE, L1. rewrite G1.
      assert (NM : Nat.min (Nat.min (length (pv_data (gn_pv gn))) (nl_rows (new_noisy_load (length fl) fl))) (length (ng_data (mkNoisyGrid "markov" fg))) = rows_of days).
      { rewrite PV. cbn [pv_data ng_data]. unfold new_noisy_load. cbn [nl_rows]. rewrite W, LL, GL, rows_year. lia. }
      rewrite NM. eexists. split; [reflexivity|].
      assert (L3' : length l = rows_of days). { rewrite L3, !rows_days. lia. }
      assert (RL : (rows_of days <= 24 * days)%nat) by (unfold rows_of; lia).
      assert (GSL : length gs = (24 * days)%nat) by (destruct G2 as [G2 _]; lia).
      constructor; cbn [sm_load sm_pv sm_grid].
      - unfold fits. cbn [sm_load sm_pv sm_grid]. rewrite !firstn_length. unfold all_rows. unfold whole_days in LW. rewrite LW, W, L3', LP, GSL. rewrite rows_days. lia.
      - rewrite firstn_length. lia.
      - intros x I. apply In_firstn in I. apply In_nth_error in I. destruct I as [i I]. now destruct (L2 i x I).
      - intros x I. apply In_firstn in I. apply In_nth_error in I. destruct I as [i I]. destruct (PC i x I) as [y [Y E]]. rewrite E. apply C2. now apply nth_error_In in Y.
      - intros d0 dawn dusk h x S1 LH N X. apply nth_firstn in X. destruct (PC _ _ X) as [y [Y E]]. rewrite E.
        assert (LD : (d0 < days)%nat). { apply nth_error_Some_lt in X. lia. }
        destruct (night_zero sa (dr_pv dd) _ _ _ _ _ AR C1 d0 dawn dusk h LD S1 LH N) as [y' [Y' E']]. assert (y' = y) by congruence. now subst y'.
      - destruct G2 as [G2 [G3 G4]]. split; [|exists gs; split; [split; [exact G2|split; [exact G3|exact G4]]|reflexivity]].
        rewrite Forall_forall in *. intros x I. apply In_firstn in I. now apply G3.
    Qed.
    Lemma samples_made sa sc : sampling_args sa -> 0 <= sc -> forall ds, Forall fair ds ->
      exists ss, more_samples root least most tri (new_noisy_load (fo_rows (gn_forecasts gn)) (fo_load (gn_forecasts gn))) (mkNoisyGrid "markov" (fo_grid (gn_forecasts gn))) sa "gaussian" sc ds (gn_pv gn)
        = (gn_pv gn, Ok ss) /\ length ss = length ds /\ Forall (good_sample g days gn) ss.
    Proof.
      intros SA SC. induction ds as [|d0 ds IH]; intro F; [exists []; repeat split; constructor|].
      apply Forall_cons_iff in F. destruct F as [F1 F2]. destruct (sample_made sa sc d0 SA SC F1) as [s [S1 S2]]. destruct (IH F2) as [ss [S3 [S4 S5]]].
      exists (s :: ss). cbn [more_samples]. unfold mbind, mret. rewrite S1, S3. split; [reflexivity|]. split; [cbn; congruence|]. now constructor.
    Qed.
    Lemma from_forecasts sa sc ds : sampling_args sa -> 0 <= sc -> Forall fair ds ->
      exists ss, sample_from_forecasts root least most tri sa "gaussian" sc ds gn = (mkGenerator (gn_pv gn) (gn_data gn) (gn_forecasts gn) (Some ss), Ok ss)
        /\ length ss = length ds /\ Forall (good_sample g days gn) ss.
    Proof.
      intros SA SC F. destruct (samples_made sa sc SA SC ds F) as [ss [S1 [S2 S3]]]. exists ss. split; [|auto].
      destruct (made_sizes _ _ _ _ _ _ _ SB MD) as [PL [LL [GL [GB LN]]]]. unfold sample_from_forecasts.
      assert (RW : fo_rows (gn_forecasts gn) = (24 * days)%nat). { unfold fo_rows. rewrite PL, LL, GL. unfold rows_of. lia. }
      assert (E : Nat.ltb (length (fo_grid (gn_forecasts gn))) (fo_rows (gn_forecasts gn)) = false) by (apply Nat.ltb_ge; lia). rewrite E.
      assert (NG : new_noisy_grid (fo_grid (gn_forecasts gn)) "markov" = Ok (mkNoisyGrid "markov" (fo_grid (gn_forecasts gn)))) by (apply new_grid_iff; auto).
      rewrite NG. rewrite S1. reflexivity.
    Qed.
  End Made.
End Gen.

(** ** Presets, errors and runs *)

Lemma presets_iff n : (exists x, args_of (T := Q) (Preset n) = Ok x) <-> n = 50%Z \/ n = 70%Z \/ n = 85%Z.
Proof.
  unfold args_of. destruct (n =? 50)%Z eqn:E1; [apply Z.eqb_eq in E1; split; [auto|intros _; eexists; reflexivity]|].
  destruct (n =? 70)%Z eqn:E2; [apply Z.eqb_eq in E2; split; [auto|intros _; eexists; reflexivity]|].
  destruct (n =? 85)%Z eqn:E3; [apply Z.eqb_eq in E3; split; [auto|intros _; eexists; reflexivity]|].
  apply Z.eqb_neq in E1, E2, E3. split; [intros [x H]; discriminate|lia].
Qed.
Lemma presets_refused n : n <> 50%Z -> n <> 70%Z -> n <> 85%Z -> raises ValueError (args_of (T := Q) (Preset n)).
Proof. intros E1 E2 E3. unfold args_of. apply Z.eqb_neq in E1, E2, E3. rewrite E1, E2, E3. eexists. split; reflexivity. Qed.
Definition preset_ratio (n : Z) : Q := if (n =? 50)%Z then 1 # 2 else if (n =? 70)%Z then 13 # 20 else 1.
Lemma presets_are n : n = 50%Z \/ n = 70%Z \/ n = 85%Z ->
  exists pa, args_of (Preset n) = Ok (pa, "gaussian", 2) /\ good_args true pa /\ az_each pa = Some (preset_ratio n).
Proof.
  intros [-> | [-> | ->]]; (eexists; split; [reflexivity|]; split; [|reflexivity]; constructor; cbn;
    [reflexivity|auto|unfold Qle; cbn; lia|unfold Qle; cbn; lia|intros r E; injection E as <-; unfold Qle; cbn; lia|reflexivity]).
Qed.

Lemma nsum_fold_ (l : list Q) : nsum l == fold_right Qplus 0 l.
Proof. apply nsum_right. Qed.
Lemma sum_positive (l : list Q) : (forall x, In x l -> 0 <= x) -> 0 <= fold_right Qplus 0 l /\ (fold_right Qplus 0 l == 0 -> forall x, In x l -> x == 0).
Proof.
  induction l as [|x l IH]; intro H; [split; [cbn; lra|intros _ x []]|]. cbn [fold_right]. assert (X : 0 <= x) by (apply H; left; reflexivity).
  destruct IH as [I1 I2]; [intros; apply H; right; assumption|]. split; [lra|]. intros E y [<- |I]; [lra|]. apply I2; [lra|exact I].
Qed.
Lemma mape_spec (a f : list Q) : length a = length f ->
  match mape a f with
  | Infinite => exists i y, (exists x, nth_error a i = Some x /\ x == 0) /\ nth_error f i = Some y /\ ~ y == 0
  | Unknown => forall i x y, nth_error a i = Some x -> nth_error f i = Some y -> x == 0 /\ y == 0
  | Rate r => average (errors a f) r /\ errors a f <> [] /\ 0 <= r /\ (r == 0 <-> Forall2 Qeq a f)
  end.
Proof.
  intro L. unfold mape. cbv zeta. destruct (existsb _ (combine a f)) eqn:EX.
  - apply existsb_exists in EX. destruct EX as [[x y] [I E]]. cbn [fst snd neqb n0 Q_ops] in E. apply andb_true_iff in E. destruct E as [E1 E2].
    apply Qeq_bool_iff in E1. apply negb_true_iff in E2. apply not_true_iff_false in E2. rewrite Qeq_bool_iff in E2.
    apply In_nth_error in I. destruct I as [i I]. exists i, y.
    assert (nth_error a i = Some x /\ nth_error f i = Some y).
    { clear - I. revert f i I. induction a as [|u a IH]; intros [|v f] [|i] I; try discriminate; cbn in *; [injection I as -> ->; auto|now apply IH]. }
    destruct H as [H1 H2]. eauto 10.
  - assert (Z : forall i x y, nth_error a i = Some x -> nth_error f i = Some y -> x == 0 -> y == 0).
    { intros i x y X Y E. destruct (Qeq_dec y 0) as [D|D]; [exact D|]. exfalso. apply not_true_iff_false in EX. apply EX. apply existsb_exists. exists (x, y). split.
      - apply (nth_error_In _ i). clear - X Y. revert f i X Y. induction a as [|u a IH]; intros [|v f] [|i] X Y; try discriminate; cbn in *; [congruence|now apply IH].
      - cbn [fst snd neqb n0 Q_ops]. apply andb_true_iff. split; [now apply Qeq_bool_iff|]. apply negb_true_iff. apply not_true_iff_false. now rewrite Qeq_bool_iff. }
    assert (NE : forall i x y, nth_error a i = Some x -> nth_error f i = Some y -> ~ x == 0 -> In (x, y) (filter (fun e => negb (Qeq_bool (fst e) 0)) (combine a f))).
    { intros i x y X Y D. apply filter_In. split.
      - apply (nth_error_In _ i). clear - X Y. revert f i X Y. induction a as [|u a IH]; intros [|v f] [|i] X Y; try discriminate; cbn in *; [congruence|now apply IH].
      - cbn [fst]. apply negb_true_iff. apply not_true_iff_false. now rewrite Qeq_bool_iff. }
    change (fun e : Q * Q => negb (neqb (fst e) n0)) with (fun e : Q * Q => negb (Qeq_bool (fst e) 0)).
    assert (ER : errors a f = map (fun e => nabs (ndiv (nsub (fst e) (snd e)) (fst e))) (filter (fun e => negb (Qeq_bool (fst e) 0)) (combine a f))) by reflexivity.
    assert (NZ : forall e, In e (filter (fun e => negb (Qeq_bool (fst e) 0)) (combine a f)) -> ~ fst e == 0).
    { intros e I. apply filter_In in I. destruct I as [_ I]. apply negb_true_iff in I. apply not_true_iff_false in I. now rewrite Qeq_bool_iff in I. }
    destruct (filter (fun e => negb (Qeq_bool (fst e) 0)) (combine a f)) as [|p l] eqn:F.
    + intros i x y X Y. destruct (Qeq_dec x 0) as [D|D]; [split; [exact D|exact (Z i x y X Y D)]|]. destruct (NE i x y X Y D).
    + rewrite <- F in ER, NZ, NE. set (es := errors a f) in *.
      assert (AV : average es (mean es)). { apply mean_average. rewrite ER, F. discriminate. }
      assert (NN : forall x, In x es -> 0 <= x). { intros x I. unfold es, errors in I. apply in_map_iff in I. destruct I as [e [<- _]]. apply Qabs.Qabs_nonneg. }
      assert (NL : 0 < number (length es)). { apply (number_lt 0). rewrite ER, map_length, F. cbn. lia. }
      rewrite <- F. rewrite <- ER. split; [exact AV|]. split; [rewrite ER, F; discriminate|].
      destruct (sum_positive es NN) as [P1 P2]. unfold average in AV. split.
      * destruct (Qlt_le_dec (mean es) 0) as [C|C]; [|exact C]. exfalso. assert (mean es * number (length es) < 0); [|lra].
        setoid_replace (mean es * number (length es)) with (- ((- mean es) * number (length es))) by ring. assert (0 < (- mean es) * number (length es)) by (apply Qmult_lt_0_compat; lra). lra.
      * split.
        -- intro E. rewrite E in AV. assert (S0 : fold_right Qplus 0 es == 0) by lra. specialize (P2 S0).
           assert (G : forall i x y, nth_error a i = Some x -> nth_error f i = Some y -> x == y).
           { intros i x y X Y. destruct (Qeq_dec x 0) as [D|D]; [rewrite D; symmetry; exact (Z i x y X Y D)|]. pose proof (NE i x y X Y D) as I.
             assert (Q0 : Qabs ((x - y) / x) == 0). { apply P2. unfold es, errors. apply in_map_iff. exists (x, y). split; [reflexivity|exact I]. }
             assert (Q1 : (x - y) / x == 0). { destruct (Qlt_le_dec ((x - y) / x) 0) as [C|C]; [rewrite Qabs.Qabs_neg in Q0 by lra; lra|rewrite Qabs.Qabs_pos in Q0 by exact C; exact Q0]. }
             assert (x - y == (x - y) / x * x) by (field; exact D). rewrite Q1 in H. lra. }
           clear - G L. revert f L G. induction a as [|u a IH]; intros [|v f] L G; try discriminate; constructor; [exact (G 0%nat u v eq_refl eq_refl)|].
           apply IH; [now injection L|]. intros i. exact (G (S i)).
        -- intro E. assert (S0 : fold_right Qplus 0 es == 0).
           { assert (A0 : forall x, In x es -> x == 0).
             { intros x I. unfold es, errors in I. apply in_map_iff in I. destruct I as [[u v] [<- I]]. specialize (NZ _ I). cbn [fst snd] in *. apply filter_In in I. destruct I as [I _].
               assert (EQ : u == v). { clear - E I. induction E; [destruct I|]. destruct I as [I|I]; [injection I as <- <-; assumption|auto]. }
               assert (Q1 : (u - v) / u == 0) by (rewrite EQ; field; rewrite <- EQ; exact NZ). rewrite Q1. reflexivity. }
             clear - A0. induction es as [|x es IH]; [reflexivity|]. cbn [fold_right]. rewrite IH by (intros; apply A0; right; assumption). rewrite (A0 x) by (left; reflexivity). reflexivity. }
           rewrite S0 in AV. apply Qmult_integral in AV. destruct AV as [AV|AV]; [exact AV|lra].
Qed.

Section Run.
  Variables (root least most : Q -> Q) (tri : Q -> Q -> Q -> Q -> Q) (fl : Q -> Z) (part : list (horizon_output Q) -> nat -> list (horizon_output Q)).
  Lemma run_stored s solve (g : nonmod Q) pa dist scale ds steps p gn ss : gn_samples gn = Some ss ->
    saa_run root least most tri fl part s solve g true pa dist scale ds steps p gn
    = (mkGenerator (gn_pv gn) (gn_data gn) (gn_forecasts gn) (Some (fst (run_mpc_on_group fl part s solve g steps p ss))), snd (run_mpc_on_group fl part s solve g steps p ss)).
  Proof.
    intro S1. unfold saa_run, mbind, mget, mret, mmodify, mlift. rewrite S1. cbn [gn_samples]. rewrite S1. destruct (run_mpc_on_group fl part s solve g steps p ss). reflexivity.
  Qed.
  Lemma run_drawn s solve (g : nonmod Q) reuse pa dist scale ds steps p gn gn' ss : gn_samples gn = None \/ reuse = false ->
    sample_from_forecasts root least most tri pa dist scale ds gn = (gn', Ok ss) -> gn_samples gn' = Some ss ->
    saa_run root least most tri fl part s solve g reuse pa dist scale ds steps p gn
    = (mkGenerator (gn_pv gn') (gn_data gn') (gn_forecasts gn') (Some (fst (run_mpc_on_group fl part s solve g steps p ss))), snd (run_mpc_on_group fl part s solve g steps p ss)).
  Proof.
    intros N F S1. unfold saa_run, mbind, mget, mret, mmodify, mlift.
    destruct N as [N|N]; rewrite N; [|destruct (gn_samples gn)]; rewrite F; rewrite S1; destruct (run_mpc_on_group fl part s solve g steps p ss); reflexivity.
  Qed.
End Run.
