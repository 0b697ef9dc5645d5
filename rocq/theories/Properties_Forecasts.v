(** * Random forecasts and samples of PV and of microgrids *)

From Coq Require Import ZArith QArith Qround Qabs Qminmax Bool String List Lia Lqa.
From Verif Require Import Num Py Spec_Module Proofs_Num NonModular Spec_NonModular Proofs_NmReads Properties_NonModular NmRbc Spec_NmRbcRun Proofs_NmTotal MPC NmMpc Spec_MPC Spec_NmMpc Properties_NmMpc Saa Spec_Saa Properties_Saa
  Sampling Spec_Sampling Proofs_SampleGrid Proofs_SampleLoad Proofs_SamplePv Proofs_SamplePv2 Proofs_SampleGen.
Import ListNotations.
Local Open Scope string_scope.
Local Open Scope list_scope.
Local Open Scope Q_scope.

(** ** C81: the PV *)

Section C81.
  Variables (least most : Q -> Q) (tri : Q -> Q -> Q -> Q -> Q).
  Let sampled := sample_pv least most tri.

  (** A sample with new peaks needs whole days with sun.  Around a baseline of an arc for each day,
      which is kept, each value gets noise in proportion to it, nothing is negative, and if asked for the
      values are moved towards the data. *)
  Theorem C81_new (a : pv_args Q) u z v v' s : az_shape a = Some "uniform" -> uniform u -> sampled a u z v = (v', Ok s) ->
    exists days base c, all_sunny (pv_data v) days
      /\ v' = mkNoisyPv (pv_data v) (pv_named v) (Some base) /\ length base = days /\ (forall day, In day base -> length day = 24%nat)
      /\ arcs (pv_data v) days (peak_drawn least most a (pv_data v)) (concat base)
      /\ sampled_around a z (concat base) c /\ (forall x, In x c -> 0 <= x) /\ moved_towards (az_each a) (pv_data v) c s.
  Proof.
    intros A U H. destruct (sample_new least most tri a u z v v' s A U H) as [D [base [c [S1 [L [[K1 K2] [R1 [R2 [R3 R4]]]]]]]]].
    exists D, base, c. repeat (split; [assumption|]). exact R4.
  Qed.
  (** Such a sample can be drawn if the curve of the low maxima is below that of the high ones. *)
  Theorem C81_succeeds (a : pv_args Q) u z v days : good_args (pv_named v) a -> uniform u -> all_sunny (pv_data v) days ->
    (forall t, least t <= most t) -> exists v' s, sampled a u z v = (v', Ok s).
  Proof. intros [A1 A2 [A3 A4] A5 A6 A7] U S1 LM. now apply (sample_succeeds least most tri a u z v days). Qed.
  (** A sample without new peaks is drawn around the baseline that was kept. *)
  Theorem C81_again (a : pv_args Q) u z v : az_shape a = None ->
    (pv_base v = None -> fst (sampled a u z v) = v /\ raises ValueError (snd (sampled a u z v)))
    /\ forall base, pv_base v = Some base -> (forall day, In day base -> length day = 24%nat) -> length (pv_data v) = (24 * length base)%nat ->
         (forall v' s, sampled a u z v = (v', Ok s) ->
            v' = v /\ exists c, sampled_around a z (concat base) c /\ (forall x, In x c -> 0 <= x) /\ moved_towards (az_each a) (pv_data v) c s)
         /\ ((az_noise a = None \/ az_noise a = Some "gaussian") -> 0 <= az_std a -> (az_each a <> None -> pv_named v = true) ->
             (forall x, In x (concat base) -> 0 <= x) -> exists s, sampled a u z v = (v, Ok s)).
  Proof.
    intros A. split; [intro B; exact (sample_none least most tri a u z v A B)|]. intros base B CH L. split.
    - intros v' s H. exact (sample_again least most tri a u z v v' s base A B CH L H).
    - intros N ST NM NN. exact (again_succeeds least most tri a u z v base A N B CH NN ST NM).
  Qed.
  (** Nothing is sampled at night, nor moved to a dark value of the data. *)
  Theorem C81_night (a : pv_args Q) u z v v' s : az_shape a = Some "uniform" -> uniform u -> sampled a u z v = (v', Ok s) ->
    forall d dawn dusk h x y, sunny (day_of_data (pv_data v) d) dawn dusk -> (h < 24)%nat -> (h <= dawn \/ dusk <= h)%nat ->
      nth_error s (24 * d + h) = Some x -> nth_error (pv_data v) (24 * d + h) = Some y -> y == 0 -> x == 0.
  Proof.
    intros A U H d dawn dusk h x y SD L N X Y Y0. destruct (C81_new a u z v v' s A U H) as [days [base [c [S1 [_ [BL [CH [AR [SA [_ MV]]]]]]]]]].
    assert (LD : (d < days)%nat). { destruct S1 as [W _]. unfold whole_days in W. apply nth_error_Some_lt in Y. lia. }
    destruct (night_zero a z _ _ _ _ _ AR SA d dawn dusk h LD SD L N) as [w [W W0]]. destruct MV as [_ MV]. destruct (MV _ _ _ W Y) as [x' [X' E]].
    assert (x' = x) by congruence. subst x'. rewrite E. destruct (az_each a); rewrite W0; [rewrite Y0; ring|reflexivity].
  Qed.
  (** Without noise, with lower and upper bounds between 0 and 1, no value is above the curve of the high maxima
      if it is positive. *)
  Theorem C81_bounded (a : pv_args Q) u z v v' s : az_shape a = Some "uniform" -> uniform u -> sampled a u z v = (v', Ok s) ->
    az_noise a = None -> az_peak a = None -> az_each a = None -> 0 <= az_lower a <= 1 -> 0 <= az_upper a <= 1 -> (forall t, 0 <= least t /\ least t <= most t) ->
    forall d dawn dusk h x, sunny (day_of_data (pv_data v) d) dawn dusk -> (h < 24)%nat -> nth_error s (24 * d + h) = Some x ->
      0 <= x /\ x <= most (middle d dawn dusk).
  Proof.
    intros A U H NO PK EA LO UP CU d dawn dusk h x SD L X. destruct (C81_new a u z v v' s A U H) as [days [base [c [S1 [_ [BL [CH [AR [SA [NN MV]]]]]]]]]].
    rewrite EA in MV. destruct AR as [AL AR]. destruct SA as [SL SA]. destruct MV as [ML MV].
    assert (LD : (d < days)%nat). { apply nth_error_Some_lt in X. destruct S1 as [W _]. lia. }
    destruct (AR d LD) as [dawn' [dusk' [peak [S2 [P AH]]]]]. destruct (sunny_unique _ _ _ _ _ SD S2) as [<- <-]. destruct (AH h L) as [b [B AB]].
    destruct (SA d h b L B) as [w [W E]]. rewrite NO in E.
    destruct (nth_error (pv_data v) (24 * d + h)) as [y|] eqn:Y; [|apply nth_error_None in Y; destruct S1 as [WD _]; unfold whole_days in WD; lia].
    destruct (MV _ _ _ W Y) as [x' [X' E']]. assert (x' = x) by congruence. subst x'.
    unfold peak_drawn in P. rewrite PK in P.
    assert (P0 : 0 <= peak). { apply (peak_positive least most _ _ d dawn dusk peak) in P; [exact P|intro t; apply CU|apply LO|apply UP]. }
    destruct (arc_bounds _ _ _ _ _ AB P0) as [B0 B1].
    assert (PM : peak <= most (middle d dawn dusk)).
    { destruct P as [lb [ub [wt [BC [W0 [W1 ->]]]]]]. unfold between_curves in BC. destruct (CU (middle d dawn dusk)) as [C0 C1]. pose proof C0 as C2. apply Qle_bool_iff in C2. rewrite C2 in BC.
      destruct BC as [-> ->]. set (p := least (middle d dawn dusk)) in *. set (q := most (middle d dawn dusk)) in *.
      assert (0 <= (1 - az_lower a) * (q - p)) by (apply Qmult_le_0_compat; lra). assert (0 <= (1 - az_upper a) * (q - p)) by (apply Qmult_le_0_compat; lra).
      assert (0 <= (1 - wt) * ((1 - az_lower a) * (q - p))) by (apply Qmult_le_0_compat; lra). assert (0 <= wt * ((1 - az_upper a) * (q - p))) by (apply Qmult_le_0_compat; lra). lra. }
    rewrite E', E. rewrite Q.max_r by lra. lra.
  Qed.
  (** Moved all the way, a sample is the data. *)
  Theorem C81_all_the_way (a : pv_args Q) u z v v' s : az_shape a = Some "uniform" -> uniform u -> sampled a u z v = (v', Ok s) ->
    az_each a = Some 1 -> Forall2 Qeq s (pv_data v).
  Proof.
    intros A U H E. destruct (C81_new a u z v v' s A U H) as [days [base [c [[W _] [_ [BL [CH [[AL _] [[SL _] [_ MV]]]]]]]]]]. rewrite E in MV.
    apply (moved_all _ c); [unfold whole_days in W; lia|exact MV].
  Qed.
  (** Values can only be moved if the data have the right column. *)
  Theorem C81_unnamed (a : pv_args Q) u z v days : good_args true a -> az_each a <> None -> pv_named v = false -> uniform u -> all_sunny (pv_data v) days ->
    (forall t, least t <= most t) -> raises KeyError (snd (sampled a u z v)).
  Proof.
    intros [A1 A2 [A3 A4] A5 A6 _] EA NM U SN LM. unfold sampled. rewrite (pv_drawn least most tri a u z v _ (known_uniform a A1 A2) A1).
    destruct (parabolas_uniform least most tri a (pv_data v) u days SN A1 U) as [base P]. rewrite P.
    destruct (parabolas_ok least most tri a _ _ _ P) as [D [S1 [L [CH AR]]]]. apply (parabolas_drawn least most tri a _ u _ A1 U) in AR.
    cbn [snd]. rewrite NM. apply (rest_unnamed a (pv_data v) base z CH A5); [|exact EA].
    apply (arcs_positive _ _ _ _ AR). intros d dawn dusk peak SD. apply drawn_positive; assumption.
  Qed.
  Theorem C81_unknown (a : pv_args Q) u z v :
    (exists s, az_shape a = Some s /\ s <> "uniform" /\ s <> "triangular") \/ (exists s, az_noise a = Some s /\ s <> "gaussian") ->
    fst (sampled a u z v) = v /\ raises ValueError (snd (sampled a u z v)).
  Proof.
    intro H. apply pv_unknown. unfold known_noises. destruct H as [[s [E [N1 N2]]]|[s [E N1]]]; rewrite E.
    - apply String.eqb_neq in N1, N2. rewrite N1, N2. reflexivity.
    - apply String.eqb_neq in N1. rewrite N1. apply andb_false_r.
  Qed.
  (** The first day without sun is an IndexError, and nothing is kept. *)
  Theorem C81_dark (a : pv_args Q) u z v days d : az_shape a = Some "uniform" -> (az_noise a = None \/ az_noise a = Some "gaussian") -> uniform u ->
    whole_days (pv_data v) days -> (d < days)%nat -> (forall k, (k < d)%nat -> exists dawn dusk, sunny (day_of_data (pv_data v) k) dawn dusk) ->
    (forall x, In x (day_of_data (pv_data v) d) -> x == 0) ->
    fst (sampled a u z v) = v /\ raises IndexError (snd (sampled a u z v)).
  Proof. apply dark_day. Qed.
End C81.
Print Assumptions C81_new.
Print Assumptions C81_succeeds.
Print Assumptions C81_again.
Print Assumptions C81_night.
Print Assumptions C81_bounded.
Print Assumptions C81_all_the_way.
Print Assumptions C81_unnamed.
Print Assumptions C81_unknown.
Print Assumptions C81_dark.

(** Not all PV data can be sampled: not a year with a day without sun. *)
Theorem C81_dark_refuted : ~ (forall least most tri (a : pv_args Q) u z v days, good_args (pv_named v) a -> uniform u -> (0 < days)%nat -> whole_days (pv_data v) days ->
  (forall x, In x (pv_data v) -> 0 <= x) -> (forall t, least t <= most t) -> exists s, snd (sample_pv least most tri a u z v) = Ok s).
Proof.
  intro H. specialize (H (fun _ => 1) (fun _ => 2) (fun _ _ _ _ => 0) default_pv_args (fun _ => 0) (fun _ _ => 0) (new_noisy_pv (repeat 0 24) true) 1%nat).
  destruct H as [s H]; [|intro j; lra|lia|reflexivity|intros x I; apply repeat_spec in I; subst x; lra|intro t; lra|vm_compute in H; discriminate H].
  constructor; cbn; [reflexivity|auto|lra|unfold Qle; cbn; lia|discriminate|congruence].
Qed.
Print Assumptions C81_dark_refuted.

(** Two days: light from hour 7 to 16 and from hour 6 to 17 *)
Definition day_one : list Q := repeat 0 7 ++ [10; 20; 40; 60; 80; 80; 60; 40; 20; 10] ++ repeat 0 7.
Definition day_two : list Q := repeat 0 6 ++ [10; 20; 40; 60; 80; 90; 90; 80; 60; 40; 20; 10] ++ repeat 0 6.
Definition sun_data : list Q := day_one ++ day_two.
Ltac hours := let h := fresh in let H := fresh in intros h H; do 24 (destruct h as [|h]; [first [reflexivity | (intro; discriminate) | lia]|]); lia.
Lemma one_sunny : sunny day_one 6 17.
Proof.
  constructor; [reflexivity|intros h H; do 7 (destruct h as [|h]; [reflexivity|]); lia| |reflexivity|lia|reflexivity].
  intros h H; do 17 (destruct h as [|h]; [first [lia|intro C; vm_compute in C; discriminate C]|]); lia.
Qed.
Lemma two_sunny : sunny day_two 5 18.
Proof.
  constructor; [reflexivity|intros h H; do 6 (destruct h as [|h]; [reflexivity|]); lia| |reflexivity|lia|reflexivity].
  intros h H; do 18 (destruct h as [|h]; [first [lia|intro C; vm_compute in C; discriminate C]|]); lia.
Qed.
Lemma data_sunny : all_sunny sun_data 2.
Proof.
  split; [reflexivity|]. intros d L. destruct d as [|[|d]]; [exists 6%nat, 17%nat; exact one_sunny|exists 5%nat, 18%nat; exact two_sunny|lia].
Qed.
Lemma default_good named : good_args named default_pv_args.
Proof. constructor; cbn; [reflexivity|auto|lra|unfold Qle; cbn; lia|discriminate|congruence]. Qed.
(** The curves 50 and 100, and the peak in the middle between them: 75.  At noon of the second
    day, 12 is half an hour after the middle, and the noise of twice the deviation adds a tenth. *)
Example C81_example : good_args true default_pv_args /\ all_sunny sun_data 2
  /\ match sample_pv (fun _ => 50) (fun _ => 100) (fun _ _ _ _ => 0) default_pv_args (fun _ => 1 # 2) (fun _ _ => 2) (new_noisy_pv sun_data true) with
     | (v', Ok s) => pv_base v' <> None /\ nth 6 s 1 == 0 /\ 0 < nth 7 s 0 /\ nth (24 + 12) s 0 == 75 * (1 - (1 # 169)) * (11 # 10)
     | _ => False
     end.
Proof.
  split; [apply default_good|]. split; [exact data_sunny|]. vm_compute. repeat split; congruence.
Qed.

(** ** C82: forecasts and samples of a microgrid *)

Section C82.
  Variables (root least most : Q -> Q) (tri : Q -> Q -> Q -> Q -> Q).
  Hypothesis LM : forall t, least t <= most t.
  Variables (g : nonmod Q) (days : nat).
  Hypothesis SB : sampleable g days.

  (** Forecasts are made for such microgrids. *)
  Theorem C82_made named a pa scale d : args_of a = Ok (pa, "gaussian", scale) -> good_args named pa -> 0 <= scale -> fair d ->
    exists gn, new_generator root least most tri g named a d = Ok gn /\ made root least most g days named pa scale d gn.
  Proof. intros AE GA SC F. now apply (new_generator_ok root least most tri LM g days named a pa scale d). Qed.
  Theorem C82_sizes named pa scale d gn : made root least most g days named pa scale d gn ->
    length (fo_pv (gn_forecasts gn)) = (24 * days)%nat /\ length (fo_load (gn_forecasts gn)) = rows_of days /\ length (fo_grid (gn_forecasts gn)) = (24 * days)%nat
    /\ Forall binary (fo_grid (gn_forecasts gn)) /\ forall x, In x (fo_load (gn_forecasts gn)) -> 0 <= x.
  Proof. exact (made_sizes root least most g days named pa scale d gn SB). Qed.
  (** From the forecasts as many samples as asked for are drawn.  All have the size of the data, at
      most a year, and are what the algorithm needs; nothing else changes. *)
  Theorem C82_samples named pa scale d gn sa sc ds : good_args named pa -> made root least most g days named pa scale d gn -> sampling_args sa -> 0 <= sc -> Forall fair ds ->
    exists ss, sample_from_forecasts root least most tri sa "gaussian" sc ds gn = (mkGenerator (gn_pv gn) (gn_data gn) (gn_forecasts gn) (Some ss), Ok ss)
      /\ length ss = length ds /\ Forall (good_sample g days gn) ss.
  Proof. intros GA MD SA SC F. now apply (from_forecasts root least most tri LM g days named pa scale d gn SB GA MD sa sc ds). Qed.
  (** The presets for accuracies of 50, 70 and 85: the PV is moved towards the data by 1/2, 13/20 and 1. *)
  Theorem C82_presets n d : n = 50%Z \/ n = 70%Z \/ n = 85%Z -> fair d ->
    exists gn c, new_generator root least most tri g true (Preset n) d = Ok gn
      /\ load_drawn root 2 (dr_load d) (first_year (nm_load_ts g)) (fo_load (gn_forecasts gn))
      /\ (forall x, In x c -> 0 <= x) /\ length c = length (nm_pv_ts g)
      /\ moved_towards (Some (if (n =? 50)%Z then 1 # 2 else if (n =? 70)%Z then 13 # 20 else 1)) (nm_pv_ts g) c (fo_pv (gn_forecasts gn)).
  Proof.
    intros H F. destruct (presets_are n H) as [pa [AE [GA EA]]]. destruct (C82_made true (Preset n) pa 2 d AE GA ltac:(lra) F) as [gn [G1 G2]].
    destruct G2 as [[base [c [_ [K [BL [[AL AR] [[SL SA] MV]]]]]]] [LD _] _ _ _]. exists gn, c. split; [exact G1|]. split; [exact LD|]. rewrite EA in MV. split; [|split; [|exact MV]].
    - intros x I. apply In_nth_error in I. destruct I as [i I]. destruct (split24 i) as [E1 E2].
      destruct (AR (i / 24)%nat) as [dawn [dusk [peak [_ [_ AH]]]]]; [apply Nat.div_lt_upper_bound; [lia|]; apply nth_error_Some_lt in I; lia|].
      destruct (AH _ E2) as [v [V _]]. destruct (SA _ _ v E2 V) as [x' [X' E]]. rewrite <- E1 in X'. assert (x' = x) by congruence. subst x'. rewrite E. apply Q.le_max_l.
    - pose proof (sb_pv _ _ SB) as [W _]. unfold whole_days in W. lia.
  Qed.
  Theorem C82_no_preset named n d : n <> 50%Z -> n <> 70%Z -> n <> 85%Z -> raises ValueError (new_generator root least most tri g named (Preset n) d).
  Proof.
    intros N1 N2 N3. destruct (presets_refused n N1 N2 N3) as [e [E C]]. unfold new_generator.
    assert (G : exists ng, (if has_grid (nm_arch g) then rmap Some (new_noisy_grid (nm_status_ts g) "markov") else Ok None) = Ok ng).
    { destruct (has_grid (nm_arch g)) eqn:HG; [|eauto]. destruct (sb_grid _ _ SB HG) as [_ B].
      assert (NG : new_noisy_grid (nm_status_ts g) "markov" = Ok (mkNoisyGrid "markov" (nm_status_ts g))) by (apply new_grid_iff; auto). rewrite NG. cbn. eauto. }
    destruct G as [ng ->]. cbn [rbind]. unfold create_forecasts, mbind, mlift. rewrite E. cbn [rbind]. exists e. split; [reflexivity|exact C].
  Qed.
  (** With the accuracy 85, the forecast of the PV is perfect. *)
  Theorem C82_perfect d : fair d -> exists gn, new_generator root least most tri g true (Preset 85) d = Ok gn /\ Forall2 Qeq (fo_pv (gn_forecasts gn)) (nm_pv_ts g).
  Proof.
    intro F. destruct (C82_presets 85 d ltac:(auto) F) as [gn [c [G1 [_ [_ [L MV]]]]]]. exists gn. split; [exact G1|]. apply (moved_all _ c); assumption.
  Qed.

  (** The first run of the algorithm draws samples; later ones use them again, whatever is asked
      for, unless new ones are asked for. *)
  Variables (fl : Q -> Z) (part : list (horizon_output Q) -> nat -> list (horizon_output Q)).
  Theorem C82_first_run named pa scale d gn sa sc ds s solve reuse steps p : good_args named pa -> made root least most g days named pa scale d gn -> sampling_args sa -> 0 <= sc ->
    Forall fair ds -> exists ss, length ss = length ds /\ Forall (good_sample g days gn) ss
      /\ saa_run root least most tri fl part s solve g reuse sa "gaussian" sc ds steps p gn
         = (mkGenerator (gn_pv gn) (gn_data gn) (gn_forecasts gn) (Some (fst (run_mpc_on_group fl part s solve g steps p ss))), snd (run_mpc_on_group fl part s solve g steps p ss)).
  Proof.
    intros GA MD SA SC F. destruct (C82_samples named pa scale d gn sa sc ds GA MD SA SC F) as [ss [S1 [S2 S3]]]. exists ss. split; [exact S2|]. split; [exact S3|].
    rewrite (run_drawn root least most tri fl part s solve g reuse sa "gaussian" sc ds steps p gn _ ss (or_introl (md_samples _ _ _ _ _ _ _ _ _ _ MD)) S1 eq_refl). reflexivity.
  Qed.
End C82.
Print Assumptions C82_made.
Print Assumptions C82_sizes.
Print Assumptions C82_samples.
Print Assumptions C82_presets.
Print Assumptions C82_no_preset.
Print Assumptions C82_perfect.
Print Assumptions C82_first_run.

Theorem C82_later_runs root least most tri fl part s solve (g : nonmod Q) sa dist sc ds steps p gn ss : gn_samples gn = Some ss ->
  saa_run root least most tri fl part s solve g true sa dist sc ds steps p gn
  = (mkGenerator (gn_pv gn) (gn_data gn) (gn_forecasts gn) (Some (fst (run_mpc_on_group fl part s solve g steps p ss))), snd (run_mpc_on_group fl part s solve g steps p ss)).
Proof. exact (run_stored root least most tri fl part s solve g sa dist sc ds steps p gn ss). Qed.
Print Assumptions C82_later_runs.

(** After a run the samples contain the actual data of all its rows: a second run with the same
    samples knows them in advance. *)
Theorem C82_not_fresh root least most tri fl part s solve sp h (g0 : nonmod Q) cs p ss rows gn steps sa dist sc ds gn' r :
  floors fl -> partitions part -> wired sp -> new_nonmodular sp h = Ok g0 -> aligned g0 -> let g := nm_after cs g0 in
  has_battery (nm_arch g) = true -> saa_for s g -> assigns_all solve -> Forall (fits g) ss -> shortest ss rows -> gn_samples gn = Some ss -> (0 < saa_count g rows steps)%nat ->
  saa_run root least most tri fl part s solve g true sa dist sc ds steps p gn = (gn', Ok r) ->
  exists ss', gn_samples gn' = Some ss' /\ Forall2 (known_upto g (saa_count g rows steps)) ss ss'.
Proof.
  intros FL PA W N A g HB SF AA FS SH GS CT H. rewrite (C82_later_runs root least most tri fl part s solve g sa dist sc ds steps p gn ss GS) in H.
  destruct (run_mpc_on_group fl part s solve g steps p ss) as [ss' x] eqn:R. cbn [fst snd] in H. apply pair_equal_spec in H. destruct H as [<- ->].
  exists ss'. split; [reflexivity|]. destruct (C75_steps fl part s solve sp h g0 cs p ss rows FL PA W N A HB SF AA FS SH steps ss' r R) as [rs [sss [_ [_ [_ [SM [_ ST]]]]]]].
  fold g in SM, ST. destruct (ST (pred (saa_count g rows steps)) ltac:(lia)) as [_ [_ [K _]]]. replace (S (pred (saa_count g rows steps))) with (saa_count g rows steps) in K by lia. now rewrite SM in K.
Qed.
Print Assumptions C82_not_fresh.

(** The error of a forecast is the average of the relative errors where the data are not 0, and 0
    only for a perfect one.  It is infinite if the data are 0 somewhere and the forecast is not. *)
Theorem C82_error (a f : list Q) : length a = length f ->
  match mape a f with
  | Infinite => exists i y, (exists x, nth_error a i = Some x /\ x == 0) /\ nth_error f i = Some y /\ ~ y == 0
  | Unknown => forall i x y, nth_error a i = Some x -> nth_error f i = Some y -> x == 0 /\ y == 0
  | Rate r => average (errors a f) r /\ errors a f <> [] /\ 0 <= r /\ (r == 0 <-> Forall2 Qeq a f)
  end.
Proof. exact (mape_spec a f). Qed.
Print Assumptions C82_error.

(** A microgrid with a day without sun cannot be controlled by the algorithm at all. *)
Theorem C82_dark root least most tri (g : nonmod Q) days d duration named pa dist scale dr : az_shape pa = Some "uniform" -> (az_noise pa = None \/ az_noise pa = Some "gaussian") -> fair dr ->
  (has_grid (nm_arch g) = true -> Forall binary (nm_status_ts g)) -> (duration <= 8760)%Z ->
  whole_days (nm_pv_ts g) days -> (d < days)%nat -> (forall k, (k < d)%nat -> exists dawn dusk, sunny (day_of_data (nm_pv_ts g) k) dawn dusk) ->
  (forall x, In x (day_of_data (nm_pv_ts g) d) -> x == 0) ->
  raises IndexError (make_saa root least most tri g duration named (Given pa dist scale) dr).
Proof.
  intros A N [U _] GB DU W L SN DK. unfold make_saa. assert (E : (8760 <? duration)%Z = false) by (apply Z.ltb_ge; lia). rewrite E.
  destruct (dark_day least most tri pa (dr_peak dr) (dr_pv dr) (new_noisy_pv (nm_pv_ts g) named) days d A N U W L SN DK) as [D1 [e [D2 D3]]].
  assert (G : exists ng, (if has_grid (nm_arch g) then rmap Some (new_noisy_grid (nm_status_ts g) "markov") else Ok None) = Ok ng).
  { destruct (has_grid (nm_arch g)) eqn:HG; [|eauto]. assert (NG : new_noisy_grid (nm_status_ts g) "markov" = Ok (mkNoisyGrid "markov" (nm_status_ts g))) by (apply new_grid_iff; auto). rewrite NG. cbn. eauto. }
  destruct G as [ng G]. unfold new_generator. rewrite G. cbn [rbind]. unfold create_forecasts, mbind, mlift. cbn [args_of].
  destruct (sample_pv least most tri pa (dr_peak dr) (dr_pv dr) (new_noisy_pv (nm_pv_ts g) named)) as [v' r]. cbn [fst snd] in *. rewrite D2. cbn [rbind].
  exists e. split; [reflexivity|exact D3].
Qed.
Print Assumptions C82_dark.

(** A microgrid with those two days, a constant load and a power cut *)
Definition sun_status : list Q := repeat 1 20 ++ repeat 0 3 ++ repeat 1 25.
Definition sun_spec : nm_spec Q :=
  let x := nm_example full_arch (repeat 30 48) sun_data in
  mkSpec (sp_parameters x) (sp_arch x) (sp_load x) (sp_pv x) (Some sun_status) (Some (repeat (3 # 10) 48)) (Some (repeat (1 # 10) 48)) (Some (repeat (1 # 2) 48))
    (sp_actions x) (sp_status x) (sp_generation x) (sp_cost x) (sp_df_co2 x).
Definition sun_grid : nonmod Q := nm_get (new_nonmodular sun_spec 2).
Lemma sun_new : new_nonmodular sun_spec 2 = Ok sun_grid.
Proof. vm_compute. reflexivity. Qed.
Lemma sun_sampleable : sampleable sun_grid 2.
Proof.
  constructor; [lia|exact data_sunny| |].
  - split; [reflexivity|]. intros x I. change (nm_load_ts sun_grid) with (repeat (30 : Q) 48) in I. apply repeat_spec in I. subst x. lra.
  - intros _. split; [reflexivity|]. apply Forall_forall. intros x I.
    assert (B : forallb (fun x => Qeq_bool x 0 || Qeq_bool x 1) (nm_status_ts sun_grid) = true) by (vm_compute; reflexivity). rewrite forallb_forall in B. specialize (B x I).
    apply orb_true_iff in B. destruct B as [B|B]; apply Qeq_bool_iff in B; [left|right]; exact B.
Qed.
Definition calm (x : Q) : draws Q := mkDraws (fun _ => x) (fun _ _ => 0) (fun _ => 0) (fun _ => x).
Lemma calm_fair x : 0 <= x -> x < 1 -> fair (calm x).
Proof. intros H1 H2. split; intro j; cbn; auto. Qed.
Lemma default_sampling_args : sampling_args default_sampling.
Proof. constructor; cbn; [reflexivity|auto|unfold Qle; cbn; lia|reflexivity]. Qed.
(** Forecasts with the defaults, then two samples: one with power all the time, one with a cut at
    the start *)
Example C82_example : sampleable sun_grid 2
  /\ exists gn, new_generator (fun _ => 0) (fun _ => 50) (fun _ => 100) (fun _ _ _ _ => 0) sun_grid true (Given default_pv_args "gaussian" 1) (calm (1 # 2)) = Ok gn
  /\ made (fun _ => 0) (fun _ => 50) (fun _ => 100) sun_grid 2 true default_pv_args 1 (calm (1 # 2)) gn
  /\ exists ss, snd (sample_from_forecasts (fun _ => 0) (fun _ => 50) (fun _ => 100) (fun _ _ _ _ => 0) default_sampling "gaussian" 1 [calm (1 # 2); calm (1 # 100)] gn) = Ok ss
     /\ length ss = 2%nat /\ Forall (good_sample sun_grid 2 gn) ss.
Proof.
  split; [exact sun_sampleable|].
  destruct (C82_made (fun _ => 0) (fun _ => 50) (fun _ => 100) (fun _ _ _ _ => 0) ltac:(intro t; cbn; lra) sun_grid 2 sun_sampleable true (Given default_pv_args "gaussian" 1) default_pv_args 1 (calm (1 # 2))
    eq_refl (default_good true) ltac:(lra) (calm_fair (1 # 2) ltac:(lra) ltac:(lra))) as [gn [G1 G2]].
  exists gn. split; [exact G1|]. split; [exact G2|].
  destruct (C82_samples (fun _ => 0) (fun _ => 50) (fun _ => 100) (fun _ _ _ _ => 0) ltac:(intro t; cbn; lra) sun_grid 2 sun_sampleable true default_pv_args 1 (calm (1 # 2)) gn default_sampling 1
    [calm (1 # 2); calm (1 # 100)] (default_good true) G2 default_sampling_args ltac:(lra)) as [ss [S1 [S2 S3]]].
  { repeat constructor; cbn; lra. }
  exists ss. rewrite S1. auto.
Qed.
(** It can be controlled for a step: the hypotheses of [C82_not_fresh] are met. *)
Example C82_run_example : wired sun_spec /\ aligned sun_grid /\ has_battery (nm_arch sun_grid) = true
  /\ (exists s, saa_for s sun_grid) /\ saa_count sun_grid (rows_of 2) None = 46%nat.
Proof.
  split; [|split; [|split; [reflexivity|split]]].
  - destruct (example_wired full_arch (repeat 30 48) sun_data eq_refl). constructor; try assumption.
  - split; [vm_compute; lia|]. intros _. repeat (apply Forall_cons; [vm_compute; lia|]). apply Forall_nil.
  - destruct (new_saa sun_grid 100) as [s|] eqn:E; [|vm_compute in E; discriminate E]. exists s, sun_grid, 100%Z. split; [exact E|repeat split].
  - vm_compute. reflexivity.
Qed.
(** The data of [C82_dark]: a second day without sun *)
Example C82_dark_example : (forall k, (k < 1)%nat -> exists dawn dusk, sunny (day_of_data (day_one ++ repeat 0 24) k) dawn dusk)
  /\ (forall x, In x (day_of_data (day_one ++ repeat 0 24) 1) -> x == 0) /\ whole_days (day_one ++ repeat 0 24) 2.
Proof.
  split; [|split; [|reflexivity]].
  - intros k K. destruct k; [|lia]. exists 6%nat, 17%nat. exact one_sunny.
  - intros x I. change (day_of_data (day_one ++ repeat 0 24) 1) with (repeat (0 : Q) 24) in I. apply repeat_spec in I. now subst x.
Qed.
(** Errors of a quarter and a half *)
Example C82_error_example : match mape [4; 0; 2] [5; 0; 1] with Rate r => r == 3 # 8 | _ => False end /\ mape [4; 0] [4; 1] = Infinite /\ mape [0] [0] = Unknown (T := Q).
Proof. vm_compute. repeat split; reflexivity. Qed.
