(** * Proofs for C36 *)

From Coq Require Import ZArith QArith Bool String List Lia Permutation.
From Verif Require Import Num Py Space Logger Forecast Module Container Microgrid Trajectory
  Spec_Module Spec_Reach Spec_Microgrid Spec_Trajectory
  Proofs_Num Proofs_Logger Proofs_Request Proofs_Classes Proofs_Views Proofs_Module Proofs_Ts Proofs_Any Proofs_Data Proofs_Container Proofs_Run Proofs_Balance Proofs_Mgrid Proofs_MgProps Proofs_MgProps2
  Proofs_Build Proofs_Episode Proofs_Control Proofs_Convert.
Import ListNotations.
Local Open Scope list_scope.
Local Open Scope Z_scope.

(** ** The functions *)
Lemma randint_ok lo hi r x : randint lo hi r = Ok x -> lo <= x < hi.
Proof.
  unfold randint. destruct (hi <=? lo) eqn:L; [discriminate|]. apply Z.leb_gt in L. intros E. inversion E; subst.
  pose proof (Z.mod_pos_bound r (hi - lo)). lia.
Qed.
Lemma randint_err lo hi r : raises ValueError (randint lo hi r) <-> hi <= lo.
Proof.
  unfold randint, raises. destruct (hi <=? lo) eqn:L.
  - apply Z.leb_le in L. split; [auto|]. intros _. eexists. split; reflexivity.
  - apply Z.leb_gt in L. split; [|lia]. intros (e & E & _). discriminate.
Qed.
Lemma randint_some lo hi r : lo < hi -> exists x, randint lo hi r = Ok x.
Proof. intros L. unfold randint. replace (hi <=? lo) with false by (symmetry; apply Z.leb_gt; lia). eauto. Qed.
Lemma randint_all lo hi x : lo <= x < hi -> randint lo hi (x - lo) = Ok x.
Proof.
  intros L. unfold randint. replace (hi <=? lo) with false by (symmetry; apply Z.leb_gt; lia).
  rewrite Z.mod_small by lia. f_equal. lia.
Qed.

Lemma stochastic_in draw k i f w : stochastic_trajectory draw k i (Some f) = Ok w ->
  inside i f w /\ i <= fst w < f - 2 /\ fst w <= snd w < f.
Proof.
  unfold stochastic_trajectory. destruct (randint i (f - 2) (fst (draw k))) as [a|e] eqn:A; [|discriminate].
  cbn [rbind]. destruct (randint a f (snd (draw k))) as [b|e] eqn:B; [|discriminate]. cbn [rbind].
  intros E. inversion E; subst. apply randint_ok in A. apply randint_ok in B. unfold inside. simpl. lia.
Qed.
Lemma stochastic_refuses draw k i f :
  (raises ValueError (stochastic_trajectory draw k i (Some f)) <-> f - i <= 2)
  /\ (2 < f - i -> exists w, stochastic_trajectory draw k i (Some f) = Ok w).
Proof.
  unfold stochastic_trajectory. assert (P : 2 < f - i -> exists w, rbind (randint i (f - 2) (fst (draw k))) (fun i0 =>
    rbind (randint i0 f (snd (draw k))) (fun e => Ok (i0, e))) = Ok w).
  { intros L. destruct (randint_some i (f - 2) (fst (draw k))) as (a & A); [lia|]. rewrite A. cbn [rbind].
    apply randint_ok in A. destruct (randint_some a f (snd (draw k))) as (b & B); [lia|]. rewrite B. cbn [rbind]. eauto. }
  split; [|exact P]. split.
  - intros (e & E & _). destruct (Z_le_gt_dec (f - i) 2) as [L|G]; [exact L|]. destruct P as (w & W); [lia|]. congruence.
  - intros L. destruct (randint_err i (f - 2) (fst (draw k))) as [_ R]. destruct R as (e & -> & C); [lia|].
    cbn [rbind]. exists e. auto.
Qed.
Lemma stochastic_all i f a b : i <= a < f - 2 -> a <= b < f ->
  exists d, forall draw k, draw k = d -> stochastic_trajectory draw k i (Some f) = Ok (a, b).
Proof.
  intros A B. exists (a - i, b - a). intros draw k E. unfold stochastic_trajectory. rewrite E. cbn [fst snd].
  rewrite randint_all by lia. cbn [rbind]. rewrite randint_all by lia. reflexivity.
Qed.

Lemma fixed_in len draw k i f w : fixed_length_trajectory len draw k i (Some f) = Ok w ->
  inside i f w /\ snd w - fst w = len /\ snd w < f.
Proof.
  unfold fixed_length_trajectory. destruct (f - i <? len); [discriminate|].
  destruct (randint i (f - len) (draw k)) as [a|e] eqn:A; [|discriminate]. cbn [rbind].
  intros E. inversion E; subst. apply randint_ok in A. unfold inside. simpl. lia.
Qed.
Lemma fixed_refuses len draw k i f :
  (raises ValueError (fixed_length_trajectory len draw k i (Some f)) <-> f - i <= len)
  /\ (len < f - i -> exists w, fixed_length_trajectory len draw k i (Some f) = Ok w).
Proof.
  unfold fixed_length_trajectory.
  assert (P : len < f - i -> exists w, (if f - i <? len then raise ValueError "Cannot create a trajectory of length"
    else rbind (randint i (f - len) (draw k)) (fun i0 => Ok (i0, i0 + len))) = Ok w).
  { intros L. replace (f - i <? len) with false by (symmetry; apply Z.ltb_ge; lia).
    destruct (randint_some i (f - len) (draw k)) as (a & A); [lia|]. rewrite A. cbn [rbind]. eauto. }
  split; [|exact P]. split.
  - intros (e & E & _). destruct (Z_le_gt_dec (f - i) len) as [L|G]; [exact L|]. destruct P as (w & W); [lia|]. congruence.
  - intros L. destruct (f - i <? len); [eexists; split; reflexivity|].
    destruct (randint_err i (f - len) (draw k)) as [_ R]. destruct R as (e & -> & C); [lia|]. exists e. auto.
Qed.
Lemma fixed_all len i f a : i <= a < f - len ->
  exists d, forall draw k, draw k = d -> fixed_length_trajectory len draw k i (Some f) = Ok (a, a + len).
Proof.
  intros A. exists (a - i). intros draw k E. unfold fixed_length_trajectory. rewrite E.
  replace (f - i <? len) with false by (symmetry; apply Z.ltb_ge; lia). rewrite randint_all by lia. reflexivity.
Qed.

(** ** Construction *)
Lemma construction_checks ds add lossc overc sh (f : traj_fn) (g0 : mgrid Q) :
  new_microgrid ds add lossc overc sh None = Ok g0 ->
  let r := f 0%nat (mg_initial g0) (mg_final g0) in
  (forall w, r = Ok w -> mg_initial g0 <= fst w -> (forall x, mg_final g0 = Some x -> snd w <= x) -> fst w < snd w ->
     new_microgrid ds add lossc overc sh (Some f) = Ok (mg_set_calls (mkMgrid (mg_mods g0) (mg_ct g0) (mg_initial g0) (mg_final g0) sh (Some f) 0 logger_empty logger_empty) 1))
  /\ (forall w, r = Ok w -> fst w < mg_initial g0 \/ (exists x, mg_final g0 = Some x /\ x < snd w) \/ snd w <= fst w ->
     raises ValueError (new_microgrid ds add lossc overc sh (Some f)))
  /\ (forall e, r = Err e -> new_microgrid ds add lossc overc sh (Some f) = Err e).
Proof.
  intros N. cbv zeta. unfold new_microgrid in *.
  destruct (get_subcontainers 0 _ ct_empty) as [c ms] eqn:GS.
  unfold get_module_initial_step, get_module_final_step, dict_ids, all_dict in *. cbn [mg_ct mg_mods] in *.
  destruct (get_attr_unique Z.eqb _ _ ms) as [io|e] eqn:EI; [|discriminate]. cbn [rbind] in *.
  set (i := match io with Some z => z | None => 0 end) in *.
  destruct (get_attr_unique Z.eqb final_attr _ ms) as [fo|e] eqn:EF; [|discriminate]. cbn [rbind] in *.
  inversion N; subst g0. cbn [mg_set_steps mg_initial mg_final mg_mods mg_ct].
  unfold check_trajectory. conj.
  - intros [a b] E A B C. rewrite E. cbn [rbind fst snd] in *.
    replace (a <? i) with false by (symmetry; apply Z.ltb_ge; lia).
    replace (match fo with Some x => x <? b | None => false end) with false.
    2:{ destruct fo as [x|]; [|reflexivity]. symmetry. apply Z.ltb_ge. apply B. reflexivity. }
    replace (b <=? a) with false by (symmetry; apply Z.leb_gt; lia). reflexivity.
  - intros [a b] E BAD. rewrite E. cbn [rbind fst snd] in *. destruct (a <? i) eqn:A; [eexists; split; reflexivity|].
    destruct (match fo with Some x => x <? b | None => false end) eqn:B; [eexists; split; reflexivity|].
    destruct (b <=? a) eqn:C; [eexists; split; reflexivity|]. exfalso. apply Z.ltb_ge in A. apply Z.leb_gt in C.
    destruct BAD as [?|[(x & -> & ?)|?]]; [lia| |lia]. apply Z.ltb_ge in B. lia.
  - intros e E. rewrite E. reflexivity.
Qed.

(** ** Reset *)
Lemma attr_fold_progress (has : module Q -> bool) (set : M (module Q) unit) (P : module Q -> Prop) :
  (forall m, P m -> has m = true -> exists m', set m = (m', Ok tt) /\ P m') ->
  forall ids (b : bool) (g : mgrid Q), Forall P (mg_mods g) -> (forall i, In i ids -> (i < length (mg_mods g))%nat) ->
  exists g' b', mfold (fun (b : bool) i =>
             mbind (get_module i) (fun m =>
             if has m then mbind (with_module i set) (fun _ => mret true) else mret b)) ids b g = (g', Ok b')
    /\ Forall P (mg_mods g') /\ (b = true -> b' = true)
    /\ (forall i m, In i ids -> nth_error (mg_mods g) i = Some m -> has m = true -> b' = true).
Proof.
  intros H. induction ids as [|i ids IH]; intros b g F B; cbn [mfold]; [exists g, b; conj; auto; intros ? ? []|].
  destruct (nth_error (mg_mods g) i) as [m|] eqn:N.
  2:{ apply nth_error_None in N. specialize (B i (or_introl eq_refl)). lia. }
  unfold mbind at 1. unfold mbind at 1. unfold get_module at 1, with_module at 1, mget at 1. rewrite N.
  rewrite (set_nth_id _ _ _ N), mg_set_mods_id.
  pose proof F as F'. rewrite Forall_forall in F'. pose proof (F' _ (nth_error_In _ _ N)) as PM.
  destruct (has m) eqn:HM.
  - destruct (H _ PM HM) as (m' & S & PM'). unfold mbind at 1. unfold with_module at 1. rewrite N, S. unfold mret at 1.
    destruct (IH true (mg_set_mods g (set_nth (mg_mods g) i m'))) as (g' & b' & E & P1 & P2 & P3).
    + simpl. apply forall_set; auto.
    + simpl. rewrite set_nth_length. intros j J. apply B. simpl. auto.
    + exists g', b'. conj; auto.
  - unfold mret at 1. destruct (IH b g F) as (g' & b' & E & P1 & P2 & P3).
    { intros j J. apply B. simpl. auto. }
    exists g', b'. conj; auto. intros j m0 [<-|J] N0 H0; [congruence|eauto].
Qed.

Lemma set_attr_progress D (g : mgrid Q) has set (P : module Q -> Prop) : mg_inv D g ->
  (forall m, P m -> has m = true -> exists m', set m = (m', Ok tt) /\ P m') -> Forall P (mg_mods g) ->
  (exists m, In m (mg_mods g) /\ has m = true) ->
  exists g', set_module_attr has set g = (g', Ok tt) /\ Forall P (mg_mods g').
Proof.
  intros V H F (m & I & HM). pose proof (iv_perm _ _ V) as PM.
  assert (LL : length D = length (mg_mods g)) by exact (Forall2_length _ _ _ (iv_mods _ _ V)).
  unfold set_module_attr. unfold mbind at 1, mget at 1.
  destruct (attr_fold_progress has set P H (all_ids g) false g F) as (g' & b & E & P1 & _ & P3).
  { intros i J. apply (Permutation_in _ PM) in J. apply in_seq in J. lia. }
  exists g'. split; [|exact P1]. unfold mbind at 1. rewrite E.
  apply In_nth_error in I. destruct I as (i & N). rewrite (P3 i m); [reflexivity| |exact N|exact HM].
  apply (Permutation_in _ (Permutation_sym PM)). apply in_seq.
  assert (i < length (mg_mods g))%nat by (apply nth_error_Some; congruence). lia.
Qed.
Lemma attr_fold_fails (has : module Q -> bool) (set : M (module Q) unit) c :
  (forall m, has m = true -> (exists m', set m = (m', Ok tt)) \/ raises c (snd (set m))) ->
  forall ids (b : bool) (g : mgrid Q) j mj, NoDup ids -> (forall i, In i ids -> (i < length (mg_mods g))%nat) ->
  In j ids -> nth_error (mg_mods g) j = Some mj -> has mj = true -> raises c (snd (set mj)) ->
  raises c (snd (mfold (fun (b : bool) i =>
             mbind (get_module i) (fun m =>
             if has m then mbind (with_module i set) (fun _ => mret true) else mret b)) ids b g)).
Proof.
  intros H. induction ids as [|i ids IH]; intros b g j mj ND B I NJ HJ RJ; cbn [mfold]; [destruct I|].
  inversion ND as [|? ? NI ND']; subst.
  destruct (nth_error (mg_mods g) i) as [m|] eqn:N.
  2:{ apply nth_error_None in N. specialize (B i (or_introl eq_refl)). lia. }
  unfold mbind at 1. unfold mbind at 1. unfold get_module at 1, with_module at 1, mget at 1. rewrite N.
  rewrite (set_nth_id _ _ _ N), mg_set_mods_id.
  destruct (has m) eqn:HM.
  - unfold mbind at 1. unfold with_module at 1. rewrite N.
    destruct (H _ HM) as [(m' & S)|R].
    + rewrite S. unfold mret at 1. destruct I as [<-|I].
      { rewrite N in NJ. inversion NJ; subst. rewrite S in RJ. destruct RJ as (? & ? & _). discriminate. }
      apply IH with (j := j) (mj := mj); auto.
      * simpl. rewrite set_nth_length. intros j' J'. apply B. simpl. auto.
      * simpl. rewrite nth_set_other; [exact NJ|]. intros ->. tauto.
    + destruct (set m) as [m' r]. cbn [snd] in R. destruct R as (e & -> & C). exists e. split; [reflexivity|exact C].
  - unfold mret at 1. apply IH with (j := j) (mj := mj); auto.
    + intros j' J'. apply B. simpl. auto.
    + destruct I as [<-|I]; [congruence|exact I].
Qed.
Lemma set_attr_fails D (g : mgrid Q) has set c mj : mg_inv D g ->
  (forall m, has m = true -> (exists m', set m = (m', Ok tt)) \/ raises c (snd (set m))) ->
  In mj (mg_mods g) -> has mj = true -> raises c (snd (set mj)) ->
  raises c (snd (set_module_attr has set g)).
Proof.
  intros V H I HM RJ. pose proof (iv_perm _ _ V) as PM.
  assert (LL : length D = length (mg_mods g)) by exact (Forall2_length _ _ _ (iv_mods _ _ V)).
  assert (ND : NoDup (all_ids g)) by (eapply Permutation_NoDup; [apply Permutation_sym; exact PM|apply seq_NoDup]).
  unfold set_module_attr. unfold mbind at 1, mget at 1.
  apply In_nth_error in I. destruct I as (i & N).
  assert (R : raises c (snd (mfold (fun (b : bool) i =>
             mbind (get_module i) (fun m =>
             if has m then mbind (with_module i set) (fun _ => mret true) else mret b)) (all_ids g) false g))).
  { apply attr_fold_fails with (j := i) (mj := mj); auto.
    - intros j J. apply (Permutation_in _ PM) in J. apply in_seq in J. lia.
    - apply (Permutation_in _ (Permutation_sym PM)). apply in_seq.
      assert (i < length (mg_mods g))%nat by (apply nth_error_Some; congruence). lia. }
  unfold mbind at 1. destruct (mfold _ (all_ids g) false g) as [g1 [b|e]]; [destruct R as (e & E & _); discriminate|].
  destruct R as (e' & E & C). simpl in E. exists e'. split; [simpl; congruence|exact C].
Qed.

Lemma has_final_iff (m : module Q) : has_final m = true <-> exists f, final_step m = Some f.
Proof.
  unfold has_final, final_step. destruct (kind_ts (m_kind m)); simpl; split; eauto; [discriminate|intros (? & ?); discriminate].
Qed.

(** The initial step set on every module first. *)
Lemma initial_set D (g : mgrid Q) i : mg_inv D g -> has_series g ->
  exists g1, set_initial_steps i g = (g1, Ok tt) /\ mg_inv D g1 /\ has_series g1
    /\ Forall2 (fun m m' => m' = set_init m i) (mg_mods g) (mg_mods g1)
    /\ mg_ct g1 = mg_ct g.
Proof.
  intros V (m & f & I & FS).
  destruct (set_attr_progress D g (fun _ => true) (mmodify (fun m => set_init m i)) (fun _ => True)) as (g1 & E & _); auto.
  - intros m0 _ _. eexists. split; [reflexivity|exact Logic.I].
  - rewrite Forall_forall. auto.
  - exists m. auto.
  - exists g1. pose proof (rel_inv _ _ _ (rels_likes _ (set_initial_steps_inner i) _ _ _ E) V) as V1.
    destruct (set_attr_ok _ _ _ _ _ V E) as [G A].
    assert (A' : Forall2 (fun m m' => m' = set_init m i) (mg_mods g) (mg_mods g1)).
    { clear -A. induction A as [|m m' l l' H A IH]; constructor; auto. unfold mmodify in H. inversion H. reflexivity. }
    conj; auto.
    + apply In_nth_error in I. destruct I as (j & N). destruct (Forall2_nth _ _ _ _ _ A' N) as (m' & N' & ->).
      exists (set_init m i), f. split; [eapply nth_error_In; eauto|exact FS].
    + rewrite G. reflexivity.
Qed.

Lemma calls_inv D (g : mgrid Q) n : mg_inv D g -> mg_inv D (mg_set_calls g n).
Proof. intros V. destruct V. constructor; auto. Qed.

Lemma set_final_cases (e : Z) (m : module Q) : has_final m = true ->
  let m' := fst (module_set_final e m) in
  m_init m' = m_init m /\ series m' = series m /\ (user_forecaster m' -> user_forecaster m)
  /\ final_step m' = Some (ends e m)
  /\ ((m_init m < ends e m -> snd (module_set_final e m) = Ok tt)
      /\ (ends e m <= m_init m -> raises ValueError (snd (module_set_final e m)))).
Proof.
  intros HF. unfold has_final in HF. destruct (kind_ts (m_kind m)) as [t|] eqn:K; [|discriminate].
  unfold module_set_final, ends, series, final_step. rewrite K. unfold set_final_step.
  set (f := if e <=? 0 then Z.of_nat (length (ts_rows t)) else e).
  assert (KS : kind_ts (kind_set_ts (m_kind m) (ts_set_final t f)) = Some (ts_set_final t f))
    by exact (kind_set_ts_series _ _ _ K).
  cbn [fst snd set_kind m_init m_kind]. rewrite KS. conj; try reflexivity.
  - intros (t' & vec & fu & K' & UF). simpl in K'. rewrite KS in K'. inversion K'; subst t'. exists t, vec, fu. auto.
  - intros L. replace (f <=? m_init m) with false; [reflexivity|]. symmetry. apply Z.leb_gt. exact L.
  - intros L. replace (f <=? m_init m) with true; [eexists; split; reflexivity|]. symmetry. apply Z.leb_le. exact L.
Qed.
Lemma set_final_total (e : Z) (m : module Q) : has_final m = true ->
  (exists m', module_set_final e m = (m', Ok tt)) \/ raises ValueError (snd (module_set_final e m)).
Proof.
  intros HF. destruct (set_final_cases e m HF) as (_ & _ & _ & _ & A & B).
  destruct (Z_lt_ge_dec (m_init m) (ends e m)) as [L|G].
  - left. exists (fst (module_set_final e m)). rewrite <- (A L). destruct (module_set_final e m). reflexivity.
  - right. apply B. lia.
Qed.
Lemma ends_init e (m : module Q) i : ends e (set_init m i) = ends e m.
Proof. reflexivity. Qed.

(** A window is refused if it is empty for some module. *)
Theorem reset_window_refused D (g : mgrid Q) i e : from_modules D g -> next_window g (Ok (i, e)) ->
  (exists m, In m (mg_mods g) /\ is_ts m /\ ends e m <= i) -> raises ValueError (snd (mg_reset g)).
Proof.
  intros F (f & T & FE) (mj & IJ & TS & LE). apply from_modules_inv in F.
  assert (HJ : has_final mj = true).
  { unfold has_final. unfold is_ts in TS. destruct (kind_ts (m_kind mj)); [reflexivity|congruence]. }
  destruct (proj1 (has_final_iff mj) HJ) as (fj & FJ).
  destruct (initial_set D (mg_set_calls g (S (mg_calls g))) i (calls_inv _ _ _ F) (ex_intro _ mj (ex_intro _ fj (conj IJ FJ)))) as (g1 & E1 & V1 & _ & A & _).
  unfold mg_reset. unfold mbind at 1. unfold set_trajectory. unfold mbind at 1, mget at 1. rewrite T.
  unfold mbind at 1, mput at 1. unfold mbind at 1, mlift at 1. rewrite <- FE. cbn [fst snd]. unfold mbind at 1. rewrite E1.
  assert (R : raises ValueError (snd (set_final_steps e g1))).
  { apply In_nth_error in IJ. destruct IJ as (j & N). simpl in A. destruct (Forall2_nth _ _ _ _ _ A N) as (m' & N' & ->).
    unfold set_final_steps. apply (set_attr_fails D g1 _ _ ValueError (set_init mj i)); auto.
    - intros m0 HF. apply set_final_total. exact HF.
    - eapply nth_error_In; eauto.
    - destruct (set_final_cases e (set_init mj i) HJ) as (_ & _ & _ & _ & _ & B). apply B. exact LE. }
  destruct (set_final_steps e g1) as [g2 [[]|x']]; [destruct R as (? & ? & _); discriminate|].
  destruct R as (e' & E & C). simpl in E. exists e'. split; [injection E as ->; reflexivity|exact C].
Qed.

(** A window that is not empty is accepted. *)
Theorem reset_window_succeeds D (g : mgrid Q) i e : from_modules D g -> has_series g ->
  (forall m, In m (mg_mods g) -> ~ user_forecaster m) ->
  next_window g (Ok (i, e)) -> (forall m, In m (mg_mods g) -> is_ts m -> i < ends e m) ->
  exists g' obs, mg_reset g = (g', Ok obs).
Proof.
  intros F HS U (f & T & FE) L. apply from_modules_inv in F.
  destruct (initial_set D (mg_set_calls g (S (mg_calls g))) i (calls_inv _ _ _ F) HS) as (g1 & E1 & V1 & (m & x & I & FS) & A & _).
  set (P := fun m : module Q => m_init m = i /\ ~ user_forecaster m /\ (is_ts m -> i < ends e m)).
  assert (R : exists g2, set_final_steps e g1 = (g2, Ok tt) /\ Forall P (mg_mods g2)).
  { unfold set_final_steps. apply (set_attr_progress D g1 _ _ P); auto.
    - intros m0 (I0 & U0 & L0) HF. destruct (set_final_cases e m0 HF) as (B1 & B2 & B3 & B4 & B5 & _).
      assert (TS : is_ts m0).
      { unfold is_ts. unfold has_final in HF. destruct (kind_ts (m_kind m0)); [discriminate|congruence]. }
      exists (fst (module_set_final e m0)). split.
      + rewrite <- B5 by (rewrite I0; auto). destruct (module_set_final e m0). reflexivity.
      + unfold P. rewrite B1. conj; auto. intros _. unfold ends in *. rewrite B2. auto.
    - simpl in A. clear -A U L. revert A U L. generalize (mg_mods g), (mg_mods g1). intros l l' A.
      induction A as [|a b l l' -> A IH]; intros U L; constructor.
      + unfold P. split; [reflexivity|]. split; [apply (U a); left; reflexivity|]. intros TS. apply (L a); [left; reflexivity|exact TS].
      + apply IH; intros y J; [apply U|apply L]; right; exact J.
    - exists m. split; [exact I|]. apply has_final_iff. eauto. }
  destruct R as (g2 & E2 & W).
  pose proof (rel_inv _ _ _ (rels_likes _ (set_final_steps_inner e) _ _ _ E2) V1) as V2. pose proof (iv_all_ok _ _ V2) as O.
  unfold mg_reset. unfold mbind at 1. unfold set_trajectory at 1. unfold mbind at 1, mget at 1. rewrite T.
  unfold mbind at 1, mput at 1. unfold mbind at 1, mlift at 1. rewrite <- FE. cbn [fst snd]. unfold mbind at 1. rewrite E1, E2.
  unfold mbind at 1, mget.
  destruct (reset_dict_progress (all_dict g2) [] g2) as (g3 & acc & E).
  - unfold no_user. rewrite Forall_forall in *. intros y J. split; [auto|]. apply W. exact J.
  - intros j J. destruct (dict_ids_in _ _ _ V2 J) as (y & N). apply nth_error_Some. congruence.
  - unfold mbind at 1. rewrite E. unfold mbind, mmodify, mret. eauto.
Qed.

(** What the modules hold after the reset. *)
Theorem reset_window_steps D (g g' : mgrid Q) obs i e : from_modules D g -> names_separate D ->
  next_window g (Ok (i, e)) -> mg_reset g = (g', Ok obs) ->
  Forall (fun m => m_init m = i /\ m_cur m = i
                   /\ (is_ts m -> final_step m = Some (ends e m) /\ i < ends e m)) (mg_mods g').
Proof.
  intros F SEP (f & T & FE) E. destruct (reset_rewinds _ _ _ _ F SEP E) as (FR & _).
  apply from_modules_inv in F. destruct (mg_reset_ok _ _ _ E) as (g1 & ms' & ST & R & G).
  pose proof (rel_inv _ _ _ (set_trajectory_rel _ _ _ ST) F) as V1.
  apply set_trajectory_cases in ST. rewrite T in ST. destruct ST as [(x & C & _)|(p & P & ST)]; [congruence|].
  rewrite <- FE in P. inversion P; subst p. cbn [fst snd] in ST. apply mbind_ok in ST. destruct ST as (g2 & [] & S1 & S2).
  set (gc := mg_set_calls g (S (mg_calls g))) in *.
  pose proof (calls_inv _ _ (S (mg_calls g)) F) as VC.
  pose proof (rel_inv _ _ _ (rels_likes _ (set_initial_steps_inner i) _ _ _ S1) VC) as V2.
  unfold set_initial_steps in S1. unfold set_final_steps in S2.
  destruct (set_attr_ok _ _ _ _ _ VC S1) as [G1 A1]. destruct (set_attr_ok _ _ _ _ _ V2 S2) as [G2 A2].
  assert (W : Forall (fun m => m_init m = i /\ (is_ts m -> final_step m = Some (ends e m) /\ i < ends e m)) (mg_mods g1)).
  { rewrite Forall_forall. intros m3 I. apply In_nth_error in I. destruct I as (j & N3).
    destruct (Forall2_nth_r _ _ _ _ _ A2 N3) as (m2 & N2 & B2). destruct (Forall2_nth_r _ _ _ _ _ A1 N2) as (m1 & N1 & B1).
    simpl in B1. unfold mmodify in B1. inversion B1; subst m2. destruct (has_final (set_init m1 i)) eqn:HF.
    - destruct (set_final_cases e _ HF) as (D1 & D2 & _ & D4 & D5 & D6). rewrite B2 in *. cbn [fst snd] in *.
      split; [exact D1|]. intros _. unfold ends in D4 |- *. rewrite D2. split; [exact D4|].
      destruct (Z_lt_ge_dec i (ends e (set_init m1 i))) as [L|GE]; [exact L|].
      destruct (D6 ltac:(simpl; lia)) as (? & X & _). discriminate.
    - subst m3. split; [reflexivity|]. intros TS. unfold has_final in HF. unfold is_ts in TS.
      destruct (kind_ts (m_kind (set_init m1 i))); [discriminate|congruence]. }
  rewrite Forall_forall in *. intros m' I. destruct (FR _ I) as [F1 _].
  assert (IN' : In m' ms') by (rewrite G in I; exact I). apply In_nth_error in IN'. destruct IN' as (j & N').
  pose proof (resets_length _ _ _ R) as LL.
  assert (LT : (j < length (mg_mods g1))%nat) by (rewrite <- LL; apply nth_error_Some; congruence).
  apply nth_error_Some in LT. destruct (nth_error (mg_mods g1) j) as [m|] eqn:N; [|congruence].
  destruct (W _ (nth_error_In _ _ N)) as [W1 W2].
  assert (SM : mod_same m m').
  { destruct (in_dec Nat.eq_dec j (dict_ids g1)) as [II|II].
    - destruct (resets_each _ _ _ R (dict_ids_nodup _ _ V1) j II) as (m1 & m1' & o & N1 & N2 & RS).
      rewrite N in N1. rewrite N' in N2. inversion N1; inversion N2; subst.
      pose proof (iv_all_ok _ _ V1) as OKS. rewrite Forall_forall in OKS.
      destruct (reset_good _ _ _ (OKS _ (nth_error_In _ _ N)) RS) as (S & _). exact S.
    - rewrite (resets_other _ _ _ R _ II), N in N'. inversion N'; subst. apply mod_same_refl. }
  assert (SR : series m' = series m) by (eapply same_series; eauto).
  assert (TE : is_ts m' -> is_ts m) by (intros X; exact (proj2 (like_series _ _ (mod_like_same _ _ SM)) X)).
  rewrite (same_final_step _ _ SM). rewrite F1, (sm_init _ _ SM). unfold ends. rewrite SR. conj; auto.
Qed.

(** ** The episode of a window *)
Record win_inv (D : list (mdef Q)) (i e : Z) (k : nat) (g : mgrid Q) : Prop := mkWinInv {
  wi_from : from_modules D g;
  wi_mods : Forall (fun m => m_cur m = i + Z.of_nat k /\ forall f, final_step m = Some f -> f = e) (mg_mods g);
  wi_some : has_series g
}.
Lemma run_win D i e k g g' c n out : names_separate D -> win_inv D i e k g -> complete D c ->
  run c n g = (g', Ok out) -> win_inv D i e (S k) g'.
Proof.
  intros SEP I C E. destruct out as [[[obs rw] d] inf]. pose proof (wi_from _ _ _ _ _ I) as F.
  destruct (run_lockstep _ _ _ _ _ _ _ _ _ F SEP C E) as (ST & _).
  pose proof (from_modules_inv _ _ F) as V. pose proof (iv_all_ok _ _ V) as OKS.
  assert (MM : forall j m', nth_error (mg_mods g') j = Some m' -> exists m, nth_error (mg_mods g) j = Some m /\ mod_ok m /\ stepped_once m m').
  { intros j m' N. destruct (Forall2_nth_r _ _ _ _ _ ST N) as (m & N' & S). exists m. conj; auto.
    rewrite Forall_forall in OKS. apply OKS. eapply nth_error_In; eauto. }
  constructor.
  - eapply from_modules_run; eauto.
  - rewrite Forall_forall. intros m' IN. apply In_nth_error in IN. destruct IN as (j & N).
    destruct (MM _ _ N) as (m & N' & O & (a' & n' & o' & S & CU & LG)).
    pose proof (wi_mods _ _ _ _ _ I) as EM. rewrite Forall_forall in EM. destruct (EM m (nth_error_In _ _ N')) as (E1 & E2).
    destruct (step_clock _ _ _ _ _ O S) as (_ & SM & _). split; [lia|]. rewrite (same_final_step _ _ SM). exact E2.
  - destruct (wi_some _ _ _ _ _ I) as (m & f & IN & FS). apply In_nth_error in IN. destruct IN as (j & N).
    destruct (Forall2_nth _ _ _ _ _ ST N) as (m' & N' & (a' & n' & o' & S & _)).
    exists m', f. split; [eapply nth_error_In; eauto|].
    rewrite Forall_forall in OKS. destruct (step_clock _ _ _ _ _ (OKS _ (nth_error_In _ _ N)) S) as (_ & SM & _).
    rewrite (same_final_step _ _ SM). exact FS.
Qed.
Lemma win_done D i e k g g' c n obs rw d inf : names_separate D -> win_inv D i e k g -> complete D c ->
  run c n g = (g', Ok (obs, rw, d, inf)) -> (d = true <-> e - i <= Z.of_nat (S k)).
Proof.
  intros SEP EP C E. pose proof (wi_from _ _ _ _ _ EP) as F.
  pose proof (from_modules_inv _ _ F) as V. pose proof (iv_all_ok _ _ V) as OKS.
  destruct (run_ok_full _ _ _ _ _ _ _ _ _ V E) as (ci & efix & ectl & eflex & ms1 & ms2 & ms3 & r2 & fp & fa & p & a & p3 & a3 & r3 & lg
    & RN & _ & _ & _ & _ & -> & _).
  pose proof (ran_performs _ _ _ _ _ _ _ _ _ _ _ _ _ _ _ _ _ _ _ RN) as PF.
  pose proof (ran_nodup _ _ V _ _ _ _ _ _ _ _ _ _ _ _ _ _ _ _ _ _ RN) as ND.
  pose proof (ran_all_ids _ _ V _ _ _ _ _ _ _ _ _ _ _ _ _ _ _ _ _ _ RN C SEP) as PM.
  assert (LL : length D = length (mg_mods g)) by exact (Forall2_length _ _ _ (iv_mods _ _ V)).
  pose proof (wi_mods _ _ _ _ _ EP) as EM. rewrite Forall_forall in EM, OKS.
  rewrite done_collect. simpl ms_done. rewrite orb_false_r. rewrite existsb_exists. split.
  - intros (ev & IE & DE). destruct (performs_each _ _ _ PF ND _ IE) as (m & m' & N & _ & S).
    destruct (step_clock _ _ _ _ _ (OKS _ (nth_error_In _ _ N)) S) as (_ & _ & _ & _ & DN). apply DN in DE.
    destruct DE as (f' & FS & LE). destruct (EM _ (nth_error_In _ _ N)) as (E2 & E4).
    rewrite <- (E4 _ FS). lia.
  - intros LE. destruct (wi_some _ _ _ _ _ EP) as (m & f & IN & FS). apply In_nth_error in IN. destruct IN as (j & N).
    assert (II : In j (event_ids (efix ++ ectl ++ eflex))).
    { apply (Permutation_in _ (Permutation_sym PM)). apply in_seq. rewrite LL.
      assert (j < length (mg_mods g))%nat by (apply nth_error_Some; congruence). lia. }
    unfold event_ids in II. apply in_map_iff in II. destruct II as (ev & EI & IE).
    exists ev. split; [exact IE|].
    destruct (performs_each _ _ _ PF ND _ IE) as (m1 & m1' & N1 & _ & S). rewrite EI, N in N1. inversion N1; subst m1.
    destruct (step_clock _ _ _ _ _ (OKS _ (nth_error_In _ _ N)) S) as (_ & _ & _ & _ & DN). apply DN.
    destruct (EM _ (nth_error_In _ _ N)) as (E2 & E4). exists f. split; [exact FS|]. rewrite (E4 _ FS). lia.
Qed.
Lemma reset_series D (g g' : mgrid Q) obs : from_modules D g -> mg_reset g = (g', Ok obs) -> has_series g -> has_series g'.
Proof.
  intros F E (m & f & I & FS). pose proof (from_modules_inv _ _ F) as V.
  pose proof (from_modules_inv _ _ (from_modules_reset _ _ _ _ F E)) as V'.
  apply In_nth_error in I. destruct I as (j & N). destruct (iv_at _ _ _ _ V N) as (df & ND & _ & L).
  destruct (Forall2_nth _ _ _ _ _ (iv_mods _ _ V') ND) as (m' & N' & _ & L').
  exists m'. assert (X : exists f', final_step m' = Some f').
  { unfold final_step in *. pose proof (ml_kind _ _ L) as K. pose proof (ml_kind _ _ L') as K'.
    destruct (m_kind (snd df)), (m_kind m), (m_kind m'); simpl in *; try contradiction; try discriminate; eauto. }
  destruct X as (f' & X). exists f'. split; [eapply nth_error_In; eauto|exact X].
Qed.

Theorem window_episode D (g g1 g2 g3 : mgrid Q) i e k obs c n o rw d inf :
  from_modules D g -> names_separate D -> has_series g -> next_window g (Ok (i, e)) -> 0 < e ->
  mg_reset g = (g1, Ok obs) -> after_runs D g1 k g2 ->
  Forall (fun m => m_cur m = i + Z.of_nat k) (mg_mods g2)
  /\ (complete D c -> run c n g2 = (g3, Ok (o, rw, d, inf)) -> (d = true <-> e - i <= Z.of_nat (S k))).
Proof.
  intros F SEP HS NW P E A.
  pose proof (reset_window_steps _ _ _ _ _ _ F SEP NW E) as R.
  assert (W : win_inv D i e 0 g1).
  { constructor; [eapply from_modules_reset; eauto| |eapply reset_series; eauto].
    eapply Forall_impl; [|exact R]. intros m (_ & C & X). split; [lia|]. intros x Y.
    assert (TS : is_ts m). { unfold is_ts. unfold final_step in Y. destruct (kind_ts (m_kind m)); [discriminate|discriminate Y]. }
    destruct (X TS) as [Z1 _]. rewrite Y in Z1. inversion Z1. unfold ends.
    replace (e <=? 0) with false; [reflexivity|]. symmetry. apply Z.leb_gt. exact P. }
  assert (W2 : win_inv D i e k g2).
  { clear -A W SEP. induction A as [|k g1' g2' c n out A IH C E]; [exact W|]. eapply run_win; eauto. }
  split.
  - eapply Forall_impl; [|exact (wi_mods _ _ _ _ _ W2)]. simpl. tauto.
  - intros C RN. eapply win_done; eauto.
Qed.

(** ** The library's trajectories on a microgrid *)
Lemma ends_pos e (m : module Q) : 0 < e -> ends e m = e.
Proof. intros P. unfold ends. replace (e <=? 0) with false; [reflexivity|]. symmetry. apply Z.leb_gt. exact P. Qed.

Theorem fixed_length_episode D (g : mgrid Q) len draw f :
  from_modules D g -> names_separate D -> has_series g -> (forall m, In m (mg_mods g) -> ~ user_forecaster m) ->
  mg_traj g = Some (fixed_length_trajectory len draw) -> mg_final g = Some f ->
  0 <= mg_initial g -> 0 < len < f - mg_initial g ->
  exists g1 obs i, mg_reset g = (g1, Ok obs) /\ mg_initial g <= i /\ i + len < f
    /\ forall k g2, after_runs D g1 k g2 ->
         Forall (fun m => m_cur m = i + Z.of_nat k) (mg_mods g2)
         /\ forall c n g3 o rw d inf, complete D c -> run c n g2 = (g3, Ok (o, rw, d, inf)) ->
              (d = true <-> len <= Z.of_nat (S k)).
Proof.
  intros F SEP HS U T MF I0 L.
  destruct (fixed_refuses len draw (mg_calls g) (mg_initial g) f) as [_ X]. destruct X as ([i e] & W); [lia|].
  destruct (fixed_in _ _ _ _ _ _ W) as ([A _] & B & C). cbn [fst snd] in *.
  assert (NW : next_window g (Ok (i, e))) by (exists (fixed_length_trajectory len draw); rewrite MF; auto).
  destruct (reset_window_succeeds D g i e F HS U NW) as (g1 & obs & E).
  { intros m _ _. rewrite ends_pos; lia. }
  exists g1, obs, i. conj; auto; [lia|]. intros k g2 AR.
  destruct (window_episode D g g1 g2 g1 i e k obs [] false [] 0%Q true [] F SEP HS NW ltac:(lia) E AR) as [CL _].
  split; [exact CL|]. intros c n g3 o rw d inf CC RN.
  destruct (window_episode D g g1 g2 g3 i e k obs c n o rw d inf F SEP HS NW ltac:(lia) E AR) as [_ DN].
  replace len with (e - i) by lia. apply DN; auto.
Qed.

Theorem stochastic_reset D (g : mgrid Q) draw f :
  from_modules D g -> has_series g -> (forall m, In m (mg_mods g) -> ~ user_forecaster m) ->
  mg_traj g = Some (stochastic_trajectory draw) -> mg_final g = Some f ->
  0 <= mg_initial g -> 2 < f - mg_initial g ->
  exists i e, stochastic_trajectory draw (mg_calls g) (mg_initial g) (Some f) = Ok (i, e)
    /\ (i < e -> exists g1 obs, mg_reset g = (g1, Ok obs))
    /\ (0 < i -> i = e -> raises ValueError (snd (mg_reset g))).
Proof.
  intros F HS U T MF I0 L.
  destruct (stochastic_refuses draw (mg_calls g) (mg_initial g) f) as [_ X]. destruct X as ([i e] & W); [lia|].
  assert (NW : next_window g (Ok (i, e))) by (exists (stochastic_trajectory draw); rewrite MF; auto).
  destruct (stochastic_in _ _ _ _ _ W) as (_ & A & B). cbn [fst snd] in *.
  exists i, e. conj; auto.
  - intros LT. apply (reset_window_succeeds D g i e); auto. intros m _ _. rewrite ends_pos; lia.
  - intros P ->. destruct HS as (m & x & IN & FS). apply (reset_window_refused D g e e); auto.
    exists m. conj; auto.
    + unfold is_ts. unfold final_step in FS. destruct (kind_ts (m_kind m)); [discriminate|discriminate FS].
    + rewrite ends_pos; lia.
Qed.

Theorem deterministic_reset D (g : mgrid Q) i e :
  from_modules D g -> names_separate D -> has_series g -> (forall m, In m (mg_mods g) -> ~ user_forecaster m) ->
  mg_traj g = Some (deterministic_trajectory i e) -> 0 < e -> i < e ->
  exists g1 obs, mg_reset g = (g1, Ok obs)
    /\ Forall (fun m => m_init m = i /\ m_cur m = i /\ (is_ts m -> final_step m = Some e)) (mg_mods g1).
Proof.
  intros F SEP HS U T P L.
  assert (NW : next_window g (Ok (i, e))) by (exists (deterministic_trajectory i e); auto).
  destruct (reset_window_succeeds D g i e F HS U NW) as (g1 & obs & E).
  { intros m _ _. rewrite ends_pos; lia. }
  exists g1, obs. split; [exact E|].
  eapply Forall_impl; [|exact (reset_window_steps _ _ _ _ _ _ F SEP NW E)].
  intros m (A & B & C). conj; auto. intros TS. destruct (C TS) as [X _]. rewrite X, ends_pos; auto.
Qed.
