(** * Setting attributes, resetting, and whole episodes *)

From Coq Require Import ZArith QArith Qabs Bool String List Lia Lqa Permutation.
From Verif Require Import Num Py Space Logger Forecast Module Container Microgrid
  Proofs_Num Proofs_Logger Spec_Module Spec_Reach Proofs_Module Proofs_Ts Proofs_Any Proofs_Request
  Proofs_Data Proofs_Classes Spec_Microgrid Proofs_Container Proofs_Run Proofs_Balance Proofs_Mgrid Proofs_Views
  Proofs_MgProps Proofs_MgProps2 Proofs_Build.
Import ListNotations.
Local Open Scope string_scope.
Local Open Scope list_scope.

Lemma nth_ext_error {A} (l : list A) : forall l', (forall i, nth_error l i = nth_error l' i) -> l = l'.
Proof.
  induction l as [|x l IH]; intros [|y l'] H; [reflexivity|specialize (H 0%nat); discriminate..|].
  pose proof (H 0%nat) as H0. simpl in H0. inversion H0; subst. f_equal. apply IH. intros i. exact (H (S i)).
Qed.

(** ** C46 *)
Section Attr.
Variable has : module Q -> bool.
Variable set : M (module Q) unit.
Definition upd (m : module Q) : module Q := if has m then fst (set m) else m.

Lemma attr_fold (ids : list nat) : forall (g : mgrid Q) b, NoDup ids ->
  (forall i, In i ids -> exists m, nth_error (mg_mods g) i = Some m /\ (has m = true -> snd (set m) = Ok tt)) ->
  exists ms' b',
    mfold (fun (b : bool) i =>
             mbind (get_module i) (fun m =>
             if has m then mbind (with_module i set) (fun _ => mret true) else mret b)) ids b g
    = (mg_set_mods g ms', Ok b')
    /\ (forall i, nth_error ms' i = if in_dec Nat.eq_dec i ids then option_map upd (nth_error (mg_mods g) i)
                                    else nth_error (mg_mods g) i)
    /\ (b' = true <-> b = true \/ exists i m, In i ids /\ nth_error (mg_mods g) i = Some m /\ has m = true).
Proof.
  induction ids as [|i ids IH]; intros g b ND H.
  - exists (mg_mods g), b. rewrite mg_set_mods_id. conj; [reflexivity|intros; reflexivity|].
    split; [auto|]. intros [B|(i & m & [] & _)]. exact B.
  - inversion ND as [|? ? NI ND']; subst. destruct (H i) as (m & N & S); [simpl; auto|].
    cbn [mfold]. unfold get_module, with_module, mbind, mget. rewrite N.
    rewrite (set_nth_id _ _ _ N), mg_set_mods_id.
    destruct (has m) eqn:HM.
    + rewrite N. destruct (set m) as [m' r] eqn:E. simpl in S. rewrite (S eq_refl). unfold mret at 1.
      destruct (IH (mg_set_mods g (set_nth (mg_mods g) i m')) true ND') as (ms' & b' & E' & NN & BB).
      { intros j J. simpl. rewrite nth_set_other; [apply H; simpl; auto|]. intros ->. tauto. }
      unfold get_module, with_module, mbind, mget in E'. exists ms', b'. conj.
      * exact E'.
      * intros j. rewrite NN. simpl mg_mods. rewrite nth_set_nth. 
        destruct (in_dec Nat.eq_dec j ids) as [J|J]; destruct (in_dec Nat.eq_dec j (i :: ids)) as [J'|J'];
          simpl in J'; try tauto.
        -- destruct (Nat.eqb i j) eqn:Q; [apply Nat.eqb_eq in Q; subst; tauto|reflexivity].
        -- destruct J' as [->|J']; [|tauto]. rewrite Nat.eqb_refl, N. simpl. unfold upd. rewrite HM, E. reflexivity.
        -- destruct (Nat.eqb i j) eqn:Q; [apply Nat.eqb_eq in Q; subst; tauto|reflexivity].
      * rewrite BB. split; [intros _|auto]. right. exists i, m. simpl. auto.
    + unfold mret at 1. destruct (IH g b ND') as (ms' & b' & E' & NN & BB).
      { intros j J. apply H. simpl. auto. }
      unfold get_module, with_module, mbind, mget in E'. exists ms', b'. conj.
      * exact E'.
      * intros j. rewrite NN.
        destruct (in_dec Nat.eq_dec j ids) as [J|J]; destruct (in_dec Nat.eq_dec j (i :: ids)) as [J'|J'];
          simpl in J'; try tauto.
        destruct J' as [->|J']; [|tauto]. rewrite N. simpl. unfold upd. rewrite HM. reflexivity.
      * rewrite BB. split.
        -- intros [B|(j & m' & J & N' & HM')]; [auto|]. right. exists j, m'. simpl. auto.
        -- intros [B|(j & m' & J & N' & HM')]; [auto|]. destruct J as [<-|J]; [congruence|]. right. exists j, m'. auto.
Qed.

Lemma set_attr_exact D g : mg_inv D g ->
  (forall m, In m (mg_mods g) -> has m = true -> snd (set m) = Ok tt) ->
  set_module_attr has set g
  = if existsb has (mg_mods g) then (mg_set_mods g (map upd (mg_mods g)), Ok tt)
    else (g, raise AttributeError "No module has attribute").
Proof.
  intros V H. pose proof (iv_perm _ _ V) as P.
  assert (LL : length D = length (mg_mods g)) by exact (Forall2_length _ _ _ (iv_mods _ _ V)).
  assert (ND : NoDup (all_ids g)) by (eapply Permutation_NoDup; [apply Permutation_sym; exact P|apply seq_NoDup]).
  assert (IN : forall i, In i (all_ids g) <-> (i < length (mg_mods g))%nat).
  { intros i. split; intros I.
    - apply (Permutation_in _ P) in I. apply in_seq in I. lia.
    - apply (Permutation_in _ (Permutation_sym P)). apply in_seq. lia. }
  destruct (attr_fold (all_ids g) g false ND) as (ms' & b' & E & NN & BB).
  { intros i I. apply IN in I. apply nth_error_Some in I. destruct (nth_error (mg_mods g) i) as [m|] eqn:N; [|congruence].
    exists m. split; [reflexivity|]. apply H. eapply nth_error_In; eauto. }
  assert (MS : ms' = map upd (mg_mods g)).
  { apply nth_ext_error. intros i. rewrite NN, nth_error_map.
    destruct (in_dec Nat.eq_dec i (all_ids g)) as [I|I]; [reflexivity|].
    assert (N : nth_error (mg_mods g) i = None) by (apply nth_error_None; rewrite IN in I; lia).
    rewrite N. reflexivity. }
  unfold set_module_attr. unfold mbind at 1. unfold mget at 1. unfold mbind at 1. 
  assert (EX : existsb has (mg_mods g) = b').
  { destruct b'.
    - apply existsb_exists. destruct (proj1 BB eq_refl) as [C|(i & m & _ & N & HM)]; [discriminate|].
      exists m. split; [eapply nth_error_In; eauto|exact HM].
    - destruct (existsb has (mg_mods g)) eqn:X; [|reflexivity]. apply existsb_exists in X. destruct X as (m & I & HM).
      symmetry. apply BB. right. apply In_nth_error in I. destruct I as (i & N). exists i, m. conj; auto.
      apply IN. apply nth_error_Some. congruence. }
  rewrite EX. subst ms'. rewrite E. destruct b'; [reflexivity|].
  unfold mraise. f_equal.
  assert (MM : map upd (mg_mods g) = mg_mods g); [|rewrite MM; apply mg_set_mods_id].
  transitivity (map (fun m => m) (mg_mods g)); [|apply map_id].
  apply map_ext_in. intros m I. unfold upd. destruct (has m) eqn:HM; [|reflexivity].
  assert (X : existsb has (mg_mods g) = true) by (apply existsb_exists; eauto). congruence.
Qed.
End Attr.

Theorem set_attr_theorem D (g : mgrid Q) has set : from_modules D g ->
  (forall m, In m (mg_mods g) -> has m = true -> snd (set m) = Ok tt) ->
  set_module_attr has set g
  = if existsb has (mg_mods g)
    then (mg_set_mods g (map (fun m => if has m then fst (set m) else m) (mg_mods g)), Ok tt)
    else (g, raise AttributeError "No module has attribute").
Proof. intros F. apply from_modules_inv in F. eapply set_attr_exact; eauto. Qed.

(** ** Resetting *)
Lemma physical_refl m : physical_same m m.
Proof. split; auto. Qed.
Lemma physical_trans m1 m2 m3 : physical_same m1 m2 -> physical_same m2 m3 -> physical_same m1 m3.
Proof. intros [A B] [C E]. split; auto. Qed.
Lemma physical_kind m m' : (kind_ts (m_kind m) = None -> m_kind m' = m_kind m) -> physical_same m m'.
Proof. intros H. split; intros x E; rewrite H, E in *; auto; rewrite E; reflexivity. Qed.
Lemma reset_physical (m m' : module Q) r : reset m = (m', r) -> physical_same m m'.
Proof.
  intros E. apply physical_kind. intros N. unfold reset, update_step, mbind, mmodify, mget, mlift in E.
  simpl in E. rewrite N in E. inversion E; subst. reflexivity.
Qed.
Lemma set_final_physical v (m m' : module Q) r : module_set_final v m = (m', r) -> physical_same m m'.
Proof.
  intros E. apply physical_kind. intros N. unfold module_set_final in E. rewrite N in E. inversion E; subst. reflexivity.
Qed.
Lemma set_initial_physical v : inners physical_same (set_initial_steps v).
Proof.
  apply set_module_attr_inner; eauto using physical_refl, physical_trans.
  intros m m' r E. unfold mmodify in E. inversion E; subst. apply physical_kind. reflexivity.
Qed.
Lemma set_final_steps_physical v : inners physical_same (set_final_steps v).
Proof.
  apply set_module_attr_inner; eauto using physical_refl, physical_trans.
  intros m m' r E. eapply set_final_physical; eauto.
Qed.

(** [_set_trajectory], read off *)
Lemma set_trajectory_cases (g g' : mgrid Q) r : set_trajectory g = (g', r) ->
  match mg_traj g with
  | None => g' = g /\ r = Ok tt
  | Some f =>
      let g1 := mg_set_calls g (S (mg_calls g)) in
      (exists e, f (mg_calls g) (mg_initial g) (mg_final g) = Err e /\ g' = g1 /\ r = Err e)
      \/ exists p, f (mg_calls g) (mg_initial g) (mg_final g) = Ok p
          /\ mbind (set_initial_steps (fst p)) (fun _ => set_final_steps (snd p)) g1 = (g', r)
  end.
Proof.
  unfold set_trajectory, mbind at 1, mget. destruct (mg_traj g) as [f|]; intros E.
  - unfold mbind at 1, mput in E. unfold mbind at 1, mlift in E.
    destruct (f (mg_calls g) (mg_initial g) (mg_final g)) as [p|e].
    + right. exists p. split; [reflexivity|exact E].
    + left. exists e. inversion E; subst. auto.
  - inversion E; subst. auto.
Qed.
Lemma set_trajectory_physical (g g' : mgrid Q) r : set_trajectory g = (g', r) ->
  Forall2 physical_same (mg_mods g) (mg_mods g').
Proof.
  intros E. apply set_trajectory_cases in E. destruct (mg_traj g) as [f|].
  - destruct E as [(e & _ & -> & _)|(p & _ & E)]; [apply Forall2_refl; exact physical_refl|].
    assert (I : inners physical_same (mbind (set_initial_steps (fst p)) (fun _ => set_final_steps (snd p)))).
    { apply inners_bind; [exact physical_trans|apply set_initial_physical|intros _; apply set_final_steps_physical]. }
    destruct (I _ _ _ E) as [_ F]. exact F.
  - destruct E as [-> _]. apply Forall2_refl. exact physical_refl.
Qed.

(** The reset of some modules, one after the other. *)
Inductive resets : list (module Q) -> list nat -> list (module Q) -> Prop :=
| rs_nil ms : resets ms [] ms
| rs_cons ms i m m' o is ms' : nth_error ms i = Some m -> reset m = (m', Ok o) ->
    resets (set_nth ms i m') is ms' -> resets ms (i :: is) ms'.
Lemma resets_app ms is1 ms1 is2 ms2 : resets ms is1 ms1 -> resets ms1 is2 ms2 -> resets ms (is1 ++ is2) ms2.
Proof. induction 1; intros R; simpl; [exact R|econstructor; eauto]. Qed.

Definition reset_inner : nat -> M (mgrid Q) (pyval Q) := fun i => with_module i reset.
Lemma reset_ids_ok ids : forall os (g g' : mgrid Q) os',
  mfold (fun os i => mbind (with_module i reset) (fun o => mret (os ++ [o]))) ids os g = (g', Ok os') ->
  resets (mg_mods g) ids (mg_mods g') /\ g' = mg_set_mods g (mg_mods g').
Proof.
  induction ids as [|i ids IH]; intros os g g' os' E; cbn [mfold] in E.
  - inversion E; subst. split; [constructor|]. symmetry. apply mg_set_mods_id.
  - apply mbind_ok in E. destruct E as (g1 & os1 & E & E1). apply mbind_ok in E. destruct E as (g2 & o & E & E2).
    inversion E2; subst. apply with_module_ok in E. destruct E as (m & m' & N & R & ->).
    destruct (IH _ _ _ _ E1) as [A B]. split; [econstructor; eauto|].
    rewrite B at 1. reflexivity.
Qed.
Lemma reset_dict_ok d : forall acc (g g' : mgrid Q) acc',
  mfold (fun acc (kl : string * list nat) =>
           mbind (mfold (fun os i => mbind (with_module i reset) (fun o => mret (os ++ [o]))) (snd kl) [])
                 (fun os => mret (acc ++ [(fst kl, os)]))) d acc g = (g', Ok acc') ->
  resets (mg_mods g) (concat (map snd d)) (mg_mods g') /\ g' = mg_set_mods g (mg_mods g').
Proof.
  induction d as [|[k l] d IH]; intros acc g g' acc' E; cbn [mfold] in E.
  - inversion E; subst. split; [constructor|]. symmetry. apply mg_set_mods_id.
  - apply mbind_ok in E. destruct E as (g1 & os1 & E & E1). apply mbind_ok in E. destruct E as (g2 & o & E & E2).
    inversion E2; subst. apply reset_ids_ok in E. destruct E as [A B].
    destruct (IH _ _ _ _ E1) as [A' B']. split; [simpl; eapply resets_app; eauto|].
    rewrite B'. rewrite B at 1. reflexivity.
Qed.
Lemma resets_other ms is ms' : resets ms is ms' -> forall i, ~ In i is -> nth_error ms' i = nth_error ms i.
Proof.
  induction 1 as [|ms i m m' o is ms' N R P IH]; intros j NI; [reflexivity|].
  simpl in NI. rewrite IH by tauto. apply nth_set_other. tauto.
Qed.
Lemma resets_each ms is ms' : resets ms is ms' -> NoDup is ->
  forall i, In i is -> exists m m' o, nth_error ms i = Some m /\ nth_error ms' i = Some m' /\ reset m = (m', Ok o).
Proof.
  induction 1 as [|ms i m m' o is ms' N R P IH]; intros ND j I; [destruct I|].
  inversion ND as [|? ? NI ND']; subst. destruct I as [<-|I].
  - exists m, m', o. conj; auto. rewrite (resets_other _ _ _ P _ NI). eapply nth_set_same; eauto.
  - destruct (IH ND' _ I) as (m1 & m1' & o1 & N1 & N1' & E1). exists m1, m1', o1. conj; auto.
    rewrite nth_set_other in N1; [exact N1|]. intros ->. tauto.
Qed.
Lemma resets_length ms is ms' : resets ms is ms' -> length ms' = length ms.
Proof. induction 1; [reflexivity|]. rewrite set_nth_length in IHresets. exact IHresets. Qed.

(** A reset that returned, read off. *)
Lemma mg_reset_ok (g g' : mgrid Q) obs : mg_reset g = (g', Ok obs) ->
  exists g1 ms', set_trajectory g = (g1, Ok tt) /\ resets (mg_mods g1) (dict_ids g1) ms'
    /\ g' = mg_set_logs (mg_set_mods g1 ms') logger_empty logger_empty.
Proof.
  intros E. unfold mg_reset in E. apply mbind_ok in E. destruct E as (g1 & [] & T & E).
  unfold mbind at 1, mget in E. apply mbind_ok in E. destruct E as (g2 & o & E & E2).
  unfold mbind, mmodify, mret in E2. inversion E2; subst. apply reset_dict_ok in E. destruct E as [A B].
  exists g1, (mg_mods g2). conj; auto. rewrite B. reflexivity.
Qed.

Lemma mg_reset_physical (g g' : mgrid Q) r : mg_reset g = (g', r) ->
  Forall2 physical_same (mg_mods g) (mg_mods g').
Proof.
  intros E. unfold mg_reset, mbind at 1 in E. destruct (set_trajectory g) as [g1 [[]|e]] eqn:T.
  - apply set_trajectory_physical in T. unfold mbind at 1, mget in E.
    unfold mbind at 1 in E.
    destruct (mfold _ (all_dict g1) [] g1) as [g2 r2] eqn:F.
    assert (I : Forall2 physical_same (mg_mods g1) (mg_mods g2)).
    { assert (I : inners physical_same (mfold (fun acc (kl : string * list nat) =>
           mbind (mfold (fun os i => mbind (with_module i reset) (fun o => mret (os ++ [o]))) (snd kl) [])
                 (fun os => mret (acc ++ [(fst kl, os)]))) (all_dict g1) [])).
      { apply inners_fold; eauto using physical_refl, physical_trans. intros b a.
        apply inners_bind; eauto using physical_trans.
        - apply inners_fold; eauto using physical_refl, physical_trans. intros b' a'.
          apply inners_bind; eauto using physical_trans.
          + apply inners_with; [exact physical_refl|]. intros. eapply reset_physical; eauto.
          + intros. apply inners_ret. exact physical_refl.
        - intros. apply inners_ret. exact physical_refl. }
      destruct (I _ _ _ F) as [_ X]. exact X. }
    assert (M : mg_mods g' = mg_mods g2).
    { destruct r2; unfold mbind, mmodify, mret in E; inversion E; subst; reflexivity. }
    rewrite M. eapply Forall2_trans; [exact physical_trans|exact T|exact I].
  - inversion E; subst. eapply set_trajectory_physical; eauto.
Qed.

Lemma set_trajectory_ct (g g' : mgrid Q) r : set_trajectory g = (g', r) ->
  mg_ct g' = mg_ct g /\ mg_initial g' = mg_initial g /\ mg_final g' = mg_final g /\ mg_shaper g' = mg_shaper g
  /\ mg_traj g' = mg_traj g.
Proof.
  intros E. apply set_trajectory_cases in E. destruct (mg_traj g) as [f|] eqn:TR.
  - destruct E as [(e & _ & -> & _)|(p & _ & E)]; [simpl; auto|].
    assert (I : inners physical_same (mbind (set_initial_steps (fst p)) (fun _ => set_final_steps (snd p)))).
    { apply inners_bind; [exact physical_trans|apply set_initial_physical|intros _; apply set_final_steps_physical]. }
    destruct (I _ _ _ E) as [-> _]. simpl. auto.
  - destruct E as [-> _]. auto.
Qed.

(** C32 *)
Theorem reset_rewinds D (g g' : mgrid Q) obs : from_modules D g -> names_separate D ->
  mg_reset g = (g', Ok obs) ->
  Forall fresh (mg_mods g') /\ mg_balance g' = logger_empty /\ mg_other g' = logger_empty
  /\ Forall2 physical_same (mg_mods g) (mg_mods g').
Proof.
  intros F SEP E. pose proof (mg_reset_physical _ _ _ E) as PH. apply from_modules_inv in F.
  destruct (mg_reset_ok _ _ _ E) as (g1 & ms' & T & R & ->). conj; auto. simpl in *.
  pose proof (rel_inv _ _ _ (set_trajectory_rel _ _ _ T) F) as V1.
  pose proof (dict_ids_perm _ _ V1 SEP) as P.
  assert (LL : length D = length (mg_mods g1)) by exact (Forall2_length _ _ _ (iv_mods _ _ V1)).
  rewrite Forall_forall. intros m' I. apply In_nth_error in I. destruct I as (i & N).
  assert (II : In i (dict_ids g1)).
  { apply (Permutation_in _ (Permutation_sym P)). apply in_seq.
    assert (i < length ms')%nat by (apply nth_error_Some; congruence). apply resets_length in R. lia. }
  destruct (resets_each _ _ _ R (dict_ids_nodup _ _ V1) i II) as (m & m1 & o & N1 & N2 & RS).
  rewrite N in N2. inversion N2; subst m1. destruct (iv_at _ _ _ _ V1 N1) as (df & _ & O & _).
  destruct (reset_good _ _ _ O RS) as (S & _ & C & [[_ L]|[(e & X) _]]); [|discriminate].
  split; [|exact L]. rewrite C. symmetry. exact (sm_init _ _ S).
Qed.

(** ** Episodes *)
Lemma from_modules_call D g c : from_modules D g -> from_modules D (do_mcall c g).
Proof.
  intros (ds & add & l & o & sh & tr & g0 & cs & B & -> & ->).
  exists ds, add, l, o, sh, tr, g0, (cs ++ [c]). conj; auto.
  unfold mplay. rewrite fold_left_app. reflexivity.
Qed.
Lemma from_modules_run D g c n g' r : from_modules D g -> run c n g = (g', r) -> from_modules D g'.
Proof. intros F E. apply (from_modules_call _ _ (MRun c n)) in F. simpl in F. rewrite E in F. exact F. Qed.
Lemma from_modules_reset D g g' r : from_modules D g -> mg_reset g = (g', r) -> from_modules D g'.
Proof. intros F E. apply (from_modules_call _ _ MReset) in F. simpl in F. rewrite E in F. exact F. Qed.

Record ep_inv (D : list (mdef Q)) (g0 : mgrid Q) (k : nat) (g : mgrid Q) : Prop := mkEpInv {
  ei_from : from_modules D g;
  ei_initial : mg_initial g = mg_initial g0;
  ei_final : mg_final g = mg_final g0;
  ei_traj : mg_traj g = None;
  ei_mods : Forall (fun m => m_init m = mg_initial g0 /\ m_cur m = (mg_initial g0 + Z.of_nat k)%Z
                             /\ lg_len (m_log m) = k
                             /\ forall f, final_step m = Some f -> mg_final g0 = Some f) (mg_mods g);
  ei_some : forall f, mg_final g0 = Some f -> exists m, In m (mg_mods g) /\ final_step m = Some f;
  ei_bal : lg_len (mg_balance g) = k
}.

Lemma built_ep_inv ds add lossc overc sh (g0 : mgrid Q) :
  mbuilt ds add lossc overc sh None g0 -> names_separate (all_defs ds add lossc overc) ->
  Forall (fun d => fresh (snd d)) ds ->
  ep_inv (all_defs ds add lossc overc) g0 0 g0.
Proof.
  intros B SEP FR. pose proof (mbuilt_inv _ _ _ _ _ _ _ B) as V. destruct B as [R N].
  pose proof (built_agree ds add lossc overc sh R SEP _ _ N) as AG.
  destruct (new_microgrid_inv _ _ _ _ _ _ _ N) as (c & ms & GS & CT & MS & SH & TR & BAL & OT & GI & GF & _).
  set (D := all_defs ds add lossc overc) in *.
  assert (FRD : Forall (fun d => fresh (snd d)) D).
  { unfold D, all_defs. destruct add; [|exact FR]. apply Forall_app. split; [exact FR|]. constructor; [|constructor].
    split; reflexivity. }
  constructor; auto.
  - exists ds, add, lossc, overc, sh, (@None traj_fn), g0, []. conj; auto. split; auto.
  - rewrite Forall_forall. intros m I. rewrite MS in I.
    destruct (placed_attr _ _ _ m _ (fun m : module Q => (m_init m, m_cur m, m_log m, final_step m)) GS (fun _ _ => eq_refl) I)
      as (d & ID & E). inversion E as [[E1 E2 E3 E4]].
    rewrite Forall_forall in FRD. destruct (FRD _ ID) as [F1 F2]. destruct (AG _ ID) as [A1 A2].
    rewrite E1, E2, E3, E4 in *. conj; auto.
    + rewrite F1, A1. lia.
    + rewrite F2. reflexivity.
  - intros f F. rewrite F in GF. unfold get_module_final_step in GF.
    pose proof (attr_cases (@final_attr Q) (dict_ids g0) (mg_mods g0) (fun i => dict_ids_in _ _ i V)) as AC.
    cbv zeta in AC. rewrite GF in AC. destruct AC as ((m & S & A) & _).
    apply (shown_all _ _ _ V SEP) in S. exists m. rewrite final_attr_step in A. auto.
  - rewrite BAL. reflexivity.
Qed.

Lemma run_ep_inv D g0 k g g' c n out : names_separate D -> ep_inv D g0 k g -> complete D c ->
  run c n g = (g', Ok out) -> ep_inv D g0 (S k) g'.
Proof.
  intros SEP I C E. destruct out as [[[obs rw] d] inf].
  pose proof (ei_from _ _ _ _ I) as F.
  destruct (run_lockstep _ _ _ _ _ _ _ _ _ F SEP C E) as (ST & _).
  pose proof (from_modules_inv _ _ F) as V.
  destruct (run_ok_full _ _ _ _ _ _ _ _ _ V E) as (ci & efix & ectl & eflex & ms1 & ms2 & ms3 & r2 & fp & fa & p & a & p3 & a3 & r3 & lg
    & RN & G & L & _).
  pose proof (iv_all_ok _ _ V) as OKS.
  assert (MM : forall i m', nth_error (mg_mods g') i = Some m' -> exists m, nth_error (mg_mods g) i = Some m /\ mod_ok m /\ stepped_once m m').
  { intros i m' N. destruct (Forall2_nth_r _ _ _ _ _ ST N) as (m & N' & S). exists m. conj; auto.
    rewrite Forall_forall in OKS. apply OKS. eapply nth_error_In; eauto. }
  constructor.
  - eapply from_modules_run; eauto.
  - rewrite G. simpl. exact (ei_initial _ _ _ _ I).
  - rewrite G. simpl. exact (ei_final _ _ _ _ I).
  - rewrite G. simpl. exact (ei_traj _ _ _ _ I).
  - rewrite Forall_forall. intros m' IN. apply In_nth_error in IN. destruct IN as (i & N).
    destruct (MM _ _ N) as (m & N' & O & (a' & n' & o' & S & CU & LG)).
    pose proof (ei_mods _ _ _ _ I) as EM. rewrite Forall_forall in EM.
    destruct (EM m (nth_error_In _ _ N')) as (E1 & E2 & E3 & E4).
    destruct (step_clock _ _ _ _ _ O S) as (_ & SM & _).
    conj.
    + rewrite (sm_init _ _ SM). exact E1.
    + rewrite CU, E2. lia.
    + rewrite LG, E3. reflexivity.
    + rewrite (same_final_step _ _ SM). exact E4.
  - intros f FF. destruct (ei_some _ _ _ _ I f FF) as (m & IN & FS). apply In_nth_error in IN. destruct IN as (i & N).
    destruct (Forall2_nth _ _ _ _ _ ST N) as (m' & N' & (a' & n' & o' & S & _)).
    exists m'. split; [eapply nth_error_In; eauto|].
    rewrite Forall_forall in OKS. destruct (step_clock _ _ _ _ _ (OKS _ (nth_error_In _ _ N)) S) as (_ & SM & _).
    rewrite (same_final_step _ _ SM). exact FS.
  - destruct (bal_log fp fa p a p3 a3 r3 rw _ (iv_bal _ _ V)) as (lg' & L' & _ & LL).
    rewrite L in L'. inversion L'; subst lg'. rewrite G. simpl. rewrite LL. f_equal. exact (ei_bal _ _ _ _ I).
Qed.

Lemma reset_ep_inv D g0 k g g' obs : names_separate D -> ep_inv D g0 k g ->
  mg_reset g = (g', Ok obs) -> ep_inv D g0 0 g'.
Proof.
  intros SEP I E. pose proof (ei_from _ _ _ _ I) as F.
  destruct (reset_rewinds _ _ _ _ F SEP E) as (FR & BL & _ & _).
  pose proof (from_modules_inv _ _ F) as V. pose proof (iv_all_ok _ _ V) as OKS.
  destruct (mg_reset_ok _ _ _ E) as (g1 & ms' & T & R & G).
  apply set_trajectory_cases in T. rewrite (ei_traj _ _ _ _ I) in T. destruct T as [-> _].
  assert (MM : forall i m m', nth_error (mg_mods g) i = Some m -> nth_error ms' i = Some m' -> mod_same m m').
  { intros i m m' N N'. destruct (in_dec Nat.eq_dec i (dict_ids g)) as [II|II].
    - destruct (resets_each _ _ _ R (dict_ids_nodup _ _ V) i II) as (m1 & m1' & o & N1 & N2 & RS).
      rewrite N in N1. rewrite N' in N2. inversion N1; inversion N2; subst.
      rewrite Forall_forall in OKS. destruct (reset_good _ _ _ (OKS _ (nth_error_In _ _ N)) RS) as (S & _). exact S.
    - rewrite (resets_other _ _ _ R _ II), N in N'. inversion N'; subst. apply mod_same_refl. }
  assert (LL : length ms' = length (mg_mods g)) by (eapply resets_length; eauto).
  constructor.
  - eapply from_modules_reset; eauto.
  - rewrite G. simpl. exact (ei_initial _ _ _ _ I).
  - rewrite G. simpl. exact (ei_final _ _ _ _ I).
  - rewrite G. simpl. exact (ei_traj _ _ _ _ I).
  - rewrite Forall_forall in *. intros m' IN. destruct (FR _ IN) as [F1 F2].
    assert (IN' : In m' ms') by (rewrite G in IN; exact IN). apply In_nth_error in IN'. destruct IN' as (i & N').
    assert (LT : (i < length (mg_mods g))%nat) by (rewrite <- LL; apply nth_error_Some; congruence).
    apply nth_error_Some in LT. destruct (nth_error (mg_mods g) i) as [m|] eqn:N; [|congruence].
    pose proof (MM _ _ _ N N') as SM. pose proof (ei_mods _ _ _ _ I) as EM. rewrite Forall_forall in EM.
    destruct (EM m (nth_error_In _ _ N)) as (E1 & E2 & E3 & E4). rewrite (sm_init _ _ SM) in F1. conj.
    + rewrite (sm_init _ _ SM). exact E1.
    + rewrite F1, E1. lia.
    + rewrite F2. reflexivity.
    + rewrite (same_final_step _ _ SM). exact E4.
  - intros f FF. destruct (ei_some _ _ _ _ I f FF) as (m & IN & FS). apply In_nth_error in IN. destruct IN as (i & N).
    assert (LT : (i < length ms')%nat) by (rewrite LL; apply nth_error_Some; congruence).
    apply nth_error_Some in LT. destruct (nth_error ms' i) as [m'|] eqn:N'; [|congruence].
    exists m'. split; [rewrite G; simpl; eapply nth_error_In; eauto|].
    rewrite (same_final_step _ _ (MM _ _ _ N N')). exact FS.
  - rewrite BL. reflexivity.
Qed.

Section Episode.
Variables (ds : list (mdef Q)) (add : bool) (lossc overc : Q) (sh : option (shaper Q)) (g0 : mgrid Q).
Hypothesis B : mbuilt ds add lossc overc sh None g0.
Let D := all_defs ds add lossc overc.
Hypothesis SEP : names_separate D.
Hypothesis FR : Forall (fun d => fresh (snd d)) ds.

Lemma episode_inv k g : episode D g0 k g -> ep_inv D g0 k g.
Proof.
  induction 1 as [|k g g' c n out EP IH C E|k g g' obs EP IH E].
  - eapply built_ep_inv; eauto.
  - eapply run_ep_inv; eauto.
  - eapply reset_ep_inv; eauto.
Qed.

(** C17, C29: the clock of an episode *)
Theorem episode_clock k g : episode D g0 k g ->
  Forall (fun m => m_cur m = (mg_initial g0 + Z.of_nat k)%Z) (mg_mods g)
  /\ (D <> [] -> mg_current_step g = Ok (mg_initial g0 + Z.of_nat k)%Z).
Proof.
  intros E. apply episode_inv in E. split.
  - eapply Forall_impl; [|exact (ei_mods _ _ _ _ E)]. simpl. tauto.
  - intros ND. destruct (current_step_cases _ _ (ei_from _ _ _ _ E) SEP) as [CS _]. apply CS. split.
    + pose proof (iv_mods _ _ (from_modules_inv _ _ (ei_from _ _ _ _ E))) as F2. intros C. rewrite C in F2.
      apply Forall2_length in F2. apply ND. apply length_zero_iff_nil. exact F2.
    + intros m I. pose proof (ei_mods _ _ _ _ E) as EM. rewrite Forall_forall in EM. apply EM. exact I.
Qed.

(** C17 *)
Theorem episode_done k g g' c n obs rw d inf f : episode D g0 k g -> complete D c ->
  run c n g = (g', Ok (obs, rw, d, inf)) -> mg_final g0 = Some f ->
  (d = true <-> (f - mg_initial g0 <= Z.of_nat (S k))%Z).
Proof.
  intros EP C E FF. apply episode_inv in EP. pose proof (ei_from _ _ _ _ EP) as F.
  pose proof (from_modules_inv _ _ F) as V. pose proof (iv_all_ok _ _ V) as OKS.
  destruct (run_ok_full _ _ _ _ _ _ _ _ _ V E) as (ci & efix & ectl & eflex & ms1 & ms2 & ms3 & r2 & fp & fa & p & a & p3 & a3 & r3 & lg
    & RN & _ & _ & _ & _ & -> & _).
  pose proof (ran_performs _ _ _ _ _ _ _ _ _ _ _ _ _ _ _ _ _ _ _ RN) as PF.
  pose proof (ran_nodup _ _ V _ _ _ _ _ _ _ _ _ _ _ _ _ _ _ _ _ _ RN) as ND.
  pose proof (ran_all_ids _ _ V _ _ _ _ _ _ _ _ _ _ _ _ _ _ _ _ _ _ RN C SEP) as PM.
  assert (LL : length D = length (mg_mods g)) by exact (Forall2_length _ _ _ (iv_mods _ _ V)).
  pose proof (ei_mods _ _ _ _ EP) as EM. rewrite Forall_forall in EM, OKS.
  rewrite done_collect. simpl ms_done. rewrite orb_false_r. rewrite existsb_exists. split.
  - intros (e & IE & DE). destruct (performs_each _ _ _ PF ND _ IE) as (m & m' & N & _ & S).
    destruct (step_clock _ _ _ _ _ (OKS _ (nth_error_In _ _ N)) S) as (_ & _ & _ & _ & DN). apply DN in DE.
    destruct DE as (f' & FS & LE). destruct (EM _ (nth_error_In _ _ N)) as (_ & E2 & _ & E4).
    rewrite (E4 _ FS) in FF. inversion FF; subst. lia.
  - intros LE. destruct (ei_some _ _ _ _ EP f FF) as (m & IN & FS). apply In_nth_error in IN. destruct IN as (i & N).
    assert (II : In i (event_ids (efix ++ ectl ++ eflex))).
    { apply (Permutation_in _ (Permutation_sym PM)). apply in_seq. rewrite LL.
      assert (i < length (mg_mods g))%nat by (apply nth_error_Some; congruence). lia. }
    unfold event_ids in II. apply in_map_iff in II. destruct II as (e & EI & IE).
    exists e. split; [exact IE|].
    destruct (performs_each _ _ _ PF ND _ IE) as (m1 & m1' & N1 & _ & S). rewrite EI, N in N1. inversion N1; subst m1.
    destruct (step_clock _ _ _ _ _ (OKS _ (nth_error_In _ _ N)) S) as (_ & _ & _ & _ & DN). apply DN.
    exists f. split; [exact FS|]. destruct (EM _ (nth_error_In _ _ N)) as (_ & E2 & _ & _). lia.
Qed.

(** C33: [get_log] *)
Lemma rmapM_all {A C} (f : A -> res C) (h : A -> C) l : (forall a, In a l -> f a = Ok (h a)) -> rmapM f l = Ok (map h l).
Proof.
  induction l as [|a l IH]; intros H; [reflexivity|]. simpl. rewrite (H a) by (simpl; auto). simpl.
  rewrite IH; [reflexivity|]. intros b I. apply H. simpl. auto.
Qed.
Lemma in_concat_map {A C} (f : A -> list C) l b : In b (concat (map f l)) <-> exists a, In a l /\ In b (f a).
Proof.
  rewrite in_concat. split.
  - intros (x & I & J). apply in_map_iff in I. destruct I as (a & <- & I). eauto.
  - intros (a & I & J). exists (f a). split; [apply in_map; exact I|exact J].
Qed.
Lemma In_enum {A} (l : list A) j a : In (j, a) (combine (seq 0 (length l)) l) <-> nth_error l j = Some a.
Proof.
  assert (G : forall i, In (j, a) (combine (seq i (length l)) l) <-> exists q, j = (i + q)%nat /\ nth_error l q = Some a).
  { induction l as [|x l IH]; intros i; simpl.
    - split; [intros []|]. intros (q & _ & N). destruct q; discriminate.
    - rewrite IH. split.
      + intros [E|(q & -> & N)]; [inversion E; subst; exists 0%nat; split; [lia|reflexivity]|].
        exists (S q). split; [lia|exact N].
      + intros ([|q] & -> & N); [left; inversion N; f_equal; lia|]. right. exists q. split; [lia|exact N]. }
  rewrite G. split; [intros (q & -> & N); exact N|intros N; exists j; auto].
Qed.
Lemma all_dict_nodup (g : mgrid Q) : NoDup (map fst (all_dict g)).
Proof. unfold all_dict. apply NoDup_to_dict. Qed.
Lemma in_log_columns D' g nm j key col : mg_inv D' g -> names_separate D' ->
  In ((nm, j, key), col) (log_columns g) <->
  (exists i m, nth_error (positions nm D') j = Some i /\ at_index g i m /\ In (key, col) (lg_data (m_log m)))
  \/ (nm = "balance" /\ j = 0%nat /\ In (key, col) (lg_data (mg_balance g))).
Proof.
  intros V S. unfold log_columns. rewrite (iv_other _ _ V). simpl lg_data. simpl map at 3. rewrite app_nil_r.
  rewrite in_app_iff. assert (IB : In (nm, j, key, col) (map (fun kc : string * column Q => ("balance", 0%nat, fst kc, snd kc)) (lg_data (mg_balance g)))
     <-> nm = "balance" /\ j = 0%nat /\ In (key, col) (lg_data (mg_balance g))).
  { rewrite in_map_iff. split.
    - intros ([k' c'] & E & I). inversion E; subst. auto.
    - intros (-> & -> & I). exists (key, col). auto. }
  rewrite IB. apply or_iff_compat_r. rewrite in_concat_map. split.
  - intros ([nm' l] & I & J). apply In_dget in I; [|apply all_dict_nodup].
    rewrite (all_view_sep _ _ _ V S) in I. simpl in J. rewrite in_concat_map in J. destruct J as ([j' i] & JJ & J).
    rewrite In_enum in JJ. simpl in J. destruct (nth_error (mg_mods g) i) as [m|] eqn:N; [|destruct J].
    apply in_map_iff in J. destruct J as ([k' c'] & E & J). inversion E; subst. exists i, m. conj; auto.
    unfold entry_for in I. destruct (positions nm D'); [discriminate|]. inversion I; subst. exact JJ.
  - intros (i & m & P & A & I). exists (nm, positions nm D'). split.
    + apply dget_In. rewrite (all_view_sep _ _ _ V S). unfold entry_for. destruct (positions nm D'); [destruct j; discriminate|reflexivity].
    + simpl. rewrite in_concat_map. exists (j, i). rewrite In_enum. split; [exact P|]. simpl. unfold at_index in A. rewrite A.
      apply in_map_iff. exists (key, col). auto.
Qed.

Theorem episode_log k g : episode D g0 k g -> D <> [] ->
  exists cols, get_log g = Ok cols
    /\ (forall h cells, In (h, cells) cols -> length cells = k)
    /\ (forall nm j key cells, In ((nm, j, key), cells) cols <->
         (exists i m, nth_error (positions nm D) j = Some i /\ at_index g i m
            /\ dget key (lg_data (m_log m)) = Some (ColList cells))
         \/ (nm = "balance" /\ j = 0%nat /\ dget key (lg_data (mg_balance g)) = Some (ColList cells))).
Proof.
  intros EP ND. destruct (episode_clock _ _ EP) as [_ CS]. specialize (CS ND).
  apply episode_inv in EP. pose proof (ei_from _ _ _ _ EP) as F. pose proof (from_modules_inv _ _ F) as V.
  pose proof (iv_all_ok _ _ V) as OKS. rewrite Forall_forall in OKS. pose proof (ei_mods _ _ _ _ EP) as EM. rewrite Forall_forall in EM.
  assert (COL : forall h c, In (h, c) (log_columns g) -> exists l, c = ColList l /\ length l = k).
  { intros [[nm j] key] c I. apply (in_log_columns _ _ _ _ _ _ V SEP) in I.
    destruct I as [(i & m & _ & A & I)|(_ & _ & I)].
    - destruct (mo_rect _ (OKS _ (nth_error_In _ _ A))) as [N R]. apply (In_dget _ _ _ N) in I. apply R in I.
      destruct I as (l & -> & L). exists l. split; [reflexivity|]. rewrite L.
      destruct (EM _ (nth_error_In _ _ A)) as (_ & _ & E3 & _). exact E3.
    - destruct (iv_bal _ _ V) as [[N R] _]. apply (In_dget _ _ _ N) in I. apply R in I.
      destruct I as (l & -> & L). exists l. split; [reflexivity|]. rewrite L. exact (ei_bal _ _ _ _ EP). }
  exists (map (fun hc => (fst hc, col_cells (snd hc))) (log_columns g)). conj.
  - unfold get_log. rewrite CS. cbn [rbind]. apply rmapM_all. intros [h c] I. destruct (COL _ _ I) as (l & -> & L).
    cbn [fst snd col_cells]. rewrite (ei_initial _ _ _ _ EP), L.
    replace (mg_initial g0 + Z.of_nat k - mg_initial g0)%Z with (Z.of_nat k) by lia. rewrite Nat2Z.id, Nat.eqb_refl. reflexivity.
  - intros h cells I. apply in_map_iff in I. destruct I as ([h' c] & E & I). destruct (COL _ _ I) as (l & -> & L).
    cbn [fst snd col_cells] in E. congruence.
  - intros nm j key cells. rewrite in_map_iff. split.
    + intros ([h c] & E & I). destruct (COL _ _ I) as (l & -> & L). cbn [fst snd col_cells] in E.
      injection E as -> ->.
      apply (in_log_columns _ _ _ _ _ _ V SEP) in I. destruct I as [(i & m & P & A & I)|(-> & -> & I)].
      * left. exists i, m. conj; auto. apply In_dget; [|exact I]. apply (mo_rect _ (OKS _ (nth_error_In _ _ A))).
      * right. conj; auto. apply In_dget; [|exact I]. apply (iv_bal _ _ V).
    + intros H. exists ((nm, j, key), ColList cells). split; [reflexivity|].
      apply (in_log_columns _ _ _ _ _ _ V SEP). destruct H as [(i & m & P & A & I)|(-> & -> & I)].
      * left. exists i, m. conj; auto. apply dget_In. exact I.
      * right. conj; auto. apply dget_In. exact I.
Qed.
End Episode.

(** C33: any history *)
Theorem logs_rectangular D (g : mgrid Q) : from_modules D g ->
  (forall m, In m (mg_mods g) -> log_rect (m_log m)) /\ log_rect (mg_balance g).
Proof.
  intros F. apply from_modules_inv in F. pose proof (iv_all_ok _ _ F) as O. rewrite Forall_forall in O. split.
  - intros m I. exact (mo_rect _ (O _ I)).
  - exact (proj1 (iv_bal _ _ F)).
Qed.
Lemma log_pads {T} (lg lg' : logger T) kvs k v : logger_log kvs lg = (lg', Ok tt) -> NoDup (map fst kvs) ->
  dget k (lg_data lg) = None -> dget k kvs = Some v ->
  dget k (lg_data lg') = Some (ColList (repeat None (lg_len lg) ++ [Some v])).
Proof.
  intros E N G K. unfold logger_log in E. destruct (log_items (lg_len lg) kvs (lg_data lg)) as [d [[]|e]] eqn:L; [|discriminate].
  inversion E; subst. simpl. rewrite (log_items_get _ _ _ _ L N). rewrite K, G. reflexivity.
Qed.
Lemma frame_ragged {T} (lg : logger T) k1 c1 k2 c2 :
  In (k1, c1) (lg_data lg) -> In (k2, c2) (lg_data lg) -> length (col_cells c1) <> length (col_cells c2) ->
  raises ValueError (logger_to_frame lg).
Proof.
  intros I1 I2 NE. unfold logger_to_frame. destruct (lg_data lg) as [|[k0 c0] d] eqn:DD; [destruct I1|].
  destruct (cols_len_ok (length (col_cells c0)) ((k0, c0) :: d)) eqn:C; [|eexists; split; reflexivity].
  unfold cols_len_ok in C. rewrite forallb_forall in C. pose proof (C _ I1) as C1. pose proof (C _ I2) as C2.
  apply Nat.eqb_eq in C1, C2. simpl in *. congruence.
Qed.
(** A key that stops being logged. *)
Lemma log_skips {T} (lg lg' : logger T) kvs k c : log_rect lg -> logger_log kvs lg = (lg', Ok tt) -> NoDup (map fst kvs) ->
  dget k (lg_data lg) = Some c -> dget k kvs = None -> kvs <> [] -> raises ValueError (logger_to_frame lg').
Proof.
  intros R E N G K NE. unfold logger_log in E. destruct (log_items (lg_len lg) kvs (lg_data lg)) as [d [[]|e]] eqn:L; [|discriminate].
  inversion E; subst. pose proof (log_items_get _ _ _ _ L N) as GG.
  destruct kvs as [|[k2 v2] kvs]; [congruence|].
  pose proof (GG k) as G1. rewrite K, G in G1.
  pose proof (GG k2) as G2. simpl dget in G2 at 2. rewrite String.eqb_refl in G2.
  destruct (proj2 R _ _ G) as (l & -> & LL).
  assert (X : exists c2, dget k2 d = Some c2 /\ length (col_cells c2) = S (lg_len lg)).
  { destruct (dget k2 (lg_data lg)) as [c2|] eqn:GC; eexists; (split; [exact G2|]); simpl; rewrite app_length; simpl.
    - destruct (proj2 R _ _ GC) as (l2 & -> & L2). simpl. lia.
    - rewrite repeat_length. lia. }
  destruct X as (c2 & D2 & L2). apply (frame_ragged _ k (ColList l) k2 c2); simpl; [apply dget_In; exact G1|apply dget_In; exact D2|lia].
Qed.

(** ** Reset cannot fail without a trajectory or a user-defined forecaster *)
Definition no_user (ms : list (module Q)) : Prop := Forall (fun m => mod_ok m /\ ~ user_fc m) ms.
Lemma no_user_set ms i m m' o : no_user ms -> nth_error ms i = Some m -> reset m = (m', Ok o) -> no_user (set_nth ms i m').
Proof.
  intros H N R. unfold no_user in *. rewrite Forall_forall in *. intros x I. apply In_nth_error in I. destruct I as (j & J).
  rewrite nth_set_nth in J. destruct (Nat.eqb i j) eqn:E.
  - apply Nat.eqb_eq in E. subst j. rewrite N in J. inversion J; subst.
    destruct (H _ (nth_error_In _ _ N)) as [O U]. destruct (reset_good _ _ _ O R) as (S & O' & _). split; [exact O'|].
    intros C. apply U. eapply same_user; eauto.
  - apply H. eapply nth_error_In; eauto.
Qed.
Lemma reset_ids_progress ids : forall os (g : mgrid Q), no_user (mg_mods g) ->
  (forall i, In i ids -> (i < length (mg_mods g))%nat) ->
  exists g' os', mfold (fun os i => mbind (with_module i reset) (fun o => mret (os ++ [o]))) ids os g = (g', Ok os')
    /\ no_user (mg_mods g') /\ length (mg_mods g') = length (mg_mods g).
Proof.
  induction ids as [|i ids IH]; intros os g NU B; cbn [mfold]; [exists g, os; conj; auto|].
  destruct (nth_error (mg_mods g) i) as [m|] eqn:N.
  2:{ apply nth_error_None in N. specialize (B i (or_introl eq_refl)). lia. }
  pose proof NU as NU'. unfold no_user in NU'. rewrite Forall_forall in NU'. destruct (NU' _ (nth_error_In _ _ N)) as [O U].
  destruct (reset m) as [m' r] eqn:R. destruct (reset_good _ _ _ O R) as (_ & _ & _ & [[(o & -> & _) _]|[_ C]]); [|tauto].
  unfold with_module, mbind at 1 2. rewrite N, R. unfold mret at 1.
  destruct (IH (os ++ [o]) (mg_set_mods g (set_nth (mg_mods g) i m'))) as (g' & os' & E & NN & LL).
  - simpl. eapply no_user_set; eauto.
  - simpl. rewrite set_nth_length. intros j J. apply B. simpl. auto.
  - exists g', os'. conj; auto. rewrite LL. simpl. apply set_nth_length.
Qed.
Lemma reset_dict_progress d : forall acc (g : mgrid Q), no_user (mg_mods g) ->
  (forall i, In i (concat (map snd d)) -> (i < length (mg_mods g))%nat) ->
  exists g' acc', mfold (fun acc (kl : string * list nat) =>
           mbind (mfold (fun os i => mbind (with_module i reset) (fun o => mret (os ++ [o]))) (snd kl) [])
                 (fun os => mret (acc ++ [(fst kl, os)]))) d acc g = (g', Ok acc').
Proof.
  induction d as [|[k l] d IH]; intros acc g NU B; cbn [mfold]; [exists g, acc; reflexivity|]. simpl in B.
  destruct (reset_ids_progress l [] g NU) as (g1 & os & E & NU1 & LL).
  { intros i I. apply B. apply in_or_app. auto. }
  unfold mbind at 1. unfold mbind at 1. cbn [snd fst]. rewrite E. unfold mret at 1.
  apply IH; [exact NU1|]. rewrite LL. intros i I. apply B. apply in_or_app. auto.
Qed.
Theorem reset_succeeds D (g : mgrid Q) : from_modules D g -> mg_traj g = None ->
  (forall m, In m (mg_mods g) -> ~ user_forecaster m) ->
  exists g' obs, mg_reset g = (g', Ok obs).
Proof.
  intros F T U. apply from_modules_inv in F. pose proof (iv_all_ok _ _ F) as O.
  unfold mg_reset. unfold mbind at 1. unfold set_trajectory, mbind at 1, mget at 1. rewrite T. unfold mret at 1.
  unfold mbind at 1, mget.
  destruct (reset_dict_progress (all_dict g) [] g) as (g1 & acc & E).
  - unfold no_user. rewrite Forall_forall in *. intros m I. split; [auto|]. exact (U m I).
  - intros i I. destruct (dict_ids_in _ _ _ F I) as (m & N). apply nth_error_Some. congruence.
  - unfold mbind at 1. rewrite E. unfold mbind, mmodify, mret. eauto.
Qed.

(** ** Reset with a trajectory *)
Lemma attr_fold_ok (has : module Q -> bool) (set : M (module Q) unit) (ids : list nat) : forall (g g' : mgrid Q) b b', NoDup ids ->
  mfold (fun (b : bool) i =>
             mbind (get_module i) (fun m =>
             if has m then mbind (with_module i set) (fun _ => mret true) else mret b)) ids b g
    = (g', Ok b') ->
  g' = mg_set_mods g (mg_mods g') /\ length (mg_mods g') = length (mg_mods g)
  /\ forall i, if in_dec Nat.eq_dec i ids
               then exists m m', nth_error (mg_mods g) i = Some m /\ nth_error (mg_mods g') i = Some m'
                      /\ (if has m then set m = (m', Ok tt) else m' = m)
               else nth_error (mg_mods g') i = nth_error (mg_mods g) i.
Proof.
  induction ids as [|i ids IH]; intros g g' b b' ND E; cbn [mfold] in E.
  - inversion E; subst. rewrite mg_set_mods_id. conj; auto. intros i. reflexivity.
  - inversion ND as [|? ? NI ND']; subst. apply mbind_ok in E. destruct E as (g1 & b1 & E & E1).
    apply mbind_ok in E. destruct E as (g2 & m & E & E2). apply get_module_ok in E. destruct E as [-> N].
    assert (X : exists m1, g1 = mg_set_mods g (set_nth (mg_mods g) i m1) /\ (if has m then set m = (m1, Ok tt) else m1 = m)).
    { destruct (has m).
      - apply mbind_ok in E2. destruct E2 as (g3 & [] & E2 & E3). inversion E3; subst.
        apply with_module_ok in E2. destruct E2 as (m0 & m1 & N0 & S & ->). rewrite N in N0. inversion N0; subst. eauto.
      - inversion E2; subst. exists m. rewrite (set_nth_id _ _ _ N), mg_set_mods_id. auto. }
    destruct X as (m1 & -> & HM). destruct (IH _ _ _ _ ND' E1) as (G & L & EA). conj.
    + rewrite G at 1. reflexivity.
    + rewrite L. simpl. apply set_nth_length.
    + intros j. specialize (EA j). destruct (in_dec Nat.eq_dec j ids) as [J|J]; destruct (in_dec Nat.eq_dec j (i :: ids)) as [J'|J'];
        simpl in J'; try tauto.
      * destruct EA as (m2 & m3 & A & B & C). simpl in A. rewrite nth_set_other in A by (intros ->; tauto). eauto.
      * destruct J' as [<-|J']; [|tauto]. exists m, m1. conj; auto. rewrite EA. simpl. eapply nth_set_same; eauto.
      * rewrite EA. simpl. apply nth_set_other. intros ->. tauto.
Qed.
Lemma set_attr_ok D (g g' : mgrid Q) has set : mg_inv D g -> set_module_attr has set g = (g', Ok tt) ->
  g' = mg_set_mods g (mg_mods g')
  /\ Forall2 (fun m m' => if has m then set m = (m', Ok tt) else m' = m) (mg_mods g) (mg_mods g').
Proof.
  intros V E. pose proof (iv_perm _ _ V) as P.
  assert (LL : length D = length (mg_mods g)) by exact (Forall2_length _ _ _ (iv_mods _ _ V)).
  assert (ND : NoDup (all_ids g)) by (eapply Permutation_NoDup; [apply Permutation_sym; exact P|apply seq_NoDup]).
  unfold set_module_attr in E. unfold mbind at 1, mget at 1 in E. apply mbind_ok in E. destruct E as (g1 & b & E & E1).
  assert (g1 = g') by (destruct b; inversion E1; reflexivity). subst g1.
  destruct (attr_fold_ok _ _ _ _ _ _ _ ND E) as (G & L & EA). split; [exact G|].
  apply Forall2_nth_intro; [exact L|]. intros i m m' N N'. specialize (EA i).
  destruct (in_dec Nat.eq_dec i (all_ids g)) as [I|I].
  - destruct EA as (m1 & m1' & A & B & C). rewrite N in A. rewrite N' in B. inversion A; inversion B; subst. exact C.
  - exfalso. apply I. apply (Permutation_in _ (Permutation_sym P)). apply in_seq.
    assert (i < length (mg_mods g))%nat by (apply nth_error_Some; congruence). lia.
Qed.

(** After a reset with a trajectory function every module starts at the
    function's initial step and ends at its final step. *)
Theorem reset_trajectory D (g g' : mgrid Q) obs f i e : from_modules D g -> names_separate D ->
  mg_traj g = Some f -> f (mg_calls g) (mg_initial g) (mg_final g) = Ok (i, e) -> (0 < e)%Z ->
  mg_reset g = (g', Ok obs) ->
  Forall (fun m => m_init m = i /\ m_cur m = i
                   /\ forall x, final_step m = Some x -> x = e /\ (i < e)%Z) (mg_mods g').
Proof.
  intros F SEP T FE POS E. destruct (reset_rewinds _ _ _ _ F SEP E) as (FR & _).
  apply from_modules_inv in F. destruct (mg_reset_ok _ _ _ E) as (g1 & ms' & ST & R & G).
  pose proof (rel_inv _ _ _ (set_trajectory_rel _ _ _ ST) F) as V1.
  apply set_trajectory_cases in ST. rewrite T in ST. destruct ST as [(x & C & _)|(p & P & ST)]; [congruence|].
  rewrite FE in P. inversion P; subst p. cbn [fst snd] in ST. apply mbind_ok in ST. destruct ST as (g2 & [] & S1 & S2).
  set (gc := mg_set_calls g (S (mg_calls g))) in *.
  assert (VC : mg_inv D gc) by (destruct F; constructor; auto).
  pose proof (rel_inv _ _ _ (rels_likes _ (set_initial_steps_inner i) _ _ _ S1) VC) as V2.
  unfold set_initial_steps in S1. unfold set_final_steps in S2.
  destruct (set_attr_ok _ _ _ _ _ VC S1) as [G1 A1]. destruct (set_attr_ok _ _ _ _ _ V2 S2) as [G2 A2].
  assert (W : Forall (fun m => m_init m = i /\ forall x, final_step m = Some x -> x = e /\ (i < e)%Z) (mg_mods g1)).
  { rewrite Forall_forall. intros m3 I. apply In_nth_error in I. destruct I as (j & N3).
    destruct (Forall2_nth_r _ _ _ _ _ A2 N3) as (m2 & N2 & B2). destruct (Forall2_nth_r _ _ _ _ _ A1 N2) as (m1 & N1 & B1).
    simpl in B1. unfold mmodify in B1. inversion B1; subst m2. unfold has_final, module_set_final in B2. simpl in B2.
    destruct (kind_ts (m_kind m1)) as [t|] eqn:K.
    - unfold set_final_step in B2. replace (e <=? 0)%Z with false in B2 by (symmetry; apply Z.leb_gt; exact POS).
      destruct (e <=? i)%Z eqn:LE; inversion B2; subst. simpl. split; [reflexivity|]. intros x X.
      unfold final_step in X. simpl in X. rewrite (kind_set_ts_series _ _ _ K) in X. simpl in X. inversion X; subst.
      split; [reflexivity|]. apply Z.leb_gt in LE. exact LE.
    - subst m3. simpl. split; [reflexivity|]. unfold final_step. simpl. rewrite K. discriminate. }
  rewrite Forall_forall in *. intros m' I. destruct (FR _ I) as [F1 _].
  assert (IN' : In m' ms') by (rewrite G in I; exact I). apply In_nth_error in IN'. destruct IN' as (j & N').
  pose proof (resets_length _ _ _ R) as LL.
  assert (LT : (j < length (mg_mods g1))%nat) by (rewrite <- LL; apply nth_error_Some; congruence).
  apply nth_error_Some in LT. destruct (nth_error (mg_mods g1) j) as [m|] eqn:N; [|congruence].
  destruct (W _ (nth_error_In _ _ N)) as [W1 W2].
  assert (SM : mod_same m m').
  { destruct (in_dec Nat.eq_dec j (dict_ids g1)) as [II|II].
    - destruct (resets_each _ _ _ R (dict_ids_nodup _ _ V1) j II) as (m1 & m1' & o & N1 & N2 & RS).
      rewrite N in N1. rewrite N' in N2. inversion N1; inversion N2; subst.
      pose proof (iv_all_ok _ _ V1) as OKS. rewrite Forall_forall in OKS.
      destruct (reset_good _ _ _ (OKS _ (nth_error_In _ _ N)) RS) as (S & _). exact S.
    - rewrite (resets_other _ _ _ R _ II), N in N'. inversion N'; subst. apply mod_same_refl. }
  rewrite (same_final_step _ _ SM). rewrite F1, (sm_init _ _ SM). conj; auto.
Qed.
