(** * What environments return as observations *)

From Coq Require Import ZArith NArith QArith Qabs Bool String Ascii List ListDec Lia Lqa Permutation Sorted.
From Verif Require Import Num Py Space Logger Forecast Module Container Microgrid PriorityList Env
  Proofs_Num Proofs_Logger Spec_Module Spec_Reach Spec_Genset Proofs_Module Proofs_Space Proofs_Battery Proofs_Genset
  Proofs_Ts Proofs_Any Proofs_Request
  Proofs_Data Proofs_Classes Proofs_Props Spec_Microgrid Spec_Sane Proofs_Container Proofs_Run Proofs_Balance
  Proofs_Mgrid Proofs_Views Proofs_MgProps Proofs_MgProps2 Proofs_Build Proofs_Episode Proofs_Sane Proofs_Progress
  Proofs_Control Proofs_Convert Spec_Priority Proofs_Perm Proofs_Priority Proofs_Deploy Proofs_Rbc
  Spec_Env Proofs_Env.
Import ListNotations.
Local Open Scope string_scope.
Local Open Scope list_scope.
Local Open Scope Q_scope.

(** ** Sorting names *)
Lemma ascii_compare_lt (a b : ascii) : Ascii.compare a b = Lt <-> (N_of_ascii a < N_of_ascii b)%N.
Proof. unfold Ascii.compare. apply N.compare_lt_iff. Qed.
Lemma leb_cons a s b t : String.leb (String a s) (String b t) = true <->
  (N_of_ascii a < N_of_ascii b)%N \/ (a = b /\ String.leb s t = true).
Proof.
  unfold String.leb. cbn [String.compare]. destruct (Ascii.compare a b) eqn:C.
  - apply Ascii.compare_eq_iff in C. subst b. split; [auto|]. intros [X|[_ X]]; [exfalso; exact (N.lt_irrefl _ X)|exact X].
  - apply ascii_compare_lt in C. tauto.
  - rewrite Ascii.compare_antisym in C. destruct (Ascii.compare b a) eqn:C'; try discriminate C.
    apply ascii_compare_lt in C'. split; [discriminate|]. intros [X|[Y X]]; [|subst b]; exfalso; [exact (N.lt_irrefl _ (N.lt_trans _ _ _ X C'))|exact (N.lt_irrefl _ C')].
Qed.
Lemma leb_trans : forall s t u, String.leb s t = true -> String.leb t u = true -> String.leb s u = true.
Proof.
  induction s as [|a s IH]; intros t u A B.
  - destruct u; reflexivity.
  - destruct t as [|b t]; [discriminate A|]. destruct u as [|c u]; [discriminate B|].
    apply leb_cons in A. apply leb_cons in B. apply leb_cons.
    destruct A as [A|[-> A]], B as [B|[-> B]]; try (left; exact (N.lt_trans _ _ _ A B)); try (left; exact A); try (left; exact B).
    right. split; [reflexivity|]. eauto.
Qed.

Definition kle {A} (x y : string * A) : Prop := String.leb (fst x) (fst y) = true.
Lemma key_insert_perm {A} k (v : A) d : Permutation (key_insert k v d) ((k, v) :: d).
Proof.
  induction d as [|[k' v'] d IH]; simpl; [apply Permutation_refl|].
  destruct (String.leb k k'); [apply Permutation_refl|].
  eapply perm_trans; [apply perm_skip, IH|]. apply perm_swap.
Qed.
Lemma key_sort_perm {A} (d : dict A) : Permutation (key_sort d) d.
Proof.
  induction d as [|[k v] d IH]; simpl; [constructor|].
  eapply perm_trans; [apply key_insert_perm|]. apply perm_skip, IH.
Qed.
Lemma key_insert_sorted {A} k (v : A) d : StronglySorted kle d -> StronglySorted kle (key_insert k v d).
Proof.
  induction 1 as [|[k' v'] d S IH F]; simpl; [constructor; constructor|].
  destruct (String.leb k k') eqn:L.
  - constructor; [constructor; assumption|]. constructor; [exact L|].
    eapply Forall_impl; [|exact F]. intros [k2 v2] X. unfold kle in *. simpl in *. eapply leb_trans; eauto.
  - constructor; [exact IH|]. rewrite Forall_forall in *. intros x I.
    apply (Permutation_in _ (key_insert_perm k v d)) in I. destruct I as [<-|I]; [|auto].
    unfold kle. simpl. destruct (String.leb_total k k'); congruence.
Qed.
Lemma key_sort_sorted {A} (d : dict A) : StronglySorted kle (key_sort d).
Proof. induction d as [|[k v] d IH]; simpl; [constructor|]. apply key_insert_sorted, IH. Qed.
Lemma sorted_fst {A} (d : dict A) : StronglySorted kle d ->
  StronglySorted (fun a b => String.leb a b = true) (map fst d).
Proof.
  induction 1; simpl; constructor; auto. rewrite Forall_forall in *. intros x I.
  apply in_map_iff in I. destruct I as (y & <- & I). apply H0. exact I.
Qed.

(** ** The observations a run or a reset returns *)
Definition nobs (g : mgrid Q) (i : nat) : pyval Q :=
  match nth_error (mg_mods g) i with
  | Some m => match norm_obs m with Ok v => v | Err _ => VA [] end
  | None => VA []
  end.
Lemma observed_nobs g i : observed g i = as_list (nobs g i).
Proof. unfold observed, nobs. destruct (nth_error _ _) as [m|]; [destruct (norm_obs m)|]; reflexivity. Qed.

Lemma step_obs a n (m m' : module Q) o : mod_ok m -> step a n m = (m', Ok o) -> norm_obs m' = Ok (obs_of o).
Proof.
  intros OK E. destruct (step_good _ _ _ _ _ OK E) as (_ & _ & [(_ & _ & e & X)|D]); [discriminate X|].
  destruct D as (m0 & da & x & m1 & rw & d & i & _ & _ & _ & _ & _ & _ & _ & _ & _ & _ & _ & [(ob & X & N)|[(e & X) _]]);
    [|discriminate X].
  injection X as ->. exact N.
Qed.

Theorem run_obs D (g g' : mgrid Q) (c : control Q) n obs rw d inf :
  from_modules D g -> names_separate D -> complete D c -> run c n g = (g', Ok (obs, rw, d, inf)) ->
  forall nm, dget nm obs = entry_for (map (nobs g') (positions nm D)).
Proof.
  intros F SEP C E nm. pose proof (from_modules_inv _ _ F) as V.
  destruct (run_ok_full _ _ _ _ _ _ _ _ _ V E) as (ci & efix & ectl & eflex & ms1 & ms2 & ms3 & r2 & fp & fa & p & a & p3 & a3 & r3 & lg
    & RN & -> & _ & _ & -> & _ & _).
  pose proof (ran_performs _ _ _ _ _ _ _ _ _ _ _ _ _ _ _ _ _ _ _ RN) as PF.
  pose proof (ran_nodup _ _ V _ _ _ _ _ _ _ _ _ _ _ _ _ _ _ _ _ _ RN) as ND.
  pose proof (ran_under_sep _ _ V _ _ _ _ _ _ _ _ _ _ _ _ _ _ _ _ _ _ RN C nm SEP) as US.
  rewrite obs_collect. simpl. rewrite <- US. unfold under. rewrite map_map.
  assert (X : map (fun e => obs_of (ev_out e)) (filter (fun e => String.eqb nm (ev_name e)) (efix ++ ectl ++ eflex))
    = map (fun e => nobs (mg_set_logs (mg_set_mods g ms3) lg (mg_other g)) (ev_id e))
          (filter (fun e => String.eqb nm (ev_name e)) (efix ++ ectl ++ eflex))).
  { apply map_ext_in. intros e I. apply filter_In in I. destruct I as [I _].
    destruct (performs_each _ _ _ PF ND e I) as (m & m' & N1 & N2 & S).
    unfold nobs. simpl. rewrite N2. erewrite step_obs; [reflexivity| |exact S].
    pose proof (iv_all_ok _ _ V) as O. rewrite Forall_forall in O. apply O. eapply nth_error_In; eauto. }
  rewrite X. clear X. unfold entry_for. match goal with |- match ?l with _ => _ end = _ => destruct l; reflexivity end.
Qed.

Lemma reset_obs (m m' : module Q) o : reset m = (m', Ok o) -> norm_obs m' = Ok o.
Proof.
  intros E. unfold reset in E. apply mbind_ok in E. destruct E as (m1 & [] & _ & E).
  apply mbind_ok in E. destruct E as (m2 & [] & _ & E). unfold mbind, mget in E.
  apply mlift_ok in E. destruct E as [-> E]. exact E.
Qed.
Lemma reset_ids_obs ids : forall os (g g' : mgrid Q) os',
  mfold (fun os i => mbind (with_module i reset) (fun o => mret (os ++ [o]))) ids os g = (g', Ok os') ->
  NoDup ids -> os' = os ++ map (nobs g') ids.
Proof.
  induction ids as [|i ids IH]; intros os g g' os' E ND; cbn [mfold] in E.
  - inversion E; subst. simpl. rewrite app_nil_r. reflexivity.
  - pose proof E as E0. apply mbind_ok in E. destruct E as (g1 & os1 & E & E1).
    apply mbind_ok in E. destruct E as (g2 & o & E & E2). inversion E2; subst. clear E2.
    inversion ND as [|? ? NI ND']; subst.
    rewrite (IH _ _ _ _ E1 ND'). rewrite <- app_assoc. f_equal. simpl. f_equal.
    apply with_module_ok in E. destruct E as (m & m' & N & R & ->).
    destruct (reset_ids_ok _ _ _ _ _ E1) as [RS _]. unfold nobs.
    rewrite (resets_other _ _ _ RS _ NI). simpl. rewrite (nth_set_same _ _ m' _ N).
    rewrite (reset_obs _ _ _ R). reflexivity.
Qed.
Lemma nobs_logs g b o i : nobs (mg_set_logs g b o) i = nobs g i.
Proof. reflexivity. Qed.
Lemma nodup_app_parts {A} (l1 l2 : list A) : NoDup (l1 ++ l2) ->
  NoDup l1 /\ NoDup l2 /\ forall x, In x l1 -> ~ In x l2.
Proof.
  induction l1 as [|a l1 IH]; simpl; intros N; [conj; auto; constructor|].
  inversion N as [|? ? NI N']; subst. destruct (IH N') as (X & Y & Z). rewrite in_app_iff in NI.
  conj; auto; [constructor; tauto|]. intros x [->|I]; [tauto|auto].
Qed.
Lemma reset_dict_obs d : forall acc (g g' : mgrid Q) acc',
  mfold (fun acc (kl : string * list nat) =>
           mbind (mfold (fun os i => mbind (with_module i reset) (fun o => mret (os ++ [o]))) (snd kl) [])
                 (fun os => mret (acc ++ [(fst kl, os)]))) d acc g = (g', Ok acc') ->
  NoDup (concat (map snd d)) ->
  acc' = acc ++ map (fun kl => (fst kl, map (nobs g') (snd kl))) d.
Proof.
  induction d as [|[k l] d IH]; intros acc g g' acc' E ND; cbn [mfold] in E.
  - inversion E; subst. simpl. rewrite app_nil_r. reflexivity.
  - apply mbind_ok in E. destruct E as (g1 & os1 & E & E1). apply mbind_ok in E. destruct E as (g2 & o & E & E2).
    inversion E2; subst. clear E2. simpl in ND. cbn [snd fst] in *.
    rewrite (IH _ _ _ _ E1 (proj1 (proj2 (nodup_app_parts _ _ ND)))). rewrite <- app_assoc. f_equal. simpl. f_equal. f_equal.
    rewrite (reset_ids_obs _ _ _ _ _ E (proj1 (nodup_app_parts _ _ ND))). simpl.
    apply map_ext_in. intros i I. destruct (reset_dict_ok _ _ _ _ _ E1) as [RS _].
    unfold nobs. rewrite (resets_other _ _ _ RS); [reflexivity|].
    destruct (nodup_app_parts _ _ ND) as (_ & _ & X). exact (X _ I).
Qed.
Theorem reset_obs_all D (g g' : mgrid Q) obs : from_modules D g -> names_separate D ->
  mg_reset g = (g', Ok obs) -> forall nm, dget nm obs = entry_for (map (nobs g') (positions nm D)).
Proof.
  intros F SEP E nm. pose proof (from_modules_inv _ _ F) as V.
  unfold mg_reset in E. apply mbind_ok in E. destruct E as (g1 & [] & T & E).
  assert (V1 : mg_inv D g1) by (eapply rel_inv; [eapply set_trajectory_rel; exact T|exact V]).
  unfold mbind at 1, mget in E. apply mbind_ok in E. destruct E as (g2 & o & E & E2).
  unfold mbind, mmodify, mret in E2. inversion E2; subst. clear E2.
  pose proof (reset_dict_obs _ _ _ _ _ E (dict_ids_nodup _ _ V1)) as ->. simpl.
  assert (X : forall (d : dict (list nat)), dget nm (map (fun kl => (fst kl, map (nobs g2) (snd kl))) d)
    = option_map (map (nobs g2)) (dget nm d)).
  { induction d as [|[k l] d IH]; simpl; [reflexivity|]. destruct (String.eqb nm k); [reflexivity|exact IH]. }
  rewrite X, (all_view_sep D g1 nm V1 SEP). unfold entry_for. destruct (positions nm D); simpl; [reflexivity|].
  unfold nobs. reflexivity.
Qed.

(** ** Flat observations without keys *)
Definition dsize (D : list (mdef Q)) (i : nat) : nat :=
  match nth_error D i with Some d => length (sp_low (m_obs (snd d))) | None => 0%nat end.
Lemma nth_size D g i m : mg_inv D g -> nth_error (mg_mods g) i = Some m -> length (sp_low (m_obs m)) = dsize D i.
Proof.
  intros V N. destruct (iv_at _ _ _ _ V N) as (df & ND & _ & L). unfold dsize. rewrite ND, (ml_obs _ _ L). reflexivity.
Qed.
Lemma nvals_length lo sp xs : length lo = length xs -> length sp = length xs -> length (nvals lo sp xs) = length xs.
Proof.
  unfold nvals. revert lo sp. induction xs as [|x xs IH]; intros [|l lo] [|s sp] A B; try discriminate; simpl in *; [reflexivity|].
  f_equal. apply IH; congruence.
Qed.
Lemma kind_box (m : module Q) : kind_ok m -> length (sp_high (m_obs m)) = length (sp_low (m_obs m)).
Proof.
  intros K.
  assert (TS : forall t, kind_ts (m_kind m) = Some t -> length (sp_high (m_obs m)) = length (sp_low (m_obs m))).
  { intros t E. destruct (kind_ok_ts _ _ K E) as ((T1 & _ & ->) & _). destruct (obs_length t T1) as [A B].
    congruence. }
  unfold kind_ok in K. destruct (m_kind m) as [b|s|gg t|t|t|u] eqn:E; try (exact (TS t eq_refl)).
  - destruct K as (_ & _ & _ & -> & ->). reflexivity.
  - destruct K as (_ & _ & _ & -> & ->). reflexivity.
  - destruct K as (_ & _ & _ & -> & ->). reflexivity.
Qed.
(** The normalized state of a module, entry by entry. *)
Lemma norm_obs_eq m : kind_ok m -> exists sd xs, state_dict m = Ok sd /\ norm_obs m = Ok (item_or_arr xs)
  /\ length xs = length sd /\ length sd = length (sp_low (m_obs m)) /\ map fst sd = state_keys (m_kind m)
  /\ normalize (m_obs m) (VA (dvalues sd)) = Ok (item_or_arr xs).
Proof.
  intros K. destruct (state_dict_ok m K) as (sd & E & KS & L). exists sd.
  assert (F : fits (m_obs m) (VA (dvalues sd))). { unfold fits, dvalues. simpl. rewrite map_length. exact L. }
  eexists. conj; [exact E| | |exact L|exact KS|apply normalize_eq; exact F].
  - unfold norm_obs, state. rewrite E. cbn [rmap rbind]. apply normalize_eq. exact F.
  - unfold dvalues. cbn [entries]. rewrite nvals_length; rewrite map_length; [reflexivity|congruence|].
    unfold sp_spread. rewrite map2_length; rewrite ?(kind_box m K); congruence.
Qed.
Lemma as_list_item (xs : list Q) : as_list (item_or_arr xs) = xs.
Proof. destruct xs as [|x [|]]; reflexivity. Qed.
Lemma observed_length D g i : mg_inv D g -> (i < length D)%nat -> length (observed g i) = dsize D i.
Proof.
  intros V L. destruct (nth_error D i) as [df|] eqn:N; [|apply nth_error_None in N; lia].
  destruct (iv_nth _ _ _ _ V N) as (m & Nm & OK & LK). unfold observed. rewrite Nm.
  destruct (norm_obs_eq m (mo_kind _ OK)) as (sd & xs & _ & -> & L1 & L2 & _).
  rewrite as_list_item, L1, L2. eapply nth_size; eauto.
Qed.

Lemma positions_lt nm i (D : list (mdef Q)) : In i (positions nm D) -> (i < length D)%nat.
Proof. intros I. apply positions_in in I. destruct I as (d & N & _). apply nth_error_Some. congruence. Qed.
Lemma all_dict_in D (g : mgrid Q) nm l : mg_inv D g -> names_separate D ->
  In (nm, l) (all_dict g) <-> l = positions nm D /\ l <> [].
Proof.
  intros V SEP. split.
  - intros I. apply (Proofs_Num.In_dget nm l) in I; [|apply all_dict_nodup].
    rewrite (all_view_sep D g nm V SEP) in I. unfold entry_for in I. destruct (positions nm D); [discriminate|].
    injection I as <-. split; [reflexivity|discriminate].
  - intros [-> N]. apply Proofs_Num.dget_In. rewrite (all_view_sep D g nm V SEP). unfold entry_for.
    destruct (positions nm D); [congruence|reflexivity].
Qed.
Lemma concat_map_ext_in {A B} (f h : A -> list B) l : (forall a, In a l -> f a = h a) ->
  concat (map f l) = concat (map h l).
Proof. intros H. rewrite (map_ext_in f h l H). reflexivity. Qed.
Lemma concat_singletons {A B} (f : A -> B) l : concat (map (fun a => [f a]) l) = map f l.
Proof. induction l; simpl; [reflexivity|]. f_equal. assumption. Qed.
Lemma combine_seq_snd {A} (l : list A) s : map snd (combine (seq s (length l)) l) = l.
Proof. revert s. induction l as [|a l IH]; intros s; simpl; [reflexivity|]. f_equal. apply IH. Qed.

Lemma series_ok n D (g : mgrid Q) : mg_inv D g -> n = false -> exists s, mg_state_series n g = Ok s.
Proof.
  intros V ->. unfold mg_state_series, mg_state_dict.
  destruct (rmapM_progress (fun kl : string * list nat =>
           rmap (fun l => (fst kl, l))
                (rmapM (fun i => match nth_error (mg_mods g) i with
                                 | None => raise KeyError "no such module"
                                 | Some m => if false then state_dict_normalized m
                                             else state_dict m
                                 end) (snd kl))) (all_dict g)) as (l & E).
  - intros [nm l] I. cbn [fst snd]. match goal with |- context [rmapM ?f l] => destruct (rmapM_progress f l) as (l' & ->); [|simpl; eauto] end.
    intros i II. cbn beta. destruct (dict_ids_in D g i V) as (m & N).
    { unfold dict_ids. apply in_concat. exists l. split; [|exact II]. apply in_map_iff. exists (nm, l). auto. }
    rewrite N. destruct (state_dict_ok m) as (sd & E & _); [|eauto].
    apply mo_kind. pose proof (iv_all_ok _ _ V) as O. rewrite Forall_forall in O. apply O. eapply nth_error_In; eauto.
  - rewrite E. simpl. eauto.
Qed.

Lemma space_no_keys D g : mg_inv D g -> names_separate D ->
  observation_space g [] = Ok (map (fun kl => (fst kl, map (dsize D) (snd kl))) (all_dict g)).
Proof.
  intros V SEP. unfold observation_space. destruct (series_ok false D g V eq_refl) as (s & ->). cbn [rbind]. f_equal.
  etransitivity; [|apply (concat_singletons (fun kl : string * list nat => (fst kl, map (dsize D) (snd kl))))].
  apply concat_map_ext_in. intros [nm l] I.
  apply (all_dict_in D g nm l V SEP) in I. destruct I as [-> NE]. cbn [fst snd].
  assert (X : concat (map (fun ji : nat * nat => match nth_error (mg_mods g) (snd ji) with
                   | None => []
                   | Some m => [length (sp_low (m_obs m))] end)
                (combine (seq 0 (length (positions nm D))) (positions nm D))) = map (dsize D) (positions nm D)).
  { rewrite <- (combine_seq_snd (positions nm D) 0) at 3. rewrite map_map.
    etransitivity; [|apply (concat_singletons (fun x : nat * nat => dsize D (snd x)))]. apply concat_map_ext_in. intros [j i] IC. apply in_combine_r in IC. cbn [snd].
    apply positions_in in IC. destruct IC as (d & N & _). destruct (iv_nth _ _ _ _ V N) as (m & Nm & _).
    rewrite Nm. rewrite (nth_size D g i m V Nm). reflexivity. }
  rewrite X. destruct (positions nm D) as [|i l]; [congruence|]. reflexivity.
Qed.

Lemma list_sum_perm l l' : Permutation l l' -> list_sum l = list_sum l'.
Proof. induction 1; simpl; lia. Qed.
Lemma length_concat {A} (l : list (list A)) : length (concat l) = list_sum (map (@length A) l).
Proof. induction l as [|x l IH]; simpl; [reflexivity|]. rewrite app_length, IH. reflexivity. Qed.

(** The names of an environment's spaces. *)
Lemma space_names D g : mg_inv D g -> names_separate D ->
  sorted_names D (map fst (key_sort (map (fun kl : string * list nat => (fst kl, map (dsize D) (snd kl))) (all_dict g)))).
Proof.
  intros V SEP. set (sp := map (fun kl : string * list nat => (fst kl, map (dsize D) (snd kl))) (all_dict g)). assert (P : Permutation (map fst (key_sort sp)) (map fst (all_dict g))).
  { eapply perm_trans; [apply Permutation_map, key_sort_perm|]. unfold sp. rewrite map_map. apply Permutation_refl. }
  split; [apply sorted_fst, key_sort_sorted|]. split.
  - eapply Permutation_NoDup; [apply Permutation_sym; exact P|]. apply all_dict_nodup.
  - intros nm. split.
    + intros I. apply (Permutation_in _ P) in I. apply in_map_iff in I. destruct I as ([k l] & <- & I).
      apply (all_dict_in D g k l V SEP) in I. destruct I as [-> NE]. cbn [fst].
      destruct (positions k D) as [|i l] eqn:E; [congruence|].
      assert (In i (positions k D)) as I by (rewrite E; left; reflexivity).
      apply positions_in in I. destruct I as (d & N & Q). exists d. split; [eapply nth_error_In; eauto|exact Q].
    + intros (d & I & Q). apply (Permutation_in _ (Permutation_sym P)). apply in_map_iff. exists (nm, positions nm D).
      split; [reflexivity|]. apply (all_dict_in D g nm _ V SEP). split; [reflexivity|].
      apply In_nth_error in I. destruct I as (i & N). assert (In i (positions nm D)) as I by (apply positions_in; eauto).
      intros X. rewrite X in I. destruct I.
Qed.

Lemma combine_map {A B C} (f : A -> B) (h : A -> C) l : combine (map f l) (map h l) = map (fun a => (f a, h a)) l.
Proof. induction l; simpl; [reflexivity|]. f_equal. assumption. Qed.

Theorem flatten_ok D (g0 g' : mgrid Q) sp obs : from_modules D g0 -> from_modules D g' -> names_separate D ->
  observation_space g0 [] = Ok sp ->
  (forall nm, dget nm obs = entry_for (map (nobs g') (positions nm D))) ->
  exists nms xs, sorted_names D nms /\ flatten sp obs = Ok xs
    /\ xs = concat (map (fun nm => concat (map (observed g') (positions nm D))) nms)
    /\ length xs = flat_size sp.
Proof.
  intros F0 F' SEP SP OB. pose proof (from_modules_inv _ _ F0) as V0. pose proof (from_modules_inv _ _ F') as V'.
  rewrite (space_no_keys D g0 V0 SEP) in SP. injection SP as <-.
  set (sp := map _ _). exists (map fst (key_sort sp)).
  assert (IN : forall nm szs, In (nm, szs) (key_sort sp) -> szs = map (dsize D) (positions nm D) /\ positions nm D <> []).
  { intros nm szs I. apply (Permutation_in _ (key_sort_perm sp)) in I. unfold sp in I. apply in_map_iff in I.
    destruct I as ([k l] & E & I). apply (all_dict_in D g0 k l V0 SEP) in I. destruct I as [-> NE].
    cbn [fst snd] in E. injection E as <- <-. auto. }
  exists (concat (map (fun nm => concat (map (observed g') (positions nm D))) (map fst (key_sort sp)))).
  conj; [exact (space_names D g0 V0 SEP)| |reflexivity|].
  - unfold flatten. rewrite (rmapM_all _ (fun kl => concat (map (observed g') (positions (fst kl) D)))).
    + cbn [rmap]. rewrite map_map. reflexivity.
    + intros [nm szs] I. destruct (IN _ _ I) as [-> NE]. cbn [fst snd]. rewrite OB. unfold entry_for.
      destruct (map (nobs g') (positions nm D)) eqn:E; [destruct (positions nm D); [congruence|discriminate E]|].
      rewrite <- E. rewrite combine_map, map_map. cbn [fst]. f_equal. apply concat_map_ext_in. intros i _.
      symmetry. apply observed_nobs.
  - rewrite length_concat, !map_map. unfold flat_size.
    rewrite <- (list_sum_perm _ _ (Permutation_map (fun kl => list_sum (snd kl)) (key_sort_perm sp))).
    f_equal. apply map_ext_in. intros [nm szs] I. destruct (IN _ _ I) as [-> NE]. cbn [fst snd].
    rewrite length_concat, map_map. f_equal. apply map_ext_in. intros i II.
    apply observed_length; [exact V'|]. eapply positions_lt; eauto.
Qed.

(** ** Observations lie in the unit cube *)
Definition obs_tied (m : module Q) : Prop :=
  match m_kind m with
  | KBattery b => m_obs m = mkSpace [b_min_capacity b / b_max_capacity b; b_min_capacity b] [1; b_max_capacity b]
  | KGenset g => m_obs m = mkSpace [0; 0; 0; 0] [1; 1; inject_Z (g_start_up g); inject_Z (g_wind_down g)]
  | _ => True
  end.
Lemma sane_tied m : sane m -> obs_tied m.
Proof.
  intros S. unfold obs_tied. destruct S as
    [minc maxc maxch maxdis eff cost ic is init rs m E _ _ _ _
    |mn mx co cp cc su wd ab up init rs prov m _ _ _ E
    |rows fp h inc initial final re rnd m SC _ E
    |rows fp h inc initial final re prov rnd m SC _ E
    |mi me rows fp h inc initial final cc re gt rnd m _ _ E|re init l o _ _]; [| | | | |exact I].
  - unfold new_battery in E. destruct (negb _); [discriminate|]. destruct (neqb maxc n0); [discriminate|].
    apply rbind_ok in E. destruct E as (c & _ & E). inversion E. reflexivity.
  - unfold new_genset in E. destruct (nltb mx mn); [discriminate|]. inversion E. reflexivity.
  - destruct (new_load_ok _ _ _ _ _ _ _ _ _ SC E) as (t & -> & _). exact I.
  - destruct (new_renewable_ok _ _ _ _ _ _ _ _ _ _ SC E) as (t & lo & hi & -> & _). exact I.
  - destruct (new_grid_ok _ _ _ _ _ _ _ _ _ _ _ _ _ E) as (t & -> & _). exact I.
Qed.
Lemma like_tied m m' : mod_like m m' -> obs_tied m -> obs_tied m'.
Proof.
  intros [K _ _ O _ _] X. unfold obs_tied in *. rewrite O.
  destruct (m_kind m), (m_kind m'); simpl in K; try contradiction; auto.
  - destruct K as (c & s & ->). exact X.
  - red in K. rewrite K. exact X.
Qed.
Lemma sane_reachable_tied m : sane_reachable m -> obs_tied m.
Proof.
  intros (m0 & cs & S & ->). pose proof (ph_ok _ (sane_phys _ S)) as O.
  destruct (play_good cs m0 O) as [SM _]. eapply like_tied; [apply mod_like_same; exact SM|]. apply sane_tied, S.
Qed.

Lemma phys_unit m o : phys m -> obs_tied m -> (forall b, m_kind m = KBattery b -> 0 < b_max_capacity b) ->
  norm_obs m = Ok o -> in_unit o.
Proof.
  intros [OK PK _ _] T MP NO.
  assert (TS : forall t, kind_ts (m_kind m) = Some t -> in_unit o).
  { intros t E. destruct (ts_state _ _ OK E) as (r & S & RI & _ & FF & _).
    destruct (kind_ok_ts _ _ (mo_kind _ OK) E) as ((TO & CU & OB) & KC).
    destruct (state_in_box t r _ RI FF) as [B1 B2].
    destruct (norm_obs_in_unit m _ S) as (o' & NO' & IU); [| |congruence].
    - rewrite OB. assert (X : forall lo x hi : list Q, Forall2 Qle lo x -> Forall2 Qle x hi -> Forall2 Qle lo hi).
      { intros lo x hi X. revert hi. induction X; intros hi Y; inversion Y; subst; constructor; auto. lra. }
      exact (X _ _ _ B1 B2).
    - rewrite OB. split; assumption. }
  unfold obs_tied in T. destruct (m_kind m) as [b|s|gg t|t|t|u] eqn:K; try (exact (TS t eq_refl)).
  - destruct PK as (_ & (B1 & B2 & B3) & _). specialize (MP b eq_refl).
    assert (ST : state m = Ok [b_soc b; b_charge b]) by (unfold state, state_dict; rewrite K; reflexivity).
    assert (S1 : b_min_capacity b / b_max_capacity b <= b_soc b).
    { rewrite B3. apply Qmult_le_compat_r; [exact B1|]. apply Qlt_le_weak, Qinv_lt_0_compat, MP. }
    assert (S2 : b_soc b <= 1). { rewrite B3. apply Qdiv_le_1; assumption. }
    destruct (norm_obs_in_unit m _ ST) as (o' & NO' & IU); [| |congruence].
    + rewrite T. simpl. repeat constructor; lra.
    + rewrite T. split; simpl; repeat (constructor; try assumption).
  - destruct PK as ((p & SU & WD & SH & PO) & _).
    assert (ST : state m = Ok [bool_num (g_status s); bool_num (g_goal s);
                             inject_Z (g_until_up s); inject_Z (g_until_down s)])
      by (unfold state, state_dict; rewrite K; reflexivity).
    assert (UD : (0 <= g_until_up s <= g_start_up s)%Z /\ (0 <= g_until_down s <= g_wind_down s)%Z).
    { destruct p; simpl in SH, PO; destruct SH as (_ & _ & -> & ->); lia. }
    assert (BN : forall c, 0 <= @bool_num Q _ c /\ bool_num c <= 1).
    { intros []; unfold bool_num; unum; lra. }
    pose proof (BN (g_status s)). pose proof (BN (g_goal s)).
    destruct (norm_obs_in_unit m _ ST) as (o' & NO' & IU); [| |congruence].
    + rewrite T. simpl. change 0 with (inject_Z 0) at 3 4. repeat constructor; try lra; rewrite <- Zle_Qle; lia.
    + rewrite T. change 0 with (inject_Z 0) at 3 4. split; simpl; repeat constructor; try tauto;
      rewrite <- Zle_Qle; lia.
  - pose proof (mo_kind _ OK) as KO. unfold kind_ok in KO. rewrite K in KO. destruct KO as (_ & _ & _ & L & _).
    destruct (norm_obs_eq m (mo_kind _ OK)) as (sd & xs & _ & NO' & L1 & L2 & _). rewrite L in L2. simpl in L2.
    rewrite NO in NO'. injection NO' as ->. destruct xs; [constructor|simpl in *; lia].
Qed.

Theorem observed_unit D g i : from_modules D g -> Forall (fun d => sane_reachable (snd d)) D ->
  (forall d b, In d D -> m_kind (snd d) = KBattery b -> 0 < b_max_capacity b) ->
  Forall (fun y => 0 <= y /\ y <= 1) (observed g i).
Proof.
  intros F S MP. pose proof (from_modules_inv _ _ F) as V. pose proof (from_phys _ _ F S) as P.
  unfold observed. destruct (nth_error (mg_mods g) i) as [m|] eqn:N; [|constructor].
  destruct (norm_obs m) as [o|] eqn:NO; [|constructor]. change (in_unit o).
  destruct (iv_at _ _ _ _ V N) as (df & ND & _ & L).
  assert (ID : In df D) by (eapply nth_error_In; eauto).
  eapply phys_unit; [| | |exact NO].
  - rewrite Forall_forall in P. apply P. eapply nth_error_In; eauto.
  - eapply like_tied; [exact L|]. apply sane_reachable_tied. rewrite Forall_forall in S. apply S, ID.
  - intros b K. destruct L as [LK _ _ _ _ _]. rewrite K in LK. destruct (m_kind (snd df)) as [b0| | | | |] eqn:K0; try contradiction.
    destruct LK as (c & s & ->). simpl. eapply MP; eauto.
Qed.

(** ** State series *)
Definition sdict (n : bool) (g : mgrid Q) (i : nat) : dict Q :=
  match nth_error (mg_mods g) i with
  | Some m => match (if n then state_dict_normalized m else state_dict m) with Ok d => d | Err _ => [] end
  | None => []
  end.
Definition series_of (f : nat -> dict Q) (g : mgrid Q) : list ((string * nat * string) * Q) :=
  concat (map (fun kl : string * list nat =>
    concat (map (fun ji : nat * nat => map (fun kv => ((fst kl, fst ji, fst kv), snd kv)) (f (snd ji)))
                (combine (seq 0 (length (snd kl))) (snd kl)))) (all_dict g)).

Lemma combine_seq_map {A B} (f : A -> B) (l : list A) s : combine (seq s (length (map f l))) (map f l)
  = map (fun ja => (fst ja, f (snd ja))) (combine (seq s (length l)) l).
Proof. revert s. induction l as [|a l IH]; intros s; simpl; [reflexivity|]. f_equal. apply IH. Qed.

Lemma series_eq (n : bool) (g : mgrid Q) :
  (forall i, In i (dict_ids g) -> exists m d, nth_error (mg_mods g) i = Some m
     /\ (if n then state_dict_normalized m else state_dict m) = Ok d) ->
  mg_state_series n g = Ok (series_of (sdict n g) g).
Proof.
  intros H. unfold mg_state_series, mg_state_dict.
  match goal with |- rmap _ (rmapM ?f _) = _ =>
    rewrite (rmapM_all f (fun kl : string * list nat => (fst kl, map (sdict n g) (snd kl)))) end.
  - cbn [rmap]. f_equal. unfold series_of. rewrite map_map. f_equal. apply map_ext. intros [k l]. cbn [fst snd].
    rewrite combine_seq_map, map_map. reflexivity.
  - intros [k l] I. cbn [fst snd]. match goal with |- rmap _ (rmapM ?f _) = _ => rewrite (rmapM_all f (sdict n g)); [reflexivity|] end.
    intros i II. destruct (H i) as (m & d & N & E).
    { unfold dict_ids. apply in_concat. exists l. split; [|exact II]. apply in_map_iff. exists (k, l). auto. }
    unfold sdict. rewrite N. destruct n; rewrite E; reflexivity.
Qed.

Lemma like_state_keys m m' : mod_like m m' -> state_keys (m_kind m') = state_keys (m_kind m).
Proof.
  intros [K _ _ _ _ _]. destruct (m_kind m), (m_kind m'); simpl in K |- *; try contradiction; auto.
  - destruct K as [_ [f S]]. rewrite (same_comps _ _ S), (same_horizon _ _ S). reflexivity.
  - destruct K as [f S]. rewrite (same_comps _ _ S), (same_horizon _ _ S). reflexivity.
  - destruct K as [f S]. rewrite (same_comps _ _ S), (same_horizon _ _ S). reflexivity.
Qed.
Lemma state_keys_nodup m : kind_ok m -> NoDup (state_keys (m_kind m)).
Proof.
  intros K. assert (TS : forall t, kind_ts (m_kind m) = Some t -> NoDup (keys_current (ts_comps t) ++ keys_forecast (ts_comps t) (ts_horizon t))).
  { intros t E. destruct (kind_ok_ts _ _ K E) as (_ & KC). apply keys_nodup, KC. }
  unfold state_keys. destruct (m_kind m) as [b|s|gg t|t|t|u]; try (exact (TS t eq_refl)).
  - repeat constructor; simpl; intuition discriminate.
  - repeat constructor; simpl; intuition discriminate.
  - constructor.
Qed.

Definition skeys (D : list (mdef Q)) (i : nat) : list string :=
  match nth_error D i with Some d => state_keys (m_kind (snd d)) | None => [] end.
Lemma skeys_nodup D g i : mg_inv D g -> NoDup (skeys D i).
Proof.
  intros V. unfold skeys. destruct (nth_error D i) as [d|] eqn:N; [|constructor].
  destruct (iv_nth _ _ _ _ V N) as (m & _ & OK & L). rewrite <- (like_state_keys _ _ L).
  apply state_keys_nodup, mo_kind, OK.
Qed.
Lemma skeys_length D g i : mg_inv D g -> (i < length D)%nat -> length (skeys D i) = dsize D i.
Proof.
  intros V L. unfold skeys, dsize. destruct (nth_error D i) as [d|] eqn:N; [|apply nth_error_None in N; lia].
  destruct (iv_nth _ _ _ _ V N) as (m & _ & OK & LK). rewrite <- (like_state_keys _ _ LK), <- (ml_obs _ _ LK).
  destruct (norm_obs_eq m (mo_kind _ OK)) as (sd & xs & _ & _ & _ & L2 & <- & _). rewrite map_length. exact L2.
Qed.

(** The dictionaries the series are made of. *)
Lemma state_dict_at D g i : mg_inv D g -> (i < length D)%nat -> exists m d, nth_error (mg_mods g) i = Some m
  /\ state_dict m = Ok d /\ map fst d = skeys D i.
Proof.
  intros V L. destruct (nth_error D i) as [df|] eqn:N; [|apply nth_error_None in N; lia].
  destruct (iv_nth _ _ _ _ V N) as (m & Nm & OK & LK). destruct (state_dict_ok m (mo_kind _ OK)) as (sd & E & KS & _).
  exists m, sd. conj; auto. rewrite KS. unfold skeys. rewrite N. apply like_state_keys, LK.
Qed.
Lemma norm_dict_at D g i : mg_inv D g -> (i < length D)%nat -> exists m, nth_error (mg_mods g) i = Some m
  /\ (dsize D i <> 1%nat -> exists d, state_dict_normalized m = Ok d /\ map fst d = skeys D i /\ map snd d = observed g i)
  /\ (dsize D i = 1%nat -> raises TypeError (state_dict_normalized m)).
Proof.
  intros V L. destruct (nth_error D i) as [df|] eqn:N; [|apply nth_error_None in N; lia].
  destruct (iv_nth _ _ _ _ V N) as (m & Nm & OK & LK). exists m. split; [exact Nm|].
  destruct (norm_obs_eq m (mo_kind _ OK)) as (sd & xs & E & NO & L1 & L2 & KS & NM).
  assert (DS : dsize D i = length xs) by (rewrite <- (nth_size D g i m V Nm); congruence).
  unfold state_dict_normalized. rewrite E. cbn [rbind]. rewrite NM. cbn [rbind]. rewrite DS. split.
  - intros NE. exists (combine (map fst sd) xs).
    assert (KF : map fst (combine (map fst sd) xs) = map fst sd) by (apply map_fst_combine; rewrite map_length; congruence).
    conj.
    + destruct xs as [|x [|y xs]]; [| |].
      * destruct sd; [reflexivity|discriminate L1].
      * simpl in NE. congruence.
      * cbn [item_or_arr]. f_equal. apply dict_of_NoDup. change (dkeys sd) with (map fst sd). rewrite KF, KS.
        apply state_keys_nodup, mo_kind, OK.
    + rewrite KF, KS. unfold skeys. rewrite N. apply like_state_keys, LK.
    + unfold observed. rewrite Nm, NO, as_list_item. apply map_snd_combine. rewrite map_length. congruence.
  - intros X. destruct xs as [|x [|y xs]]; try discriminate X. simpl. eexists. split; reflexivity.
Qed.

Lemma dict_ids_lt D g i : mg_inv D g -> names_separate D -> In i (dict_ids g) <-> (i < length D)%nat.
Proof.
  intros V SEP. pose proof (dict_ids_perm D g V SEP) as P. split; intros I.
  - apply (Permutation_in _ P) in I. apply in_seq in I. lia.
  - apply (Permutation_in _ (Permutation_sym P)). apply in_seq. lia.
Qed.
Definition no_single (D : list (mdef Q)) : Prop := forall i, (i < length D)%nat -> dsize D i <> 1%nat.
Lemma series_false D g : mg_inv D g -> names_separate D ->
  mg_state_series false g = Ok (series_of (sdict false g) g)
  /\ forall i, (i < length D)%nat -> map fst (sdict false g i) = skeys D i.
Proof.
  intros V SEP. split.
  - apply series_eq. intros i I. apply (dict_ids_lt D g i V SEP) in I.
    destruct (state_dict_at D g i V I) as (m & d & N & E & _). eauto.
  - intros i I. destruct (state_dict_at D g i V I) as (m & d & N & E & K). unfold sdict. rewrite N, E. exact K.
Qed.
Lemma series_true D g : mg_inv D g -> names_separate D -> no_single D ->
  mg_state_series true g = Ok (series_of (sdict true g) g)
  /\ forall i, (i < length D)%nat -> map fst (sdict true g i) = skeys D i /\ map snd (sdict true g i) = observed g i.
Proof.
  intros V SEP NS. split.
  - apply series_eq. intros i I. apply (dict_ids_lt D g i V SEP) in I.
    destruct (norm_dict_at D g i V I) as (m & N & H & _). destruct (H (NS i I)) as (d & E & _). eauto.
  - intros i I. destruct (norm_dict_at D g i V I) as (m & N & H & _). destruct (H (NS i I)) as (d & E & K).
    unfold sdict. rewrite N, E. exact K.
Qed.
Lemma rmapM_raises {A B} (f : A -> res B) cls l : (forall a, In a l -> (exists b, f a = Ok b) \/ raises cls (f a)) ->
  (exists a, In a l /\ raises cls (f a)) -> raises cls (rmapM f l).
Proof.
  induction l as [|a l IH]; intros H (x & I & R); [destruct I|]. simpl.
  destruct (H a (or_introl eq_refl)) as [[b E]|(e & E & C)].
  - rewrite E. cbn [rbind]. destruct I as [->|I]; [destruct R as (e & E' & _); congruence|].
    destruct IH as (e & -> & C); [intros; apply H; right; auto|eauto|]. exists e. split; [reflexivity|exact C].
  - rewrite E. exists e. split; [reflexivity|exact C].
Qed.
Lemma series_single D g : mg_inv D g -> names_separate D -> (exists i, (i < length D)%nat /\ dsize D i = 1%nat) ->
  raises TypeError (mg_state_series true g).
Proof.
  intros V SEP (i & LI & S1). unfold mg_state_series.
  assert (X : raises TypeError (mg_state_dict true g)).
  { assert (ONE : forall j, In j (dict_ids g) ->
      (exists b, (match nth_error (mg_mods g) j with
                  | Some m => state_dict_normalized m
                  | None => raise KeyError "no such module"
                  end) = Ok b)
      \/ raises TypeError (match nth_error (mg_mods g) j with
                  | Some m => state_dict_normalized m
                  | None => raise KeyError "no such module"
                  end)).
    { intros j I. apply (dict_ids_lt D g j V SEP) in I. destruct (norm_dict_at D g j V I) as (m & N & H1 & H2). rewrite N.
      destruct (Nat.eq_dec (dsize D j) 1) as [E|E]; [right; auto|left]. destruct (H1 E) as (d & X & _). eauto. }
    unfold mg_state_dict. apply rmapM_raises.
    - intros [k l] I. cbn [fst snd].
      match goal with |- context [rmapM ?f l] => set (F := f) end.
      assert (DI : forall j, In j l -> In j (dict_ids g)).
      { intros j J. unfold dict_ids. apply in_concat. exists l. split; [|exact J]. apply in_map_iff. exists (k, l). auto. }
      destruct (existsb (fun j => match F j with Ok _ => false | Err _ => true end) l) eqn:EX.
      + right. apply existsb_exists in EX. destruct EX as (j & J & X).
        destruct (rmapM_raises F TypeError l) as (e & E & C).
        * intros a IA. exact (ONE a (DI a IA)).
        * exists j. split; [exact J|]. destruct (ONE j (DI j J)) as [[b B]|R]; [|exact R]. unfold F in X. rewrite B in X. discriminate X.
        * rewrite E. exists e. split; [reflexivity|exact C].
      + left. destruct (rmapM_progress F l) as (l' & ->); [|simpl; eauto].
        intros j J. destruct (F j) eqn:FJ; [eauto|]. exfalso.
        assert (Y : existsb (fun j => match F j with Ok _ => false | Err _ => true end) l = true).
        { apply existsb_exists. exists j. rewrite FJ. auto. }
        congruence.
    - pose proof LI as I. apply (dict_ids_lt D g i V SEP) in I. unfold dict_ids in I. apply in_concat in I.
      destruct I as (l & I1 & I2). apply in_map_iff in I1. destruct I1 as ([k l0] & X & I1). simpl in X. subst l0.
      exists (k, l). split; [exact I1|]. cbn [fst snd].
      destruct (rmapM_raises (fun i => match nth_error (mg_mods g) i with
                                 | None => raise KeyError "no such module"
                                 | Some m => if true then state_dict_normalized m
                                             else state_dict m
                                 end) TypeError l) as (e & E & C).
      + intros a IA. apply (ONE a). unfold dict_ids. apply in_concat. exists l. split; [|exact IA]. apply in_map_iff. exists (k, l). auto.
      + exists i. split; [exact I2|]. destruct (norm_dict_at D g i V LI) as (m & N & _ & H2). rewrite N. auto.
      + rewrite E. exists e. split; [reflexivity|exact C]. }
  destruct X as (e & -> & C). exists e. split; [reflexivity|exact C].
Qed.

(** Entries of a series. *)
Lemma in_combine_seq {A} (l : list A) j a : forall s, In (j, a) (combine (seq s (length l)) l) <->
  (s <= j)%nat /\ nth_error l (j - s) = Some a.
Proof.
  induction l as [|b l IH]; intros s; simpl.
  - split; [tauto|]. intros [_ X]. destruct (j - s)%nat; discriminate X.
  - rewrite IH. split.
    + intros [X|[X Y]].
      * injection X as <- <-. rewrite Nat.sub_diag. split; [lia|reflexivity].
      * split; [lia|]. replace (j - s)%nat with (S (j - S s)) by lia. exact Y.
    + intros [X Y]. destruct (Nat.eq_dec s j) as [->|NE].
      * rewrite Nat.sub_diag in Y. injection Y as ->. auto.
      * right. split; [lia|]. replace (j - s)%nat with (S (j - S s)) in Y by lia. exact Y.
Qed.
Lemma in_series D g f nm j k x : mg_inv D g -> names_separate D ->
  In ((nm, j, k), x) (series_of f g) <-> exists i, nth_error (positions nm D) j = Some i /\ In (k, x) (f i).
Proof.
  intros V SEP. unfold series_of. rewrite in_concat. split.
  - intros (l1 & I1 & I2). apply in_map_iff in I1. destruct I1 as ([nm' l] & <- & I1). cbn [fst snd] in I2.
    apply in_concat in I2. destruct I2 as (l2 & I2 & I3). apply in_map_iff in I2. destruct I2 as ([j' i] & <- & I2).
    cbn [fst snd] in I3. apply in_map_iff in I3. destruct I3 as ([k' x'] & E & I3). cbn [fst snd] in E.
    injection E as -> -> -> ->. apply (all_dict_in D g nm l V SEP) in I1. destruct I1 as [-> _].
    apply in_combine_seq in I2. destruct I2 as [_ I2]. rewrite Nat.sub_0_r in I2. eauto.
  - intros (i & N & I). exists (concat (map (fun ji : nat * nat => map (fun kv => ((nm, fst ji, fst kv), snd kv)) (f (snd ji)))
                (combine (seq 0 (length (positions nm D))) (positions nm D)))). split.
    + apply in_map_iff. exists (nm, positions nm D). split; [reflexivity|]. apply (all_dict_in D g nm _ V SEP).
      split; [reflexivity|]. intros X. rewrite X in N. destruct j; discriminate N.
    + apply in_concat. exists (map (fun kv => ((nm, j, fst kv), snd kv)) (f i)). split.
      * apply in_map_iff. exists (j, i). split; [reflexivity|]. apply in_combine_seq. rewrite Nat.sub_0_r. split; [lia|exact N].
      * apply in_map_iff. exists (k, x). auto.
Qed.

(** Counting keys. *)
Definition cnt_x (keys X : list string) : nat := length (filter (fun x => str_in x keys) X).
Lemma str_in_cons k a l : str_in k (a :: l) = String.eqb k a || str_in k l.
Proof. reflexivity. Qed.
Lemma cnt_cons k ks X : NoDup X ->
  cnt_x (k :: ks) X = (cnt_x ks X + (if str_in k X && negb (str_in k ks) then 1 else 0))%nat.
Proof.
  unfold cnt_x. induction 1 as [|x X NI N IH]; [simpl; destruct (str_in k ks); reflexivity|].
  simpl filter. rewrite !str_in_cons. rewrite (String.eqb_sym x k). destruct (String.eqb k x) eqn:E.
  - apply String.eqb_eq in E. subst x. cbn [orb andb].
    assert (str_in k X = false) as Z by (apply not_true_iff_false; rewrite str_in_iff; exact NI).
    rewrite Z in IH. cbn [andb] in IH. rewrite Nat.add_0_r in IH. destruct (str_in k ks) eqn:KS; cbn [length negb];
      change (fun x => String.eqb x k || str_in x ks) with (fun x => str_in x (k :: ks)); lia.
  - cbn [orb]. change (fun x => String.eqb x k || str_in x ks) with (fun x => str_in x (k :: ks)).
    destruct (str_in x ks); cbn [length]; lia.
Qed.
Lemma cnt_le keys X : NoDup X -> (cnt_x keys X <= length (filter (fun k => str_in k X) keys))%nat.
Proof.
  intros N. induction keys as [|k ks IH].
  - unfold cnt_x. simpl. clear. induction X; simpl; auto.
  - rewrite (cnt_cons _ _ _ N). simpl. destruct (str_in k X); simpl; destruct (str_in k ks); simpl; lia.
Qed.
Lemma cnt_eq keys X : NoDup X -> NoDup keys -> cnt_x keys X = length (filter (fun k => str_in k X) keys).
Proof.
  intros N. induction 1 as [|k ks NI NK IH].
  - unfold cnt_x. simpl. clear. induction X; simpl; auto.
  - rewrite (cnt_cons _ _ _ N). simpl.
    assert (str_in k ks = false) as -> by (apply not_true_iff_false; rewrite str_in_iff; exact NI).
    destruct (str_in k X); simpl; lia.
Qed.
Lemma cnt_lt a k b X : NoDup X -> In k b -> In k X ->
  (cnt_x (a ++ k :: b) X < length (filter (fun k => str_in k X) (a ++ k :: b)))%nat.
Proof.
  intros N IB IX. induction a as [|c a IH].
  - cbn [app]. rewrite (cnt_cons _ _ _ N). simpl. apply str_in_iff in IX. apply str_in_iff in IB. rewrite IX, IB. simpl.
    pose proof (cnt_le b X N). lia.
  - cbn [app]. rewrite (cnt_cons _ _ _ N). cbn [filter]. destruct (str_in c X); cbn [length andb]; [|lia].
    destruct (negb _); lia.
Qed.
Lemma dup_split (l : list string) : ~ NoDup l -> exists a k b, l = a ++ k :: b /\ In k b.
Proof.
  induction l as [|x l IH]; intros N; [exfalso; apply N; constructor|].
  destruct (str_in x l) eqn:E.
  - apply str_in_iff in E. exists [], x, l. auto.
  - destruct IH as (a & k & b & -> & I).
    + intros X. apply N. constructor; [|exact X]. rewrite <- str_in_iff. congruence.
    + exists (x :: a), k, b. auto.
Qed.

(** The advertised size with keys. *)
Lemma str_in_ext k l l' : (In k l <-> In k l') -> str_in k l = str_in k l'.
Proof. intros H. apply eq_true_iff_eq. rewrite !str_in_iff. exact H. Qed.
Definition kcount (keys : list string) (D : list (mdef Q)) (i : nat) : nat :=
  length (filter (fun k => str_in k (skeys D i)) keys).
Lemma list_sum_concat l : list_sum (concat l) = list_sum (map list_sum l).
Proof. induction l as [|x l IH]; simpl; [reflexivity|]. rewrite list_sum_app, IH. reflexivity. Qed.
Lemma flat_size_concat l : flat_size (concat l) = list_sum (map flat_size l).
Proof.
  induction l as [|x l IH]; simpl; [reflexivity|]. unfold flat_size in *. rewrite map_app, list_sum_app, IH. reflexivity.
Qed.
Lemma sum_dict {A} (h : nat -> A -> nat) D g : mg_inv D g -> names_separate D -> forall w : nat -> nat,
  list_sum (map (fun kl : string * list nat => list_sum (map w (snd kl))) (all_dict g)) = list_sum (map w (seq 0 (length D))).
Proof.
  intros V SEP w. rewrite <- (list_sum_perm _ _ (Permutation_map w (dict_ids_perm D g V SEP))).
  unfold dict_ids. rewrite concat_map, list_sum_concat, !map_map. reflexivity.
Qed.
Lemma sum_seq_snd {A} (w : A -> nat) (l : list A) s :
  list_sum (map (fun ja : nat * A => w (snd ja)) (combine (seq s (length l)) l)) = list_sum (map w l).
Proof. revert s. induction l as [|a l IH]; intros s; simpl; [reflexivity|]. rewrite IH. reflexivity. Qed.

Lemma flat_one (nm : string) (l : list nat) : flat_size (match l with [] => [] | _ => [(nm, l)] end) = list_sum l.
Proof. destruct l; [reflexivity|]. unfold flat_size. simpl. rewrite Nat.add_0_r. reflexivity. Qed.
Lemma space_keys D g keys sp : mg_inv D g -> names_separate D -> keys <> [] ->
  observation_space g keys = Ok sp -> flat_size sp = list_sum (map (kcount keys D) (seq 0 (length D))).
Proof.
  intros V SEP NK E. unfold observation_space in E. destruct (series_false D g V SEP) as [SE SK]. rewrite SE in E.
  cbn [rbind] in E. injection E as <-.
  rewrite flat_size_concat, map_map, <- (sum_dict (fun _ (_ : unit) => 0%nat) D g V SEP). f_equal.
  apply map_ext_in. intros [nm l] I. apply (all_dict_in D g nm l V SEP) in I. destruct I as [-> NE]. cbn [fst snd].
  etransitivity; [apply flat_one|]. rewrite list_sum_concat, map_map.
  rewrite <- (sum_seq_snd (kcount keys D) (positions nm D) 0). f_equal. apply map_ext_in. intros [j i] I. cbn [fst snd].
  assert (II : In i (positions nm D)) by (apply in_combine_r in I; exact I).
  apply in_combine_seq in I. destruct I as [_ I]. rewrite Nat.sub_0_r in I.
  pose proof (positions_lt _ _ _ II) as LI. destruct (state_dict_at D g i V LI) as (m & d & N & ED & KD). rewrite N.
  unfold kcount.
  assert (F : filter (fun k => str_in k (map (fun x => snd (fst x))
        (filter (fun x => ref_eqb (fst (fst x)) (nm, j)) (series_of (sdict false g) g)))) keys
     = filter (fun k => str_in k (skeys D i)) keys).
  { apply filter_ext. intros k. apply str_in_ext. rewrite in_map_iff. split.
    - intros ([[[nm' j'] k'] x] & EK & IF). cbn [fst snd] in EK. subst k'. apply filter_In in IF. destruct IF as [IF R].
      unfold ref_eqb in R. cbn [fst snd] in R. apply andb_prop in R. destruct R as [R1 R2].
      apply String.eqb_eq in R1. apply Nat.eqb_eq in R2. subst nm' j'.
      apply (in_series D g _ nm j k x V SEP) in IF. destruct IF as (i' & N' & IF).
      assert (i' = i) by congruence. subst i'. rewrite <- (SK i LI). apply in_map_iff. exists (k, x). auto.
    - intros IK. rewrite <- (SK i LI) in IK. apply in_map_iff in IK. destruct IK as ([k' x] & EK & IK). simpl in EK. subst k'.
      exists ((nm, j, k), x). split; [reflexivity|]. apply filter_In. split.
      + apply (in_series D g _ nm j k x V SEP). eauto.
      + unfold ref_eqb. cbn [fst snd]. rewrite String.eqb_refl, Nat.eqb_refl. reflexivity. }
  destruct keys as [|k0 ks]; [congruence|]. rewrite F.
  destruct (filter (fun k => str_in k (skeys D i)) (k0 :: ks)); simpl; lia.
Qed.

(** What the observation holds. *)
Lemma filter_concat {A} (p : A -> bool) (l : list (list A)) : filter p (concat l) = concat (map (filter p) l).
Proof. induction l as [|x l IH]; simpl; [reflexivity|]. rewrite filter_app, IH. reflexivity. Qed.
Lemma filter_map_comm {A B} (p : B -> bool) (f : A -> B) l : filter p (map f l) = map f (filter (fun a => p (f a)) l).
Proof. induction l as [|a l IH]; simpl; [reflexivity|]. rewrite IH. destruct (p (f a)); reflexivity. Qed.
Lemma select_count D g f keys : mg_inv D g -> names_separate D ->
  (forall i, (i < length D)%nat -> map fst (f i) = skeys D i) ->
  length (filter (fun x : (string * nat * string) * Q => str_in (snd (fst x)) keys) (series_of f g))
  = list_sum (map (fun i => cnt_x keys (skeys D i)) (seq 0 (length D))).
Proof.
  intros V SEP HF. unfold series_of. rewrite filter_concat, length_concat, !map_map.
  rewrite <- (sum_dict (fun _ (_ : unit) => 0%nat) D g V SEP). f_equal.
  apply map_ext_in. intros [nm l] I. apply (all_dict_in D g nm l V SEP) in I. destruct I as [-> NE]. cbn [fst snd].
  rewrite filter_concat, length_concat, !map_map.
  rewrite <- (sum_seq_snd (fun i => cnt_x keys (skeys D i)) (positions nm D) 0). f_equal.
  apply map_ext_in. intros [j i] I. cbn [fst snd]. apply in_combine_r in I. pose proof (positions_lt _ _ _ I) as LI.
  rewrite filter_map_comm, map_length. cbn [fst snd]. unfold cnt_x. rewrite <- (HF i LI), filter_map_comm, map_length. reflexivity.
Qed.

Lemma list_sum_le {A} (f h : A -> nat) l : (forall a, In a l -> (f a <= h a)%nat) -> (list_sum (map f l) <= list_sum (map h l))%nat.
Proof.
  induction l as [|a l IH]; intros H; simpl; [lia|]. pose proof (H a (or_introl eq_refl)).
  assert (list_sum (map f l) <= list_sum (map h l))%nat by (apply IH; intros; apply H; right; auto). lia.
Qed.
Lemma list_sum_lt {A} (f h : A -> nat) l : (forall a, In a l -> (f a <= h a)%nat) -> (exists a, In a l /\ (f a < h a)%nat) ->
  (list_sum (map f l) < list_sum (map h l))%nat.
Proof.
  induction l as [|a l IH]; intros H (x & I & L); [destruct I|]. simpl. pose proof (H a (or_introl eq_refl)).
  assert (LE : (list_sum (map f l) <= list_sum (map h l))%nat) by (apply list_sum_le; intros; apply H; right; auto).
  destruct I as [->|I]; [lia|].
  assert (list_sum (map f l) < list_sum (map h l))%nat by (apply IH; [intros; apply H; right; auto|eauto]). lia.
Qed.

(** The two orders pandas uses. *)
Lemma Permutation_filter {A} (p : A -> bool) l l' : Permutation l l' -> Permutation (filter p l) (filter p l').
Proof.
  induction 1; simpl.
  - constructor.
  - destruct (p x); [apply perm_skip|]; assumption.
  - destruct (p x), (p y); try apply Permutation_refl. apply perm_swap.
  - eapply perm_trans; eauto.
Qed.
Lemma uniq_in l k : In k (uniq_vals String.eqb l) <-> In k l.
Proof.
  induction l as [|a l IH]; simpl; [tauto|]. rewrite filter_In, IH. destruct (String.eqb a k) eqn:E.
  - apply String.eqb_eq in E. subst. simpl. tauto.
  - apply String.eqb_neq in E. simpl. tauto.
Qed.
Lemma filter_nodup {A} (p : A -> bool) l : NoDup l -> NoDup (filter p l).
Proof.
  induction 1 as [|x l NI N IH]; simpl; [constructor|]. destruct (p x); [constructor; auto|auto].
  rewrite filter_In. tauto.
Qed.
Lemma uniq_nodup l : NoDup (uniq_vals String.eqb l).
Proof.
  induction l as [|a l IH]; simpl; [constructor|]. constructor.
  - rewrite filter_In. intros [_ X]. rewrite String.eqb_refl in X. discriminate X.
  - apply filter_nodup, IH.
Qed.
Lemma filter_false {A} (p : A -> bool) l : (forall a, In a l -> p a = false) -> filter p l = [].
Proof.
  induction l as [|a l IH]; intros H; simpl; [reflexivity|]. rewrite (H a) by (left; reflexivity).
  apply IH. intros; apply H; right; auto.
Qed.
Lemma split_by_key {A} (kf : A -> string) keys (s : list A) : NoDup keys ->
  Permutation (concat (map (fun k => filter (fun x => String.eqb k (kf x)) s) keys))
              (filter (fun x => str_in (kf x) keys) s).
Proof.
  induction 1 as [|k keys NI N IH]; simpl.
  - rewrite filter_false; [constructor|]. reflexivity.
  - eapply perm_trans; [apply Permutation_app_head; exact IH|]. clear IH N.
    induction s as [|x s IHs]; simpl; [constructor|].
    rewrite (String.eqb_sym (kf x) k). destruct (String.eqb k (kf x)) eqn:E.
    + apply String.eqb_eq in E. cbn [orb].
      assert (str_in (kf x) keys = false) as -> by (apply not_true_iff_false; rewrite str_in_iff; congruence).
      simpl. apply perm_skip. exact IHs.
    + cbn [orb]. destruct (str_in (kf x) keys); [|exact IHs].
      eapply perm_trans; [apply Permutation_sym, Permutation_middle|]. apply perm_skip. exact IHs.
Qed.
Lemma select_perm keys (s : list ((string * nat * string) * Q)) :
  Permutation (select keys s) (filter (fun x => str_in (snd (fst x)) keys) s).
Proof.
  unfold select. destruct (keys_sorted keys); [apply Permutation_refl|].
  eapply perm_trans; [apply (split_by_key (fun x => snd (fst x)) _ s (uniq_nodup keys))|].
  erewrite filter_ext; [apply Permutation_refl|]. intros x. apply str_in_ext. apply uniq_in.
Qed.

Theorem keys_ok D (g0 g' : mgrid Q) keys sp : from_modules D g0 -> from_modules D g' -> names_separate D ->
  keys <> [] -> validate_keys g0 keys = Ok keys -> observation_space g0 keys = Ok sp -> no_single D ->
  exists s, mg_state_series true g' = Ok s
    /\ (forall nm j k x, In ((nm, j, k), x) s <-> exists i m d, nth_error (positions nm D) j = Some i
          /\ nth_error (mg_mods g') i = Some m /\ state_dict_normalized m = Ok d /\ In (k, x) d)
    /\ Permutation (select keys s) (filter (fun x => str_in (snd (fst x)) keys) s)
    /\ (length (select keys s) = flat_size sp <-> NoDup keys).
Proof.
  intros F0 F' SEP NK VK SP NS. pose proof (from_modules_inv _ _ F0) as V0. pose proof (from_modules_inv _ _ F') as V'.
  destruct (series_true D g' V' SEP NS) as [SE SK]. exists (series_of (sdict true g') g').
  conj; [exact SE| |apply select_perm|].
  - intros nm j k x. rewrite (in_series D g' _ nm j k x V' SEP). split.
    + intros (i & N & I). pose proof (positions_lt nm i D (nth_error_In _ _ N)) as LI.
      destruct (norm_dict_at D g' i V' LI) as (m & Nm & H & _). destruct (H (NS i LI)) as (d & E & _).
      exists i, m, d. unfold sdict in I. rewrite Nm, E in I. auto.
    + intros (i & m & d & N & Nm & E & I). exists i. split; [exact N|]. unfold sdict. rewrite Nm, E. exact I.
  - rewrite (Permutation_length (select_perm keys _)).
    rewrite (select_count D g' _ keys V' SEP (fun i L => proj1 (SK i L))), (space_keys D g0 keys sp V0 SEP NK SP).
    split.
    + intros E. destruct (ListDec.NoDup_dec string_dec keys) as [N|N]; [exact N|]. exfalso.
      destruct (dup_split _ N) as (a & k & b & EK & IB).
      assert (KI : exists i, (i < length D)%nat /\ In k (skeys D i)).
      { destruct (series_false D g0 V0 SEP) as [SE0 SK0]. unfold validate_keys in VK. destruct keys as [|k0 ks]; [congruence|].
        rewrite SE0 in VK. cbn [rbind] in VK. destruct (forallb _ _) eqn:FB in VK; [|discriminate VK].
        rewrite forallb_forall in FB. assert (IK : In k (k0 :: ks)) by (rewrite EK; apply in_elt). apply FB in IK.
        apply str_in_iff in IK. apply in_map_iff in IK. destruct IK as ([[[nm j] k'] x] & E' & IK). simpl in E'. subst k'.
        apply (in_series D g0 _ nm j k x V0 SEP) in IK. destruct IK as (i & Ni & IK).
        pose proof (positions_lt nm i D (nth_error_In _ _ Ni)) as LI.
        exists i. split; [exact LI|]. rewrite <- (SK0 i LI). apply in_map_iff. exists (k, x). auto. }
      destruct KI as (i & LI & KI).
      assert (LT : (list_sum (map (fun i => cnt_x keys (skeys D i)) (seq 0 (length D)))
                    < list_sum (map (kcount keys D) (seq 0 (length D))))%nat).
      { apply list_sum_lt.
        - intros j _. apply cnt_le. eapply skeys_nodup; exact V0.
        - exists i. split; [apply in_seq; lia|]. unfold kcount. rewrite EK. apply cnt_lt; auto. eapply skeys_nodup; exact V0. }
      lia.
    + intros N. f_equal. apply map_ext. intros i. apply cnt_eq; [eapply skeys_nodup; exact V0|exact N].
Qed.

(** ** The observations of environments *)
Record obs_env (D : list (mdef Q)) (e : env Q) : Prop := mkObsEnv {
  oe_from : from_modules D (grid_of e);
  oe_space : exists g0, from_modules D g0 /\ validate_keys g0 (ev_keys e) = Ok (ev_keys e)
               /\ observation_space g0 (ev_keys e) = Ok (ev_space e)
}.
Lemma new_base_ok (g0 : mgrid Q) flat keys e0 : new_base_env g0 flat keys = Ok e0 ->
  ev_mg e0 = g0 /\ ev_flat e0 = flat /\ ev_keys e0 = keys /\ observation_space g0 keys = Ok (ev_space e0)
  /\ validate_keys g0 keys = Ok keys.
Proof.
  intros E. unfold new_base_env in E. destruct (validate_keys g0 keys) as [ks|] eqn:VK; [|discriminate E]. cbn [rbind] in E.
  assert (ks = keys). { unfold validate_keys in VK. destruct keys; [congruence|]. destruct (mg_state_series false g0); [|discriminate VK].
    cbn [rbind] in VK. destruct (forallb _ _); [congruence|discriminate VK]. }
  subst ks.
  destruct (observation_space g0 keys) as [sp|] eqn:SP; [|discriminate E]. cbn [rbind] in E.
  destruct (flat && _); [discriminate E|]. injection E as <-. cbn [ev_mg ev_flat ev_keys ev_space]. auto.
Qed.
Lemma bplay_fields cs : forall e : env Q, ev_keys (bplay cs e) = ev_keys e /\ ev_space (bplay cs e) = ev_space e
  /\ ev_flat (bplay cs e) = ev_flat e /\ exists cs', ev_mg (bplay cs e) = mplay cs' (ev_mg e).
Proof.
  induction cs as [|c cs IH]; intros e; [conj; auto; exists []; reflexivity|].
  cbn [bplay fold_left]. change (fold_left _ cs ?x) with (bplay cs x).
  assert (X : exists g, do_bcall c e = env_set_mg e g /\ exists cs', g = mplay cs' (ev_mg e)).
  { destruct c as [c n| |c]; cbn [do_bcall].
    - rewrite env_step_eq. eexists. split; [reflexivity|]. exists [MRun c n]. reflexivity.
    - rewrite env_reset_eq. eexists. split; [reflexivity|]. exists [MReset]. reflexivity.
    - eexists. split; [reflexivity|]. exists [c]. reflexivity. }
  destruct X as (g & -> & cs1 & ->). destruct (IH (env_set_mg e (mplay cs1 (ev_mg e)))) as (A & B & C & cs2 & M).
  rewrite A, B, C, M. conj; auto. exists (cs1 ++ cs2). cbn [env_set_mg ev_mg]. unfold mplay. rewrite fold_left_app. reflexivity.
Qed.
Lemma eplay_fields cs : forall e : env Q, ev_keys (eplay cs e) = ev_keys e /\ ev_space (eplay cs e) = ev_space e
  /\ ev_flat (eplay cs e) = ev_flat e.
Proof.
  induction cs as [|c cs IH]; intros e; [conj; auto|].
  cbn [eplay fold_left]. change (fold_left _ cs ?x) with (eplay cs x). destruct (IH (do_ecall c e)) as (-> & -> & ->).
  destruct c as [a| |a|c]; cbn [do_ecall].
  - unfold discrete_step, on_mg, mbind, mget, mlift. cbn beta iota zeta. destruct (log_action a (ev_mg e)) as [g1 [u|x]]; [|conj; reflexivity].
    destruct (discrete_action (env_set_mg e g1) a) as [c|x]; [|conj; reflexivity].
    rewrite env_step_eq. conj; reflexivity.
  - rewrite env_reset_eq. conj; reflexivity.
  - unfold remove_action, mbind, mget, mput, mraise. destruct (negb _); conj; reflexivity.
  - conj; reflexivity.
Qed.
Lemma any_env_obs D e : any_env D e -> obs_env D e.
Proof.
  intros [(ds & add & lossc & overc & sh & tr & g0 & flat & keys & e0 & cs & B & -> & NW & ->)|DE].
  - pose proof (built_from _ _ _ _ _ _ _ B) as F. destruct (new_base_ok _ _ _ _ NW) as (M & _ & K & SP & VK).
    destruct (bplay_fields cs e0) as (A1 & A2 & _ & cs' & MG). rewrite M in MG.
    assert (FG : from_modules (all_defs ds add lossc overc) (mplay cs' g0)).
    { exists ds, add, lossc, overc, sh, tr, g0, cs'. conj; auto. }
    split.
    + unfold grid_of. rewrite MG, (quiet_empty _ _ FG). exact FG.
    + exists g0. rewrite A1, A2, K. auto.
  - split; [exact (vi_from _ _ (discrete_env_inv D e DE))|].
    destruct DE as (ds & add & lossc & overc & sh & tr & g0 & flat & keys & rr & e0 & cs & B & -> & NW & ->).
    pose proof (built_from _ _ _ _ _ _ _ B) as F. destruct (new_discrete_ok _ _ _ _ _ NW) as (_ & _ & _ & _ & K & SP & VK).
    destruct (eplay_fields cs e0) as (A1 & A2 & _). exists g0. rewrite A1, A2, K. auto.
Qed.

Lemma quiet_run (c : control Q) n g : run c n (quiet g) = (quiet (fst (run c n g)), snd (run c n g)).
Proof. exact (qcom_run logger_empty c n g). Qed.
Lemma quiet_reset g : mg_reset (quiet g) = (quiet (fst (mg_reset g)), snd (mg_reset g)).
Proof. exact (qcom_reset g). Qed.
Lemma quiet_mods g : mg_mods (quiet g) = mg_mods g.
Proof. reflexivity. Qed.

Definition same_view (e e' : env Q) : Prop :=
  ev_keys e' = ev_keys e /\ ev_space e' = ev_space e /\ ev_flat e' = ev_flat e.
(** Every observation comes from the modules after the call. *)
Lemma answers_obs D e e' o : any_env D e -> names_separate D -> answers D e e' o ->
  exists obs, from_modules D (grid_of e') /\ same_view e e' /\ get_obs e' obs = Ok o
    /\ forall nm, dget nm obs = entry_for (map (nobs (grid_of e')) (positions nm D)).
Proof.
  intros AE SEP AN. pose proof (any_env_obs D e AE) as [F _]. destruct AN as [e' o E|c n e' o rw dn inf C E|a e' o rw dn inf DE E].
  - rewrite env_reset_eq in E. injection E as <- E. destruct (snd (mg_reset (ev_mg e))) as [obs|] eqn:R; [|discriminate E].
    cbn [rbind] in E. exists obs. pose proof (quiet_reset (ev_mg e)) as Q. rewrite R in Q.
    fold (grid_of e) in Q. change (grid_of (env_set_mg e (fst (mg_reset (ev_mg e))))) with (quiet (fst (mg_reset (ev_mg e)))).
    conj; auto; [exact (from_modules_reset _ _ _ _ F Q)|red; conj; reflexivity|]. exact (reset_obs_all D _ _ _ F SEP Q).
  - rewrite env_step_eq in E. injection E as <- E. destruct (snd (run c n (ev_mg e))) as [[[[obs rw0] dn0] inf0]|] eqn:R; [|discriminate E].
    cbn [rbind] in E. unfold rmap in E. destruct (get_obs _ obs) as [o'|] eqn:GO; [|discriminate E]. injection E as <- <- <- <-.
    exists obs. pose proof (quiet_run c n (ev_mg e)) as Q. rewrite R in Q.
    fold (grid_of e) in Q. change (grid_of (env_set_mg e (fst (run c n (ev_mg e))))) with (quiet (fst (run c n (ev_mg e)))).
    conj; auto; [exact (from_modules_run _ _ _ _ _ _ F Q)|red; conj; reflexivity|]. exact (run_obs D _ _ c n _ _ _ _ F SEP C Q).
  - pose proof (discrete_env_inv D e DE) as V. destruct (in_discrete (ev_n e) a) eqn:R.
    + assert (RA : in_action_space e a) by (apply (in_space_iff D e a V); exact R).
      destruct (step_is_list D e a DE RA) as (pl & N & DR & g' & r & e1 & RS & G & _ & M).
      assert (SV : same_view e e1).
      { destruct (vi_log D e V) as (cells & L). destruct (py_nth_in (ev_lists e) a RA) as (pl' & N1 & N2).
        assert (pl' = pl) by congruence. subst pl'.
        pose proof (discrete_step_accepted a e cells pl L R N1) as X. rewrite RS in X. unfold after_run in X.
        assert (E1 : fst (discrete_step a e) = e1).
        { destruct r as [[[[? ?] ?] ?]|]; [destruct (get_obs e1 d)|]; rewrite M; reflexivity. }
        rewrite X in E1. cbn [fst] in E1. subst e1. red; conj; reflexivity. }
      destruct r as [[[[obs rw0] dn0] inf0]|x]; [|rewrite M in E; discriminate E].
      destruct (get_obs e1 obs) as [o'|x] eqn:GO; rewrite M in E; [|discriminate E]. injection E as <- <- <- <- <-.
      exists obs. rewrite G. conj; auto; [exact (rbc_step_from D pl _ _ _ F RS)|].
      rewrite rbc_step_eq in RS. destruct (populate_action (grid_of e) pl) as [s|] eqn:PA; [|discriminate RS].
      destruct (as_control s) as [c|] eqn:AC; [|discriminate RS].
      exact (run_obs D _ _ c false _ _ _ _ F SEP (populate_complete D _ pl s c F SEP (DR SEP) PA AC) RS).
    + destruct (vi_log D e V) as (cells & L). rewrite (discrete_step_refused a e cells L R) in E. discriminate E.
Qed.

Lemma observed_grid e i : observed (grid_of e) i = observed (ev_mg e) i.
Proof. reflexivity. Qed.

Theorem flat_observation D e e' o : any_env D e -> names_separate D -> answers D e e' o ->
  ev_keys e = [] -> ev_flat e = true ->
  exists nms xs, sorted_names D nms /\ o = OFlat xs
    /\ xs = concat (map (fun nm => concat (map (observed (ev_mg e')) (positions nm D))) nms)
    /\ length xs = flat_size (ev_space e).
Proof.
  intros AE SEP AN K FL. destruct (answers_obs D e e' o AE SEP AN) as (obs & F' & (K' & S' & FL') & GO & OB).
  destruct (oe_space D e (any_env_obs D e AE)) as (g0 & F0 & _ & SP). rewrite K in SP.
  destruct (flatten_ok D g0 (grid_of e') _ obs F0 F' SEP SP OB) as (nms & xs & SN & FO & E & L).
  exists nms, xs. conj; auto. unfold get_obs in GO. rewrite K', K, FL', FL, S', FO in GO. injection GO as <-. reflexivity.
Qed.
Theorem nested_observation D e e' o : any_env D e -> names_separate D -> answers D e e' o ->
  ev_keys e = [] -> ev_flat e = false ->
  exists d, o = ONested d /\ forall nm, option_map (map (@as_list Q)) (dget nm d)
                               = entry_for (map (observed (ev_mg e')) (positions nm D)).
Proof.
  intros AE SEP AN K FL. destruct (answers_obs D e e' o AE SEP AN) as (obs & F' & (K' & S' & FL') & GO & OB).
  exists obs. unfold get_obs in GO. rewrite K', K, FL', FL in GO. injection GO as <-. split; [reflexivity|].
  intros nm. rewrite OB. unfold entry_for. destruct (positions nm D) as [|i l]; [reflexivity|]. cbn [map option_map]. f_equal.
  rewrite map_map. f_equal; [symmetry; exact (observed_nobs (grid_of e') i)|].
  apply map_ext. intros j. symmetry. exact (observed_nobs (grid_of e') j).
Qed.

Lemma single_iff D g : mg_inv D g -> Forall (fun d => mod_ok (snd d)) D ->
  (forall i, (i < length D)%nat -> dsize D i <> 1%nat) <-> (forall d, In d D -> ~ one_entry (snd d)).
Proof.
  intros V OK. rewrite Forall_forall in OK.
  assert (X : forall i d, nth_error D i = Some d -> dsize D i = 1%nat <-> one_entry (snd d)).
  { intros i d N. unfold dsize. rewrite N. pose proof (OK d (nth_error_In _ _ N)) as O.
    destruct (norm_obs_eq (snd d) (mo_kind _ O)) as (sd & xs & E & _ & _ & L & _). unfold one_entry, state. rewrite E. cbn [rmap].
    rewrite <- L. unfold dvalues. split.
    - intros L1. destruct sd as [|[k x] [|]]; try discriminate L1. exists x. reflexivity.
    - intros (x & Y). injection Y as Y. rewrite <- (map_length snd), Y. reflexivity. }
  split.
  - intros H d I. apply In_nth_error in I. destruct I as (i & N). rewrite <- (X i d N). apply H. apply nth_error_Some. congruence.
  - intros H i L. destruct (nth_error D i) as [d|] eqn:N; [|apply nth_error_None in N; lia]. rewrite (X i d N).
    apply H. eapply nth_error_In; eauto.
Qed.
Lemma from_defs_ok D g : from_modules D g -> Forall (fun d => mod_ok (snd d)) D.
Proof.
  intros (ds & add & l & o & sh & tr & g0 & cs & [RD _] & -> & _). apply all_defs_ok, RD.
Qed.

Lemma quiet_series n g : mg_state_series n (quiet g) = mg_state_series n g.
Proof. reflexivity. Qed.

Theorem keys_observation D e e' o : any_env D e -> names_separate D -> answers D e e' o ->
  ev_keys e <> [] -> 
  (forall d, In d D -> ~ one_entry (snd d))
  /\ exists s l, mg_state_series true (ev_mg e') = Ok s
      /\ (forall nm j k x, In ((nm, j, k), x) s <-> exists i m d, nth_error (positions nm D) j = Some i
            /\ nth_error (mg_mods (ev_mg e')) i = Some m /\ state_dict_normalized m = Ok d /\ In (k, x) d)
      /\ o = (if ev_flat e then OFlat (map snd l) else OEntries l)
      /\ Permutation l (requested (ev_keys e) s)
      /\ (keys_sorted (ev_keys e) = true -> l = requested (ev_keys e) s)
      /\ (length l = flat_size (ev_space e) <-> NoDup (ev_keys e)).
Proof.
  intros AE SEP AN K. destruct (answers_obs D e e' o AE SEP AN) as (obs & F' & (K' & S' & FL') & GO & OB).
  destruct (oe_space D e (any_env_obs D e AE)) as (g0 & F0 & VK & SP).
  pose proof (from_modules_inv _ _ F') as V'.
  unfold get_obs in GO. rewrite K' in GO.
  assert (GS : rbind (mg_state_series true (ev_mg e')) (fun s => Ok (if ev_flat e' then OFlat (map snd (select (ev_keys e) s)) else OEntries (select (ev_keys e) s))) = Ok o).
  { destruct (ev_keys e); [congruence|exact GO]. }
  clear GO. rewrite <- (quiet_series true (ev_mg e')) in GS. fold (grid_of e') in GS.
  destruct (existsb (fun i => Nat.eqb (dsize D i) 1) (seq 0 (length D))) eqn:EX.
  - exfalso. apply existsb_exists in EX. destruct EX as (i & I & S1). apply in_seq in I. apply Nat.eqb_eq in S1.
    destruct (series_single D (grid_of e') V' SEP) as (x & ER & _); [exists i; split; [lia|exact S1]|].
    rewrite ER in GS. discriminate GS.
  - assert (NS : no_single D).
    { intros i L S1. assert (X : existsb (fun i => Nat.eqb (dsize D i) 1) (seq 0 (length D)) = true).
      { apply existsb_exists. exists i. split; [apply in_seq; lia|]. apply Nat.eqb_eq, S1. }
      congruence. }
    split. { apply (single_iff D (grid_of e') V' (from_defs_ok D _ F')). exact NS. }
    destruct (keys_ok D g0 (grid_of e') (ev_keys e) _ F0 F' SEP K VK SP NS) as (s & SE & IN & P & L).
    exists s, (select (ev_keys e) s). rewrite SE in GS. cbn [rbind] in GS. injection GS as <-. rewrite FL'.
    rewrite <- quiet_series. fold (grid_of e'). conj; auto.
    intros KS. unfold select. rewrite KS. reflexivity.
Qed.

Theorem keys_never D e : any_env D e -> names_separate D -> ev_keys e <> [] ->
  (exists d, In d D /\ one_entry (snd d)) -> forall e' o, ~ answers D e e' o.
Proof.
  intros AE SEP K (d & I & O1) e' o AN. destruct (keys_observation D e e' o AE SEP AN K) as [H _]. exact (H d I O1).
Qed.

Lemma get_obs_total D e e' obs : any_env D e -> names_separate D ->
  ev_keys e = [] \/ (forall d, In d D -> ~ one_entry (snd d)) ->
  from_modules D (grid_of e') -> same_view e e' ->
  (forall nm, dget nm obs = entry_for (map (nobs (grid_of e')) (positions nm D))) -> exists o, get_obs e' obs = Ok o.
Proof.
  intros AE SEP H F' (K' & S' & FL') OB. pose proof (any_env_obs D e AE) as [F (g0 & F0 & VK & SP)].
  unfold get_obs. rewrite K'. destruct (ev_keys e) as [|k ks] eqn:K.
  - destruct (ev_flat e'); [|eauto]. rewrite S'.
    destruct (flatten_ok D g0 (grid_of e') _ obs F0 F' SEP SP OB) as (nms & xs & _ & -> & _). simpl. eauto.
  - destruct H as [H|H]; [discriminate H|]. rewrite <- (quiet_series true (ev_mg e')). fold (grid_of e').
    pose proof (from_modules_inv _ _ F') as V'.
    destruct (series_true D (grid_of e') V' SEP) as [-> _]; [|simpl; eauto].
    red. apply (single_iff D (grid_of e') V' (from_defs_ok D _ F')). exact H.
Qed.
(** Whenever the microgrid's own call returns, so does the environment's. *)
Theorem returns_observation D e : any_env D e -> names_separate D ->
  ev_keys e = [] \/ (forall d, In d D -> ~ one_entry (snd d)) ->
  (forall g' obs, mg_reset (grid_of e) = (g', Ok obs) ->
     exists e' o, env_reset e = (e', Ok o) /\ grid_of e' = g')
  /\ (forall c n g' obs rw dn inf, complete D c -> run c n (grid_of e) = (g', Ok (obs, rw, dn, inf)) ->
        exists e' o, env_step c n e = (e', Ok (o, rw, dn, inf)) /\ grid_of e' = g').
Proof.
  intros AE SEP H. pose proof (any_env_obs D e AE) as [F _].
  assert (G := fun e' obs => get_obs_total D e e' obs AE SEP H).
  split.
  - intros g' obs E. pose proof (quiet_reset (ev_mg e)) as Q. fold (grid_of e) in Q. rewrite E in Q. injection Q as -> R.
    rewrite env_reset_eq, <- R. cbn [rbind].
    destruct (G (env_set_mg e (fst (mg_reset (ev_mg e)))) obs) as (o & GO).
    + exact (from_modules_reset _ _ _ _ F E).
    + red; conj; reflexivity.
    + exact (reset_obs_all D _ _ _ F SEP E).
    + rewrite GO. eauto.
  - intros c n g' obs rw dn inf C E. pose proof (quiet_run c n (ev_mg e)) as Q. fold (grid_of e) in Q. rewrite E in Q. injection Q as -> R.
    rewrite env_step_eq, <- R. cbn [rbind].
    destruct (G (env_set_mg e (fst (run c n (ev_mg e)))) obs) as (o & GO).
    + exact (from_modules_run _ _ _ _ _ _ F E).
    + red; conj; reflexivity.
    + exact (run_obs D _ _ c n _ _ _ _ F SEP C E).
    + rewrite GO. simpl. eauto.
Qed.

(** In range, nothing can go wrong while data are left. *)
Theorem discrete_cannot_fail D e a : discrete_env D e -> names_separate D ->
  Forall (fun d => sane_reachable (snd d)) D -> Forall (fun d => lenient (snd d)) D -> no_reserved_name D ->
  has_unbalanced (grid_of e) -> total_shaper (mg_shaper (grid_of e)) -> Forall in_data (mg_mods (grid_of e)) ->
  ev_keys e = [] \/ (forall d, In d D -> ~ one_entry (snd d)) -> in_action_space e a ->
  exists e' out, discrete_step a e = (e', Ok out).
Proof.
  intros DE SEP SR LE NR HU TS ID H RA. pose proof (discrete_env_inv D e DE) as V. pose proof (vi_from D e V) as F.
  destruct (step_is_list D e a DE RA) as (pl & N & DR & g' & r & e1 & RS & G & _ & M).
  destruct (rbc_step_total D (grid_of e) F SEP SR LE NR HU TS ID pl (DR SEP)) as (g2 & [[[obs rw] dn] inf] & RT).
  rewrite RT in RS. injection RS as <- <-.
  assert (SV : same_view e e1).
  { destruct (vi_log D e V) as (cells & L). destruct (py_nth_in (ev_lists e) a RA) as (pl' & N1 & N2).
    assert (pl' = pl) by congruence. subst pl'.
    pose proof (discrete_step_accepted a e cells pl L (proj1 (in_space_iff D e a V) RA) N1) as X. rewrite RT in X. unfold after_run in X.
    assert (E1 : fst (discrete_step a e) = e1).
    { destruct (get_obs e1 obs); rewrite M; reflexivity. }
    rewrite X in E1. cbn [fst] in E1. subst e1. red; conj; reflexivity. }
  destruct (get_obs_total D e e1 obs (or_intror DE) SEP H) as (o & GO).
  - rewrite G. exact (rbc_step_from D pl _ _ _ F RT).
  - exact SV.
  - rewrite G. rewrite rbc_step_eq in RT. destruct (populate_action (grid_of e) pl) as [s|] eqn:PA; [|discriminate RT].
    destruct (as_control s) as [c|] eqn:AC; [|discriminate RT].
    exact (run_obs D _ _ c false _ _ _ _ F SEP (populate_complete D _ pl s c F SEP (DR SEP) PA AC) RT).
  - rewrite GO in M. eauto.
Qed.

(** Unknown keys. *)
Theorem keys_checked D (g : mgrid Q) flat keys : from_modules D g -> names_separate D -> keys <> [] ->
  (forall k, In k keys -> exists i m d, nth_error (mg_mods g) i = Some m /\ state_dict m = Ok d /\ dget k d <> None)
  \/ raises NameError (new_base_env g flat keys).
Proof.
  intros F SEP NK. pose proof (from_modules_inv _ _ F) as V. destruct (series_false D g V SEP) as [SE SK].
  unfold new_base_env, validate_keys. destruct keys as [|k0 ks]; [congruence|]. rewrite SE. cbn [rbind].
  destruct (forallb _ _) eqn:FB.
  - left. intros k I. rewrite forallb_forall in FB. apply FB in I. apply str_in_iff in I. apply in_map_iff in I.
    destruct I as ([[[nm j] k'] x] & E & I). simpl in E. subst k'. apply (in_series D g _ nm j k x V SEP) in I.
    destruct I as (i & N & I). pose proof (positions_lt nm i D (nth_error_In _ _ N)) as LI.
    destruct (state_dict_at D g i V LI) as (m & d & Nm & ED & _). exists i, m, d. conj; auto.
    unfold sdict in I. rewrite Nm, ED in I. intros X. apply dget_None in X. apply X. apply in_map_iff. exists (k, x). auto.
  - right. eexists. split; reflexivity.
Qed.

Theorem unknown_key D (g : mgrid Q) flat keys k : from_modules D g -> names_separate D -> In k keys ->
  (forall i m d, nth_error (mg_mods g) i = Some m -> state_dict m = Ok d -> dget k d = None) ->
  raises NameError (new_base_env g flat keys).
Proof.
  intros F SEP I H. destruct (keys_checked D g flat keys F SEP) as [X|X]; [destruct keys; [contradiction|discriminate]| |exact X].
  destruct (X k I) as (i & m & d & N & E & NE). exfalso. exact (NE (H i m d N E)).
Qed.

(** ** What an action does *)
Theorem discrete_actions ds add lossc overc sh tr (g0 : mgrid Q) flat keys rr e0 :
  let D := all_defs ds add lossc overc in
  mbuilt ds add lossc overc sh tr g0 -> names_separate D -> new_discrete_env g0 flat keys rr = Ok e0 ->
  ev_n e0 = length (ev_lists e0) /\ NoDup (ev_lists e0)
  /\ forall pl, In pl (ev_lists e0) <->
       deployment_order D g0 pl /\ (rr = true -> ~ idles_free_genset D g0 pl).
Proof.
  intros D B SEP NW. destruct (new_discrete_ok _ _ _ _ _ NW) as (_ & _ & N & G & _). split; [exact N|].
  destruct (priority_lists_ok D g0 (built_from _ _ _ _ _ _ _ B) SEP rr) as (pls & E & ND & H). rewrite E in G. injection G as ->. auto.
Qed.
Theorem discrete_delivers D (e e' : env Q) a o rw dn inf : discrete_env D e -> names_separate D ->
  Forall (fun d => sane_reachable (snd d)) D -> Forall in_data (mg_mods (ev_mg e)) -> in_action_space e a ->
  discrete_step a e = (e', Ok (o, rw, dn, inf)) ->
  exists pl xs rest es, nth_error (ev_lists e) (Z.to_nat a) = Some pl
    /\ dispatched D (ev_mg e) pl (total demand (ev_mg e) - total renewable (ev_mg e)) xs rest
    /\ did (ev_mg e) es (ev_mg e')
    /\ Forall2 (fun el x => forall i m, refers D (el_module el) i -> at_index (ev_mg e) i m ->
         exists ev, In ev es /\ ev_id ev = i /\ ev_act ev = command m el x /\ ev_norm ev = false
           /\ match m_kind m with
              | KGenset _ => forall lo hi, production_limits m (el_action el) lo (BFin hi) ->
                               ev_absorbed ev == 0 /\ ev_provided ev == clip lo hi x
              | _ => ev_provided ev - ev_absorbed ev == x
              end) pl xs.
Proof.
  intros DE SEP SR ID RA E. pose proof (vi_from D e (discrete_env_inv D e DE)) as F.
  destruct (step_is_list D e a DE RA) as (pl & N & DR & g' & r & e1 & RS & G & _ & M).
  destruct r as [[[[obs rw0] dn0] inf0]|x]; [|rewrite M in E; discriminate E].
  assert (e1 = e') by (destruct (get_obs e1 obs); rewrite M in E; congruence). subst e1 g'.
  destruct (rbc_delivers D _ _ pl _ _ _ _ F SEP SR ID (DR SEP) RS) as (xs & rest & es & A & B & C).
  exists pl, xs, rest, es. conj; [exact N| |exact B|exact C].
  clear - A. remember (total demand (grid_of e) - total renewable (grid_of e)) as r eqn:R.
  assert (R' : r = total demand (ev_mg e) - total renewable (ev_mg e)) by exact R. rewrite <- R'. clear R R'.
  induction A; [constructor; auto|econstructor; eauto].
Qed.
