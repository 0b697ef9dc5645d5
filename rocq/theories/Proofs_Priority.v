(** * Priority lists: which there are, what they deploy *)

From Coq Require Import ZArith QArith Qabs Bool String List Lia Lqa Permutation Sorted.
From Verif Require Import Num Py Space Logger Forecast Module Container Microgrid PriorityList
  Proofs_Num Proofs_Logger Spec_Module Spec_Reach Spec_Genset Proofs_Module Proofs_Space Proofs_Battery Proofs_Genset
  Proofs_Ts Proofs_Any Proofs_Request
  Proofs_Data Proofs_Classes Spec_Microgrid Spec_Sane Proofs_Container Proofs_Run Proofs_Balance
  Proofs_Mgrid Proofs_Views Proofs_MgProps Proofs_MgProps2 Proofs_Build Proofs_Episode Proofs_Sane Proofs_Progress
  Proofs_Control Proofs_Convert Spec_Priority Proofs_Perm.
Import ListNotations.
Local Open Scope string_scope.
Local Open Scope list_scope.
Local Open Scope Q_scope.

Lemma concat_progress {A B} (f : A -> res (list B)) l : (forall a, In a l -> exists b, f a = Ok b) ->
  exists rs, rmap (@concat B) (rmapM f l) = Ok rs
    /\ forall r, In r rs <-> exists a es, In a l /\ f a = Ok es /\ In r es.
Proof.
  intros H. destruct (rmapM_progress f l H) as (bs & E). rewrite E. exists (concat bs). split; [reflexivity|].
  apply rmapM_ok in E. intros r. rewrite in_concat. split.
  - intros (es & I & J). apply In_nth_error in I as (k & N).
    destruct (Proofs_Run.Forall2_nth_r _ _ _ _ _ E N) as (a & Na & EA). apply nth_error_In in Na. eauto.
  - intros (a & es & I & EA & J). apply In_nth_error in I as (k & N).
    destruct (Proofs_Run.Forall2_nth _ _ _ _ _ E N) as (es' & Ne & EA'). rewrite EA in EA'. injection EA' as <-.
    apply nth_error_In in Ne. eauto.
Qed.

(** ** References *)
Lemma positions_nodup nm (D : list (mdef Q)) : NoDup (positions nm D).
Proof.
  unfold positions. generalize 0%nat. induction D as [|d D IH]; intros i; simpl; [constructor|].
  destruct (String.eqb nm (mdef_name d)); simpl; [|apply IH]. constructor; [|apply IH].
  intros X. apply in_map_iff in X as ([j d'] & E & I). simpl in E. subst j.
  apply filter_In in I as [I _]. apply in_combine_l in I. apply in_seq in I. lia.
Qed.
Lemma refers_fun D r i j : refers D r i -> refers D r j -> i = j.
Proof. unfold refers. congruence. Qed.
Lemma refers_name D r i : refers D r i -> exists d, nth_error D i = Some d /\ mdef_name d = fst r.
Proof. intros R. apply nth_error_In in R. apply positions_in in R. exact R. Qed.
Lemma refers_inj D r r' i : refers D r i -> refers D r' i -> r = r'.
Proof.
  intros R R'. destruct (refers_name _ _ _ R) as (d & N & E), (refers_name _ _ _ R') as (d' & N' & E').
  rewrite N in N'. inversion N'; subst d'. destruct r as [nm k], r' as [nm' k']. simpl in *. subst nm nm'.
  f_equal. unfold refers in *. simpl in *.
  eapply NoDup_nth_error; [apply positions_nodup|apply nth_error_Some; rewrite R; discriminate|]. rewrite R, R'. reflexivity.
Qed.
Lemma members_nth nm k (D : list (mdef Q)) : forall i j d, nth_error D j = Some d -> mdef_name d = nm ->
  category_of (snd d) = k -> nth_error (members nm k i D) (length (members nm k i (firstn j D))) = Some (i + j)%nat.
Proof.
  induction D as [|d0 D IH]; intros i [|j] d N E C; try discriminate N.
  - simpl in N. inversion N; subst d0. cbn [firstn]. rewrite members_cons, E, String.eqb_refl, C.
    destruct k as [[] []]; simpl; f_equal; lia.
  - simpl in N. cbn [firstn]. rewrite !members_cons.
    destruct (String.eqb nm (mdef_name d0) && _ && _); simpl; rewrite (IH (S i) j d N E C); f_equal; lia.
Qed.
Lemma sep_category (D : list (mdef Q)) d : names_separate D -> In d D ->
  forall d', In d' D -> mdef_name d' = mdef_name d -> category_of (snd d') = category_of (snd d).
Proof. intros S I d' I' E. apply S; auto. Qed.

(** The name and the number of a module. *)
Theorem names_kept D (g : mgrid Q) : from_modules D g ->
  forall i d m, nth_error D i = Some d -> nth_error (mg_mods g) i = Some m ->
  m_name m = (Some (mdef_name d), Some (length (members (mdef_name d) (category_of (snd d)) 0 (firstn i D)))).
Proof.
  intros (ds & add & l & o & sh & tr & g0 & cs & B & -> & ->) i d m Nd Nm.
  pose proof (mbuilt_inv _ _ _ _ _ _ _ B) as V0.
  pose proof (rel_names _ _ _ (mplay_rel cs g0) V0) as NM.
  assert (X : nth_error (map m_name (mg_mods (mplay cs g0))) i = Some (m_name m)) by (apply map_nth_error; exact Nm).
  rewrite NM in X. rewrite nth_error_map in X. destruct (nth_error (mg_mods g0) i) as [m0|] eqn:N0; [|discriminate].
  simpl in X. injection X as <-. exact (containers_numbering _ _ _ _ _ _ _ (proj2 B) i d m0 Nd N0).
Qed.

(** ** C39 *)
Section Lists.
Variables (D : list (mdef Q)) (g : mgrid Q).
Hypothesis FM : from_modules D g.
Hypothesis SEP : names_separate D.
Let V : mg_inv D g := from_modules_inv D g FM.

Lemma ref_refers i m : nth_error (mg_mods g) i = Some m -> refers D (module_ref m) i.
Proof.
  intros N. destruct (Proofs_Run.Forall2_nth_r _ _ _ _ _ (iv_mods _ _ V) N) as (d & Nd & _).
  pose proof (names_kept D g FM i d m Nd N) as E. unfold module_ref. rewrite E. unfold refers. simpl.
  unfold positions. rewrite (positions_members_aux (mdef_name d) (category_of (snd d)) D 0).
  - exact (members_nth _ _ D 0 i d Nd eq_refl eq_refl).
  - intros d' I' Q. eapply sep_category; eauto. apply nth_error_In in Nd. exact Nd.
Qed.
Lemma refers_at r i : refers D r i -> exists m, nth_error (mg_mods g) i = Some m /\ module_ref m = r.
Proof.
  intros R. destruct (refers_name _ _ _ R) as (d & N & _). destruct (mod_at D g V i d N) as (m & M & _).
  exists m. split; [exact M|]. eapply refers_inj; [|exact R]. apply ref_refers. exact M.
Qed.

Lemma find_module_ok r i m : refers D r i -> nth_error (mg_mods g) i = Some m -> find_module g r = Ok m.
Proof.
  intros R N. unfold find_module, ct_lookup. change (to_dict (subs_all (mg_ct g))) with (all_dict g).
  rewrite (all_view_sep D g (fst r) V SEP). unfold refers in R. unfold entry_for.
  destruct (positions (fst r) D) as [|j l]; [destruct (snd r); discriminate R|].
  cbn [rbind]. rewrite R, N. reflexivity.
Qed.

Lemma csi_nodup : NoDup (controllable_source_ids g).
Proof.
  assert (N : NoDup (all_ids g)).
  { eapply Permutation_NoDup; [apply Permutation_sym; exact (iv_perm _ _ V)|apply seq_NoDup]. }
  assert (E : all_ids g = to_list (concat (map (subs_of (mg_ct g)) [Fixed; Flex]))
    ++ concat (map snd (ct_get (mg_ct g) Controllable Sources))
    ++ concat (map snd (ct_get (mg_ct g) Controllable Sinks))
    ++ concat (map snd (ct_get (mg_ct g) Controllable SourceAndSinks))).
  { unfold all_ids, to_list, subs_all, subs_of, all_mtypes, all_ssinks. cbn [map concat app].
    rewrite app_nil_r, <- !app_assoc. reflexivity. }
  rewrite E in N. apply NoDup_app_r in N. unfold controllable_source_ids.
  apply (Permutation_NoDup (l' := concat (map snd (ct_get (mg_ct g) Controllable Sinks))
    ++ concat (map snd (ct_get (mg_ct g) Controllable Sources))
    ++ concat (map snd (ct_get (mg_ct g) Controllable SourceAndSinks)))) in N.
  - apply NoDup_app_r in N. exact N.
  - rewrite !app_assoc. apply Permutation_app_tail. apply Permutation_app_comm.
Qed.
Lemma sub_in i k : In i (concat (map snd (ctc (mg_ct g) k))) <->
  exists d, nth_error D i = Some d /\ category_of (snd d) = k.
Proof.
  rewrite in_concat. split.
  - intros (l & I & J). apply in_map_iff in I as ([nm l'] & E & I). simpl in E. subst l'.
    pose proof (iv_nodup _ _ V k) as ND. apply (Proofs_Num.In_dget nm l) in I; [|exact ND].
    rewrite (iv_ct _ _ V) in I.
    assert (M : l = members nm k 0 D) by (destruct (members nm k 0 D); congruence).
    rewrite M in J. apply members_iff in J as (d & N & _ & _ & C). rewrite Nat.sub_0_r in N. eauto.
  - intros (d & N & C). assert (J : In i (members (mdef_name d) k 0 D)).
    { apply members_iff. exists d. rewrite Nat.sub_0_r. repeat split; auto. lia. }
    exists (members (mdef_name d) k 0 D). split; [|exact J]. apply in_map_iff.
    exists (mdef_name d, members (mdef_name d) k 0 D). split; [reflexivity|].
    apply Proofs_Num.dget_In. rewrite (iv_ct _ _ V). destruct (members (mdef_name d) k 0 D); [destruct J|reflexivity].
Qed.
Lemma csi_in i : In i (controllable_source_ids g) <-> exists m, at_index g i m /\ deployable m.
Proof.
  unfold controllable_source_ids. rewrite in_app_iff.
  change (ct_get (mg_ct g) Controllable Sources) with (ctc (mg_ct g) (Controllable, Sources)).
  change (ct_get (mg_ct g) Controllable SourceAndSinks) with (ctc (mg_ct g) (Controllable, SourceAndSinks)).
  rewrite !sub_in. unfold deployable, at_index. split.
  - assert (H : forall d s, nth_error D i = Some d -> category_of (snd d) = (Controllable, s) -> s <> Sinks ->
       exists m, nth_error (mg_mods g) i = Some m /\ module_type (m_kind m) = Controllable /\ is_source (m_kind m) = true).
    { intros d s N C NS. destruct (mod_at D g V i d N) as (m & M & _ & L). exists m. split; [exact M|].
      rewrite <- (mod_like_category _ _ L) in C. unfold category_of in C. injection C as C1 C2.
      split; [exact C1|]. destruct (m_kind m); simpl in *; try reflexivity. congruence. }
    intros [(d & N & C)|(d & N & C)]; eapply H; eauto; discriminate.
  - intros (m & M & T & S). destruct (Proofs_Run.Forall2_nth_r _ _ _ _ _ (iv_mods _ _ V) M) as (d & Nd & _).
    destruct (mod_at D g V i d Nd) as (m' & M' & _ & LK). rewrite M in M'. injection M' as <-.
    pose proof (mod_like_category _ _ LK) as C. unfold category_of in C at 1. rewrite T in C.
    destruct (ssink_of (m_kind m)) eqn:SS.
    + left. eauto.
    + exfalso. destruct (m_kind m); simpl in *; discriminate.
    + right. eauto.
Qed.

(** The elements of module [i]. *)
Definition choices (m : module Q) (c : Q) : list (element Q) :=
  map (fun a => mkElement (module_ref m) (if is_genset (m_kind m) then 2 else 1)%nat a c)
      (seq 0 (if is_genset (m_kind m) then 2 else 1)).
Lemma module_elements_ok i m : nth_error (mg_mods g) i = Some m -> deployable m ->
  exists c, production_marginal_cost m = Ok c /\ module_elements g i = Ok (choices m c).
Proof.
  intros N [T S]. pose proof (mods_ok D g V i m N) as O.
  destruct (costs_ok m O) as (c & _ & C & _). exists c. split; [exact C|].
  unfold module_elements. rewrite N, C, (act_dims_pos m O). cbn [rbind].
  destruct (m_kind m) eqn:K; try discriminate T; try discriminate S; unfold choices; rewrite K; reflexivity.
Qed.
Lemma csi_mod i : In i (controllable_source_ids g) -> exists m, nth_error (mg_mods g) i = Some m /\ deployable m.
Proof. intros I. apply csi_in in I. exact I. Qed.

(** The elements, module by module. *)
Lemma source_elements_ok : exists gs, source_elements g = Ok (concat gs)
  /\ Forall2 (fun i es => exists m c, nth_error (mg_mods g) i = Some m /\ deployable m
       /\ production_marginal_cost m = Ok c /\ es = choices m c) (controllable_source_ids g) gs.
Proof.
  destruct (rmapM_progress (module_elements g) (controllable_source_ids g)) as (gs & E).
  { intros i I. destruct (csi_mod i I) as (m & N & DP). destruct (module_elements_ok i m N DP) as (c & _ & E). eauto. }
  exists gs. unfold source_elements. rewrite E. split; [reflexivity|].
  apply rmapM_ok in E.
  assert (A : forall i, In i (controllable_source_ids g) -> In i (controllable_source_ids g)) by auto.
  revert E A. generalize (controllable_source_ids g) at 1 2 4. intros l E.
  induction E as [|i es l gs E F IH]; intros A; constructor.
  - destruct (csi_mod i) as (m & N & DP); [apply A; left; reflexivity|].
    destruct (module_elements_ok i m N DP) as (c & C & E').
    rewrite E' in E. injection E as <-. exists m, c. auto.
  - apply IH. intros j J. apply A. right. exact J.
Qed.

Section Elements.
Variable gs : list (list (element Q)).
Hypothesis GS : Forall2 (fun i es => exists m c, nth_error (mg_mods g) i = Some m /\ deployable m
  /\ production_marginal_cost m = Ok c /\ es = choices m c) (controllable_source_ids g) gs.
Definition element_of (e : element Q) : Prop := exists i m, at_index g i m /\ deployable m /\ stands_for D e i m.
Lemma elements_iff e : In e (concat gs) <-> element_of e.
Proof.
  rewrite in_concat. split.
  - intros (es & I & J). apply In_nth_error in I as (k & N).
    destruct (Proofs_Run.Forall2_nth_r _ _ _ _ _ GS N) as (i & Ni & m & c & M & DP & C & ->).
    unfold choices in J. apply in_map_iff in J as (a & <- & J). apply in_seq in J.
    exists i, m. split; [exact M|]. split; [exact DP|]. split; [apply ref_refers; exact M|]. cbn [el_actions el_action el_cost].
    split; [reflexivity|]. split; [lia|exact C].
  - intros (i & m & M & DP & R & A & L & C).
    assert (I : In i (controllable_source_ids g)) by (apply csi_in; exists m; auto).
    apply In_nth_error in I as (k & N). destruct (Proofs_Run.Forall2_nth _ _ _ _ _ GS N) as (es & Ne & m' & c & M' & _ & C' & ->).
    unfold at_index in M. rewrite M in M'. injection M' as <-. rewrite C in C'. injection C' as <-.
    exists (choices m (el_cost e)). split; [apply nth_error_In in Ne; exact Ne|].
    unfold choices. apply in_map_iff. exists (el_action e). split; [|apply in_seq; rewrite <- A; lia].
    rewrite (refers_inj D _ _ i (ref_refers i m M) R), <- A. destruct e; reflexivity.
Qed.
Lemma elements_identified : identified (concat gs).
Proof.
  intros a b A B E1 E2. apply elements_iff in A as (i & m & M & _ & R & A & _ & C).
  apply elements_iff in B as (j & m' & M' & _ & R' & A' & _ & C'). rewrite E1 in R.
  pose proof (refers_fun _ _ _ _ R R'). subst j. unfold at_index in *. rewrite M in M'. injection M' as <-.
  rewrite C in C'. injection C' as C'. rewrite <- A in A'. destruct a, b; simpl in *. congruence.
Qed.
Lemma order_iff pl : In pl (map (keep_first []) (permutations (concat gs))) <-> deployment_order D g pl.
Proof.
  rewrite orders_iff. unfold deployment_order. split.
  - intros (N & R & I). split; [exact N|]. split.
    + intros i m M DP. destruct (module_elements_ok i m M DP) as (c & C & _).
      assert (E : In (mkElement (module_ref m) (if is_genset (m_kind m) then 2 else 1)%nat 0%nat c) (concat gs)).
      { apply elements_iff. exists i, m. split; [exact M|]. split; [exact DP|]. split; [apply ref_refers; exact M|].
        cbn [el_actions el_action el_cost]. split; [reflexivity|]. split; [destruct (is_genset (m_kind m)); lia|exact C]. }
      apply (in_map el_module) in E. apply R in E. apply in_map_iff in E as (e & EQ & IE). exists e. split; [exact IE|].
      rewrite EQ. apply ref_refers. exact M.
    + apply Forall_forall. intros e IE. apply elements_iff. apply I. exact IE.
  - intros (N & R & I). rewrite Forall_forall in I. split; [exact N|].
    assert (I' : incl pl (concat gs)) by (intros e IE; apply elements_iff; apply I; exact IE).
    split; [|exact I']. intros r. split; intros X.
    + apply in_map_iff in X as (e & <- & IE). apply in_map. apply I'. exact IE.
    + apply in_map_iff in X as (e & <- & IE). apply elements_iff in IE as (i & m & M & DP & RF & _).
      destruct (R i m M DP) as (e' & IE' & RF'). rewrite (refers_inj _ _ _ _ RF RF'). apply in_map. exact IE'.
Qed.
Definition unique := uniq_vals pl_eqb (map (keep_first []) (permutations (concat gs))).
Lemma order_incl pl : In pl (map (keep_first []) (permutations (concat gs))) -> incl pl (concat gs).
Proof. intros I. apply orders_iff in I. apply I. Qed.
Lemma unique_ok : NoDup unique /\ forall pl, In pl unique <-> deployment_order D g pl.
Proof.
  split.
  - apply uniq_vals_NoDup. intros a _. apply pl_eqb_refl.
  - intros pl. rewrite <- order_iff. unfold unique. split; intros I.
    + exact (uniq_vals_incl _ _ _ I).
    + apply uniq_vals_in; [|exact I]. intros a b A B E.
      exact (pl_eqb_eq (concat gs) a b elements_identified (order_incl a A) (order_incl b B) E).
Qed.
End Elements.

(** The off elements of gensets that can run at zero. *)
Lemma redundant_ok : exists rs, redundant_elements g = Ok rs
  /\ forall r, In r rs <-> exists i m s, refers D (el_module r) i /\ at_index g i m /\ m_kind m = KGenset s
       /\ g_min_prod s == 0 /\ el_actions r = 2%nat /\ el_action r = 0%nat /\ production_marginal_cost m = Ok (el_cost r).
Proof.
  unfold redundant_elements.
  set (f := fun (kl : string * list nat) (ji : nat * nat) => match nth_error (mg_mods g) (snd ji) with
            | None => raise KeyError "no such module"
            | Some m =>
                match m_kind m with
                | KGenset s =>
                    if neqb (g_min_prod s) n0
                    then rbind (production_marginal_cost m) (fun c => Ok [mkElement (fst kl, fst ji) 2 0 c])
                    else Ok []
                | _ => Ok []
                end
            end).
  assert (DG : forall nm l, In (nm, l) (all_dict g) -> l = positions nm D).
  { intros nm l I. apply (Proofs_Num.In_dget nm l) in I; [|apply all_dict_nodup].
    rewrite (all_view_sep D g nm V SEP) in I. unfold entry_for in I. destruct (positions nm D); congruence. }
  assert (GD : forall nm k i, refers D (nm, k) i -> In (nm, positions nm D) (all_dict g)).
  { intros nm k i R. unfold refers in R. cbn [fst snd] in R. apply Proofs_Num.dget_In. rewrite (all_view_sep D g nm V SEP).
    destruct (positions nm D); [destruct k; discriminate|reflexivity]. }
  assert (IC : forall nm k i, In (k, i) (combine (seq 0 (length (positions nm D))) (positions nm D)) <-> refers D (nm, k) i).
  { intros nm k i. unfold refers. cbn [fst snd]. generalize (positions nm D). intros l. split.
    - intros I. apply In_nth_error in I as (j & N). assert (LJ : (j < length l)%nat).
      { pose proof (nth_error_Some (combine (seq 0 (length l)) l) j) as X.
        rewrite combine_length, seq_length, Nat.min_id in X. apply X. congruence. }
      assert (C : nth_error (combine (seq 0 (length l)) l) j = Some (j, nth j l 0%nat)).
      { rewrite (nth_error_nth' _ (0%nat, 0%nat)); [|rewrite combine_length, seq_length, Nat.min_id; exact LJ].
        rewrite combine_nth by apply seq_length. rewrite seq_nth by exact LJ. reflexivity. }
      rewrite C in N. injection N as <- <-. apply nth_error_nth'. exact LJ.
    - intros N. assert (LJ : (k < length l)%nat) by (apply nth_error_Some; congruence).
      apply (nth_error_nth _ _ 0%nat) in N. subst i.
      replace (k, nth k l 0%nat) with (nth k (combine (seq 0 (length l)) l) (0%nat, 0%nat)).
      + apply nth_In. rewrite combine_length, seq_length, Nat.min_id. exact LJ.
      + rewrite combine_nth by apply seq_length. rewrite seq_nth by exact LJ. reflexivity. }
  assert (IN1 : forall kl, In kl (all_dict g) -> forall ji, In ji (combine (seq 0 (length (snd kl))) (snd kl)) ->
     exists m, refers D (fst kl, fst ji) (snd ji) /\ nth_error (mg_mods g) (snd ji) = Some m).
  { intros [nm l] I [j i] J. cbn [fst snd] in *. rewrite (DG _ _ I) in J. apply IC in J.
    destruct (refers_at _ _ J) as (m & M & _). eauto. }
  assert (P1 : forall kl, In kl (all_dict g) -> exists b,
     rmap (@concat _) (rmapM (f kl) (combine (seq 0 (length (snd kl))) (snd kl))) = Ok b
     /\ forall r, In r b <-> exists ji es, In ji (combine (seq 0 (length (snd kl))) (snd kl)) /\ f kl ji = Ok es /\ In r es).
  { intros kl I. apply concat_progress. intros ji J. destruct (IN1 kl I ji J) as (m & _ & M).
    unfold f. rewrite M. pose proof (mods_ok D g V _ _ M) as O. destruct (costs_ok m O) as (c & _ & C & _).
    destruct (m_kind m); eauto. rewrite C. cbn [rbind]. destruct (neqb _ _); eauto. }
  destruct (concat_progress (fun kl => rmap (@concat _) (rmapM (f kl) (combine (seq 0 (length (snd kl))) (snd kl)))) (all_dict g)) as (rs & E & H).
  { intros kl I. destruct (P1 kl I) as (b & E & _). eauto. }
  exists rs. split; [exact E|]. intros r. rewrite H. split.
  - intros (kl & es & I & E1 & J). destruct (P1 kl I) as (b & E2 & H2). rewrite E1 in E2. injection E2 as <-.
    apply H2 in J as (ji & es' & J & E3 & K). destruct (IN1 kl I ji J) as (m & R & M).
    unfold f in E3. rewrite M in E3. destruct (m_kind m) as [b|s|gg t|t|t|u] eqn:KD; try (injection E3 as <-; destruct K).
    destruct (neqb (g_min_prod s) n0) eqn:Z; [|injection E3 as <-; destruct K].
    apply rbind_ok in E3 as (c & C & E3). injection E3 as <-. destruct K as [<-|[]].
    exists (snd ji), m, s. cbn [el_module el_actions el_action el_cost]. unfold at_index.
    repeat (split; [assumption|]). split; [apply Qeq_bool_iff; exact Z|]. repeat (split; [reflexivity|]). exact C.
  - intros (i & m & s & R & M & K & Z & A1 & A2 & C). destruct (el_module r) as [nm k] eqn:EM.
    pose proof (GD nm k i R) as I. destruct (P1 _ I) as (b & E1 & H1). exists (nm, positions nm D), b.
    split; [exact I|]. split; [exact E1|]. apply H1. exists (k, i), [r]. split; [apply IC; exact R|]. split; [|left; reflexivity].
    unfold f, at_index in *. cbn [snd fst]. rewrite M, K, C. apply Qeq_bool_iff in Z. change (neqb (g_min_prod s) n0) with (Qeq_bool (g_min_prod s) 0).
    rewrite Z. cbn [rbind]. destruct r; simpl in *. subst. reflexivity.
Qed.

Theorem priority_lists_ok rr : exists pls, get_priority_lists g rr = Ok pls
  /\ NoDup pls
  /\ forall pl, In pl pls <-> deployment_order D g pl /\ (rr = true -> ~ idles_free_genset D g pl).
Proof.
  destruct source_elements_ok as (gs & E & GS). destruct (unique_ok gs GS) as [N H].
  unfold get_priority_lists. rewrite E. cbn [rbind]. fold (unique gs). destruct rr.
  - destruct redundant_ok as (rs & R & HR). unfold remove_redundant_gensets. rewrite R. cbn [rbind].
    eexists. split; [reflexivity|]. split; [apply NoDup_filter; exact N|].
    intros pl. rewrite filter_In, H. split.
    + intros [O F]. split; [exact O|]. intros _ (e & i & m & s & I & RF & M & K & Z & A).
      apply negb_true_iff in F. rewrite <- not_true_iff_false in F. apply F. apply existsb_exists. exists e.
      split; [|apply existsb_exists; exists e; split; [exact I|apply el_eqb_refl]].
      apply HR. destruct O as (_ & _ & O). rewrite Forall_forall in O. destruct (O e I) as (i' & m' & M' & _ & RF' & A1 & _ & C).
      pose proof (refers_fun _ _ _ _ RF RF'). subst i'. unfold at_index in *. rewrite M in M'. injection M' as <-.
      rewrite K in A1. exists i, m, s. auto 10.
    + intros [O F]. split; [exact O|]. apply negb_true_iff. apply not_true_iff_false. intros X.
      apply existsb_exists in X as (r & IR & X). apply existsb_exists in X as (e & I & X). apply el_eqb_iff in X as (X1 & X2 & X3 & _).
      apply HR in IR as (i & m & s & RF & M & K & Z & _ & A & _). apply (F eq_refl). exists e, i, m, s. rewrite <- X1, <- X3. auto 10.
  - exists (unique gs). split; [reflexivity|]. split; [exact N|]. intros pl. rewrite H. split; [|tauto]. intros O. split; [exact O|discriminate].
Qed.
End Lists.
