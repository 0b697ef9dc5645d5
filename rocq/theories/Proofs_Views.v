(** * The views of a microgrid's modules *)

From Coq Require Import ZArith QArith Qabs Bool String List Lia Lqa Permutation.
From Verif Require Import Num Py Space Logger Forecast Module Container Microgrid
  Proofs_Num Proofs_Logger Spec_Module Spec_Reach Proofs_Module Proofs_Any
  Spec_Microgrid Proofs_Container Proofs_Run Proofs_Mgrid.
Import ListNotations.
Local Open Scope string_scope.
Local Open Scope list_scope.

Lemma dget_In {A} k (v : A) d : dget k d = Some v -> In (k, v) d.
Proof.
  induction d as [|[k0 v0] d IH]; simpl; [discriminate|].
  destruct (String.eqb k k0) eqn:E; intros H.
  - apply String.eqb_eq in E. inversion H; subst. auto.
  - auto.
Qed.
Lemma In_dget {A} k (v : A) d : NoDup (map fst d) -> In (k, v) d -> dget k d = Some v.
Proof.
  induction d as [|[k0 v0] d IH]; simpl; intros ND; [tauto|]. inversion ND as [|? ? NI ND']; subst.
  intros [E|I].
  - inversion E; subst. rewrite String.eqb_refl. reflexivity.
  - destruct (String.eqb k k0) eqn:E; [|auto]. apply String.eqb_eq in E. subst.
    exfalso. apply NI. apply (in_map fst) in I. exact I.
Qed.
Lemma dget_None {A} k (d : dict A) : dget k d = None <-> ~ In k (map fst d).
Proof.
  induction d as [|[k0 v0] d IH]; simpl; [tauto|].
  destruct (String.eqb k k0) eqn:E.
  - apply String.eqb_eq in E. subst. split; [discriminate|]. intros H. exfalso. apply H. auto.
  - rewrite IH. apply String.eqb_neq in E. firstorder congruence.
Qed.

(** ** The names and modules of some categories *)
Definition view (c : containers) (ks : list category) : dict (list nat) := to_dict (map (ctc c) ks).
Lemma all_dict_view g : all_dict (g : mgrid Q) = view (mg_ct g) categories.
Proof. unfold all_dict, view. rewrite subs_all_cat. reflexivity. Qed.
Definition cats (f : mtype) : list category := map (fun s => (f, s)) all_ssinks.
Lemma part_dict_view f g : part_dict f (g : mgrid Q) = view (mg_ct g) (cats f).
Proof. unfold part_dict, view, cats. rewrite subs_of_cat, map_map. reflexivity. Qed.
Lemma in_cats f k : In k (cats f) <-> fst k = f.
Proof.
  unfold cats. rewrite in_map_iff. split.
  - intros (s & <- & _). reflexivity.
  - intros <-. exists (snd k). split; [destruct k; reflexivity|]. destruct (snd k); simpl; auto.
Qed.

Section Views.
Variable D : list (mdef Q).
Variable g : mgrid Q.
Hypothesis V : mg_inv D g.
Variable ks : list category.
Let d := view (mg_ct g) ks.

Lemma subs_nodup : Forall (fun s => NoDup (map fst s)) (map (ctc (mg_ct g)) ks).
Proof.
  apply Forall_forall. intros s I. apply in_map_iff in I. destruct I as (k & <- & _).
  apply (iv_nodup _ _ V).
Qed.
Lemma view_get nm l : dget nm d = Some l ->
  exists k, In k ks /\ members nm k 0 D = l /\ l <> [].
Proof.
  unfold d, view. rewrite (dget_to_dict _ _ subs_nodup).
  destruct (find (fun s => din nm s) (rev (map (ctc (mg_ct g)) ks))) as [s|] eqn:F; [|discriminate].
  intros G. apply find_some in F. destruct F as [I _]. apply in_rev in I. apply in_map_iff in I.
  destruct I as (k & <- & I). exists k. split; [exact I|].
  rewrite (iv_ct _ _ V) in G. destruct (members nm k 0 D); [discriminate|]. inversion G. split; congruence.
Qed.
Lemma view_get_sep nm k : names_separate D -> In k ks -> members nm k 0 D <> [] ->
  dget nm d = Some (members nm k 0 D).
Proof.
  intros S I N. unfold d, view. rewrite (dget_to_dict _ _ subs_nodup).
  destruct (find (fun s => din nm s) (rev (map (ctc (mg_ct g)) ks))) as [s|] eqn:F.
  - apply find_some in F. destruct F as [I' E]. apply in_rev in I'. apply in_map_iff in I'.
    destruct I' as (k' & <- & I'). unfold din in E. rewrite (iv_ct _ _ V) in *.
    assert (K : k' = k).
    { destruct (members nm k' 0 D) as [|i' l'] eqn:M'; [discriminate|].
      destruct (members nm k 0 D) as [|i l] eqn:M; [congruence|].
      assert (A : In i' (members nm k' 0 D)) by (rewrite M'; simpl; auto).
      assert (B : In i (members nm k 0 D)) by (rewrite M; simpl; auto).
      apply members_iff in A. apply members_iff in B.
      destruct A as (a & A1 & _ & A2 & A3). destruct B as (b & B1 & _ & B2 & B3).
      rewrite <- A3, <- B3. apply S; [eapply nth_error_In; eauto|eapply nth_error_In; eauto|congruence]. }
    subst k'. destruct (members nm k 0 D); [congruence|reflexivity].
  - exfalso. apply find_none with (x := ctc (mg_ct g) k) in F.
    + unfold din in F. rewrite (iv_ct _ _ V) in F. destruct (members nm k 0 D); [congruence|discriminate].
    + rewrite <- in_rev. apply in_map. exact I.
Qed.

(** An index of the view names a definition of the list. *)
Lemma view_in nm l i : In (nm, l) d -> In i l ->
  exists df, nth_error D i = Some df /\ mdef_name df = nm /\ In (category_of (snd df)) ks.
Proof.
  intros I Ii. assert (G : dget nm d = Some l) by (apply In_dget; [apply NoDup_to_dict|exact I]).
  destruct (view_get _ _ G) as (k & Ik & <- & _).
  apply members_iff in Ii. rewrite Nat.sub_0_r in Ii. destruct Ii as (df & N & _ & A & B).
  exists df. rewrite B. auto.
Qed.
Lemma members_nodup nm k : forall i ds, NoDup (members nm k i (ds : list (mdef Q))).
Proof.
  intros i ds. revert i. induction ds as [|x ds IH]; intros i; simpl; [constructor|].
  destruct (_ && _); [|apply IH]. constructor; [|apply IH].
  intros C. apply members_iff in C. destruct C as (? & _ & L & _). lia.
Qed.
Lemma nodup_concat (f : nat -> string) (e : dict (list nat)) :
  NoDup (map fst e) -> (forall nm l, In (nm, l) e -> NoDup l /\ forall i, In i l -> f i = nm) ->
  NoDup (concat (map snd e)).
Proof.
  induction e as [|[nm l] e IH]; simpl; intros ND H; [constructor|].
  inversion ND as [|? ? NI ND']; subst. apply NoDup_app_intro.
  - apply (H nm l). auto.
  - apply IH; auto.
  - intros i Il Ic. apply in_concat in Ic. destruct Ic as (l' & Il' & Ii).
    apply in_map_iff in Il'. destruct Il' as ([nm' l''] & E & Ie). simpl in E. subst l''.
    destruct (H nm l) as [_ A]; auto. destruct (H nm' l') as [_ B]; auto.
    apply A in Il. apply B in Ii. subst. apply NI. apply (in_map fst) in Ie. simpl in Ie. congruence.
Qed.
Lemma view_ids_nodup : NoDup (concat (map snd d)).
Proof.
  apply (nodup_concat (fun i => match nth_error D i with Some df => mdef_name df | None => "" end)).
  - apply NoDup_to_dict.
  - intros nm l I. assert (G : dget nm d = Some l) by (apply In_dget; [apply NoDup_to_dict|exact I]).
    split.
    + destruct (view_get _ _ G) as (k & _ & <- & _). apply members_nodup.
    + intros i Ii. destruct (view_in _ _ _ I Ii) as (df & -> & N & _). exact N.
Qed.
Lemma view_ids_in i : In i (concat (map snd d)) ->
  exists df, nth_error D i = Some df /\ In (category_of (snd df)) ks.
Proof.
  intros I. apply in_concat in I. destruct I as (l & Il & Ii). apply in_map_iff in Il.
  destruct Il as ([nm l'] & E & Ie). simpl in E. subst. destruct (view_in _ _ _ Ie Ii) as (df & A & _ & B). eauto.
Qed.
Lemma view_ids_sep i df : names_separate D -> nth_error D i = Some df -> In (category_of (snd df)) ks ->
  In i (concat (map snd d)).
Proof.
  intros S N I.
  assert (M : In i (members (mdef_name df) (category_of (snd df)) 0 D)).
  { apply members_iff. exists df. rewrite Nat.sub_0_r. repeat split; auto. lia. }
  assert (G : dget (mdef_name df) d = Some (members (mdef_name df) (category_of (snd df)) 0 D)).
  { apply view_get_sep; auto. intros C. rewrite C in M. destruct M. }
  apply in_concat. eexists. split; [|exact M]. apply in_map_iff. eexists. split; [|apply dget_In; exact G]. reflexivity.
Qed.
(** Two modules of one name in different categories are not both shown. *)
Lemma view_collision i j df df' : nth_error D i = Some df -> nth_error D j = Some df' ->
  mdef_name df = mdef_name df' -> category_of (snd df) <> category_of (snd df') ->
  ~ (In i (concat (map snd d)) /\ In j (concat (map snd d))).
Proof.
  intros Ni Nj En Ec [Ii Ij].
  assert (X : forall i df, nth_error D i = Some df -> In i (concat (map snd d)) ->
            exists l, dget (mdef_name df) d = Some l /\ In i l).
  { clear - V. intros i df N I. apply in_concat in I. destruct I as (l & Il & Ii). apply in_map_iff in Il.
    destruct Il as ([nm l'] & E & Ie). simpl in E. subst.
    destruct (view_in _ _ _ Ie Ii) as (df' & N' & E & _). rewrite N in N'. inversion N'; subst.
    exists l. split; [|exact Ii]. apply In_dget; [apply NoDup_to_dict|exact Ie]. }
  destruct (X _ _ Ni Ii) as (l & Gi & Li). destruct (X _ _ Nj Ij) as (l' & Gj & Lj).
  rewrite En in Gi. rewrite Gi in Gj. inversion Gj; subst l'.
  destruct (view_get _ _ Gi) as (k & _ & <- & _).
  apply members_iff in Li. apply members_iff in Lj. rewrite Nat.sub_0_r in *.
  destruct Li as (a & A1 & _ & _ & A2). destruct Lj as (b & B1 & _ & _ & B2). congruence.
Qed.
End Views.

(** ** Tuples *)
Lemma tuples_ids (e : dict (list nat)) :
  map snd (concat (map (fun kl => map (fun i => (fst kl, i)) (snd kl)) e)) = concat (map snd e).
Proof.
  induction e as [|[k l] e IH]; simpl; [reflexivity|]. rewrite map_app, map_map, map_id, IH. reflexivity.
Qed.
Lemma part_tuples_ids f g : map snd (part_tuples f (g : mgrid Q)) = concat (map snd (part_dict f g)).
Proof. apply tuples_ids. Qed.
Lemma part_tuples_in f g nm i : In (nm, i) (part_tuples f (g : mgrid Q)) <->
  exists l, In (nm, l) (part_dict f g) /\ In i l.
Proof.
  unfold part_tuples, to_tuples, part_dict. rewrite in_concat. split.
  - intros (t & It & Ii). apply in_map_iff in It. destruct It as ([k l] & <- & I). simpl in Ii.
    apply in_map_iff in Ii. destruct Ii as (j & E & Ij). inversion E; subst. eauto.
  - intros (l & I & Ii). exists (map (fun i => (nm, i)) l). split.
    + apply in_map_iff. exists (nm, l). auto.
    + apply in_map_iff. eauto.
Qed.

(** The module behind an entry of the fixed / flex / controllable view. *)
Lemma iv_nth D g i df : mg_inv D g -> nth_error D i = Some df ->
  exists m, nth_error (mg_mods g) i = Some m /\ mod_ok m /\ mod_like (snd df) m.
Proof.
  intros V N. destruct (Forall2_nth _ _ _ _ _ (iv_mods _ _ V) N) as (m & A & B & C). eauto.
Qed.
Lemma part_module D g f nm i : mg_inv D g -> In (nm, i) (part_tuples f g) ->
  exists df m, nth_error D i = Some df /\ mdef_name df = nm /\ nth_error (mg_mods g) i = Some m
    /\ mod_ok m /\ mod_like (snd df) m /\ module_type (m_kind m) = f.
Proof.
  intros V I. apply part_tuples_in in I. destruct I as (l & I & Ii). rewrite part_dict_view in I.
  destruct (view_in D g V _ _ _ _ I Ii) as (df & N & E & C).
  destruct (iv_nth _ _ _ _ V N) as (m & Nm & O & L). exists df, m. conj; auto.
  apply in_cats in C. apply mod_like_category in L. apply (f_equal fst) in L. rewrite C in L. exact L.
Qed.
Lemma part_ids_nodup D g f : mg_inv D g -> NoDup (concat (map snd (part_dict f g))).
Proof. intros V. rewrite part_dict_view. eapply view_ids_nodup; eauto. Qed.
Lemma part_ids_in D g f i : mg_inv D g -> In i (concat (map snd (part_dict f g))) ->
  exists df m, nth_error D i = Some df /\ nth_error (mg_mods g) i = Some m
    /\ mod_ok m /\ mod_like (snd df) m /\ module_type (m_kind m) = f.
Proof.
  intros V I. rewrite part_dict_view in I. destruct (view_ids_in D g V _ _ I) as (df & N & C).
  destruct (iv_nth _ _ _ _ V N) as (m & Nm & O & L). exists df, m. conj; auto.
  apply in_cats in C. apply mod_like_category in L. apply (f_equal fst) in L. rewrite C in L. exact L.
Qed.

(** Together the three views hold no module twice... *)
Lemma parts_nodup D g : mg_inv D g ->
  NoDup (concat (map snd (part_dict Fixed g)) ++ concat (map snd (part_dict Controllable g))
         ++ concat (map snd (part_dict Flex g))).
Proof.
  intros V. apply NoDup_app_intro; [eapply part_ids_nodup; eauto|apply NoDup_app_intro|]; eauto using part_ids_nodup.
  - intros i A B. destruct (part_ids_in _ _ _ _ V A) as (? & m & _ & N & _ & _ & T).
    destruct (part_ids_in _ _ _ _ V B) as (? & m' & _ & N' & _ & _ & T'). congruence.
  - intros i A B. destruct (part_ids_in _ _ _ _ V A) as (? & m & _ & N & _ & _ & T).
    apply in_app_or in B. destruct B as [B|B];
    destruct (part_ids_in _ _ _ _ V B) as (? & m' & _ & N' & _ & _ & T'); congruence.
Qed.
(** ... and, if no name is shared between categories, every module. *)
Lemma parts_perm D g : mg_inv D g -> names_separate D ->
  Permutation (concat (map snd (part_dict Fixed g)) ++ concat (map snd (part_dict Controllable g))
         ++ concat (map snd (part_dict Flex g))) (seq 0 (length D)).
Proof.
  intros V S. apply NoDup_Permutation; [eapply parts_nodup; eauto|apply seq_NoDup|].
  intros i. rewrite in_seq. split.
  - intros I. assert (exists df, nth_error D i = Some df) as (df & N).
    { apply in_app_or in I. destruct I as [I|I]; [|apply in_app_or in I; destruct I as [I|I]];
      destruct (part_ids_in _ _ _ _ V I) as (df & _ & N & _); eauto. }
    split; [lia|]. apply nth_error_Some. congruence.
  - intros [_ L]. destruct (nth_error D i) as [df|] eqn:N; [|apply nth_error_None in N; simpl in L; lia].
    assert (X : In i (concat (map snd (part_dict (fst (category_of (snd df))) g)))).
    { rewrite part_dict_view. eapply view_ids_sep; eauto. apply in_cats. reflexivity. }
    rewrite !in_app_iff. destruct (fst (category_of (snd df))); auto.
Qed.
Lemma dict_ids_perm D g : mg_inv D g -> names_separate D -> Permutation (dict_ids g) (seq 0 (length D)).
Proof.
  intros V S. unfold dict_ids. rewrite all_dict_view.
  apply NoDup_Permutation; [eapply view_ids_nodup; eauto|apply seq_NoDup|].
  intros i. rewrite in_seq. split.
  - intros I. destruct (view_ids_in D g V _ _ I) as (df & N & _). split; [lia|]. apply nth_error_Some. congruence.
  - intros [_ L]. destruct (nth_error D i) as [df|] eqn:N; [|apply nth_error_None in N; simpl in L; lia].
    eapply view_ids_sep; eauto. apply in_categories.
Qed.
Lemma dict_ids_nodup D g : mg_inv D g -> NoDup (dict_ids g).
Proof. intros V. unfold dict_ids. rewrite all_dict_view. eapply view_ids_nodup; eauto. Qed.
