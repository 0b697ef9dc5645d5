(** * Empty actions, module boxes and microgrid-level normalization *)

From Coq Require Import ZArith QArith Qabs Bool String List Lia Lqa Permutation.
From Verif Require Import Num Py Space Logger Forecast Module Container Microgrid
  Proofs_Num Proofs_Logger Spec_Module Spec_Reach Spec_Genset Proofs_Module Proofs_Space Proofs_Battery Proofs_Genset
  Proofs_Ts Proofs_Any Proofs_Request
  Proofs_Data Proofs_Classes Spec_Microgrid Spec_Sane Proofs_Container Proofs_Run Proofs_Balance
  Proofs_Mgrid Proofs_Views Proofs_MgProps Proofs_MgProps2 Proofs_Build Proofs_Episode Proofs_Sane Proofs_Progress
  Proofs_Control.
Import ListNotations.
Local Open Scope string_scope.
Local Open Scope list_scope.
Local Open Scope Q_scope.

(** ** Membership in a box *)
Lemma in_box_iff lo : forall hi xs : list Q, in_box lo hi xs = true <-> Forall2 Qle lo xs /\ Forall2 Qle xs hi.
Proof.
  induction lo as [|l lo IH]; intros [|h hi] [|x xs]; cbn [in_box].
  1: { split; [split; constructor|reflexivity]. }
  1-6: split; [discriminate|]; intros [A B]; inversion A; inversion B.
  rewrite !andb_true_iff, IH. unum. rewrite !Qle_bool_iff. split.
  - intros [[A B] [C E]]. split; constructor; assumption.
  - intros [A B]. inversion A; inversion B; subst. auto.
Qed.
Lemma contains_iff (sp : space Q) v : sp_contains sp (entries v) = true <-> in_range sp v.
Proof. apply in_box_iff. Qed.

(** ** Dictionaries *)
Lemma dget_mapv {A B} (f : A -> B) (d : dict A) k :
  dget k (map (fun kl => (fst kl, f (snd kl))) d) = option_map f (dget k d).
Proof.
  induction d as [|[k' v] d IH]; simpl; [reflexivity|]. destruct (String.eqb k k'); [reflexivity|exact IH].
Qed.
Lemma dget_filter2 {A} (f : string * A -> bool) (d : dict A) k : NoDup (map fst d) ->
  dget k (filter f d) = match dget k d with Some v => if f (k, v) then Some v else None | None => None end.
Proof.
  induction d as [|[k' v] d IH]; simpl; intros ND; [reflexivity|]. inversion ND as [|? ? NI ND']; subst.
  destruct (String.eqb_spec k k') as [->|NE].
  - destruct (f (k', v)) eqn:F; simpl; [rewrite String.eqb_refl; reflexivity|].
    rewrite IH by assumption. apply Proofs_Num.dget_None in NI. rewrite NI. reflexivity.
  - destruct (f (k', v)) eqn:F; simpl; [|apply IH; assumption].
    destruct (String.eqb_spec k k') as [|_]; [contradiction|]. apply IH; assumption.
Qed.

(** ** C38: empty actions *)
Lemma positions_in nm i (D : list (mdef Q)) : In i (positions nm D) <-> exists d, nth_error D i = Some d /\ mdef_name d = nm.
Proof.
  unfold positions. rewrite in_map_iff. split.
  - intros ([j d] & <- & I). apply filter_In in I. destruct I as [I E]. apply String.eqb_eq in E. simpl in *.
    exists d. split; [|congruence].
    apply In_nth_error in I. destruct I as (n & I).
    assert (L : (n < length D)%nat).
    { assert (n < length (combine (seq 0 (length D)) D))%nat by (apply nth_error_Some; congruence).
      rewrite combine_length, seq_length in H. lia. }
    assert (X : forall (l : list (mdef Q)) s k, nth_error (combine (seq s (length l)) l) k = Some (j, d) -> j = (s + k)%nat /\ nth_error l k = Some d).
    { clear. induction l as [|x l IH]; intros s [|k] E; simpl in *; try discriminate.
      - injection E as <- <-. split; [lia|reflexivity].
      - apply IH in E. destruct E as [-> E]. split; [lia|exact E]. }
    apply X in I. destruct I as [-> I]. exact I.
  - intros (d & N & E). exists (i, d). split; [reflexivity|]. apply filter_In. split; [|apply String.eqb_eq; auto].
    assert (X : forall (l : list (mdef Q)) s k, nth_error l k = Some d -> In ((s + k)%nat, d) (combine (seq s (length l)) l)).
    { clear. induction l as [|x l IH]; intros s [|k] E; simpl in *; try discriminate.
      - injection E as ->. left. f_equal. lia.
      - right. replace (s + S k)%nat with (S s + k)%nat by lia. apply IH. exact E. }
    exact (X D 0%nat i N).
Qed.
Lemma positions_nonempty d (D : list (mdef Q)) : In d D -> positions (mdef_name d) D <> [].
Proof.
  intros I. apply In_nth_error in I. destruct I as (i & N). intros E.
  assert (X : In i (positions (mdef_name d) D)) by (apply positions_in; eauto). rewrite E in X. destruct X.
Qed.
Lemma positions_empty nm (D : list (mdef Q)) : (forall d, In d D -> mdef_name d <> nm) -> positions nm D = [].
Proof.
  intros H. destruct (positions nm D) as [|i l] eqn:E; [reflexivity|].
  assert (X : In i (positions nm D)) by (rewrite E; left; reflexivity).
  apply positions_in in X. destruct X as (d & N & EN). exfalso. exact (H d (nth_error_In _ _ N) EN).
Qed.

Section Empty.
Variables (D : list (mdef Q)) (g : mgrid Q).
Hypothesis V : mg_inv D g.
Hypothesis SEP : names_separate D.

Lemma mod_at i d : nth_error D i = Some d -> exists m, nth_error (mg_mods g) i = Some m /\ mod_ok m /\ mod_like (snd d) m.
Proof.
  intros N. destruct (Proofs_Run.Forall2_nth _ _ _ _ _ (iv_mods _ _ V) N) as (m & M & O & L). eauto.
Qed.
Lemma like_load (m m' : module Q) : mod_like m m' -> ((exists t, m_kind m = KLoad t) <-> (exists t, m_kind m' = KLoad t)).
Proof.
  intros [K _ _ _ _ _]. destruct (m_kind m), (m_kind m'); simpl in K; try contradiction; split; intros [? E]; try discriminate; eauto.
Qed.
Lemma ctrl_view nm : dget nm (part_dict Controllable g)
  = entry_for (if existsb (fun d => (String.eqb nm (mdef_name d)) && mtype_eqb (module_type (m_kind (snd d))) Controllable) D
     then positions nm D else []).
Proof.
  destruct (existsb _ D) eqn:E.
  - apply existsb_exists in E. destruct E as (d & IN & E). apply andb_true_iff in E. destruct E as [E1 E2].
    apply String.eqb_eq in E1. subst nm.
    assert (ET : module_type (m_kind (snd d)) = Controllable) by (destruct (module_type (m_kind (snd d))); try discriminate; reflexivity).
    pose proof (ex_of_name D g V SEP d Controllable IN ET) as O. unfold of_name in O.
    pose proof (positions_nonempty d D IN) as NE.
    destruct (dget (mdef_name d) (part_dict Controllable g)); [|congruence].
    rewrite O. unfold entry_for. destruct (positions (mdef_name d) D); [congruence|reflexivity].
  - simpl. destruct (dget nm (part_dict Controllable g)) as [l|] eqn:G; [|reflexivity]. exfalso.
    apply Proofs_Num.dget_In in G. pose proof (part_shown D g _ nm l V G) as NE. destruct l as [|i l]; [congruence|].
    destruct (part_entry D g _ _ _ i V G (or_introl eq_refl)) as (d & m & ND & NM & N & O & L & T).
    assert (X : existsb (fun d => (String.eqb nm (mdef_name d)) && mtype_eqb (module_type (m_kind (snd d))) Controllable) D = true).
    { apply existsb_exists. exists d. split; [exact ND|]. rewrite NM, String.eqb_refl.
      rewrite (like_type _ _ L), T. reflexivity. }
    congruence.
Qed.

Lemma empty_ctrl d : In d D -> module_type (m_kind (snd d)) = Controllable ->
  dget (mdef_name d) (get_empty_action g false) = Some (repeat None (length (positions (mdef_name d) D))).
Proof.
  intros IN T. unfold get_empty_action. rewrite (dget_mapv (fun l => repeat None (length l))), (action_dict_ctrl D g V), ctrl_view.
  replace (existsb _ D) with true.
  - pose proof (positions_nonempty d D IN) as NE. unfold entry_for. destruct (positions (mdef_name d) D); [congruence|reflexivity].
  - symmetry. apply existsb_exists. exists d. rewrite String.eqb_refl, T. auto.
Qed.
Lemma empty_other nm : (forall d, In d D -> mdef_name d = nm -> module_type (m_kind (snd d)) <> Controllable) ->
  dget nm (get_empty_action g false) = None.
Proof.
  intros H. unfold get_empty_action. rewrite (dget_mapv (fun l => repeat None (length l))), (action_dict_ctrl D g V), ctrl_view.
  replace (existsb _ D) with false; [reflexivity|].
  symmetry. destruct (existsb _ D) eqn:E; [|reflexivity]. apply existsb_exists in E. destruct E as (d & IN & E).
  apply andb_true_iff in E. destruct E as [E1 E2]. apply String.eqb_eq in E1. exfalso. apply (H d IN); [auto|].
  destruct (module_type (m_kind (snd d))); try discriminate; reflexivity.
Qed.
Lemma empty_flex nm : dget nm (get_empty_action g true)
  = match positions nm D with
    | [] => None
    | i :: _ => match nth_error D i with
                | Some d => match m_kind (snd d) with KLoad _ => None | _ => Some (repeat None (length (positions nm D))) end
                | None => None
                end
    end.
Proof.
  unfold get_empty_action. rewrite (dget_mapv (fun l => repeat None (length l))). unfold action_dict.
  rewrite dget_filter2 by apply all_dict_nodup. rewrite (all_view_sep D g nm V SEP).
  destruct (positions nm D) as [|i l] eqn:P; [reflexivity|]. cbn [entry_for snd].
  assert (X : In i (positions nm D)) by (rewrite P; left; reflexivity). apply positions_in in X. destruct X as (d & N & _).
  destruct (mod_at i d N) as (m & M & O & L). rewrite M, N, (act_dims_pos m O).
  pose proof (ml_kind _ _ L) as K.
  destruct (m_kind (snd d)), (m_kind m); simpl in K; try contradiction; reflexivity.
Qed.

Lemma empty_slots flex d : In d D -> takes_action flex (snd d) ->
  dget (mdef_name d) (get_empty_action g flex) = Some (repeat None (length (positions (mdef_name d) D))).
Proof.
  intros IN T. destruct flex; [|exact (empty_ctrl d IN T)].
  rewrite empty_flex. pose proof (positions_nonempty d D IN) as NE. destruct (positions (mdef_name d) D) as [|i l] eqn:P; [congruence|].
  assert (X : In i (positions (mdef_name d) D)) by (rewrite P; left; reflexivity). apply positions_in in X. destruct X as (d' & N & EN).
  rewrite N. assert (C : category_of (snd d') = category_of (snd d)) by (apply SEP; [exact (nth_error_In _ _ N)|exact IN|exact EN]).
  simpl in T. destruct (m_kind (snd d')) eqn:K'; try reflexivity. exfalso.
  unfold category_of in C. rewrite K' in C. simpl in C.
  destruct (m_kind (snd d)) as [b|s|gg u|u|u|uu] eqn:K; simpl in C; try discriminate C.
  exact (T u eq_refl).
Qed.
Lemma empty_absent flex nm : (forall d, In d D -> mdef_name d = nm -> ~ takes_action flex (snd d)) ->
  dget nm (get_empty_action g flex) = None.
Proof.
  intros H. destruct flex; [|exact (empty_other nm H)].
  rewrite empty_flex. destruct (positions nm D) as [|i l] eqn:P; [reflexivity|].
  assert (X : In i (positions nm D)) by (rewrite P; left; reflexivity). apply positions_in in X. destruct X as (d & N & EN).
  rewrite N. specialize (H d (nth_error_In _ _ N) EN). simpl in H.
  destruct (m_kind (snd d)); try reflexivity; exfalso; apply H; intros ?; discriminate.
Qed.
End Empty.

(** ** C47 *)
Lemma mod_ok_space obs (m : module Q) sp : mod_ok m -> module_space obs m = Ok sp -> box sp.
Proof.
  intros O. pose proof (mo_kind _ O) as K. unfold kind_ok in K. unfold module_space, box. destruct obs.
  - intros E. injection E as <-.
    assert (TS : forall t, ts_mod m t -> length (sp_low (m_obs m)) = length (sp_high (m_obs m))).
    { intros t (TO & _ & ->). unfold ts_obs_space. cbn [sp_low sp_high].
      assert (L : length (ts_minobs t) = length (ts_maxobs t)) by (eapply Forall2_length; exact (ok_ord _ TO)). revert L. generalize (S (ts_horizon t)) as k.
      intros k L. induction k as [|k IH]; [reflexivity|]. simpl. rewrite !app_length. congruence. }
    destruct (m_kind m) as [b|s|gg t|t|t|u].
    + destruct K as (_ & _ & _ & A & B). congruence.
    + destruct K as (_ & _ & _ & A & B). congruence.
    + apply (TS t). apply K.
    + apply (TS t). apply K.
    + apply (TS t). apply K.
    + destruct K as (_ & _ & _ & -> & ->). reflexivity.
  - intros E. destruct (m_act m) as [sp'|] eqn:A; [|discriminate]. injection E as <-.
    destruct (m_kind m) as [b|s|gg t|t|t|u].
    + destruct K as (_ & _ & OD & _). unfold one_dim in OD. destruct OD. congruence.
    + destruct K as (_ & _ & (x & y & E) & _). injection E as ->. reflexivity.
    + destruct K as (_ & _ & OD & _). unfold one_dim in OD. destruct OD. congruence.
    + destruct K as (_ & _ & E & _). injection E as ->. reflexivity.
    + destruct K as (_ & _ & OD & _). unfold one_dim in OD. destruct OD. congruence.
    + destruct K as (_ & _ & E & _). discriminate.
Qed.
Lemma fits_dec (sp : space Q) v : {fits sp v} + {~ fits sp v}.
Proof. apply Nat.eq_dec. Qed.
Lemma convert1_back to obs (m : module Q) v w : mod_ok m -> convert1 to obs m v = Ok w ->
  exists v', convert1 (negb to) obs m w = Ok v' /\ same_value v' v.
Proof.
  intros O E. unfold convert1 in *. destruct (module_space obs m) as [sp|] eqn:S; [|discriminate]. cbn [rbind] in *.
  pose proof (mod_ok_space obs m sp O S) as B. destruct (C01_lemma sp v B) as [F NF].
  destruct (fits_dec sp v) as [FI|NFI].
  - destruct (F FI) as [(w1 & v1 & N1 & D1 & S1) (w2 & v2 & D2 & N2 & S2)]. destruct to; simpl.
    + rewrite N1 in E. injection E as <-. eauto.
    + rewrite D2 in E. injection E as <-. eauto.
  - destruct (NF NFI) as [(e1 & N1 & _) (e2 & N2 & _)]. destruct to; congruence.
Qed.

Section Conv.
Variables (D : list (mdef Q)) (g : mgrid Q).
Hypothesis V : mg_inv D g.
Hypothesis SEP : names_separate D.

Definition conv_at to obs (iv : nat * pyval Q) (w : pyval Q) : Prop :=
  exists m, nth_error (mg_mods g) (fst iv) = Some m /\ convert1 to obs m (snd iv) = Ok w.

Let cf to obs (iv : nat * pyval Q) : res (pyval Q) :=
  match nth_error (mg_mods g) (fst iv) with None => raise KeyError "no such module" | Some m => convert1 to obs m (snd iv) end.
Lemma cf_at to obs iv w : cf to obs iv = Ok w <-> conv_at to obs iv w.
Proof.
  unfold cf, conv_at. destruct (nth_error (mg_mods g) (fst iv)) as [m|].
  - split; [eauto|]. intros (m' & E & X). injection E as ->. exact X.
  - split; [discriminate|]. intros (m' & E & X). discriminate.
Qed.

Lemma conv_keys {A B} (h : string -> A -> res B) (d0 : dict A) d' :
  rmapM (fun kl => rmap (fun l => (fst kl, l)) (h (fst kl) (snd kl))) d0 = Ok d' ->
  forall nm, match dget nm d0 with
             | Some l => exists l', dget nm d' = Some l' /\ h nm l = Ok l'
             | None => dget nm d' = None
             end.
Proof.
  intros E. apply rmapM_ok in E. induction E as [|[k l] [k' l'] d0 d' E F IH]; intros nm; simpl; [reflexivity|].
  cbn [fst snd] in E. destruct (h k l) as [l0|] eqn:H; simpl in E; [|discriminate E]. injection E as <- <-.
  destruct (String.eqb_spec nm k) as [->|NE]; [eauto|apply IH].
Qed.

Lemma conv_spec to obs d d' : mg_convert to obs g d = Ok d' -> forall nm,
  match dget nm d, positions nm D with
  | Some l, (_ :: _) as ps => exists l', dget nm d' = Some l' /\ Forall2 (conv_at to obs) (combine ps l) l'
  | _, _ => dget nm d' = None
  end.
Proof.
  intros E nm. unfold mg_convert in E.
  pose proof (conv_keys (fun k ids => rmapM (cf to obs) (combine ids (match dget k d with Some l => l | None => [] end)))
    _ _ E nm) as H.
  rewrite (dget_filter (fun k => din k d)) in H. unfold din in H. rewrite (all_view_sep D g nm V SEP) in H.
  destruct (dget nm d) as [l|]; [|exact H].
  destruct (positions nm D) as [|i ps]; [exact H|]. cbn [entry_for] in H.
  destruct H as (l' & G & C). exists l'. split; [exact G|]. apply rmapM_ok in C.
  clear G. induction C; constructor; auto. apply cf_at. assumption.
Qed.
Lemma conv_progress to obs d :
  (forall nm l, dget nm d = Some l -> forall iv, In iv (combine (positions nm D) l) -> exists w, conv_at to obs iv w) ->
  exists d', mg_convert to obs g d = Ok d'.
Proof.
  intros H. unfold mg_convert. apply rmapM_progress. intros [nm ids] IN. apply filter_In in IN. destruct IN as [IN DN].
  cbn [fst snd] in *. apply Proofs_Num.In_dget in IN; [|apply all_dict_nodup]. rewrite (all_view_sep D g nm V SEP) in IN.
  unfold din in DN. destruct (dget nm d) as [l|] eqn:G; [|discriminate].
  assert (PE : ids = positions nm D) by (destruct (positions nm D); [discriminate|injection IN as <-; reflexivity]).
  subst ids.
  destruct (rmapM_progress (cf to obs) (combine (positions nm D) l)) as (l' & L).
  { intros iv II. destruct (H nm l G iv II) as (w & W). exists w. apply cf_at. exact W. }
  exists (nm, l'). unfold cf in L. rewrite L. reflexivity.
Qed.

Lemma mods_ok i m : nth_error (mg_mods g) i = Some m -> mod_ok m.
Proof.
  intros N. pose proof (iv_mods _ _ V) as F. destruct (Forall2_nth_r _ _ _ _ _ F N) as (d & _ & O & _). exact O.
Qed.
Lemma back_list to obs ps : forall l l1, Forall2 (conv_at to obs) (combine ps l) l1 ->
  exists l2, Forall2 (conv_at (negb to) obs) (combine ps l1) l2 /\ Forall2 same_value l2 (firstn (length ps) l).
Proof.
  induction ps as [|p ps IH]; intros l l1 F; simpl in *.
  - exists []. split; constructor.
  - destruct l as [|v l]; simpl in *.
    + inversion F; subst. exists []. split; constructor.
    + inversion F as [|? w ? l1' (m & N & C) F']; subst. simpl in *.
      destruct (IH l l1' F') as (l2 & A & B). destruct (convert1_back to obs m v w (mods_ok p m N) C) as (v' & CB & S).
      exists (v' :: l2). split; constructor; auto. exists m. auto.
Qed.
Theorem conv_round to obs d d1 : mg_convert to obs g d = Ok d1 ->
  exists d2, mg_convert (negb to) obs g d1 = Ok d2
    /\ forall nm, match dget nm d, positions nm D with
                  | Some l, (_ :: _) as ps =>
                      exists l2, dget nm d2 = Some l2 /\ Forall2 same_value l2 (firstn (length ps) l)
                  | _, _ => dget nm d2 = None
                  end.
Proof.
  intros E. pose proof (conv_spec _ _ _ _ E) as S1.
  assert (PR : exists d2, mg_convert (negb to) obs g d1 = Ok d2).
  { apply conv_progress. intros nm l1 G1 iv IN. specialize (S1 nm).
    destruct (dget nm d) as [l|]; [|congruence]. destruct (positions nm D) as [|p ps] eqn:P; [destruct IN|].
    destruct S1 as (l' & G' & F). rewrite G1 in G'. injection G' as <-.
    destruct (back_list to obs (p :: ps) l l1 F) as (l2 & A & _).
    clear -A IN. induction A as [|x y a b C F IH]; [destruct IN|]. destruct IN as [<-|IN]; eauto. }
  destruct PR as (d2 & E2). exists d2. split; [exact E2|]. intros nm. pose proof (conv_spec _ _ _ _ E2 nm) as S2. specialize (S1 nm).
  destruct (dget nm d) as [l|].
  - destruct (positions nm D) as [|p ps] eqn:P; [rewrite S1 in S2; exact S2|].
    destruct S1 as (l1 & G1 & F1). rewrite G1 in S2. destruct S2 as (l2 & G2 & F2).
    exists l2. split; [exact G2|]. destruct (back_list to obs (p :: ps) l l1 F1) as (l2' & A & B).
    assert (X : l2 = l2'); [|subst; exact B].
    clear -F2 A. revert l2' A. induction F2 as [|x y a b (m & N & C) F IH]; intros l2' A; inversion A as [|? ? ? ? (m' & N' & C') A']; subst; [reflexivity|].
    rewrite N in N'. injection N' as <-. rewrite C in C'. injection C' as ->. f_equal. apply IH. exact A'.
  - rewrite S1 in S2. exact S2.
Qed.
End Conv.

(** ** Strict sampling *)
Lemma norm_scalar1 (l h x : Q) : norm_action_scalar (mkSpace [l] [h]) x = Ok (norm1 l (spread1 l h) x).
Proof.
  unfold norm_action_scalar. rewrite normalize_eq by reflexivity. reflexivity.
Qed.
Lemma norm_scalar2 (a b c d x : Q) : raises TypeError (norm_action_scalar (mkSpace [a; b] [c; d]) x).
Proof.
  unfold norm_action_scalar. destruct (normalize_shape_err (mkSpace [a; b] [c; d]) (VS x)) as (e & E & C); [discriminate|].
  rewrite E. exists e. auto.
Qed.
Theorem strict_sample (m : module Q) r0 r1 p q sp :
  reachable m -> is_genset (m_kind m) = false -> is_source (m_kind m) = true -> is_sink (m_kind m) = true ->
  m_act m = Some sp -> 0 <= r0 -> r0 <= 1 ->
  max_production m = Ok (BFin p) -> max_consumption m = Ok (BFin q) -> 0 <= p -> 0 <= q ->
  exists a x, sample_action true r0 r1 m = Ok (VS a) /\ denormalize sp (VS a) = Ok (VS x) /\ - q <= x /\ x <= p.
Proof.
  intros R NG SR SK A R0 R1 P Qm P0 Q0. pose proof (reachable_ok m R) as O. pose proof (mo_kind _ O) as K. unfold kind_ok in K.
  assert (OD : one_dim (m_act m)).
  { destruct (m_kind m); try discriminate; apply K || (destruct K as (_ & _ & E & _); congruence). }
  unfold one_dim in OD. rewrite A in OD. destruct OD as [L1 L2].
  destruct sp as [[|l [|? ?]] [|h [|? ?]]]; try discriminate. clear L1 L2.
  set (lo := norm1 l (spread1 l h) (nmul (nopp n1) q)). set (hi := norm1 l (spread1 l h) p).
  exists (nadd (nmul r0 (nsub hi lo)) lo).
  exists (denorm1 l (spread1 l h) (nadd (nmul r0 (nsub hi lo)) lo)).
  assert (B : base_sample_action true r0 m = Ok (nadd (nmul r0 (nsub hi lo)) lo)).
  { unfold base_sample_action. rewrite SR, SK, A, P, Qm. cbn [andb rbind neg_bound fin_bound].
    rewrite !norm_scalar1. reflexivity. }
  split; [|split].
  - unfold sample_action. destruct (m_kind m); try discriminate; rewrite B; reflexivity.
  - rewrite denormalize_eq by reflexivity. reflexivity.
  - pose proof (spread1_nz l h) as NZ. unfold lo, hi, denorm1, norm1. unum. set (s := spread1 l h) in *.
    setoid_replace (l + s * (r0 * ((p - l) / s - (- (1) * q - l) / s) + (- (1) * q - l) / s)) with (r0 * p + (1 - r0) * - q) by (field; exact NZ).
    assert (M1 : 0 <= r0 * p) by (apply Qmult_le_0_compat; assumption).
    assert (M2 : 0 <= (1 - r0) * p) by (apply Qmult_le_0_compat; lra).
    assert (M3 : 0 <= r0 * q) by (apply Qmult_le_0_compat; assumption).
    assert (M4 : 0 <= (1 - r0) * q) by (apply Qmult_le_0_compat; lra).
    split; lra.
Qed.
Theorem strict_genset (m : module Q) g r0 r1 :
  reachable m -> m_kind m = KGenset g -> raises TypeError (sample_action true r0 r1 m).
Proof.
  intros R K. pose proof (mo_kind _ (reachable_ok m R)) as KO. unfold kind_ok in KO. rewrite K in KO.
  destruct KO as (_ & _ & (x & y & A) & _).
  unfold sample_action. rewrite K. unfold base_sample_action. rewrite K, A. cbn [is_sink is_source andb rbind].
  unfold max_production. rewrite K. cbn [rbind fin_bound].
  destruct (norm_scalar2 0 0 x y (genset_max_production g)) as (e & E & C). unfold n0, Q_ops in *. 
  rewrite E. exists e. auto.
Qed.

(** ** Runs that cannot fail *)
Lemma from_good D (g : mgrid Q) : from_modules D g ->
  Forall (fun d => sane_reachable (snd d)) D -> Forall (fun d => lenient (snd d)) D ->
  Forall in_data (mg_mods g) -> Forall good (mg_mods g).
Proof.
  intros F SR LE ID. pose proof (from_phys D g F SR) as PH. pose proof (iv_mods _ _ (from_modules_inv D g F)) as MS.
  rewrite Forall_forall in *. intros m IN. split; [exact (PH m IN)|]. split; [|exact (ID m IN)].
  apply In_nth_error in IN. destruct IN as (i & N). destruct (Proofs_Run.Forall2_nth_r _ _ _ _ _ MS N) as (d & ND & _ & L).
  unfold lenient. rewrite (ml_raise _ _ L). apply LE. exact (nth_error_In _ _ ND).
Qed.
Theorem run_cannot_fail D (g : mgrid Q) (c : control Q) n :
  from_modules D g -> Forall (fun d => sane_reachable (snd d)) D -> Forall (fun d => lenient (snd d)) D ->
  (forall d, In d D -> mdef_name d <> "provided_energy" /\ mdef_name d <> "absorbed_energy") ->
  has_unbalanced g -> total_shaper (mg_shaper g) -> Forall in_data (mg_mods g) ->
  (forall d, In d D -> module_type (m_kind (snd d)) = Controllable -> dget (mdef_name d) c <> None) -> well_shaped D c ->
  exists g' out, run c n g = (g', Ok out).
Proof.
  intros F SR LE NM U S ID GV WS. apply (run_progress D g c n F U S NM).
  - apply (from_good D); assumption.
  - apply (well_shaped_served D); [exact (from_modules_inv D g F)|assumption|assumption].
Qed.
Theorem sample_runs D (g : mgrid Q) draw :
  from_modules D g -> Forall (fun d => sane_reachable (snd d)) D -> Forall (fun d => lenient (snd d)) D ->
  (forall d, In d D -> mdef_name d <> "provided_energy" /\ mdef_name d <> "absorbed_energy") ->
  has_unbalanced g -> total_shaper (mg_shaper g) -> Forall in_data (mg_mods g) ->
  (forall k, 0 <= draw k /\ draw k <= 1) ->
  exists c, mg_sample_action g false false draw = Ok c
    /\ (forall n, exists g' out, run c n g = (g', Ok out))
    /\ (names_separate D -> forall d, In d D -> module_type (m_kind (snd d)) = Controllable ->
          exists v, dget (mdef_name d) c = Some v /\ length (ctrl_list v) = length (positions (mdef_name d) D)).
Proof.
  intros F SR LE NM U S ID DR. pose proof (from_modules_inv D g F) as V.
  destruct (sample_served D g V draw DR) as (c & E & SV & _ & LEN). exists c. split; [exact E|]. split.
  - intros n. apply (run_progress D g c n F U S NM); [apply (from_good D); assumption|exact SV].
  - intros SEP d IN T. apply (LEN _ (positions (mdef_name d) D)). apply Proofs_Num.dget_In.
    rewrite (ctrl_view D g V SEP). replace (existsb _ D) with true.
    + pose proof (positions_nonempty d D IN) as NE. unfold entry_for. destruct (positions (mdef_name d) D); [congruence|reflexivity].
    + symmetry. apply existsb_exists. exists d. rewrite String.eqb_refl, T. auto.
Qed.
Theorem batteries_in_capacity D (g : mgrid Q) :
  from_modules D g -> Forall (fun d => sane_reachable (snd d)) D -> Forall within_capacity (mg_mods g).
Proof.
  intros F SR. eapply Forall_impl; [|exact (from_phys D g F SR)]. intros m PH b K.
  pose proof (ph_kind _ PH) as PK. rewrite K in PK. destruct PK as (WF & BI & _).
  destruct BI as (A & B & C). auto.
Qed.

Lemma like_series (m m' : module Q) : mod_like m m' -> series m' = series m /\ (is_ts m' -> is_ts m).
Proof.
  intros [K _ _ _ _ _]. unfold series, is_ts.
  destruct (m_kind m), (m_kind m'); simpl in *; try contradiction; try (split; [reflexivity|intros X; exact X]).
  - destruct K as [_ [f S]]. split; [exact (same_rows _ _ S)|discriminate].
  - destruct K as [f S]. split; [exact (same_rows _ _ S)|discriminate].
  - destruct K as [f S]. split; [exact (same_rows _ _ S)|discriminate].
Qed.
Lemma left_in_data k (m : module Q) : data_left (S k) m -> in_data m.
Proof.
  intros H TS. destruct (H TS) as (j & C & L). unfold data_at.
  destruct (nth_error (series m) j) as [row|] eqn:E; [exists j, row; auto|].
  apply nth_error_None in E. lia.
Qed.
Theorem episode_cannot_fail D n cs : forall (g : mgrid Q),
  from_modules D g -> Forall (fun d => sane_reachable (snd d)) D -> Forall (fun d => lenient (snd d)) D ->
  no_reserved_name D -> has_unbalanced g -> total_shaper (mg_shaper g) ->
  Forall (data_left (length cs)) (mg_mods g) ->
  Forall (fun c => controls_given D c /\ well_shaped D c) cs ->
  exists g', all_run n g cs g'.
Proof.
  induction cs as [|c cs IH]; intros g F SR LE NM U S DL CS; [exists g; constructor|].
  inversion CS as [|? ? [GV WS] CS']; subst.
  destruct (run_cannot_fail D g c n F SR LE NM U S) as (g1 & [[[obs rw] d] inf] & E); auto.
  { eapply Forall_impl; [|exact DL]. intros m. apply left_in_data. }
  pose proof (from_modules_run D g c n g1 _ F E) as F1. pose proof (from_modules_inv D g F) as V. pose proof (from_modules_inv D g1 F1) as V1.
  pose proof (do_mcall_rel (MRun c n) g) as REL.
  assert (G1 : do_mcall (MRun c n) g = g1) by (unfold do_mcall; rewrite E; reflexivity). rewrite G1 in REL.
  assert (LK : forall i m m', nth_error (mg_mods g) i = Some m -> nth_error (mg_mods g1) i = Some m' -> mod_like m m').
  { intros i m m' A B. destruct (Proofs_Run.Forall2_nth _ _ _ _ _ (mr_mods _ _ REL) A) as (m2 & B2 & L).
    rewrite B in B2. injection B2 as <-. apply L. exact (mods_ok D g V i m A). }
  assert (LEN : length (mg_mods g1) = length (mg_mods g)) by (symmetry; eapply Forall2_length; exact (mr_mods _ _ REL)).
  destruct (IH g1) as (g' & R); auto.
  - destruct U as (i & m & A & (u & K)). unfold at_index in A.
    destruct (nth_error (mg_mods g1) i) as [m'|] eqn:B; [|apply nth_error_None in B; assert (i < length (mg_mods g))%nat by (apply nth_error_Some; congruence); lia].
    exists i, m'. split; [exact B|]. pose proof (ml_kind _ _ (LK i m m' A B)) as KL. rewrite K in KL.
    destruct (m_kind m') as [| | | | |u'] eqn:K'; simpl in KL; try contradiction. exists u'. exact K'.
  - rewrite (mr_shaper _ _ REL). exact S.
  - apply Forall_forall. intros m' IN. apply In_nth_error in IN. destruct IN as (i & B).
    destruct (Proofs_Run.Forall2_nth_r _ _ _ _ _ (run_steps_at_most_once D g g1 c n obs rw d inf F E) B) as (m & A & [ST|EQ]).
    + pose proof (LK i m m' A B) as L. destruct (like_series _ _ L) as [SE TS]. destruct ST as (a & nn & o & _ & CUR & _).
      intros T'. rewrite Forall_forall in DL. destruct (DL m (nth_error_In _ _ A) (TS T')) as (j & C & LL).
      exists (Datatypes.S j). rewrite CUR, C, SE. simpl length in LL. split; lia.
    + subst m'. intros T'. rewrite Forall_forall in DL. destruct (DL m (nth_error_In _ _ A) T') as (j & C & LL).
      exists j. split; [exact C|]. simpl length in LL. lia.
  - exists g'. econstructor; eauto.
Qed.
