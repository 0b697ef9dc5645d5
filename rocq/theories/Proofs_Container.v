(** * Proofs about module containers *)

From Coq Require Import ZArith QArith Bool String List Lia Permutation.
From Verif Require Import Num Py Space Logger Forecast Module Container Microgrid
  Proofs_Num Spec_Module Spec_Reach Spec_Microgrid.
Import ListNotations.
Local Open Scope list_scope.

Lemma mtype_eqb_eq a b : mtype_eqb a b = true <-> a = b.
Proof. destruct a, b; simpl; split; congruence. Qed.
Lemma ssink_eqb_eq a b : ssink_eqb a b = true <-> a = b.
Proof. destruct a, b; simpl; split; congruence. Qed.

Lemma category_dec (a b : category) : {a = b} + {a <> b}.
Proof. repeat decide equality. Qed.

Lemma in_categories (c : category) : In c categories.
Proof. destruct c as [[] []]; simpl; tauto. Qed.
Lemma NoDup_categories : NoDup categories.
Proof. repeat (constructor; [simpl; intuition congruence|]). constructor. Qed.

Lemma ct_get_upd c f s v f' s' :
  ct_get (ct_upd c f s v) f' s' = if mtype_eqb f f' && ssink_eqb s s' then v else ct_get c f' s'.
Proof. destruct f, s, f', s'; reflexivity. Qed.

Lemma NoDup_app_l {A} (l l' : list A) : NoDup (l ++ l') -> NoDup l.
Proof.
  induction l as [|x l IH]; intros N; [constructor|]. inversion N; subst. constructor.
  - intros I. apply H1. apply in_or_app. left. exact I.
  - exact (IH H2).
Qed.
Lemma NoDup_app_r {A} (l l' : list A) : NoDup (l ++ l') -> NoDup l'.
Proof. induction l as [|x l IH]; intros N; [exact N|]. inversion N; subst. exact (IH H2). Qed.
Lemma NoDup_app_disj {A} (l l' : list A) x : NoDup (l ++ l') -> In x l -> In x l' -> False.
Proof.
  induction l as [|y l IH]; intros N I J; [destruct I|]. inversion N; subst. destruct I as [->|I].
  - apply H1. apply in_or_app. right. exact J.
  - exact (IH H2 I J).
Qed.
Lemma NoDup_app_intro {A} (l l' : list A) : NoDup l -> NoDup l' ->
  (forall x, In x l -> In x l' -> False) -> NoDup (l ++ l').
Proof.
  induction l as [|y l IH]; intros N N' D; [exact N'|]. inversion N; subst. cbn. constructor.
  - intros I. apply in_app_or in I. destruct I as [I|I]; [contradiction|]. apply (D y); [left; reflexivity|exact I].
  - apply IH; [assumption|assumption|]. intros x I J. apply (D x); [right; exact I|exact J].
Qed.

(** [ct_get] by category. *)
Definition ctc (c : containers) (k : category) : subcontainer := ct_get c (fst k) (snd k).

Lemma subs_all_cat c : subs_all c = map (ctc c) categories.
Proof. reflexivity. Qed.
Lemma subs_of_cat c f : subs_of c f = map (fun s => ctc c (f, s)) all_ssinks.
Proof. reflexivity. Qed.

(** ** One container *)
Definition sub_list (nm : string) (d : subcontainer) : list nat :=
  match dget nm d with Some l => l | None => [] end.

Lemma dget_sub_add nm nm' i d :
  dget nm (sub_add nm' i d) = if String.eqb nm nm' then Some (sub_list nm d ++ [i]) else dget nm d.
Proof.
  unfold sub_list. induction d as [|[k l] d IH]; simpl.
  - destruct (String.eqb_spec nm nm'); reflexivity.
  - destruct (String.eqb_spec nm' k); simpl.
    + subst. destruct (String.eqb_spec nm k); reflexivity.
    + destruct (String.eqb_spec nm k).
      * subst. destruct (String.eqb_spec k nm'); [congruence|reflexivity].
      * exact IH.
Qed.
Lemma keys_sub_add nm i d :
  map fst (sub_add nm i d) = if str_in nm (map fst d) then map fst d else map fst d ++ [nm].
Proof.
  induction d as [|[k l] d IH]; [reflexivity|]. simpl.
  destruct (String.eqb_spec nm k); [reflexivity|]. simpl. rewrite IH.
  fold (str_in nm (map fst d)). destruct (str_in nm (map fst d)); reflexivity.
Qed.
Lemma NoDup_sub_add nm i d : NoDup (map fst d) -> NoDup (map fst (sub_add nm i d)).
Proof.
  intros N. rewrite keys_sub_add. destruct (str_in nm (map fst d)) eqn:E; [exact N|].
  assert (~ In nm (map fst d)) by (intros C; apply str_in_iff in C; congruence).
  apply NoDup_rev in N. rewrite <- (rev_involutive (map fst d ++ [nm])). apply NoDup_rev.
  rewrite rev_app_distr. simpl. constructor; [rewrite <- in_rev; assumption|exact N].
Qed.
Lemma sub_add_perm nm i d :
  Permutation (concat (map snd (sub_add nm i d))) (i :: concat (map snd d)).
Proof.
  induction d as [|[k l] d IH]; [reflexivity|]. simpl. destruct (String.eqb nm k); simpl.
  - rewrite <- app_assoc. simpl. symmetry. apply Permutation_middle.
  - rewrite IH. symmetry. apply Permutation_middle.
Qed.

Section Sub.
Context {T : Type} `{NumOps T}.

Lemma members_cons nm c i (d : mdef T) ds :
  members nm c i (d :: ds)
  = (if String.eqb nm (mdef_name d) && mtype_eqb (fst c) (fst (category_of (snd d)))
        && ssink_eqb (snd c) (snd (category_of (snd d))) then [i] else [])
    ++ members nm c (S i) ds.
Proof. simpl. destruct (_ && _); reflexivity. Qed.

Lemma members_iff nm c (ds : list (mdef T)) : forall i j,
  In j (members nm c i ds) <->
  exists d, nth_error ds (j - i) = Some d /\ (i <= j)%nat /\ mdef_name d = nm /\ category_of (snd d) = c.
Proof.
  induction ds as [|d ds IH]; intros i j.
  - simpl. split; [tauto|]. intros (d & E & _). destruct (j - i)%nat; discriminate.
  - rewrite members_cons, in_app_iff, IH. clear IH. split.
    + intros [I|(d' & E & L & R)].
      * destruct (String.eqb_spec nm (mdef_name d)); [|destruct I].
        destruct (mtype_eqb _ _) eqn:A; [|destruct I]. destruct (ssink_eqb _ _) eqn:B; [|destruct I].
        destruct I as [<-|[]]. exists d. rewrite Nat.sub_diag. apply mtype_eqb_eq in A. apply ssink_eqb_eq in B.
        repeat split; [lia|auto|]. destruct c, (category_of (snd d)); simpl in *; congruence.
      * exists d'. replace (j - i)%nat with (S (j - S i))%nat by lia. simpl. repeat split; try tauto. lia.
    + intros (d' & E & L & N & C). destruct (Nat.eq_dec i j) as [<-|D].
      * left. rewrite Nat.sub_diag in E. inversion E; subst d'. rewrite N, String.eqb_refl.
        rewrite <- C, (proj2 (mtype_eqb_eq _ _) eq_refl), (proj2 (ssink_eqb_eq _ _) eq_refl). left. reflexivity.
      * right. exists d'. replace (j - i)%nat with (S (j - S i))%nat in E by lia. simpl in E.
        repeat split; try tauto. lia.
Qed.

(** Placing the modules: what every container holds in the end. *)
Lemma get_subcontainers_get (ds : list (mdef T)) : forall i c c' ms,
  get_subcontainers i ds c = (c', ms) ->
  forall nm k, dget nm (ctc c' k)
    = match dget nm (ctc c k), members nm k i ds with
      | None, [] => None
      | Some l, r => Some (l ++ r)
      | None, r => Some r
      end.
Proof.
  induction ds as [|d ds IH]; intros i c c' ms E nm k.
  - simpl in E. inversion E; subst. simpl. destruct (dget nm (ctc c' k)); [rewrite app_nil_r|]; reflexivity.
  - cbn [get_subcontainers] in E.
    set (sub := sub_add (mdef_name d) i (ct_get c (module_type (m_kind (snd d))) (ssink_of (m_kind (snd d))))) in E.
    destruct (get_subcontainers (S i) ds _) as [c1 ms1] eqn:G. inversion E; subst; clear E.
    rewrite (IH _ _ _ _ G nm k). rewrite members_cons. unfold ctc. rewrite ct_get_upd.
    unfold category_of. cbn [fst snd].
    destruct (mtype_eqb (module_type (m_kind (snd d))) (fst k)) eqn:A.
    2:{ cbn [andb]. assert (B : mtype_eqb (fst k) (module_type (m_kind (snd d))) = false).
        { apply not_true_iff_false. intros B. apply mtype_eqb_eq in B.
          rewrite B, (proj2 (mtype_eqb_eq _ _) eq_refl) in A. discriminate. }
        rewrite B, andb_false_r. cbn [andb app]. reflexivity. }
    apply mtype_eqb_eq in A.
    destruct (ssink_eqb (ssink_of (m_kind (snd d))) (snd k)) eqn:B.
    2:{ cbn [andb]. assert (B' : ssink_eqb (snd k) (ssink_of (m_kind (snd d))) = false).
        { apply not_true_iff_false. intros B'. apply ssink_eqb_eq in B'.
          rewrite B', (proj2 (ssink_eqb_eq _ _) eq_refl) in B. discriminate. }
        rewrite B', andb_false_r. cbn [andb app]. reflexivity. }
    apply ssink_eqb_eq in B. cbn [andb]. rewrite A, B, (proj2 (mtype_eqb_eq _ _) eq_refl),
      (proj2 (ssink_eqb_eq _ _) eq_refl), !andb_true_r.
    unfold sub. rewrite A, B, dget_sub_add. destruct (String.eqb_spec nm (mdef_name d)); [|reflexivity].
    subst nm. unfold sub_list. destruct (dget (mdef_name d) (ct_get c (fst k) (snd k))).
    + rewrite <- app_assoc. reflexivity.
    + reflexivity.
Qed.

Definition ct_nodup (c : containers) : Prop := forall k, NoDup (map fst (ctc c k)).
Lemma ct_nodup_empty : ct_nodup ct_empty.
Proof. intros [[] []]; constructor. Qed.
Lemma get_subcontainers_nodup (ds : list (mdef T)) : forall i c c' ms,
  get_subcontainers i ds c = (c', ms) -> ct_nodup c -> ct_nodup c'.
Proof.
  induction ds as [|d ds IH]; intros i c c' ms E N.
  - inversion E; subst; exact N.
  - cbn [get_subcontainers] in E. destruct (get_subcontainers (S i) ds _) as [c1 ms1] eqn:G.
    inversion E; subst; clear E. apply (IH _ _ _ _ G). intros [f s]. unfold ctc. cbn [fst snd].
    rewrite ct_get_upd. destruct (_ && _); [apply NoDup_sub_add; apply (N (_, _))|apply (N (f, s))].
Qed.

Lemma to_list_upd c f s v (x : list nat) :
  Permutation (concat (map snd v)) (x ++ concat (map snd (ct_get c f s))) ->
  Permutation (to_list (subs_all (ct_upd c f s v))) (x ++ to_list (subs_all c)).
Proof.
  intros P.
  set (F := fun k : category => concat (map snd (ctc c k))).
  set (F' := fun k : category => concat (map snd (ctc (ct_upd c f s v) k))).
  assert (FE : forall k, k <> (f, s) -> F' k = F k).
  { intros [f' s'] D. unfold F', F, ctc. cbn [fst snd]. rewrite ct_get_upd.
    destruct (mtype_eqb f f') eqn:A; [|reflexivity]. destruct (ssink_eqb s s') eqn:B; [|reflexivity].
    apply mtype_eqb_eq in A. apply ssink_eqb_eq in B. congruence. }
  assert (FS : Permutation (F' (f, s)) (x ++ F (f, s))).
  { unfold F', F, ctc. cbn [fst snd]. rewrite ct_get_upd.
    rewrite (proj2 (mtype_eqb_eq _ _) eq_refl), (proj2 (ssink_eqb_eq _ _) eq_refl). exact P. }
  unfold to_list. rewrite !subs_all_cat, !map_map. fold F. fold F'.
  change (fun x0 : category => concat (map snd (ctc c x0))) with F.
  change (fun x0 : category => concat (map snd (ctc (ct_upd c f s v) x0))) with F'.
  assert (G0 : forall l, ~ In (f, s) l -> map F' l = map F l).
  { intros l NI. apply map_ext_in. intros k I. apply FE. intros ->; contradiction. }
  assert (G : forall l, NoDup l -> In (f, s) l ->
     Permutation (concat (map F' l)) (x ++ concat (map F l))).
  { induction l as [|k l IH]; intros N I; [destruct I|].
    inversion N; subst. cbn [map concat]. destruct (category_dec k (f, s)) as [->|D].
    - rewrite (G0 l) by assumption. rewrite FS, <- app_assoc. reflexivity.
    - destruct I as [I|I]; [congruence|]. rewrite (FE k D), (IH H3 I).
      rewrite !app_assoc. apply Permutation_app_tail, Permutation_app_comm. }
  exact (G categories NoDup_categories (in_categories _)).
Qed.

(** Every module is in exactly one place. *)
Lemma get_subcontainers_perm (ds : list (mdef T)) : forall i c c' ms,
  get_subcontainers i ds c = (c', ms) ->
  Permutation (to_list (subs_all c')) (seq i (length ds) ++ to_list (subs_all c)).
Proof.
  induction ds as [|d ds IH]; intros i c c' ms E.
  - inversion E; subst. reflexivity.
  - cbn [get_subcontainers] in E. destruct (get_subcontainers (S i) ds _) as [c1 ms1] eqn:G.
    inversion E; subst; clear E. rewrite (IH _ _ _ _ G). cbn [length seq].
    rewrite (to_list_upd c _ _ _ [i]); [|apply sub_add_perm].
    cbn [app]. rewrite <- Permutation_middle. reflexivity.
Qed.

(** The modules keep their order; each is told its name and its number among
    the modules of that name in its container. *)
Lemma get_subcontainers_mods (ds : list (mdef T)) : forall i c c' ms,
  get_subcontainers i ds c = (c', ms) ->
  length ms = length ds
  /\ forall k d, nth_error ds k = Some d ->
       nth_error ms k = Some (set_name (snd d)
         (Some (mdef_name d),
          Some (length (sub_list (mdef_name d) (ctc c (category_of (snd d))))
                + length (members (mdef_name d) (category_of (snd d)) 0 (firstn k ds))))%nat).
Proof.
  induction ds as [|d ds IH]; intros i c c' ms E.
  - inversion E; subst. split; [reflexivity|]. intros [|k] d E'; discriminate.
  - cbn [get_subcontainers] in E.
    set (sub := sub_add (mdef_name d) i (ct_get c (module_type (m_kind (snd d))) (ssink_of (m_kind (snd d))))) in E.
    destruct (get_subcontainers (S i) ds _) as [c1 ms1] eqn:G. inversion E; subst; clear E.
    destruct (IH _ _ _ _ G) as [L N]. split; [simpl; congruence|].
    intros [|k] d' E.
    + cbn in E. inversion E; subst d'. cbn [nth_error firstn members length]. rewrite Nat.add_0_r.
      unfold sub. rewrite dget_sub_add, String.eqb_refl.
      unfold sub_list, ctc, category_of. cbn [fst snd]. do 4 f_equal.
      destruct (dget _ _); [rewrite app_length; simpl; lia|reflexivity].
    + cbn [nth_error] in *. rewrite (N k d' E). clear N. cbn [firstn]. rewrite members_cons.
      assert (SH : forall nm q j l, length (@members T nm q (S j) l) = length (members nm q j l)).
      { intros nm q j l. revert j. induction l as [|e l IHl]; intros j; [reflexivity|].
        rewrite !members_cons, !app_length, IHl. destruct (_ && _); reflexivity. }
      rewrite app_length, SH. do 4 f_equal.
      unfold ctc, category_of. cbn [fst snd]. rewrite ct_get_upd.
      set (f := module_type (m_kind (snd d))). set (s := ssink_of (m_kind (snd d))).
      set (f' := module_type (m_kind (snd d'))). set (s' := ssink_of (m_kind (snd d'))).
      destruct (mtype_eqb f f') eqn:A.
      2:{ cbn [andb]. assert (B : mtype_eqb f' f = false).
          { apply not_true_iff_false. intros B. apply mtype_eqb_eq in B.
            rewrite B, (proj2 (mtype_eqb_eq _ _) eq_refl) in A. discriminate. }
          rewrite B, andb_false_r. cbn. lia. }
      apply mtype_eqb_eq in A. destruct (ssink_eqb s s') eqn:B.
      2:{ cbn [andb]. assert (B' : ssink_eqb s' s = false).
          { apply not_true_iff_false. intros B'. apply ssink_eqb_eq in B'.
            rewrite B', (proj2 (ssink_eqb_eq _ _) eq_refl) in B. discriminate. }
          rewrite B', andb_false_r. cbn. lia. }
      apply ssink_eqb_eq in B. cbn [andb]. rewrite A, B.
      rewrite (proj2 (mtype_eqb_eq _ _) eq_refl), (proj2 (ssink_eqb_eq _ _) eq_refl), !andb_true_r.
      unfold sub. fold f s. rewrite A, B. unfold sub_list. rewrite dget_sub_add.
      destruct (String.eqb_spec (mdef_name d') (mdef_name d)) as [->|D].
      * unfold sub_list. rewrite app_length. simpl. destruct (dget _ _); simpl; lia.
      * simpl. lia.
Qed.

End Sub.

(** ** The merged dictionaries *)
Lemma dget_dupdate {A} (kvs : list (string * A)) : forall d k, NoDup (map fst kvs) ->
  dget k (dupdate d kvs) = match dget k kvs with Some v => Some v | None => dget k d end.
Proof.
  unfold dupdate. induction kvs as [|[k' v] kvs IH]; intros d k N; [reflexivity|].
  inversion N; subst. simpl. rewrite (IH _ _ H2). destruct (String.eqb_spec k k') as [->|D].
  - rewrite (proj2 (dget_None k' kvs) H1). apply dget_dset_same.
  - destruct (dget k kvs); [reflexivity|]. apply dget_dset_other. exact D.
Qed.

(** A key of merged dictionaries shows the last dictionary that has it. *)
Lemma dget_to_dict_acc (ds : list subcontainer) : forall d nm,
  Forall (fun s => NoDup (map fst s)) ds ->
  dget nm (fold_left dupdate ds d)
  = match find (fun s => din nm s) (rev ds) with Some s => dget nm s | None => dget nm d end.
Proof.
  induction ds as [|s ds IH]; intros d nm F; [reflexivity|].
  inversion F; subst. cbn [fold_left rev]. rewrite (IH _ _ H2).
  assert (FA : forall (l : list subcontainer) x, find (fun s => din nm s) (l ++ [x])
     = match find (fun s => din nm s) l with Some y => Some y | None => if din nm x then Some x else None end).
  { induction l as [|y l IHl]; intros x; [reflexivity|]. simpl. rewrite IHl. destruct (din nm y); reflexivity. }
  rewrite FA. destruct (find (fun s : dict (list nat) => din nm s) (rev ds)); [reflexivity|].
  rewrite (dget_dupdate _ _ _ H1). unfold din. destruct (dget nm s) eqn:DG; [symmetry; exact DG|reflexivity].
Qed.
Lemma dget_to_dict (ds : list subcontainer) nm : Forall (fun s => NoDup (map fst s)) ds ->
  dget nm (to_dict ds) = match find (fun s => din nm s) (rev ds) with Some s => dget nm s | None => None end.
Proof. intros F. unfold to_dict. rewrite dget_to_dict_acc by exact F. reflexivity. Qed.

Lemma NoDup_to_dict (ds : list subcontainer) : NoDup (map fst (to_dict ds)).
Proof.
  unfold to_dict. assert (N : NoDup (map fst (@nil (string * list nat)))) by constructor. revert N.
  generalize (@nil (string * list nat)). induction ds as [|s ds IH]; intros d N; [exact N|].
  cbn. apply IH. apply NoDup_dupdate, N.
Qed.

(** No name in two of the dictionaries: merging is concatenation. *)
Lemma to_dict_disjoint (ds : list subcontainer) :
  NoDup (map fst (concat ds)) -> to_dict ds = concat ds.
Proof.
  unfold to_dict. enough (G : forall (ds : list subcontainer) (d : subcontainer), NoDup (map fst (d ++ concat ds)) -> fold_left dupdate ds d = d ++ concat ds).
  { intros N. apply (G ds []). exact N. }
  clear ds. induction ds as [|s ds IH]; intros d N; cbn [fold_left concat] in *.
  - rewrite app_nil_r. reflexivity.
  - assert (N1 : NoDup (map fst (d ++ s))).
    { rewrite app_assoc, map_app in N. exact (NoDup_app_l _ _ N). }
    rewrite (dupdate_fresh _ _ N1). rewrite IH; [|rewrite <- app_assoc; exact N].
    symmetry. apply app_assoc.
Qed.
