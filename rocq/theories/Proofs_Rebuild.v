(** * Building a microgrid from the modules of another *)

From Coq Require Import ZArith QArith Qabs Bool String List Lia Lqa Permutation.
From Verif Require Import Num Py Space Logger Forecast Module Container Microgrid Env
  Proofs_Num Proofs_Logger Spec_Module Spec_Reach Proofs_Module Proofs_Ts Proofs_Any Proofs_Request
  Spec_Microgrid Proofs_Container Proofs_Run Proofs_Mgrid Proofs_Views Proofs_MgProps Proofs_MgProps2 Proofs_Build
  Proofs_Sane Serialize Spec_Serialize Proofs_Serialize Proofs_Saved.
Import ListNotations.
Local Open Scope string_scope.
Local Open Scope list_scope.

Definition picked {A} (l : list A) (ids : list nat) : list A :=
  concat (map (fun i => match nth_error l i with Some m => [m] | None => [] end) ids).
Definition defs_of (nm : string) (E : list (mdef Q)) : list (mdef Q) :=
  filter (fun d => String.eqb nm (mdef_name d)) E.
Definition number (nm : string) (k : nat) (ms : list (module Q)) : list (module Q) :=
  map (fun km => set_name (snd km) (Some nm, Some (fst km))) (combine (seq k (length ms)) ms).

Lemma combine_snoc {A} (l : list A) x : forall i,
  combine (seq i (length l) ++ [(i + length l)%nat]) (l ++ [x])
  = combine (seq i (length l)) l ++ [((i + length l)%nat, x)].
Proof.
  induction l as [|y l IH]; intros i; simpl; [rewrite Nat.add_0_r; reflexivity|].
  f_equal. replace (i + S (length l))%nat with (S i + length l)%nat by lia. apply IH.
Qed.
Lemma number_snoc nm k ms x : number nm k (ms ++ [x]) = number nm k ms ++ [set_name x (Some nm, Some (k + length ms)%nat)].
Proof.
  unfold number. rewrite app_length. cbn [length]. rewrite seq_app. cbn [seq]. rewrite (combine_snoc ms x k), map_app. reflexivity.
Qed.
Lemma positions_snoc nm (E : list (mdef Q)) d :
  positions nm (E ++ [d]) = positions nm E ++ (if String.eqb nm (mdef_name d) then [length E] else []).
Proof.
  unfold positions. rewrite app_length. simpl. rewrite seq_app. simpl.
  assert (C : combine (seq 0 (length E) ++ [length E]) (E ++ [d])
              = combine (seq 0 (length E)) E ++ [(length E, d)]).
  { exact (combine_snoc E d 0). }
  rewrite C, filter_app, map_app. simpl. destruct (String.eqb nm (mdef_name d)); reflexivity.
Qed.
Lemma positions_lt nm (E : list (mdef Q)) p : In p (positions nm E) -> (p < length E)%nat.
Proof.
  induction E as [|d E IH] using rev_ind; [intros []|]. rewrite positions_snoc, in_app_iff, app_length. simpl.
  intros [I|I]; [specialize (IH I); lia|]. destruct (String.eqb nm (mdef_name d)); [|destruct I].
  destruct I as [<-|[]]. lia.
Qed.

Lemma filter_number nm (E : list (mdef Q)) : forall i,
  length (filter (fun id => String.eqb nm (mdef_name (snd id))) (combine (seq i (length E)) E))
  = length (defs_of nm E).
Proof.
  induction E as [|e E IH]; intros i; [reflexivity|]. unfold defs_of in *. simpl.
  destruct (String.eqb nm (mdef_name e)); simpl; [f_equal|]; apply IH.
Qed.

(** The modules placed under a name, numbered in order. *)
Lemma placed_named nm k (E : list (mdef Q)) c ms :
  get_subcontainers 0 E ct_empty = (c, ms) ->
  (forall d, In d E -> mdef_name d = nm -> category_of (snd d) = k) ->
  picked ms (positions nm E) = number nm 0 (map snd (defs_of nm E)).
Proof.
  intros G K. destruct (get_subcontainers_mods _ _ _ _ _ G) as [L N]. clear G.
  assert (N' : forall j d, nth_error E j = Some d -> nth_error ms j = Some (set_name (snd d)
         (Some (mdef_name d), Some (length (members (mdef_name d) (category_of (snd d)) 0 (firstn j E)))))).
  { intros j d X. rewrite (N _ _ X). do 4 f_equal.
    destruct (category_of (snd d)) as [[] []]; reflexivity. }
  clear N. revert ms L N'.
  induction E as [|d E IH] using rev_ind; intros ms L N; [reflexivity|].
  rewrite app_length in L. simpl in L.
  destruct ms as [|m0 ms0 _] using rev_ind; [simpl in L; lia|]. rewrite app_length in L. simpl in L.
  assert (L0 : length ms0 = length E) by lia.
  assert (KE : forall d0, In d0 E -> mdef_name d0 = nm -> category_of (snd d0) = k).
  { intros d0 I. apply K. apply in_or_app. auto. }
  assert (IH' := IH KE ms0 L0).
  assert (PK : picked (ms0 ++ [m0]) (positions nm E) = picked ms0 (positions nm E)).
  { unfold picked. f_equal. apply map_ext_in. intros p I. apply positions_lt in I.
    rewrite nth_error_app1 by lia. reflexivity. }
  assert (N0 : forall j d, nth_error E j = Some d -> nth_error ms0 j = Some (set_name (snd d)
         (Some (mdef_name d), Some (length (members (mdef_name d) (category_of (snd d)) 0 (firstn j E)))))).
  { intros j d0 X. assert (J : (j < length E)%nat) by (apply nth_error_Some; congruence).
    specialize (N j d0). rewrite nth_error_app1 in N by lia. specialize (N X).
    rewrite nth_error_app1 in N by lia. rewrite N. do 6 f_equal.
    rewrite firstn_app. replace (j - length E)%nat with 0%nat by lia. rewrite firstn_O, app_nil_r. reflexivity. }
  specialize (IH' N0). rewrite positions_snoc.
  assert (PA : forall l (a b : list nat), picked l (a ++ b) = picked (l : list (module Q)) a ++ picked l b).
  { intros. unfold picked. rewrite map_app, concat_app. reflexivity. }
  rewrite PA, PK, IH'. clear PK IH IH' N0 PA. unfold picked.
  unfold defs_of. rewrite filter_app, map_app. simpl.
  destruct (String.eqb nm (mdef_name d)) eqn:Q; simpl; [|rewrite !app_nil_r; reflexivity].
  apply String.eqb_eq in Q. rewrite nth_error_app2 by lia. rewrite L0, Nat.sub_diag. simpl.
  assert (NM : m0 = set_name (snd d) (Some nm, Some (length (defs_of nm E)))).
  { specialize (N (length E) d). rewrite nth_error_app2, Nat.sub_diag in N by lia. specialize (N eq_refl).
    rewrite nth_error_app2 in N by lia. rewrite L0, Nat.sub_diag in N. injection N as ->.
    rewrite <- Q. do 3 f_equal. rewrite firstn_app, Nat.sub_diag, firstn_O, app_nil_r, firstn_all.
    rewrite (K d); [|apply in_or_app; right; left; reflexivity|auto].
    rewrite <- (positions_members_aux nm k E 0 KE). rewrite map_length.
    apply filter_number. }
  rewrite NM, number_snoc. unfold defs_of. rewrite map_length. reflexivity.
Qed.

Lemma number_names nm ms : forall k, map m_name (number nm k ms) = map (fun i => (Some nm, Some i)) (seq k (length ms)).
Proof. unfold number. induction ms as [|m ms IH]; intros k; [reflexivity|]. simpl. f_equal. apply IH. Qed.
Lemma number_length nm k ms : length (number nm k ms) = length ms.
Proof. unfold number. rewrite map_length, combine_length, seq_length. apply Nat.min_id. Qed.
Lemma set_name_same (m : module Q) nn : m_name m = nn -> set_name m nn = m.
Proof. destruct m. simpl. intros ->. reflexivity. Qed.
Lemma number_fix nm ms : forall k, map m_name ms = map (fun i => (Some nm, Some i)) (seq k (length ms)) ->
  number nm k ms = ms.
Proof.
  unfold number. induction ms as [|m ms IH]; intros k E; [reflexivity|]. simpl in *. injection E as E1 E2.
  rewrite (set_name_same _ _ E1), (IH _ E2). reflexivity.
Qed.

(** ** Placement depends on names and categories only *)
Definition alike (d d' : mdef Q) : Prop := mdef_name d = mdef_name d' /\ category_of (snd d) = category_of (snd d').
Lemma alike_place E E' : Forall2 alike E E' -> forall i c,
  fst (get_subcontainers i E c) = fst (get_subcontainers i E' c).
Proof.
  induction 1 as [|d d' E E' [N K] F IH]; intros i c; [reflexivity|]. cbn [get_subcontainers].
  injection K as K1 K2. rewrite N, K1, K2.
  match goal with |- context [get_subcontainers (S i) E ?c0] => specialize (IH (S i) c0) end.
  destruct (get_subcontainers (S i) E _), (get_subcontainers (S i) E' _). exact IH.
Qed.
Lemma alike_positions nm E E' : Forall2 alike E E' -> positions nm E = positions nm E'.
Proof.
  intros F. unfold positions. generalize 0%nat. induction F as [|d d' E E' [N _] F IH]; intros i; [reflexivity|].
  simpl. rewrite N. destruct (String.eqb nm (mdef_name d')); simpl; rewrite IH; reflexivity.
Qed.
Lemma alike_sep E E' : Forall2 alike E E' -> names_separate E -> names_separate E'.
Proof.
  intros F SEP d d' I I' N.
  assert (X : forall d, In d E' -> exists e, In e E /\ alike e d).
  { clear - F. induction F; intros z []; subst; [eexists; split; [left|]; eauto; reflexivity|].
    destruct (IHF _ H0) as (e & I & A). exists e. split; [right|]; auto. }
  destruct (X _ I) as (e & Ie & Ne & Ke). destruct (X _ I') as (e' & Ie' & Ne' & Ke').
  rewrite <- Ke, <- Ke'. apply SEP; auto. congruence.
Qed.

Section Alike.
Variables E E' : list (mdef Q).
Hypothesis OKS : Forall (fun d => mod_ok (snd d)) E.
Hypothesis SEP : names_separate E.
Hypothesis AL : Forall2 alike E E'.
Variables (c : containers) (ms : list (module Q)).
Hypothesis G : get_subcontainers 0 E' ct_empty = (c, ms).

Lemma alike_inv : exists g0, mg_inv E g0 /\ mg_ct g0 = c /\ length (mg_mods g0) = length ms.
Proof.
  destruct (get_subcontainers 0 E ct_empty) as [c0 ms0] eqn:G0.
  exists (mkMgrid ms0 c0 0%Z None None None 0 logger_empty logger_empty).
  split; [apply placed_inv; assumption|]. simpl. split.
  - pose proof (alike_place _ _ AL 0 ct_empty) as X. rewrite G, G0 in X. exact X.
  - destruct (get_subcontainers_mods _ _ _ _ _ G) as [-> _].
    destruct (get_subcontainers_mods _ _ _ _ _ G0) as [-> _]. eapply Forall2_length; exact AL.
Qed.
Lemma alike_ids g : mg_ct g = c -> mg_mods g = ms -> Permutation (dict_ids g) (seq 0 (length (mg_mods g))).
Proof.
  intros C M. destruct alike_inv as (g0 & V & C0 & L).
  assert (X : dict_ids g = dict_ids g0) by (unfold dict_ids, all_dict; rewrite C, C0; reflexivity).
  rewrite X, M, <- L. pose proof (dict_ids_perm _ _ V SEP) as P.
  assert (LL : length E = length (mg_mods g0)) by (eapply Forall2_length; exact (iv_mods _ _ V)). rewrite <- LL. exact P.
Qed.
Lemma alike_named g nm : mg_ct g = c -> mg_mods g = ms ->
  named nm g = number nm 0 (map snd (defs_of nm E')).
Proof.
  intros C M. destruct alike_inv as (g0 & V & C0 & L).
  assert (X : all_dict g = all_dict g0) by (unfold all_dict; rewrite C, C0; reflexivity).
  unfold named. rewrite X, (all_view_sep E g0 nm V SEP), (alike_positions nm _ _ AL), M.
  pose proof (alike_sep _ _ AL SEP) as SEP'.
  assert (K : exists k, forall d, In d E' -> mdef_name d = nm -> category_of (snd d) = k).
  { destruct (find (fun d => String.eqb nm (mdef_name d)) E') as [d|] eqn:F.
    - apply find_some in F. destruct F as [I Q]. apply String.eqb_eq in Q.
      exists (category_of (snd d)). intros d' I' N. apply SEP'; congruence.
    - exists (Fixed, Sources). intros d I N. pose proof (find_none _ _ F _ I) as Q. simpl in Q.
      rewrite N, String.eqb_refl in Q. discriminate. }
  destruct K as [k K]. rewrite <- (placed_named nm k E' c ms G K). unfold picked.
  destruct (positions nm E'); reflexivity.
Qed.
Lemma alike_shown g m : mg_ct g = c -> mg_mods g = ms ->
  (exists i, In i (dict_ids g) /\ nth_error (mg_mods g) i = Some m) <-> In m (mg_mods g).
Proof.
  intros C M. pose proof (alike_ids g C M) as P. split.
  - intros (i & _ & N). eapply nth_error_In; eauto.
  - intros I. apply In_nth_error in I. destruct I as [i N]. exists i. split; [|exact N].
    eapply Permutation_in; [apply Permutation_sym; exact P|]. apply in_seq.
    assert (i < length (mg_mods g))%nat by (apply nth_error_Some; congruence). lia.
Qed.
Lemma alike_attr g (attr : module Q -> option Z) a : mg_ct g = c -> mg_mods g = ms ->
  (exists m, In m ms /\ attr m = Some a) -> (forall m b, In m ms -> attr m = Some b -> b = a) ->
  get_attr_unique Z.eqb attr (dict_ids g) (mg_mods g) = Ok (Some a).
Proof.
  intros C M (m & I & A) U.
  assert (IN : forall i, In i (dict_ids g) -> exists m, nth_error (mg_mods g) i = Some m).
  { intros i J. apply (Permutation_in _ (alike_ids g C M)), in_seq in J.
    destruct (nth_error (mg_mods g) i) as [m0|] eqn:N; [eauto|]. apply nth_error_None in N. lia. }
  assert (SH := fun m => alike_shown g m C M).
  pose proof (attr_cases attr (dict_ids g) (mg_mods g) IN) as X. cbv zeta in X.
  destruct (get_attr_unique Z.eqb attr (dict_ids g) (mg_mods g)) as [[b|]|e].
  - destruct X as [(m1 & S1 & A1) _]. do 2 f_equal. apply (U m1); [|exact A1]. apply SH in S1. rewrite M in S1. exact S1.
  - exfalso. rewrite <- M in I. apply SH in I. rewrite X in I. destruct I as (i & [] & _).
  - exfalso. destruct X as [_ [(_ & X)|(_ & m1 & m2 & b1 & b2 & S1 & S2 & A1 & A2 & NE)]].
    + rewrite <- M in I. apply SH in I. rewrite (X _ I) in A. discriminate.
    + apply SH in S1, S2. rewrite M in S1, S2. apply NE. rewrite (U _ _ S1 A1), (U _ _ S2 A2). reflexivity.
Qed.
End Alike.

Lemma rebuild E E' lossc overc sh i f :
  Forall (fun d => mod_ok (snd d)) E -> names_separate E -> Forall2 alike E E' ->
  (forall d, In d E' -> m_init (snd d) = i) ->
  (forall d x, In d E' -> final_step (snd d) = Some x -> x = f) ->
  (exists d, In d E' /\ final_step (snd d) <> None) ->
  exists g, new_microgrid E' false lossc overc sh None = Ok g
    /\ mg_initial g = i /\ mg_final g = Some f /\ mg_shaper g = sh /\ mg_traj g = None /\ mg_calls g = 0%nat
    /\ mg_balance g = logger_empty /\ mg_other g = logger_empty
    /\ (forall nm, named nm g = number nm 0 (map snd (defs_of nm E')))
    /\ snd (get_subcontainers 0 E' ct_empty) = mg_mods g /\ fst (get_subcontainers 0 E' ct_empty) = mg_ct g.
Proof.
  intros OKS SEP AL I F (d & Id & Fd). unfold new_microgrid.
  destruct (get_subcontainers 0 E' ct_empty) as [c ms] eqn:G.
  set (g0 := mkMgrid ms c 0%Z None sh None 0 logger_empty logger_empty).
  assert (GI : get_module_initial_step g0 = Ok i).
  { unfold get_module_initial_step. rewrite (alike_attr E E' OKS SEP AL c ms G g0 _ i); auto.
    - destruct (placed_attr_inv E' c ms d _ m_init G) as (m & Im & A); auto. exists m. split; auto.
      rewrite A, I; auto.
    - intros m b Im A. destruct (placed_attr E' c ms m _ m_init G) as (d' & Id' & A'); auto.
      injection A as <-. rewrite <- A'. auto. }
  assert (GF : get_module_final_step g0 = Ok (Some f)).
  { unfold get_module_final_step. apply (alike_attr E E' OKS SEP AL c ms G g0 _ f); auto.
    - destruct (placed_attr_inv E' c ms d _ final_step G) as (m & Im & A); auto. exists m. split; auto.
      rewrite final_attr_step, A. destruct (final_step (snd d)) as [x|] eqn:X; [|congruence].
      rewrite (F d x Id X). reflexivity.
    - intros m b Im A. rewrite final_attr_step in A.
      destruct (placed_attr E' c ms m _ final_step G) as (d' & Id' & A'); auto.
      apply (F d'); congruence. }
  rewrite GI. simpl rbind. rewrite GF. simpl rbind.
  eexists. split; [reflexivity|].
  do 7 (split; [reflexivity|]). split; [|split; reflexivity].
  intros nm. apply (alike_named E E' OKS SEP AL c ms G); reflexivity.
Qed.

(** ** The (name, module) pairs of a microgrid *)
Lemma tuples_named (g : mgrid Q) nm : map snd (defs_of nm (mg_tuples g)) = named nm g.
Proof.
  unfold named, mg_tuples, to_tuples, all_dict.
  pose proof (filter_name_tuples (to_dict (subs_all (mg_ct g))) nm (NoDup_to_dict _)) as X.
  set (l := concat (map (fun kl => map (fun i => (fst kl, i)) (snd kl)) (to_dict (subs_all (mg_ct g))))) in *.
  assert (Y : map snd (defs_of nm (concat (map (fun ni : string * nat => match nth_error (mg_mods g) (snd ni) with
                         | Some m => [(Some (fst ni), m)] | None => [] end) l)))
     = picked (mg_mods g) (map snd (filter (fun t => String.eqb nm (fst t)) l))).
  { clear X. clearbody l. induction l as [|[n i] l IH]; [reflexivity|].
    cbn [map concat]. unfold defs_of in *. rewrite filter_app, map_app. etransitivity; [apply f_equal; exact IH|]. cbn [fst snd filter].
    destruct (String.eqb nm n) eqn:Q; unfold picked; cbn [map concat];
      destruct (nth_error (mg_mods g) i) as [m|] eqn:N; cbn [snd]; rewrite ?N; try reflexivity.
    - cbn [filter]. change (mdef_name (Some n, m)) with n. rewrite Q. reflexivity.
    - cbn [filter]. change (mdef_name (Some n, m)) with n. rewrite Q. reflexivity. }
  rewrite Y, X. destruct (dget nm _); reflexivity.
Qed.
Lemma tuples_in (g : mgrid Q) d : In d (mg_tuples g) <->
  exists nm l i m, In (nm, l) (all_dict g) /\ In i l /\ nth_error (mg_mods g) i = Some m /\ d = (Some nm, m).
Proof.
  unfold mg_tuples, to_tuples, all_dict. rewrite in_concat. split.
  - intros (x & Ix & Id). apply in_map_iff in Ix. destruct Ix as ([nm i] & <- & I). simpl in Id.
    apply in_concat in I. destruct I as (y & Iy & I). apply in_map_iff in Iy. destruct Iy as ([k l] & <- & J).
    simpl in I. apply in_map_iff in I. destruct I as (j & Q & Ij). injection Q as -> ->.
    destruct (nth_error (mg_mods g) i) as [m|] eqn:N; [|destruct Id]. destruct Id as [<-|[]].
    exists nm, l, i, m. auto.
  - intros (nm & l & i & m & I & Il & N & ->). exists [(Some nm, m)]. split; [|left; reflexivity].
    apply in_map_iff. exists (nm, i). simpl. rewrite N. split; [reflexivity|].
    apply in_concat. exists (map (fun i => (nm, i)) l). split; [|apply in_map; exact Il].
    apply in_map_iff. exists (nm, l). auto.
Qed.
Lemma tuples_def D g d : mg_inv D g -> In d (mg_tuples g) ->
  exists df i, nth_error D i = Some df /\ nth_error (mg_mods g) i = Some (snd d) /\ alike df d
    /\ fst d = Some (mdef_name df) /\ mod_ok (snd d).
Proof.
  intros V I. apply tuples_in in I. destruct I as (nm & l & i & m & I & Il & N & ->).
  rewrite all_dict_view in I. destruct (view_in D g V categories nm l i I Il) as (df & Nd & <- & _).
  destruct (iv_nth D g i df V Nd) as (m' & N' & O & L). assert (m' = m) by congruence. subst m'.
  exists df, i. conj; auto. split; [reflexivity|]. symmetry. exact (mod_like_category _ _ L).
Qed.
Lemma tuples_all D g i m : mg_inv D g -> names_separate D -> nth_error (mg_mods g) i = Some m ->
  exists d, In d (mg_tuples g) /\ snd d = m.
Proof.
  intros V SEP N. pose proof (dict_ids_perm _ _ V SEP) as P.
  assert (I : In i (dict_ids g)).
  { eapply Permutation_in; [apply Permutation_sym; exact P|]. apply in_seq.
    assert (i < length (mg_mods g))%nat by (apply nth_error_Some; congruence).
    assert (LL : length D = length (mg_mods g)) by (eapply Forall2_length; exact (iv_mods _ _ V)). lia. }
  unfold dict_ids in I. apply in_concat in I. destruct I as (l & Il & I). apply in_map_iff in Il.
  destruct Il as ([nm l'] & <- & J). exists (Some nm, m). split; [|reflexivity].
  apply tuples_in. exists nm, l', i, m. auto.
Qed.
Lemma tuples_sep D g : mg_inv D g -> names_separate D -> names_separate (mg_tuples g).
Proof.
  intros V SEP d d' I I' N. destruct (tuples_def _ _ _ V I) as (df & i & ND & _ & [A1 A2] & _).
  destruct (tuples_def _ _ _ V I') as (df' & j & ND' & _ & [A1' A2'] & _).
  rewrite <- A2, <- A2'. apply SEP; try (eapply nth_error_In; eassumption). congruence.
Qed.
Lemma tuples_ok D g : mg_inv D g -> Forall (fun d => mod_ok (snd d)) (mg_tuples g).
Proof.
  intros V. apply Forall_forall. intros d I. destruct (tuples_def _ _ _ V I) as (_ & _ & _ & _ & _ & _ & O). exact O.
Qed.

(** The modules of a name carry it, with their number. *)
Lemma named_names D g nm : from_modules D g -> names_separate D ->
  map m_name (named nm g) = map (fun i => (Some nm, Some i)) (seq 0 (length (named nm g))).
Proof.
  intros (ds & add & lossc & overc & sh & tr & g0 & cs & [R B] & -> & ->) SEP.
  assert (V : mg_inv (all_defs ds add lossc overc) g0) by (eapply mbuilt_inv; split; eauto).
  pose proof (mplay_rel cs g0) as RL. pose proof (rel_names _ _ _ RL V) as NM.
  destruct (new_microgrid_inv _ _ _ _ _ _ _ B) as (c & ms & G & C & M & _).
  assert (OKS : Forall (fun d => mod_ok (snd d)) (all_defs ds add lossc overc)) by (eapply all_defs_ok; eauto).
  assert (AL : Forall2 alike (all_defs ds add lossc overc) (all_defs ds add lossc overc)) by (apply Forall2_refl; split; reflexivity).
  pose proof (alike_named _ _ OKS SEP AL c ms G g0 nm C M) as N0.
  assert (X : map m_name (named nm (mplay cs g0)) = map m_name (named nm g0)).
  { unfold named, all_dict. rewrite (mr_ct _ _ RL). destruct (dget nm _) as [ids|]; [|reflexivity].
    rewrite !concat_map, !map_map. f_equal. apply map_ext. intros i.
    assert (Y : nth_error (map m_name (mg_mods (mplay cs g0))) i = nth_error (map m_name (mg_mods g0)) i) by (rewrite NM; reflexivity).
    rewrite !nth_error_map in Y.
    destruct (nth_error (mg_mods (mplay cs g0)) i), (nth_error (mg_mods g0) i); simpl in *; congruence. }
  rewrite X. assert (L : length (named nm (mplay cs g0)) = length (named nm g0))
    by (rewrite <- (map_length m_name), X, map_length; reflexivity).
  rewrite L, N0, number_names, number_length. reflexivity.
Qed.

(** ** C55: [from_microgrid] *)
Theorem from_microgrid_same D g lossc overc :
  from_modules D g -> names_separate D -> windows_agree g -> mg_traj g = None ->
  exists g', from_microgrid g lossc overc = Ok g'
    /\ (forall nm, named nm g' = named nm g)
    /\ (forall m, In m (mg_mods g) -> mg_initial g' = m_init m)
    /\ (forall m f, In m (mg_mods g) -> final_step m = Some f -> mg_final g' = Some f)
    /\ mg_shaper g' = mg_shaper g /\ mg_traj g' = None
    /\ mg_balance g' = logger_empty.
Proof.
  intros F SEP (WI & WF & m0 & I0 & F0) TR. pose proof (from_modules_inv _ _ F) as V.
  destruct (final_step m0) as [f|] eqn:FS; [|congruence].
  assert (IN : forall d, In d (mg_tuples g) -> In (snd d) (mg_mods g)).
  { intros d I. destruct (tuples_def _ _ _ V I) as (df & i & _ & N & _). eapply nth_error_In; eauto. }
  destruct (rebuild (mg_tuples g) (mg_tuples g) lossc overc (mg_shaper g) (m_init m0) f)
    as (g' & B & GI & GF & GS & GT & GC & GB & GO & GN & _).
  - eapply tuples_ok; eauto.
  - eapply tuples_sep; eauto.
  - apply Forall2_refl. split; reflexivity.
  - intros d I. apply WI; auto.
  - intros d x I X. eapply WF; [apply IN; exact I|exact I0|exact X|exact FS].
  - apply In_nth_error in I0. destruct I0 as [i N]. destruct (tuples_all _ _ _ _ V SEP N) as (d & I & <-).
    exists d. split; [exact I|congruence].
  - exists g'. unfold from_microgrid. rewrite TR. split; [exact B|]. conj; auto.
    + intros nm. rewrite GN, tuples_named. apply number_fix. eapply named_names; eauto.
    + intros m I. rewrite GI. auto.
    + intros m x I X. rewrite GF. f_equal. exact (WF m0 m f x I0 I FS X).
Qed.

(** ** Saving a microgrid *)

Lemma loaded_view lg df : @log_rect Q lg -> lg = logger_empty \/ (lg_len lg <> 0%nat /\ lg_data lg <> []) ->
  logger_serialize lg = Ok df ->
  log_view (logger_from_raw df) = log_view lg /\ lg_len (logger_from_raw df) = lg_len lg.
Proof.
  intros R [->|[L NE]] E.
  - injection E as <-. split; reflexivity.
  - destruct (serialize_log _ R) as (df' & E' & _ & NZ). rewrite E in E'. injection E' as <-.
    rewrite (NZ L). unfold logger_from_raw. simpl. split.
    + unfold log_view at 1. simpl. rewrite map_map. simpl.
      transitivity (map (fun x => x) (log_view lg)); [|apply map_id]. apply map_ext. intros [k c]. reflexivity.
    + apply fold_max_const; [lia| |].
      * exact (view_rect _ R).
      * unfold log_view. destruct (lg_data lg); [congruence|discriminate].
Qed.

(** All modules of a microgrid in use can be saved. *)
Definition savable_rel (m m' : module Q) : Prop :=
  mod_ok m -> mod_ok m' /\ (no_functions m' -> no_functions m) /\ (savable m -> savable m').
Lemma savable_rel_refl m : savable_rel m m.
Proof. intros O. auto. Qed.
Lemma savable_rel_trans m1 m2 m3 : savable_rel m1 m2 -> savable_rel m2 m3 -> savable_rel m1 m3.
Proof. intros H H' O. destruct (H O) as (O2 & N2 & S2). destruct (H' O2) as (O3 & N3 & S3). auto. Qed.
Lemma mplay_savable cs g : Forall2 savable_rel (mg_mods g) (mg_mods (mplay cs g)).
Proof.
  apply mplay_mods.
  - exact savable_rel_refl.
  - exact savable_rel_trans.
  - intros a n m m' r E O. destruct (step_good _ _ _ _ _ O E) as (SM & O' & _). conj; auto.
    + intros NF H. apply NF. apply (functions_same _ _ SM). exact H.
    + eapply savable_step; eauto.
  - intros m m' r E O. destruct (reset_good _ _ _ O E) as (SM & O' & _). conj; auto.
    + intros NF H. apply NF. apply (functions_same _ _ SM). exact H.
    + eapply savable_reset; eauto.
  - intros v m m' r E O. pose proof (set_final_likes _ _ _ _ E O) as (O' & _). conj; auto.
    + intros NF H. apply NF. unfold module_set_final in E. destruct (kind_ts (m_kind m)) as [t|] eqn:KT.
      2:{ injection E as <- _. exact H. }
      unfold set_final_step in E. injection E as <- _. unfold has_functions in *. simpl.
      destruct (m_kind m); simpl in *; inversion KT; subst; exact H.
    + eapply savable_set_final; eauto.
  - intros v m O. conj; auto.
    + destruct O as [O1 O2 O3]. constructor; [exact O1|exact O2|exact O3].
    + apply savable_set_init.
Qed.
Lemma set_name_ok m nn : mod_ok m -> mod_ok (set_name m nn).
Proof. intros [O1 O2 O3]. constructor; [exact O1|exact O2|exact O3]. Qed.
Lemma unbalanced_built re init l o : built (@new_unbalanced Q re init l o).
Proof. constructor. Qed.
Lemma mods_savable D g : from_modules D g -> (forall m, In m (mg_mods g) -> ~ has_functions m) ->
  Forall savable (mg_mods g).
Proof.
  intros (ds & add & lossc & overc & sh & tr & g0 & cs & [R B] & -> & ->) NF.
  destruct (new_microgrid_inv _ _ _ _ _ _ _ B) as (c & ms & G & C & M & _).
  assert (RD : Forall (fun d => reachable (snd d)) (all_defs ds add lossc overc)).
  { unfold all_defs. destruct add; [|exact R]. apply Forall_app. split; [exact R|]. constructor; [|constructor].
    exists (@new_unbalanced Q false 0 lossc overc), []. split; [apply unbalanced_built|reflexivity]. }
  assert (P : Forall (fun m => mod_ok m /\ (no_functions m -> savable m)) (mg_mods g0)).
  { rewrite M. apply Forall_forall. intros m I. apply In_nth_error in I. destruct I as [k N].
    destruct (get_subcontainers_mods _ _ _ _ _ G) as [L NM].
    destruct (nth_error (all_defs ds add lossc overc) k) as [d|] eqn:ND.
    2:{ apply nth_error_None in ND. assert (k < length ms)%nat by (apply nth_error_Some; congruence). lia. }
    rewrite (NM _ _ ND) in N. injection N as <-.
    rewrite Forall_forall in RD. specialize (RD d (nth_error_In _ _ ND)). split.
    - apply set_name_ok, reachable_ok. exact RD.
    - intros X. apply savable_set_name. apply reachable_savable; [exact RD|exact X]. }
  pose proof (mplay_savable cs g0) as F. revert NF. revert F P.
  generalize (mg_mods (mplay cs g0)). generalize (mg_mods g0).
  induction 1 as [|m m' l l' H F IH]; intros P NF; constructor.
  - inversion P; subst. destruct H2 as [O S]. destruct (H O) as (O' & N' & S').
    apply S', S, N'. apply NF. left. reflexivity.
  - inversion P; subst. apply IH; [assumption|]. intros z I. apply NF. right. exact I.
Qed.

Definition df_of (m : module Q) : option (frame Q) :=
  match logger_serialize (m_log m) with Ok d => d | Err _ => None end.
Definition store_after (file : bool) (ds : list (mdef Q)) (st : store Q) : store Q :=
  fold_left (fun st d => after_dump file (snd d) (df_of (snd d)) st) ds st.

Lemma savable_df m : savable m -> logger_serialize (m_log m) = Ok (df_of m).
Proof.
  intros [O _ _ _]. destruct (serialize_log _ (mo_rect _ O)) as (df & E & _). unfold df_of. rewrite E. reflexivity.
Qed.
Lemma savable_dump m file : savable m -> exists s,
  (forall st, dump_module file m st = (after_dump file m (df_of m) st, Ok s))
  /\ (forall st gt rnd, on_disk file st m (df_of m) -> load_module st gt rnd s = Ok (restored_module gt rnd m (df_of m))).
Proof.
  intros S. destruct (dump_load m (sb_ok _ S) (sb_static _ S) (sb_plain _ S)) as (df & E & H).
  rewrite (savable_df _ S) in E. injection E as <-. apply H.
Qed.
Definition saves (file : bool) (d : mdef Q) (ns : string * saved Q) : Prop :=
  fst ns = mdef_name d /\ forall st gt rnd, on_disk file st (snd d) (df_of (snd d)) ->
    load_module st gt rnd (snd ns) = Ok (restored_module gt rnd (snd d) (df_of (snd d))).
Lemma dump_modules_ok file ds : Forall (fun d => savable (snd d)) ds ->
  exists l, Forall2 (saves file) ds l
    /\ forall st, dump_modules file ds st = (store_after file ds st, Ok l).
Proof.
  intros F.
  assert (X : exists l, Forall2 (saves file) ds l /\ forall acc st,
     mfold (fun acc d => mbind (dump_module file (snd d)) (fun s => mret (acc ++ [(mdef_name d, s)]))) ds acc st
     = (store_after file ds st, Ok (acc ++ l))).
  { induction F as [|d ds S F (l & IF & IH)].
    - exists []. split; [constructor|]. intros acc st. simpl. unfold mret. rewrite app_nil_r. reflexivity.
    - destruct (savable_dump _ file S) as (s & DM & LD). exists ((mdef_name d, s) :: l). split.
      + constructor; [split; [reflexivity|exact LD]|exact IF].
      + intros acc st. cbn [mfold]. unfold mbind at 1. unfold mbind at 1. rewrite DM. unfold mret at 1.
        rewrite IH. rewrite <- app_assoc. reflexivity. }
  destruct X as (l & IF & IH). exists l. split; [exact IF|]. intros st. unfold dump_modules. exact (IH [] st).
Qed.

(** ** Reading the files back *)
Lemma series_path_inj (k k' : kind Q) : series_path (yaml_tag k) = series_path (yaml_tag k') -> yaml_tag k = yaml_tag k'.
Proof. destruct k, k'; intros E; try reflexivity; discriminate E. Qed.
Lemma log_path_inj (k k' : kind Q) : log_path (yaml_tag k) "log" = log_path (yaml_tag k') "log" -> yaml_tag k = yaml_tag k'.
Proof. destruct k, k'; intros E; try reflexivity; discriminate E. Qed.
Lemma balance_path (k : kind Q) : log_path (yaml_tag k) "log" <> log_path "Microgrid" "balance_log".
Proof. destruct k; discriminate. Qed.
Lemma dget_dset_other {A} k k' (v : A) d : k <> k' -> dget k (dset k' v d) = dget k d.
Proof.
  intros N. induction d as [|[a b] d IH]; simpl.
  - destruct (String.eqb k k') eqn:Q; [apply String.eqb_eq in Q; contradiction|reflexivity].
  - destruct (String.eqb k' a) eqn:Q; simpl.
    + apply String.eqb_eq in Q. subst a. destruct (String.eqb k k') eqn:Q'; [apply String.eqb_eq in Q'; contradiction|reflexivity].
    + rewrite IH. reflexivity.
Qed.
Lemma on_disk_keep file st m df m' df' : yaml_tag (m_kind m) <> yaml_tag (m_kind m') ->
  on_disk file st m df -> on_disk file (after_dump file m' df' st) m df.
Proof.
  intros N H F. destruct (H F) as [H1 H2]. subst file. simpl. split.
  - intros t E. destruct (kind_ts (m_kind m')); [|auto]. rewrite dget_dset_other; [auto|].
    intros C. apply N, series_path_inj, C.
  - intros d E. destruct df' as [d'|]; [|auto]. rewrite dget_dset_other; [auto|].
    intros C. apply N, log_path_inj, C.
Qed.
Lemma store_after_disk file ds : (file = true -> NoDup (map (fun d => yaml_tag (m_kind (snd d))) ds)) -> forall st d,
  In d ds -> on_disk file (store_after file ds st) (snd d) (df_of (snd d)).
Proof.
  intros ND. destruct file; [|intros st d _ C; discriminate C]. specialize (ND eq_refl).
  assert (K : forall ds st m df, ~ In (yaml_tag (m_kind m)) (map (fun d => yaml_tag (m_kind (snd d))) ds) ->
     on_disk true st m df -> on_disk true (store_after true ds st) m df).
  { clear. unfold store_after. induction ds as [|d ds IH]; intros st m df N H; [exact H|]. cbn [map In] in N. cbn [fold_left].
    apply IH; [tauto|]. apply on_disk_keep; [|exact H]. intros C. apply N. left. symmetry. exact C. }
  induction ds as [|d0 ds IH]; intros st d I; [destruct I|]. inversion ND; subst.
  unfold store_after in *. cbn [fold_left]. destruct I as [->|I]; [|apply IH; assumption].
  apply (K ds); [assumption|]. apply after_dump_disk.
Qed.
Lemma store_after_balance file ds : forall st df,
  (file = true -> dget (log_path "Microgrid" "balance_log") (st_logs st) = Some df) ->
  file = true -> dget (log_path "Microgrid" "balance_log") (st_logs (store_after file ds st)) = Some df.
Proof.
  unfold store_after. induction ds as [|d ds IH]; intros st df H F; [auto|]. simpl. apply IH; [|exact F].
  intros _. subst file. simpl. destruct (df_of (snd d)) as [d'|]; [|auto].
  rewrite dget_dset_other; [auto|]. intros C. exact (balance_path (m_kind (snd d)) (eq_sym C)).
Qed.

(** The loaded definitions. *)
Definition restores (gt : mtype) (d d' : mdef Q) : Prop :=
  exists rnd, d' = (Some (mdef_name d), restored_module gt rnd (snd d) (df_of (snd d))).
Lemma load_modules_ok st gt rnds file ds l : Forall2 (saves file) ds l ->
  (forall d, In d ds -> on_disk file st (snd d) (df_of (snd d))) ->
  exists ds', load_modules st gt rnds l = Ok ds' /\ Forall2 (restores gt) ds ds'.
Proof.
  intros F. unfold load_modules. generalize 0%nat.
  induction F as [|d [nm s] ds l [N LD] F IH]; intros n OD.
  - exists []. split; [reflexivity|constructor].
  - destruct (IH (S n)) as (ds' & E & F'); [intros; apply OD; right; assumption|].
    simpl in N. exists ((Some nm, restored_module gt (rnds n) (snd d) (df_of (snd d))) :: ds'). split.
    + cbn [length seq combine rmapM fst snd]. cbn [snd] in LD. rewrite LD by (apply OD; left; reflexivity).
      cbn [rbind]. rewrite E. reflexivity.
    + constructor; [|exact F']. exists (rnds n). rewrite N. reflexivity.
Qed.

Lemma restored_alike gt rnd m df : (match m_kind m with KGrid g _ => gr_type g = gt | _ => True end) ->
  category_of (restored_module gt rnd m df) = category_of m.
Proof.
  intros K. unfold category_of, restored_module, restored_kind. simpl.
  destruct (m_kind m); try reflexivity; simpl; try (rewrite K; reflexivity).
Qed.
Lemma restored_name gt rnd m df : m_name (restored_module gt rnd m df) = m_name m.
Proof. reflexivity. Qed.
Lemma kept_final m m' : kept m m' -> final_step m' = final_step m.
Proof.
  intros K. pose proof (kp_kind _ _ K) as KK. unfold final_step. unfold kind_kept in KK.
  destruct (m_kind m), (m_kind m'); try contradiction; try reflexivity; simpl.
  - destruct KK as (_ & _ & _ & _ & _ & _ & _ & E & _). rewrite E. reflexivity.
  - destruct KK as (_ & _ & _ & _ & E & _). rewrite E. reflexivity.
  - destruct KK as (_ & _ & _ & _ & E & _). rewrite E. reflexivity.
Qed.
Lemma picked_seq {A} (l : list A) : picked l (seq 0 (length l)) = l.
Proof.
  induction l as [|x l IH] using rev_ind; [reflexivity|]. rewrite app_length, seq_app. unfold picked in *.
  rewrite map_app, concat_app. simpl. rewrite nth_error_app2, Nat.sub_diag by lia. simpl. f_equal.
  transitivity (concat (map (fun i => match nth_error l i with Some m => [m] | None => [] end) (seq 0 (length l)))); [|exact IH].
  f_equal. apply map_ext_in. intros i I. apply in_seq in I. rewrite nth_error_app1 by lia. reflexivity.
Qed.
Lemma picked_perm {A} (l : list A) a b : Permutation a b -> Permutation (picked l a) (picked l b).
Proof.
  unfold picked. induction 1; simpl; auto.
  - apply Permutation_app_head. assumption.
  - rewrite !app_assoc. apply Permutation_app_tail. apply Permutation_app_comm.
  - eapply Permutation_trans; eauto.
Qed.
Lemma tuples_perm D g : mg_inv D g -> names_separate D -> Permutation (map snd (mg_tuples g)) (mg_mods g).
Proof.
  intros V SEP. pose proof (dict_ids_perm _ _ V SEP) as P.
  assert (X : map snd (mg_tuples g) = picked (mg_mods g) (dict_ids g)).
  { unfold dict_ids, all_dict. rewrite <- tuples_ids. unfold mg_tuples, to_tuples.
    generalize (concat (map (fun kl => map (fun i => (fst kl, i)) (snd kl)) (to_dict (subs_all (mg_ct g))))) as l.
    induction l as [|[n i] l IH]; [reflexivity|]. cbn [map concat]. rewrite map_app. unfold picked in *. cbn [map concat].
    f_equal; [|exact IH]. cbn [fst snd]. destruct (nth_error (mg_mods g) i); reflexivity. }
  rewrite X. assert (LL : length D = length (mg_mods g)) by (eapply Forall2_length; exact (iv_mods _ _ V)).
  rewrite LL in P. rewrite <- (picked_seq (mg_mods g)) at 2. apply picked_perm. exact P.
Qed.
Lemma restores_defs gt nm ds ds' : Forall2 (restores gt) ds ds' ->
  Forall2 (restores gt) (defs_of nm ds) (defs_of nm ds').
Proof.
  unfold defs_of. induction 1 as [|d d' ds ds' (rnd & ->) F IH]; [constructor|]. simpl.
  change (mdef_name (Some (mdef_name d), restored_module gt rnd (snd d) (df_of (snd d)))) with (mdef_name d).
  destruct (String.eqb nm (mdef_name d)); [|exact IH]. constructor; [|exact IH]. exists rnd. reflexivity.
Qed.
Lemma restores_mods gt ds ds' : Forall2 (restores gt) ds ds' ->
  Forall2 (fun m m' => exists rnd, m' = restored_module gt rnd m (df_of m)) (map snd ds) (map snd ds').
Proof. induction 1 as [|d d' ds ds' (rnd & ->) F IH]; constructor; [|exact IH]. exists rnd. reflexivity. Qed.
Lemma restores_names gt ms ms' : Forall2 (fun m m' => exists rnd, m' = restored_module gt rnd m (df_of m)) ms ms' ->
  map m_name ms' = map m_name ms.
Proof. induction 1 as [|m m' ms ms' (rnd & ->) F IH]; [reflexivity|]. simpl. f_equal. exact IH. Qed.

Theorem dump_load_mg D g file :
  from_modules D g -> names_separate D -> windows_agree g ->
  (forall m, In m (mg_mods g) -> ~ has_functions m) ->
  (file = true -> classes_distinct g) ->
  exists s, forall st, exists st', dump_microgrid file g st = (st', Ok s)
    /\ forall gt rnds, grids_are gt g ->
       exists g', load_microgrid st' gt rnds s = Ok g'
       /\ (forall nm, Forall2 (fun m m' => exists rnd, m' = restored_module gt rnd m (df_of m)) (named nm g) (named nm g'))
       /\ mg_initial g' = mg_initial g /\ mg_final g' = mg_final g /\ mg_traj g' = mg_traj g
       /\ log_view (mg_balance g') = log_view (mg_balance g) /\ lg_len (mg_balance g') = lg_len (mg_balance g)
       /\ mg_shaper g' = None
       /\ exists df, logger_serialize (mg_balance g) = Ok df /\ mg_balance g' = logger_from_raw df.
Proof.
  intros F SEP (WI & WF & m0 & I0 & F0) NF CD. pose proof (from_modules_inv _ _ F) as V.
  pose proof (mods_savable _ _ F NF) as SV. rewrite Forall_forall in SV.
  destruct (final_step m0) as [f|] eqn:FS; [|congruence].
  assert (IN : forall d, In d (mg_tuples g) -> In (snd d) (mg_mods g)).
  { intros d I. destruct (tuples_def _ _ _ V I) as (df & i & _ & N & _). eapply nth_error_In; eauto. }
  assert (SD : Forall (fun d => savable (snd d)) (mg_tuples g)).
  { apply Forall_forall. intros d I. apply SV, IN, I. }
  destruct (dump_modules_ok file _ SD) as (l & SL & DM).
  destruct (iv_bal _ _ V) as (BR & _ & BE).
  destruct (serialize_log _ BR) as (df & SE & _).
  set (b := match df with None => None | Some d => Some (if file then AtPath (log_path "Microgrid" "balance_log") else Inline d) end).
  set (st1 := fun st : store Q => match df with None => st
     | Some d => if file then mkStore (st_series st) (dset (log_path "Microgrid" "balance_log") d (st_logs st)) else st end).
  assert (PB : forall st, put_opt_log file "Microgrid" "balance_log" df st = (st1 st, Ok b)).
  { intros st. unfold put_opt_log, st1, b. destruct df as [d|]; [|reflexivity]. destruct file; reflexivity. }
  exists (mkSavedMg l (mg_traj g) (mg_initial g) (mg_final g) b). intros st.
  exists (store_after file (mg_tuples g) (st1 st)). split.
  { unfold dump_microgrid. rewrite SE. unfold mbind at 1, mlift at 1. unfold mbind at 1. rewrite PB.
    unfold mbind at 1. rewrite DM. reflexivity. }
  intros gt rnds GA.
  assert (CD' : file = true -> NoDup (map (fun d => yaml_tag (m_kind (snd d))) (mg_tuples g))).
  { intros X. specialize (CD X). unfold classes_distinct in CD.
    pose proof (Permutation_map (fun m => yaml_tag (m_kind m)) (tuples_perm _ _ V SEP)) as P.
    rewrite map_map in P. eapply Permutation_NoDup; [apply Permutation_sym; exact P|exact CD]. }
  destruct (load_modules_ok (store_after file (mg_tuples g) (st1 st)) gt rnds file _ _ SL
    (fun d I => store_after_disk file _ CD' (st1 st) d I)) as (ds' & LM & RS).
  assert (GB : get_log (store_after file (mg_tuples g) (st1 st)) b = Ok df).
  { unfold b. destruct df as [d|]; [|reflexivity]. unfold get_log, get_arr. destruct file; [|reflexivity].
    rewrite (store_after_balance true (mg_tuples g) (st1 st) d); [reflexivity| |reflexivity].
    intros _. unfold st1. simpl. apply dget_dset_same. }
  assert (INV : forall d', In d' ds' -> exists d rnd, In d (mg_tuples g)
      /\ d' = (Some (mdef_name d), restored_module gt rnd (snd d) (df_of (snd d)))).
  { clear - RS. induction RS as [|d d' ds ds' (rnd & ->) RS IH]; intros z []; subst.
    - exists d, rnd. split; [left|]; reflexivity.
    - destruct (IH _ H) as (d1 & r & I & E). exists d1, r. split; [right|]; auto. }
  destruct (rebuild (mg_tuples g) ds' 10 2 None (m_init m0) f)
    as (g0 & B & GI & GF & GS & GT & GC & GBL & GO & GN & _).
  - eapply tuples_ok; eauto.
  - eapply tuples_sep; eauto.
  - clear - RS GA IN. induction RS as [|d d' ds ds' (rnd & ->) RS IH]; constructor.
    + split; [reflexivity|]. cbn [snd]. symmetry. apply restored_alike. destruct (m_kind (snd d)) eqn:K; auto.
      eapply GA; [|exact K]. apply IN. left. reflexivity.
    + apply IH. intros. apply IN. right. assumption.
  - intros d' I. destruct (INV _ I) as (d & rnd & J & ->). cbn [snd restored_module m_init]. apply WI; auto.
  - intros d' x I X. destruct (INV _ I) as (d & rnd & J & ->). cbn [snd] in X.
    assert (S := SV _ (IN _ J)). rewrite (kept_final (snd d)) in X
      by (apply restored_kept; [exact S|apply savable_df; exact S]).
    exact (WF (snd d) m0 x f (IN _ J) I0 X FS).
  - pose proof I0 as I1. apply In_nth_error in I1. destruct I1 as [i N].
    destruct (tuples_all _ _ _ _ V SEP N) as (d & I & E).
    assert (X : exists d', In d' ds' /\ restores gt d d').
    { clear - RS I. induction RS; [destruct I|]. destruct I as [->|I]; [eexists; split; [left; reflexivity|assumption]|].
      destruct (IHRS I) as (z & J & R). exists z. split; [right|]; assumption. }
    destruct X as (d' & J & rnd & ->). exists (Some (mdef_name d), restored_module gt rnd (snd d) (df_of (snd d))).
    split; [exact J|]. cbn [snd]. assert (S := SV _ (IN _ I)).
    rewrite (kept_final (snd d)) by (apply restored_kept; [exact S|apply savable_df; exact S]).
    rewrite E, FS. discriminate.
  - exists (mkMgrid (mg_mods g0) (mg_ct g0) (mg_initial g) (mg_final g) None (mg_traj g) 0
              (logger_from_raw df) logger_empty).
    split.
    { unfold load_microgrid. cbn [sg_balance sg_modules sg_initial sg_final sg_traj]. rewrite GB. cbn [rbind].
      rewrite LM. cbn [rbind]. change (@nofZ Q _ 10) with 10%Q. change (@nofZ Q _ 2) with 2%Q.
      rewrite B. reflexivity. }
    destruct (loaded_view _ _ BR BE SE) as [LV LN].
    conj; auto; [|exists df; split; [exact SE|reflexivity]]. intros nm.
    change (named nm (mkMgrid (mg_mods g0) (mg_ct g0) (mg_initial g) (mg_final g) None (mg_traj g) 0
              (logger_from_raw df) logger_empty)) with (named nm g0).
    rewrite GN. pose proof (restores_mods _ _ _ (restores_defs gt nm _ _ RS)) as RM.
    rewrite tuples_named in RM. rewrite number_fix; [exact RM|].
    rewrite (restores_names _ _ _ RM), (named_names D g nm F SEP). do 2 f_equal.
    eapply Forall2_length. exact RM.
Qed.

(** ** The properties *)
Theorem C45_module_lemma m file st : reachable m -> ~ has_functions m ->
  exists st' s, dump_module file m st = (st', Ok s)
    /\ forall gt rnd, exists m', load_module st' gt rnd s = Ok m'
       /\ kept m m'
       /\ (~ noisy m -> shown_forecast m' = shown_forecast (fst (reset m)))
       /\ (~ noisy m -> fst (reset m') = as_loaded gt (fst (reset m))).
Proof.
  intros R NF. pose proof (reachable_savable _ R NF) as S.
  destruct (savable_dump m file S) as (s & DM & LD).
  exists (after_dump file m (df_of m) st), s. split; [apply DM|]. intros gt rnd.
  exists (restored_module gt rnd m (df_of m)). split; [apply LD, after_dump_disk|].
  split; [apply restored_kept; [exact S|apply savable_df; exact S]|]. split.
  - apply shown_restored. exact S.
  - apply reset_restored. exact S.
Qed.
Theorem C45_start_lemma m file st : reachable m -> ~ has_functions m -> ~ noisy m ->
  built m \/ (exists m0, reachable m0 /\ fst (reset m0) = m) ->
  exists st' s, dump_module file m st = (st', Ok s)
    /\ forall gt rnd, load_module st' gt rnd s = Ok (as_loaded gt m).
Proof.
  intros R NF NN B. pose proof (reachable_savable _ R NF) as S.
  assert (X : started m /\ m_log m = logger_empty).
  { destruct B as [B|(m0 & R0 & <-)].
    - split; [apply built_started; exact B|apply built_log; exact B].
    - destruct (reset m0) as [m1 r] eqn:E. simpl in *.
      destruct (reset_good _ _ _ (reachable_ok _ R0) E) as (SM & _).
      assert (NF0 : ~ has_functions m0) by (intros H; apply NF, (functions_same _ _ SM), H).
      pose proof (reset_started m0 (reachable_savable _ R0 NF0)) as (ST & _ & L). rewrite E in ST, L. split; assumption. }
  destruct X as [ST L]. destruct (savable_dump m file S) as (s & DM & LD).
  assert (DF : df_of m = None) by (unfold df_of; rewrite L; reflexivity).
  exists (after_dump file m (df_of m) st), s. split; [apply DM|]. intros gt rnd.
  rewrite LD by apply after_dump_disk. rewrite DF, restored_start by assumption. reflexivity.
Qed.
Theorem C45_functions_lemma m file st : reachable m -> has_functions m ->
  exists e, dump_module file m st = (st, Err e) /\ ex_class e = RepresenterError.
Proof.
  intros R HF. pose proof (reachable_ok _ R) as O. destruct (serialize_log _ (mo_rect _ O)) as (df & SE & _).
  unfold dump_module. rewrite SE. unfold mbind at 1, mlift at 1.
  assert (X : exists e, dump_params file m st = (st, Err e) /\ ex_class e = RepresenterError).
  { unfold dump_params, has_functions in *. destruct (m_kind m) as [b|g|g t|t|t|u].
    - destruct (b_model b); [|congruence]. eexists. split; reflexivity.
    - destruct HF as [f E]. rewrite E. eexists. split; reflexivity.
    - destruct HF as [f E]. rewrite E. eexists. split; reflexivity.
    - destruct HF as [f E]. rewrite E. eexists. split; reflexivity.
    - destruct HF as [f E]. rewrite E. eexists. split; reflexivity.
    - contradiction. }
  destruct X as (e & E & C). exists e. split; [|exact C]. unfold mbind at 1. rewrite E. reflexivity.
Qed.
Theorem C45_next_step_lemma m file st st' s gt rnd m' : reachable m -> ~ has_functions m ->
  lg_len (m_log m) <> 0%nat -> dump_module file m st = (st', Ok s) -> load_module st' gt rnd s = Ok m' ->
  forall a n m'' o, step a n m' <> (m'', Ok o).
Proof.
  intros R NF L DM LD a n m'' o. pose proof (reachable_savable _ R NF) as S.
  destruct (savable_dump m file S) as (s0 & DM' & LD'). rewrite DM' in DM. injection DM as <- <-.
  rewrite LD' in LD by apply after_dump_disk. injection LD as <-.
  apply restored_no_step; [exact S|apply savable_df; exact S|exact L].
Qed.

Theorem C45_microgrid_lemma D g file :
  from_modules D g -> names_separate D -> windows_agree g ->
  (forall m, In m (mg_mods g) -> ~ has_functions m) ->
  (file = true -> classes_distinct g) ->
  exists s, forall st, exists st', dump_microgrid file g st = (st', Ok s)
    /\ forall gt rnds, grids_are gt g ->
       exists g', load_microgrid st' gt rnds s = Ok g'
       /\ (forall nm, Forall2 kept (named nm g) (named nm g'))
       /\ ((forall m, In m (mg_mods g) -> ~ noisy m) -> forall nm,
             Forall2 (fun m m' => fst (reset m') = as_loaded gt (fst (reset m))) (named nm g) (named nm g'))
       /\ mg_initial g' = mg_initial g /\ mg_final g' = mg_final g /\ mg_traj g' = mg_traj g
       /\ log_view (mg_balance g') = log_view (mg_balance g) /\ lg_len (mg_balance g') = lg_len (mg_balance g)
       /\ mg_shaper g' = None
       /\ (lg_len (mg_balance g) <> 0%nat -> forall c n g'' o, run c n g' <> (g'', Ok o)).
Proof.
  intros F SEP W NF CD. destruct (dump_load_mg D g file F SEP W NF CD) as (s & H). exists s. intros st.
  destruct (H st) as (st' & DM & LD). exists st'. split; [exact DM|]. intros gt rnds GA.
  destruct (LD gt rnds GA) as (g' & E & N & HI & HF & HT & HV & HL & HS & df & SE & BL).
  pose proof (mods_savable _ _ F NF) as SV. rewrite Forall_forall in SV.
  assert (IN : forall nm m, In m (named nm g) -> In m (mg_mods g)).
  { intros nm m I. unfold named in I. destruct (dget nm (all_dict g)); [|destruct I].
    apply in_concat in I. destruct I as (x & Ix & I). apply in_map_iff in Ix. destruct Ix as (i & <- & _).
    destruct (nth_error (mg_mods g) i) eqn:NN; [|destruct I]. destruct I as [<-|[]]. eapply nth_error_In; eauto. }
  exists g'. split; [exact E|]. conj; auto.
  - intros nm. specialize (N nm). specialize (IN nm). revert IN. induction N as [|m m' l l' (rnd & ->) N IH]; intros IN; constructor.
    + assert (S := SV _ (IN _ (or_introl eq_refl))). apply restored_kept; [exact S|apply savable_df; exact S].
    + apply IH. intros. apply IN. right. assumption.
  - intros NN nm. specialize (N nm). specialize (IN nm). revert IN. induction N as [|m m' l l' (rnd & ->) N IH]; intros IN; constructor.
    + apply reset_restored; [apply SV|apply NN]; apply IN; left; reflexivity.
    + apply IH. intros. apply IN. right. assumption.
  - intros L c n g'' o R. destruct (run_any _ _ _ _ _ R) as [(e & C & _)|
      (ci & efix & ectl & eflex & ms1 & ms2 & ms3 & r2 & fp & fa & p & a & p3 & a3 & r3 & s3 & lg & x & _ & _ & LG & _ & RR)]; [discriminate C|].
    pose proof (from_modules_inv _ _ F) as V. destruct (iv_bal _ _ V) as (BR & BI & BE).
    destruct BE as [BE|[_ BE]]; [rewrite BE in L; apply L; reflexivity|].
    destruct (serialize_log _ BR) as (df' & SE' & _ & NZ). rewrite SE in SE'. injection SE' as <-.
    rewrite (NZ L) in BL.
    destruct (lg_data (mg_balance g)) as [|[k col] d] eqn:DD; [congruence|].
    assert (KD : dget k (lg_data (mg_balance g')) = Some (ColSeries (col_cells col))).
    { rewrite BL. unfold log_view. rewrite DD. simpl. rewrite String.eqb_refl. reflexivity. }
    assert (KR : In k (map fst (bal_row fp fa p a p3 a3 r3 s3))).
    { rewrite bal_row_keys. apply BI. left. reflexivity. }
    destruct (log_items_series (lg_len (mg_balance g')) k _ _ _ KD KR) as (d' & LI).
    unfold logger_log in LG. rewrite LI in LG. injection LG as _ <-. discriminate RR.
Qed.
