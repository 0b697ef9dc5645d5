(** * What the model predictive control reads from a microgrid *)

From Coq Require Import ZArith QArith Bool String List Lia Lqa Permutation.
From Verif Require Import Num Py Space Logger Forecast Module Container Microgrid NonModular Conversion MPC
  Spec_Module Spec_Reach Spec_Sane Spec_Microgrid Spec_Conversion Spec_MPC
  Proofs_Num Proofs_Module Proofs_Battery Proofs_Ts Proofs_Any Proofs_Data Proofs_Sane Proofs_Mgrid Proofs_MgProps Proofs_Episode Proofs_NonModular Proofs_Build Proofs_Obs Proofs_RbcRun Proofs_Twin
  Proofs_Copy2 Proofs_Copy3 Proofs_Copy5 Proofs_Mpc.
Import ListNotations.
Local Open Scope string_scope.
Local Open Scope list_scope.
Local Open Scope py_scope.
Local Open Scope Q_scope.

(** ** Every fourth entry *)
Lemma every4_spec i n (v : list Q) : (i < 4)%nat -> length v = (4 * n)%nat -> every4 i v = map (fun k => nth (i + 4 * k) v 0) (seq 0 n).
Proof.
  intros I L. unfold every4. rewrite L. replace (4 * n)%nat with (n + 3 * n)%nat by lia. rewrite seq_app, flat_map_app.
  assert (A : flat_map (fun k => match nth_error v (i + 4 * k) with Some x => [x] | None => [] end) (seq (0 + n) (3 * n)) = []).
  { generalize (3 * n)%nat. intros q. assert (X : forall k, In k (seq (0 + n) q) -> (n <= k)%nat) by (intros k J; apply in_seq in J; lia).
    induction (seq (0 + n) q) as [|k l IH]; [reflexivity|]. cbn [flat_map].
    destruct (nth_error v (i + 4 * k)) eqn:E; [|apply IH; intros; apply X; right; assumption].
    exfalso. assert (i + 4 * k < length v)%nat by (apply nth_error_Some; congruence). specialize (X k (or_introl eq_refl)). lia. }
  rewrite A, app_nil_r. assert (X : forall k, In k (seq 0 n) -> (k < n)%nat) by (intros k J; apply in_seq in J; lia).
  induction (seq 0 n) as [|k l IH]; [reflexivity|]. cbn [flat_map map]. rewrite IH by (intros; apply X; right; assumption).
  specialize (X k (or_introl eq_refl)). rewrite (nth_error_nth' v 0) by lia. reflexivity.
Qed.

(** ** Modules by class *)
Notation cn d := (class_name (m_kind (snd d))).
Definition named_by (D : list (mdef Q)) (names : dict string) : Prop :=
  forall c nm, dget c names = Some nm <-> exists i d, nth_error D i = Some d /\ mdef_name d = nm /\ cn d = c.
Definition one_each (D : list (mdef Q)) : Prop :=
  forall i j d d', nth_error D i = Some d -> nth_error D j = Some d' -> cn d = cn d' -> i = j.

Lemma like_class (m m' : module Q) : mod_like m m' -> class_name (m_kind m') = class_name (m_kind m).
Proof. intros [K _ _ _ _ _]. destruct (m_kind m), (m_kind m'); simpl in K; try contradiction; reflexivity. Qed.
Lemma class_name_iff (m m' : module Q) : same_class m m' <-> class_name (m_kind m) = class_name (m_kind m').
Proof. unfold same_class. destruct (m_kind m), (m_kind m'); simpl; split; intros; try tauto; try reflexivity; try discriminate. Qed.

Section Grid.
Variables (D : list (mdef Q)) (mg : mgrid Q).
Hypothesis V : mg_inv D mg.
Hypothesis SEP : names_separate D.

Lemma mod_def i m : at_index mg i m -> exists d, nth_error D i = Some d /\ mod_ok m /\ mod_like (snd d) m.
Proof. intros A. exact (Proofs_Run.Forall2_nth_r _ _ _ _ _ (iv_mods _ _ V) A). Qed.
Lemma def_mod i d : nth_error D i = Some d -> exists m, at_index mg i m /\ mod_ok m /\ mod_like (snd d) m.
Proof. intros E. exact (Proofs_Run.Forall2_nth _ _ _ _ _ (iv_mods _ _ V) E). Qed.
Lemma lookup_none nm : positions nm D = [] -> exists e, ct_lookup (mg_ct mg) nm = Err e.
Proof. intros P. unfold ct_lookup. change (to_dict (subs_all (mg_ct mg))) with (all_dict mg). rewrite (all_view_sep D mg nm V SEP), P. cbn. eexists. reflexivity. Qed.
Lemma lookup_some nm i l : positions nm D = i :: l -> ct_lookup (mg_ct mg) nm = Ok (i :: l).
Proof. intros P. unfold ct_lookup. change (to_dict (subs_all (mg_ct mg))) with (all_dict mg). rewrite (all_view_sep D mg nm V SEP), P. reflexivity. Qed.

Hypothesis ND : NoDup (map mdef_name D).
Lemma item_ok i d m : nth_error D i = Some d -> at_index mg i m -> the_item mg (mdef_name d) = Ok m.
Proof.
  intros E A. unfold the_item. rewrite (lookup_some (mdef_name d) i [] (positions_one D i d ND E)). cbn [rbind]. rewrite A. reflexivity.
Qed.
Lemma item_inv nm m : the_item mg nm = Ok m -> exists i d, nth_error D i = Some d /\ mdef_name d = nm /\ at_index mg i m.
Proof.
  unfold the_item. intros E. apply rbind_ok in E. destruct E as (l & L & E). destruct (positions nm D) as [|i [|j l']] eqn:P.
  - destruct (lookup_none nm P) as (e & X). congruence.
  - rewrite (lookup_some _ _ _ P) in L. injection L as <-. destruct (nth_error (mg_mods mg) i) eqn:A; [|discriminate]. injection E as ->.
    assert (J : In i (positions nm D)) by (rewrite P; left; reflexivity). apply in_positions in J. destruct J as (d & J1 & J2). exists i, d. auto.
  - rewrite (lookup_some _ _ _ P) in L. injection L as <-. discriminate.
Qed.
Lemma by_class_made : one_each D -> exists names, modules_by_class mg = Ok names /\ named_by D names.
Proof.
  intros ONE. unfold modules_by_class.
  assert (F : forall kl, In kl (all_dict mg) -> exists i d, nth_error D i = Some d /\ mdef_name d = fst kl /\
     (let? m := the_item mg (fst kl) in Ok (class_name (m_kind m), fst kl)) = Ok (cn d, fst kl)).
  { intros [nm l] I. apply (all_dict_in D mg nm l V SEP) in I. destruct I as (-> & NE). destruct (positions nm D) as [|i r] eqn:P; [contradiction|].
    assert (J : In i (positions nm D)) by (rewrite P; left; reflexivity). apply in_positions in J. destruct J as (d & J1 & J2). exists i, d. split; [exact J1|]. split; [exact J2|].
    destruct (def_mod i d J1) as (m & A & _ & L). cbn [fst]. rewrite <- J2, (item_ok i d m J1 A). cbn [rbind]. rewrite (like_class _ _ L). reflexivity. }
  assert (R : exists kvs, rmapM (fun kl => let? m := the_item mg (fst kl) in Ok (class_name (m_kind m), fst kl)) (all_dict mg) = Ok kvs
     /\ Forall2 (fun kl kv => exists i d, nth_error D i = Some d /\ mdef_name d = fst kl /\ kv = (cn d, fst kl)) (all_dict mg) kvs).
  { clear - F. induction (all_dict mg) as [|kl dd IH]; [exists []; split; [reflexivity|constructor]|].
    destruct (F kl (or_introl eq_refl)) as (i & d & N & M & E). destruct IH as (kvs & E' & G); [intros; apply F; right; assumption|].
    exists ((cn d, fst kl) :: kvs). cbn [rmapM]. rewrite E. cbn [rbind]. rewrite E'. split; [reflexivity|]. constructor; [eauto|exact G]. }
  destruct R as (kvs & -> & G). exists (dict_of kvs). split; [reflexivity|].
  assert (KV : forall c nm, In (c, nm) kvs <-> exists i d, nth_error D i = Some d /\ mdef_name d = nm /\ cn d = c).
  { intros c nm. split.
    - intros I. clear - G I. induction G as [|kl kv dd kvs (i & d & N & M & ->) G IH]; [destruct I|]. destruct I as [I|I]; [|auto]. injection I as <- <-. eauto.
    - intros (i & d & N & M & C). assert (I : In (nm, positions nm D) (all_dict mg)).
      { apply (all_dict_in D mg nm _ V SEP). split; [reflexivity|]. rewrite <- M, (positions_one D i d ND N). discriminate. }
      clear - G I N M C ND ONE. induction G as [|kl kv dd kvs (i' & d' & N' & M' & ->) G IH]; [destruct I|]. destruct I as [->|I]; [|right; auto]. cbn [fst] in *.
      left. assert (i' = i). { assert (J : In i' (positions nm D)) by (apply in_positions; eauto). rewrite <- M, (positions_one D i d ND N) in J. destruct J as [J|[]]. congruence. }
      subst i'. rewrite N in N'. injection N' as <-. congruence. }
  assert (NDK : NoDup (map fst kvs)).
  { assert (X : NoDup (map snd kvs)).
    { assert (EQ : map snd kvs = map fst (all_dict mg)). { clear - G. induction G as [|kl kv dd kvs (i & d & N & M & ->) G IH]; [reflexivity|]. cbn. congruence. }
      rewrite EQ. apply all_dict_nodup. }
    assert (Y : forall a b, In a kvs -> In b kvs -> fst a = fst b -> snd a = snd b).
    { intros [c1 n1] [c2 n2] I1 I2 E. cbn in E. subst c2. apply KV in I1. apply KV in I2. destruct I1 as (i & d & N & M & C), I2 as (i' & d' & N' & M' & C').
      assert (i = i') by (eapply ONE; eauto; congruence). subst. rewrite N in N'. injection N' as <-. cbn. congruence. }
    clear - X Y. induction kvs as [|[c nm] kvs IH]; [constructor|]. cbn in *. inversion X; subst. constructor.
    - intros I. apply in_map_iff in I. destruct I as ([c' nm'] & E & I). cbn in E. subst c'.
      assert (nm = nm') by (apply (Y (c, nm) (c, nm')); auto). subst. apply H1. apply in_map_iff. exists (c, nm'). auto.
    - apply IH; auto. }
  intros c nm. rewrite (dict_of_NoDup _ NDK), <- KV. split; [apply Proofs_Num.dget_In|apply Proofs_Num.In_dget; exact NDK].
Qed.
Lemma class_ok names i m c : one_each D -> named_by D names -> at_index mg i m -> class_name (m_kind m) = c -> by_class names mg c = Ok m.
Proof.
  intros ONE NB A C. destruct (mod_def i m A) as (d & N & _ & L). unfold by_class, dfind.
  rewrite (proj2 (NB c (mdef_name d))); [cbn [rbind]; exact (item_ok i d m N A)|]. exists i, d. rewrite <- (like_class _ _ L). auto.
Qed.
Lemma class_inv names m c : named_by D names -> by_class names mg c = Ok m -> exists i, at_index mg i m /\ class_name (m_kind m) = c.
Proof.
  intros NB E. unfold by_class in E. apply rbind_ok in E. destruct E as (nm & E1 & E2). apply dfind_ok in E1. apply NB in E1. destruct E1 as (i & d & N & M & C).
  destruct (item_inv nm m E2) as (j & d' & N' & M' & A). assert (i = j). { assert (J : In j (positions nm D)) by (apply in_positions; eauto). rewrite <- M, (positions_one D i d ND N) in J. destruct J as [J|[]]. exact J. }
  subst j. rewrite N in N'. injection N' as <-. exists i. split; [exact A|]. destruct (mod_def i m A) as (d' & N' & _ & L). rewrite N in N'. injection N' as <-. rewrite (like_class _ _ L). exact C.
Qed.
Lemma class_key names c : named_by D names -> (str_in c (dkeys names) = true <-> exists i m, at_index mg i m /\ class_name (m_kind m) = c).
Proof.
  intros NB. unfold str_in. rewrite existsb_exists. split.
  - intros (x & I & E). apply String.eqb_eq in E. subst x. unfold dkeys in I. apply in_map_iff in I. destruct I as ([c' nm] & E & I). cbn in E. subst c'.
    destruct (dget c names) as [nm'|] eqn:G; [|exfalso; apply (Proofs_Num.dget_None c names) in G; apply G; apply in_map_iff; exists (c, nm); auto].
    apply NB in G. destruct G as (i & d & N & M & C). destruct (def_mod i d N) as (m & A & _ & L). exists i, m. split; [exact A|]. rewrite (like_class _ _ L). exact C.
  - intros (i & m & A & C). destruct (mod_def i m A) as (d & N & _ & L). exists c. split; [|apply String.eqb_refl].
    assert (G : dget c names = Some (mdef_name d)) by (apply NB; exists i, d; rewrite <- (like_class _ _ L); auto). apply Proofs_Num.dget_In in G. unfold dkeys. apply in_map_iff. eexists. split; [|exact G]. reflexivity.
Qed.
Lemma battery_item_iff b : battery_item mg = Ok b <-> named_battery D mg b.
Proof.
  unfold battery_item, named_battery. split.
  - intros E. destruct (ct_lookup (mg_ct mg) "battery"); [|discriminate]. apply rbind_ok in E. destruct E as (m & E & K). destruct (item_inv _ _ E) as (i & d & N & M & A).
    exists i, d, m. conj; auto. destruct (m_kind m); try discriminate. congruence.
  - intros (i & d & m & N & M & A & K). rewrite <- M. rewrite (lookup_some _ _ _ (positions_one D i d ND N)), (item_ok i d m N A). cbn [rbind]. rewrite K. reflexivity.
Qed.
End Grid.
