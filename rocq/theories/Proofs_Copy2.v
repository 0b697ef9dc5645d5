(** * When a modular microgrid can be converted, and what the copy contains *)

From Coq Require Import ZArith QArith Qabs Qminmax Bool String List Lia Lqa Permutation.
From Verif Require Import Num Py Space Logger Forecast Module Container Microgrid NonModular Conversion
  Proofs_Num Proofs_Logger Spec_Module Spec_Reach Proofs_Module Proofs_Ts Proofs_Any
  Spec_Microgrid Proofs_Container Proofs_Run Proofs_Mgrid Proofs_Views Proofs_Data
  Proofs_Build Proofs_MgProps Proofs_Obs Proofs_Episode Proofs_RbcRun Proofs_Priority Spec_NonModular Proofs_NonModular Proofs_NmEpisode Proofs_NmTotal
  Spec_Conversion Proofs_Twin Proofs_Copy.
Import ListNotations.
Local Open Scope string_scope.
Local Open Scope list_scope.
Local Open Scope py_scope.
Local Open Scope Q_scope.
Notation cls m := (class_of (m_kind m)).
Notation classes ms := (map (fun y : module Q => class_of (m_kind y)) ms).

(** ** Classes *)
Lemma same_class_iff (m m' : module Q) : same_class m m' <-> cls m = cls m'.
Proof. unfold same_class. destruct (m_kind m), (m_kind m'); simpl; split; intros; try tauto; try reflexivity; try discriminate. Qed.
Lemma is_load_iff (m : module Q) : is_load m <-> cls m = 0%nat.
Proof. unfold is_load. destruct (m_kind m); simpl; split; intros H; try discriminate; eauto; destruct H; discriminate. Qed.
Lemma is_renewable_iff (m : module Q) : is_renewable m <-> cls m = 1%nat.
Proof. unfold is_renewable. destruct (m_kind m); simpl; split; intros H; try discriminate; eauto; destruct H; discriminate. Qed.
Lemma is_battery_iff (m : module Q) : is_battery m <-> cls m = 2%nat.
Proof. unfold is_battery. destruct (m_kind m); simpl; split; intros H; try discriminate; eauto; destruct H; discriminate. Qed.
Lemma is_grid_iff (m : module Q) : is_grid m <-> cls m = 3%nat.
Proof. unfold is_grid. destruct (m_kind m); simpl; split; intros H; try discriminate; eauto; destruct H as (? & ? & H); discriminate. Qed.
Lemma is_a_genset_iff (m : module Q) : is_a_genset m <-> cls m = 4%nat.
Proof. unfold is_a_genset. destruct (m_kind m); simpl; split; intros H; try discriminate; eauto; destruct H; discriminate. Qed.
Lemma is_unbalanced_iff (m : module Q) : is_unbalanced m <-> cls m = 5%nat.
Proof. unfold is_unbalanced. destruct (m_kind m); simpl; split; intros H; try discriminate; eauto; destruct H; discriminate. Qed.

Lemma count_count c (ms : list (module Q)) : class_count c ms = count_occ Nat.eq_dec (classes ms) c.
Proof.
  unfold class_count. induction ms as [|m ms IH]; simpl; [reflexivity|].
  destruct (Nat.eqb_spec (cls m) c) as [E|E]; destruct (Nat.eq_dec (cls m) c); try contradiction; simpl; rewrite IH; reflexivity.
Qed.
Lemma no_conflict (ms : list (module Q)) : existsb (fun c => Nat.ltb 1 (class_count c ms)) (seq 0 6) = false <-> NoDup (classes ms).
Proof.
  rewrite (NoDup_count_occ Nat.eq_dec). split.
  - intros E c. rewrite <- count_count. destruct (Nat.ltb_spec c 6) as [L|L].
    + destruct (Nat.ltb 1 (class_count c ms)) eqn:B; [|apply Nat.ltb_ge in B; exact B].
      exfalso. assert (X : existsb (fun c => Nat.ltb 1 (class_count c ms)) (seq 0 6) = true) by (apply existsb_exists; exists c; split; [apply in_seq; lia|exact B]). congruence.
    + rewrite count_count. assert (X : count_occ Nat.eq_dec (classes ms) c = 0%nat); [|lia]. apply count_occ_not_In. intros I.
      apply in_map_iff in I. destruct I as (m & E1 & _). pose proof (cls_bound m). lia.
  - intros F. apply not_true_iff_false. intros E. apply existsb_exists in E. destruct E as (c & _ & B). apply Nat.ltb_lt in B.
    rewrite count_count in B. specialize (F c). lia.
Qed.
Lemma one_load (ms : list (module Q)) : NoDup (classes ms) -> (Nat.eqb (class_count 0 ms) 1 = true <-> exists m, In m ms /\ is_load m).
Proof.
  intros N. rewrite Nat.eqb_eq, count_count. pose proof (proj1 (NoDup_count_occ Nat.eq_dec _) N 0%nat) as L. split.
  - intros E. assert (I : In 0%nat (classes ms)) by (apply (count_occ_In Nat.eq_dec); lia). apply in_map_iff in I. destruct I as (m & X & I). exists m. split; [exact I|]. apply is_load_iff. exact X.
  - intros (m & I & K). apply is_load_iff in K. assert (J : In 0%nat (classes ms)) by (apply in_map_iff; eauto). apply (count_occ_In Nat.eq_dec) in J. lia.
Qed.

(** ** check_viability *)
Definition pick (mg : mgrid Q) (kl : string * list nat) : res (module Q) :=
  match snd kl with
  | [i] => match nth_error (mg_mods mg) i with Some m => Ok m | None => raise KeyError "no such module" end
  | [] => raise IndexError "list index out of range"
  | _ => raise ValueError "multiple modules of same type"
  end.
Lemma rmapM_raises {A B} (f : A -> res B) cl l : (forall a, In a l -> (exists b, f a = Ok b) \/ raises cl (f a)) ->
  (exists a, In a l /\ raises cl (f a)) -> raises cl (rmapM f l).
Proof.
  induction l as [|a l IH]; intros F (x & I & X); [destruct I|]. cbn [rmapM].
  destruct (F a (or_introl eq_refl)) as [(b & E)|(e & E & C)].
  - rewrite E. cbn [rbind]. destruct I as [->|I]; [destruct X as (e & X & _); congruence|].
    destruct IH as (e & -> & C); [intros y J; apply F; right; exact J|eauto|]. exists e. split; [reflexivity|exact C].
  - rewrite E. exists e. split; [reflexivity|exact C].
Qed.
Lemma seq_all (mods : list (module Q)) l' : Forall2 (fun i m => nth_error mods i = Some m) (seq 0 (length mods)) l' -> l' = mods.
Proof.
  intros F. assert (X : forall a b l, mods = a ++ b -> Forall2 (fun i m => nth_error mods i = Some m) (seq (length a) (length b)) l -> l = b).
  { intros a b. revert a. induction b as [|m b IH]; intros a l E G; simpl in G; inversion G; subst; [reflexivity|].
    f_equal.
    - rewrite nth_error_app2, Nat.sub_diag in H1 by lia. simpl in H1. congruence.
    - apply (IH (a ++ [m])); [rewrite <- app_assoc; reflexivity|]. rewrite app_length. simpl. rewrite Nat.add_1_r. exact H3. }
  apply (X [] mods); [reflexivity|exact F].
Qed.
Lemma D_mods D (mg : mgrid Q) : mg_inv D mg -> length (mg_mods mg) = length D.
Proof. intros I. symmetry. eapply Forall2_length, (iv_mods _ _ I). Qed.
Lemma picked_perm D (mg : mgrid Q) ms : mg_inv D mg -> names_separate D -> rmapM (pick mg) (all_dict mg) = Ok ms ->
  Permutation ms (mg_mods mg).
Proof.
  intros I S E. apply rmapM_ok in E.
  assert (F : Forall2 (fun i m => nth_error (mg_mods mg) i = Some m) (dict_ids mg) ms).
  { unfold dict_ids. induction E as [|kl m d l P E IH]; simpl; [constructor|]. unfold pick in P. destruct (snd kl) as [|i [|j r]]; try discriminate.
    destruct (nth_error (mg_mods mg) i) eqn:Z; [|discriminate]. simpl. constructor; [congruence|exact IH]. }
  destruct (Permutation_Forall2 (dict_ids_perm D mg I S) F) as (l' & P & G). rewrite <- (D_mods D mg I) in G. apply seq_all in G. subst l'. exact P.
Qed.
Lemma pick_cases D (mg : mgrid Q) kl : mg_inv D mg -> names_separate D -> In kl (all_dict mg) ->
  (exists m, pick mg kl = Ok m) \/ raises ValueError (pick mg kl).
Proof.
  intros I S J. destruct kl as [nm l]. apply (all_dict_in D mg nm l I S) in J. destruct J as (L & NE). unfold pick. cbn [snd].
  destruct l as [|i [|j r]]; [contradiction| |right; eexists; split; reflexivity].
  left. assert (X : In i (positions nm D)) by (rewrite <- L; left; reflexivity). apply in_positions in X. destruct X as (d & Z & _).
  assert (B : (i < length (mg_mods mg))%nat) by (rewrite (D_mods D mg I); apply nth_error_Some; congruence).
  apply nth_error_Some in B. destruct (nth_error (mg_mods mg) i); [eauto|congruence].
Qed.
Lemma NoDup_positions (D : list (mdef Q)) : NoDup (map mdef_name D) <-> (forall nm i j, In i (positions nm D) -> In j (positions nm D) -> i = j).
Proof.
  split.
  - intros N nm i j A B. apply in_positions in A. apply in_positions in B. destruct A as (d & A & E1), B as (d' & B & E2).
    assert (L : (i < length (map mdef_name D))%nat) by (rewrite map_length; apply nth_error_Some; congruence).
    apply (proj1 (NoDup_nth_error _) N i j L). rewrite !nth_error_map, A, B. simpl. congruence.
  - intros F. apply NoDup_nth_error. intros i j L E. rewrite map_length in L. apply nth_error_Some in L.
    destruct (nth_error D i) as [d|] eqn:A; [|congruence]. rewrite !nth_error_map, A in E. destruct (nth_error D j) as [d'|] eqn:B; [|discriminate].
    simpl in E. apply (F (mdef_name d)); apply in_positions; [exists d; auto|exists d'; split; [exact B|congruence]].
Qed.
Lemma not_nodup (l : list string) : ~ NoDup l -> exists i j x, i <> j /\ nth_error l i = Some x /\ nth_error l j = Some x.
Proof.
  induction l as [|a l IH]; intros N; [exfalso; apply N; constructor|].
  destruct (in_dec String.string_dec a l) as [I|I].
  - apply In_nth_error in I. destruct I as (n & E). exists 0%nat, (S n), a. conj; [lia|reflexivity|exact E].
  - destruct IH as (i & j & x & NE & A & B); [intros M; apply N; constructor; assumption|].
    exists (S i), (S j), x. conj; [congruence|exact A|exact B].
Qed.
Lemma picks D (mg : mgrid Q) : mg_inv D mg -> names_separate D ->
  (NoDup (map mdef_name D) -> exists ms, rmapM (pick mg) (all_dict mg) = Ok ms)
  /\ (~ NoDup (map mdef_name D) -> raises ValueError (rmapM (pick mg) (all_dict mg))).
Proof.
  intros I S. split.
  - intros N. assert (F : forall kl, In kl (all_dict mg) -> exists m, pick mg kl = Ok m).
    { intros [nm l] J. destruct (pick_cases D mg (nm, l) I S J) as [X|X]; [exact X|]. exfalso.
      apply (all_dict_in D mg nm l I S) in J. destruct J as (L & NE). destruct l as [|i [|j r]]; [contradiction| |].
      - destruct X as (e & X & C). unfold pick in X. cbn [snd] in X. destruct (nth_error (mg_mods mg) i); [discriminate|].
        injection X as <-. discriminate.
      - assert (i = j) by (apply (proj1 (NoDup_positions D) N nm); rewrite <- L; simpl; auto). subst j.
        assert (ND : NoDup (i :: i :: r)). { rewrite L. apply Proofs_Priority.positions_nodup. }
        inversion ND as [|? ? Z _]. apply Z. left. reflexivity. }
    clear - F. induction (all_dict mg) as [|kl d IH]; [exists []; reflexivity|]. destruct (F kl (or_introl eq_refl)) as (m & E).
    destruct IH as (ms & E2); [intros; apply F; right; assumption|]. exists (m :: ms). cbn [rmapM]. rewrite E. cbn [rbind]. rewrite E2. reflexivity.
  - intros N. apply rmapM_raises; [intros kl J; apply (pick_cases D); assumption|].
    assert (X : exists nm i j, In i (positions nm D) /\ In j (positions nm D) /\ i <> j).
    { destruct (not_nodup _ N) as (i & j & x & NE & A & B). rewrite nth_error_map in A, B.
      destruct (nth_error D i) as [d|] eqn:EA; [|discriminate]. destruct (nth_error D j) as [d'|] eqn:EB; [|discriminate]. simpl in A, B.
      exists x, i, j. conj; [apply in_positions; exists d; split; congruence|apply in_positions; exists d'; split; congruence|exact NE]. }
    destruct X as (nm & i & j & A & B & NE). exists (nm, positions nm D). split.
    + apply (all_dict_in D mg nm _ I S). split; [reflexivity|]. intros Z. rewrite Z in A. destruct A.
    + unfold pick. cbn [snd]. destruct (positions nm D) as [|a [|b r]]; [destruct A| |eexists; split; reflexivity].
      exfalso. apply NE. destruct A as [<-|[]], B as [<-|[]]. reflexivity.
Qed.
