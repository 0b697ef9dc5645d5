(** * Construction of a microgrid: step windows, containers, names *)

From Coq Require Import ZArith QArith Qabs Bool String List Lia Lqa Permutation.
From Verif Require Import Num Py Space Logger Forecast Module Container Microgrid
  Proofs_Num Proofs_Logger Spec_Module Spec_Reach Proofs_Module Proofs_Ts Proofs_Any Proofs_Request
  Proofs_Data Proofs_Classes Spec_Microgrid Proofs_Container Proofs_Run Proofs_Balance Proofs_Mgrid Proofs_Views
  Proofs_MgProps Proofs_MgProps2.
Import ListNotations.
Local Open Scope string_scope.
Local Open Scope list_scope.

(** ** [get_attrs(unique=True)] *)
Lemma uniq_one (l : list Z) a : uniq_vals Z.eqb l = [a] -> forall b, In b l -> b = a.
Proof.
  destruct l as [|x l]; simpl; [discriminate|]. intros E b I. injection E as -> E.
  destruct I as [<-|I]; [reflexivity|].
  destruct (Z.eqb a b) eqn:Q; [apply Z.eqb_eq in Q; auto|].
  assert (J : In b (uniq_vals Z.eqb l)).
  { clear - I. induction l as [|y l IH]; [destruct I|]. simpl. destruct (Z.eqb y b) eqn:Q.
    - apply Z.eqb_eq in Q. auto.
    - destruct I as [->|I]; [auto|]. right. apply filter_In. split; [auto|]. rewrite Q. reflexivity. }
  assert (In b (filter (fun b => negb (Z.eqb a b)) (uniq_vals Z.eqb l))) by (apply filter_In; rewrite Q; auto).
  rewrite E in H. destruct H.
Qed.
Lemma uniq_all (l : list Z) a : l <> [] -> (forall b, In b l -> b = a) -> uniq_vals Z.eqb l = [a].
Proof.
  destruct l as [|x l]; [congruence|]. intros _ H. simpl. rewrite (H x) by (simpl; auto). f_equal.
  assert (K : forall b, In b (uniq_vals Z.eqb l) -> b = a).
  { intros b I. apply H. right. clear - I. induction l as [|y l IH]; [destruct I|]. simpl in *.
    destruct I as [->|I]; [auto|]. apply filter_In in I. right. apply IH. tauto. }
  clear H. induction (uniq_vals Z.eqb l) as [|b l' IH]; [reflexivity|]. simpl. rewrite (K b) by (simpl; auto).
  rewrite Z.eqb_refl. simpl. apply IH. intros. apply K. simpl. auto.
Qed.

Section Attr.
Variable attr : module Q -> option Z.
Variables (ids : list nat) (ms : list (module Q)).
Hypothesis IN : forall i, In i ids -> exists m, nth_error ms i = Some m.
Let shown (m : module Q) := exists i, In i ids /\ nth_error ms i = Some m.

Definition attr_vals : list (option Z) :=
  concat (map (fun i => match nth_error ms i with Some m => [attr m] | None => [] end) ids).
Definition attr_some : list Z := concat (map (fun o => match o with Some a => [a] | None => [] end) attr_vals).
Lemma attr_some_in a : In a attr_some <-> exists m, shown m /\ attr m = Some a.
Proof.
  unfold attr_some, attr_vals. rewrite in_concat. split.
  - intros (l & I & J). apply in_map_iff in I. destruct I as (o & <- & I).
    apply in_concat in I. destruct I as (l & I & K). apply in_map_iff in I. destruct I as (i & <- & I).
    destruct (nth_error ms i) as [m|] eqn:N; [|destruct K]. destruct K as [<-|[]].
    exists m. split; [exists i; auto|]. destruct (attr m); [destruct J as [->|[]]; auto|destruct J].
  - intros (m & (i & I & N) & A). exists [a]. split; [|simpl; auto]. apply in_map_iff. exists (Some a).
    split; [reflexivity|]. apply in_concat. exists [Some a]. split; [|simpl; auto].
    apply in_map_iff. exists i. rewrite N, A. auto.
Qed.
Lemma attr_vals_nil : attr_vals = [] <-> ids = [].
Proof.
  unfold attr_vals. destruct ids as [|i l]; [simpl; tauto|]. destruct (IN i) as (m & N); [simpl; auto|].
  simpl. rewrite N. simpl. split; discriminate.
Qed.
Lemma attr_cases :
  let r := get_attr_unique Z.eqb attr ids ms in
  match r with
  | Ok None => ids = []
  | Ok (Some a) => (exists m, shown m /\ attr m = Some a)
                   /\ forall m b, shown m -> attr m = Some b -> b = a
  | Err e => ids <> []
      /\ ((ex_class e = AttributeError /\ forall m, shown m -> attr m = None)
          \/ (ex_class e = ValueError /\ exists m m' b b', shown m /\ shown m' /\ attr m = Some b
                /\ attr m' = Some b' /\ b <> b'))
  end.
Proof.
  unfold get_attr_unique. change (concat (map (fun i => match nth_error ms i with
                                    | Some m => [attr m]
                                    | None => []
                                    end) ids)) with attr_vals.
  pose proof attr_vals_nil as VN. pose proof attr_some_in as SI.
  destruct attr_vals as [|v0 vs] eqn:Q; [apply VN; reflexivity|].
  rewrite <- Q. change (concat (map (fun o => match o with Some a => [a] | None => [] end) attr_vals)) with attr_some.
  assert (NE : ids <> []) by (intros C; apply VN in C; discriminate).
  destruct (uniq_vals Z.eqb attr_some) as [|a [|b l]] eqn:U.
  - split; [exact NE|]. left. split; [reflexivity|]. intros m S. destruct (attr m) as [a|] eqn:A; [|reflexivity].
    assert (I : In a attr_some) by (apply SI; eauto). destruct attr_some; [destruct I|discriminate].
  - split.
    + apply SI. destruct attr_some as [|x l]; [discriminate|]. simpl in U. inversion U; subst. simpl. auto.
    + intros m b S B. eapply uniq_one; [exact U|]. apply SI. eauto.
  - split; [exact NE|]. right. split; [reflexivity|].
    assert (Hd : forall x, In x attr_some -> x = a \/ exists y, In y attr_some /\ y <> x) by
      (intros x I; destruct (Z.eq_dec x a); [auto|right; exists a; split; [|auto];
        destruct attr_some; [destruct I|]; simpl in U; inversion U; subst; simpl; auto]).
    assert (EX : exists x y, In x attr_some /\ In y attr_some /\ x <> y).
    { destruct (Forall_Exists_dec (fun x => x = a) (fun x => Z.eq_dec x a) attr_some) as [AL|EX].
      - exfalso. assert (NN : attr_some <> []) by (intros C; rewrite C in U; discriminate).
        rewrite Forall_forall in AL. rewrite (uniq_all _ _ NN AL) in U. discriminate.
      - apply Exists_exists in EX. destruct EX as (x & I & N). destruct (Hd x I) as [C|(y & Iy & Ny)]; [tauto|].
        exists x, y. auto. }
    destruct EX as (x & y & X & Y & N). apply SI in X, Y. destruct X as (m & Sm & Am), Y as (m' & Sm' & Am').
    exists m, m', x, y. auto.
Qed.
End Attr.

(** ** The microgrid before its step window is known *)
Lemma placed_inv D c ms i f sh tr n :
  Forall (fun d => mod_ok (snd d)) D -> get_subcontainers 0 D ct_empty = (c, ms) ->
  mg_inv D (@mkMgrid Q ms c i f sh tr n logger_empty logger_empty).
Proof.
  intros R G. constructor; simpl.
  - intros nm k. rewrite (get_subcontainers_get _ _ _ _ _ G nm k). destruct k as [[] []]; reflexivity.
  - eapply get_subcontainers_nodup; [exact G|apply ct_nodup_empty].
  - unfold all_ids. simpl. pose proof (get_subcontainers_perm _ _ _ _ _ G) as P. simpl in P.
    rewrite app_nil_r in P. exact P.
  - destruct (get_subcontainers_mods _ _ _ _ _ G) as [L N].
    apply Forall2_nth_intro; [auto|]. intros k d m Hd Hm.
    specialize (N _ _ Hd). rewrite N in Hm. inversion Hm; subst.
    rewrite Forall_forall in R. apply set_name_likes. apply R. eapply nth_error_In; eauto.
  - apply bal_ok_empty.
  - reflexivity.
Qed.

(** All modules are shown when names are separate. *)
Lemma shown_all D g m : mg_inv D g -> names_separate D ->
  (exists i, In i (dict_ids g) /\ nth_error (mg_mods g) i = Some m) <-> In m (mg_mods g).
Proof.
  intros V S. pose proof (dict_ids_perm _ _ V S) as P. split.
  - intros (i & _ & N). eapply nth_error_In; eauto.
  - intros I. apply In_nth_error in I. destruct I as (i & N). exists i. split; [|exact N].
    eapply Permutation_in; [apply Permutation_sym; exact P|]. apply in_seq. split; [lia|].
    assert (LL : length D = length (mg_mods g)) by exact (Forall2_length _ _ _ (iv_mods _ _ V)).
    rewrite LL. simpl. apply nth_error_Some. congruence.
Qed.
Lemma dict_ids_in D g i : mg_inv D g -> In i (dict_ids g) -> exists m, nth_error (mg_mods g) i = Some m.
Proof.
  intros V I. unfold dict_ids in I. rewrite all_dict_view in I.
  destruct (view_ids_in D g V _ _ I) as (df & N & _). destruct (iv_nth _ _ _ _ V N) as (m & Nm & _). eauto.
Qed.

(** Attributes right after placing the modules. *)
Lemma placed_attr D c ms m (A : Type) (attr : module Q -> A) :
  get_subcontainers 0 D ct_empty = (c, ms) -> (forall m nn, attr (set_name m nn) = attr m) ->
  In m ms -> exists d, In d D /\ attr (snd d) = attr m.
Proof.
  intros G H I. destruct (get_subcontainers_mods _ _ _ _ _ G) as [L N].
  apply In_nth_error in I. destruct I as (k & I).
  destruct (nth_error D k) as [d|] eqn:Nd.
  - specialize (N _ _ Nd). rewrite N in I. inversion I; subst. exists d. split; [eapply nth_error_In; eauto|].
    rewrite H. reflexivity.
  - apply nth_error_None in Nd. assert (k < length ms)%nat by (apply nth_error_Some; congruence). lia.
Qed.
Lemma placed_attr_inv D c ms d (A : Type) (attr : module Q -> A) :
  get_subcontainers 0 D ct_empty = (c, ms) -> (forall m nn, attr (set_name m nn) = attr m) ->
  In d D -> exists m, In m ms /\ attr m = attr (snd d).
Proof.
  intros G H I. destruct (get_subcontainers_mods _ _ _ _ _ G) as [L N].
  apply In_nth_error in I. destruct I as (k & I). specialize (N _ _ I).
  eexists. split; [eapply nth_error_In; exact N|]. apply H.
Qed.
Lemma final_attr_step (m : module Q) : final_attr m = final_step m.
Proof. unfold final_attr, final_step. destruct (kind_ts (m_kind m)); reflexivity. Qed.

(** ** C35 *)
Section Built.
Variables (ds : list (mdef Q)) (add : bool) (lossc overc : Q) (sh : option (shaper Q)).
Hypothesis R : Forall (fun d => reachable (snd d)) ds.
Let D := all_defs ds add lossc overc.
Hypothesis SEP : names_separate D.

Lemma built_agree tr g : new_microgrid ds add lossc overc sh tr = Ok g ->
  forall d, In d D -> m_init (snd d) = mg_initial g
    /\ forall f, final_step (snd d) = Some f -> mg_final g = Some f.
Proof.
  intros B d I. destruct (new_microgrid_inv _ _ _ _ _ _ _ B) as (c & ms & G & CT & MS & _ & _ & _ & _ & GI & GF & _).
  pose proof (mbuilt_inv _ _ _ _ _ _ _ (conj R B)) as V. fold D in V, G.
  assert (IN : forall i, In i (dict_ids g) -> exists m, nth_error (mg_mods g) i = Some m) by
    (intros; eapply dict_ids_in; eauto).
  split.
  - destruct (placed_attr_inv D c ms d Z m_init G (fun _ _ => eq_refl) I) as (m & Im & <-).
    unfold get_module_initial_step in GI.
    pose proof (attr_cases (fun m => Some (m_init m)) _ _ IN) as AC. simpl in AC.
    destruct (get_attr_unique Z.eqb (fun m => Some (m_init m)) (dict_ids g) (mg_mods g)) as [[a|]|e]; simpl in GI; inversion GI; subst.
    + destruct AC as [_ AC]. apply (AC m); [|reflexivity]. apply (shown_all _ _ _ V SEP). exact Im.
    + rewrite <- (shown_all _ _ _ V SEP) in Im. destruct Im as (i & Ii & _). rewrite AC in Ii. destruct Ii.
  - intros f F. unfold get_module_final_step in GF.
    destruct (placed_attr_inv D c ms d (option Z) final_attr G (fun _ _ => eq_refl) I) as (m & Im & Fm).
    rewrite (final_attr_step (snd d)), F in Fm.
    pose proof (attr_cases final_attr _ _ IN) as AC. simpl in AC.
    rewrite GF in AC. subst ms. rewrite <- (shown_all _ _ _ V SEP) in Im.
    destruct (mg_final g) as [x|].
    + destruct AC as [_ AC]. rewrite (AC m f); auto.
    + destruct Im as (i & Ii & _). rewrite AC in Ii. destruct Ii.
Qed.

Lemma built_raises tr :
  (forall d d', In d D -> In d' D -> m_init (snd d) <> m_init (snd d') ->
     raises ValueError (new_microgrid ds add lossc overc sh tr))
  /\ (forall d d' f f', In d D -> In d' D -> (forall d1 d2, In d1 D -> In d2 D -> m_init (snd d1) = m_init (snd d2)) ->
     final_step (snd d) = Some f -> final_step (snd d') = Some f' -> f <> f' ->
     raises ValueError (new_microgrid ds add lossc overc sh tr))
  /\ (D <> [] -> (forall d1 d2, In d1 D -> In d2 D -> m_init (snd d1) = m_init (snd d2)) ->
      (forall d, In d D -> final_step (snd d) = None) ->
     raises AttributeError (new_microgrid ds add lossc overc sh tr)).
Proof.
  assert (OK := all_defs_ok _ add lossc overc R). fold D in OK.
  unfold new_microgrid. fold (all_defs ds add lossc overc). fold D.
  destruct (get_subcontainers 0 D ct_empty) as [c ms] eqn:G.
  set (g0 := mkMgrid ms c 0 None sh tr 0 logger_empty logger_empty).
  pose proof (placed_inv D c ms 0 None sh tr 0 OK G) as V. fold g0 in V.
  assert (IN : forall i, In i (dict_ids g0) -> exists m, nth_error ms i = Some m) by
    (intros i Ii; exact (dict_ids_in D g0 i V Ii)).
  pose proof (attr_cases (fun m => Some (m_init m)) _ _ IN) as AI. cbv zeta in AI.
  pose proof (attr_cases final_attr _ _ IN) as AF. cbv zeta in AF.
  assert (SH : forall m, (exists i, In i (dict_ids g0) /\ nth_error ms i = Some m) <-> In m ms)
    by (intros; exact (shown_all _ _ m V SEP)).
  assert (AGREE : (forall d1 d2, In d1 D -> In d2 D -> m_init (snd d1) = m_init (snd d2)) ->
            exists i, get_module_initial_step g0 = Ok i).
  { intros H. unfold get_module_initial_step. change (mg_mods g0) with ms.
    destruct (get_attr_unique Z.eqb (fun m => Some (m_init m)) (dict_ids g0) ms) as [[a|]|e]; simpl; [eauto|eauto|].
    exfalso. destruct AI as (NE & [(_ & AI)|(_ & m & m' & b & b' & S & S' & B & B' & N)]).
    - destruct (dict_ids g0) as [|i l]; [tauto|]. destruct (IN i) as (m & Nm); [simpl; auto|].
      assert (C : Some (m_init m) = None) by (apply AI; exists i; simpl; auto). discriminate.
    - apply SH in S, S'. destruct (placed_attr D c ms m Z m_init G (fun _ _ => eq_refl) S) as (d1 & I1 & E1).
      destruct (placed_attr D c ms m' Z m_init G (fun _ _ => eq_refl) S') as (d2 & I2 & E2).
      apply N. inversion B; inversion B'; subst. rewrite <- E1, <- E2. auto. }
  conj.
  - intros d d' I I' N.
    destruct (placed_attr_inv D c ms d Z m_init G (fun _ _ => eq_refl) I) as (m & Im & E).
    destruct (placed_attr_inv D c ms d' Z m_init G (fun _ _ => eq_refl) I') as (m' & Im' & E').
    apply SH in Im, Im'. unfold get_module_initial_step. change (mg_mods g0) with ms.
    destruct (get_attr_unique Z.eqb (fun m => Some (m_init m)) (dict_ids g0) ms) as [[a|]|e]; simpl.
    + destruct AI as [_ AI]. exfalso. apply N. rewrite <- E, <- E'.
      transitivity a; [apply (AI m); auto|symmetry; apply (AI m'); auto].
    + destruct Im as (i & Ii & _). rewrite AI in Ii. destruct Ii.
    + destruct AI as (_ & [(_ & AI)|(C & _)]).
      * specialize (AI m Im). discriminate.
      * exists e. auto.
  - intros d d' f f' I I' H F F' N. destruct (AGREE H) as (i & ->). simpl.
    destruct (placed_attr_inv D c ms d _ final_attr G (fun _ _ => eq_refl) I) as (m & Im & E).
    destruct (placed_attr_inv D c ms d' _ final_attr G (fun _ _ => eq_refl) I') as (m' & Im' & E').
    rewrite (final_attr_step (snd d)), F in E. rewrite (final_attr_step (snd d')), F' in E'.
    apply SH in Im, Im'. unfold get_module_final_step. change (mg_mods g0) with ms.
    destruct (get_attr_unique Z.eqb final_attr (dict_ids g0) ms) as [[a|]|e]; simpl.
    + destruct AF as [_ AF]. exfalso. apply N. transitivity a; [apply (AF m); auto|symmetry; apply (AF m'); auto].
    + destruct Im as (j & Ij & _). rewrite AF in Ij. destruct Ij.
    + destruct AF as (_ & [(_ & AF)|(C & _)]).
      * specialize (AF m Im). congruence.
      * exists e. auto.
  - intros NE H F. destruct (AGREE H) as (i & ->). simpl. unfold get_module_final_step. change (mg_mods g0) with ms.
    destruct (get_attr_unique Z.eqb final_attr (dict_ids g0) ms) as [[a|]|e]; simpl.
    + exfalso. destruct AF as [(m & S & A) _]. apply SH in S.
      destruct (placed_attr D c ms m _ final_attr G (fun _ _ => eq_refl) S) as (d & Id & E).
      rewrite A, final_attr_step, (F d Id) in E. discriminate.
    + exfalso. assert (ED : exists d, In d D) by (clearbody D; destruct D as [|d D']; [tauto|exists d; simpl; auto]).
      destruct ED as (d & Id).
      destruct (placed_attr_inv D c ms d Z m_init G (fun _ _ => eq_refl) Id) as (m & Im & _).
      apply SH in Im. destruct Im as (j & Ij & _). rewrite AF in Ij. destruct Ij.
    + destruct AF as (_ & [(C & _)|(_ & m & m' & b & b' & S & _ & B & _)]); [exists e; auto|].
      exfalso. apply SH in S. destruct (placed_attr D c ms m _ final_attr G (fun _ _ => eq_refl) S) as (d & Id & E).
      rewrite B, final_attr_step, (F d Id) in E. discriminate.
Qed.

Lemma built_accepts :
  (forall d1 d2, In d1 D -> In d2 D -> m_init (snd d1) = m_init (snd d2)) ->
  (forall d1 d2 f1 f2, In d1 D -> In d2 D -> final_step (snd d1) = Some f1 -> final_step (snd d2) = Some f2 -> f1 = f2) ->
  (exists d, In d D /\ final_step (snd d) <> None) ->
  exists g, new_microgrid ds add lossc overc sh None = Ok g.
Proof.
  assert (OK := all_defs_ok _ add lossc overc R). fold D in OK.
  unfold new_microgrid. fold (all_defs ds add lossc overc). fold D.
  destruct (get_subcontainers 0 D ct_empty) as [c ms] eqn:G.
  set (g0 := mkMgrid ms c 0 None sh None 0 logger_empty logger_empty).
  pose proof (placed_inv D c ms 0 None sh None 0 OK G) as V. fold g0 in V.
  assert (IN : forall i, In i (dict_ids g0) -> exists m, nth_error ms i = Some m) by
    (intros i Ii; exact (dict_ids_in D g0 i V Ii)).
  pose proof (attr_cases (fun m => Some (m_init m)) _ _ IN) as AI. cbv zeta in AI.
  pose proof (attr_cases final_attr _ _ IN) as AF. cbv zeta in AF.
  assert (SH : forall m, (exists i, In i (dict_ids g0) /\ nth_error ms i = Some m) <-> In m ms)
    by (intros; exact (shown_all _ _ m V SEP)).
  intros HI HF (d & Id & Fd).
  unfold get_module_initial_step, get_module_final_step. change (mg_mods g0) with ms.
  destruct (get_attr_unique Z.eqb (fun m => Some (m_init m)) (dict_ids g0) ms) as [a|e]; simpl.
  - destruct (get_attr_unique Z.eqb final_attr (dict_ids g0) ms) as [f|e]; simpl; [eauto|]. exfalso.
    destruct AF as (_ & [(_ & AF)|(_ & m & m' & b & b' & S & S' & B & B' & N)]).
    + destruct (placed_attr_inv D c ms d _ final_attr G (fun _ _ => eq_refl) Id) as (m & Im & E).
      apply SH in Im. rewrite (AF m Im), final_attr_step in E. congruence.
    + apply SH in S, S'.
      destruct (placed_attr D c ms m _ final_attr G (fun _ _ => eq_refl) S) as (d1 & I1 & E1).
      destruct (placed_attr D c ms m' _ final_attr G (fun _ _ => eq_refl) S') as (d2 & I2 & E2).
      rewrite final_attr_step in E1, E2. apply N. apply (HF d1 d2); congruence.
  - exfalso. destruct AI as (NE & [(_ & AI)|(_ & m & m' & b & b' & S & S' & B & B' & N)]).
    + destruct (dict_ids g0) as [|i l]; [tauto|]. destruct (IN i) as (m & Nm); [simpl; auto|].
      assert (C : Some (m_init m) = None) by (apply AI; exists i; simpl; auto). discriminate.
    + apply SH in S, S'. destruct (placed_attr D c ms m Z m_init G (fun _ _ => eq_refl) S) as (d1 & I1 & E1).
      destruct (placed_attr D c ms m' Z m_init G (fun _ _ => eq_refl) S') as (d2 & I2 & E2).
      apply N. inversion B; inversion B'; subst. rewrite <- E1, <- E2. auto.
Qed.
End Built.

(** [current_step] *)
Lemma current_step_cases D g : from_modules D g -> names_separate D ->
  (forall c, mg_current_step g = Ok c <-> (mg_mods g <> [] /\ forall m, In m (mg_mods g) -> m_cur m = c))
  /\ (forall m m', In m (mg_mods g) -> In m' (mg_mods g) -> m_cur m <> m_cur m' ->
        raises ValueError (mg_current_step g)).
Proof.
  intros F SEP. apply from_modules_inv in F. rename F into V.
  assert (IN : forall i, In i (dict_ids g) -> exists m, nth_error (mg_mods g) i = Some m) by
    (intros; eapply dict_ids_in; eauto).
  pose proof (attr_cases (fun m => Some (m_cur m)) _ _ IN) as AI. simpl in AI.
  assert (SH : forall m, (exists i, In i (dict_ids g) /\ nth_error (mg_mods g) i = Some m) <-> In m (mg_mods g))
    by (intros; exact (shown_all _ _ m V SEP)).
  unfold mg_current_step.
  destruct (get_attr_unique _ _ _ _) as [[a|]|e]; simpl.
  - destruct AI as [(m0 & S0 & A0) AI]. apply SH in S0. split.
    + intros c. split.
      * intros E. inversion E; subst. split; [intros Z; rewrite Z in S0; destruct S0|].
        intros m I. apply SH in I. symmetry. symmetry. apply (AI m); auto.
      * intros [_ H]. f_equal. inversion A0; subst. apply H. exact S0.
    + intros m m' I I' N. exfalso. apply N. apply SH in I, I'.
      transitivity a; [apply (AI m); auto|symmetry; apply (AI m'); auto].
  - assert (NM : mg_mods g = []).
    { destruct (mg_mods g) as [|m l] eqn:Q; [reflexivity|]. exfalso.
      destruct (proj2 (SH m)) as (i & Ii & _); [simpl; auto|]. rewrite AI in Ii. destruct Ii. }
    rewrite NM. split.
    + intros c. split; [discriminate|]. intros [C _]. tauto.
    + intros m m' [].
  - destruct AI as (NE & [(_ & AI)|(C & m & m' & b & b' & S & S' & B & B' & N)]).
    + exfalso. destruct (dict_ids g) as [|i l]; [tauto|]. destruct (IN i) as (m & Nm); [simpl; auto|].
      assert (X : Some (m_cur m) = None) by (apply AI; exists i; simpl; auto). discriminate.
    + split; [|intros; exists e; auto]. intros c. split; [discriminate|]. intros [_ H]. exfalso.
      apply SH in S, S'. inversion B; inversion B'; subst. apply N. rewrite (H m), (H m'); auto.
Qed.

(** ** C34 *)
Lemma all_view_sep D g nm : mg_inv D g -> names_separate D ->
  dget nm (all_dict g) = entry_for (positions nm D).
Proof.
  intros V SEP.
  assert (K : exists k, forall d, In d D -> mdef_name d = nm -> category_of (snd d) = k).
  { destruct (find (fun d => String.eqb nm (mdef_name d)) D) as [d0|] eqn:Fd.
    - apply find_some in Fd. destruct Fd as [I Q]. apply String.eqb_eq in Q.
      exists (category_of (snd d0)). intros d I' Q'. apply SEP; auto. congruence.
    - exists (Fixed, Sources). intros d I Q. eapply find_none in Fd; [|exact I]. simpl in Fd.
      rewrite Q, String.eqb_refl in Fd. discriminate. }
  destruct K as (k & K). unfold positions. rewrite (positions_members_aux nm k D 0 K), all_dict_view.
  destruct (members nm k 0 D) as [|j l] eqn:M.
  - destruct (dget nm (view (mg_ct g) categories)) as [l|] eqn:G; [|reflexivity].
    destruct (view_get D g V _ _ _ G) as (k' & _ & M' & NE).
    destruct (category_dec k' k) as [->|NK]; [congruence|]. rewrite (members_other nm k k' D K NK) in M'. congruence.
  - rewrite (view_get_sep D g V categories nm k SEP); [rewrite M; reflexivity|apply in_categories|congruence].
Qed.
Theorem views_sep D g : from_modules D g -> names_separate D ->
  (forall nm, dget nm (all_dict g) = entry_for (positions nm D))
  /\ Permutation (dict_ids g) (seq 0 (length D)).
Proof.
  intros F SEP. apply from_modules_inv in F. split; [intros; eapply all_view_sep; eauto|].
  eapply dict_ids_perm; eauto.
Qed.
Theorem views_collide D g i j df df' : from_modules D g ->
  nth_error D i = Some df -> nth_error D j = Some df' -> mdef_name df = mdef_name df' ->
  category_of (snd df) <> category_of (snd df') ->
  ~ (In i (dict_ids g) /\ In j (dict_ids g)) /\ In i (all_ids g) /\ In j (all_ids g).
Proof.
  intros F Ni Nj E C. apply from_modules_inv in F. conj.
  - unfold dict_ids. rewrite all_dict_view. eapply view_collision; eauto.
  - eapply Permutation_in; [apply Permutation_sym; exact (iv_perm _ _ F)|]. apply in_seq.
    assert (i < length D)%nat by (apply nth_error_Some; congruence). lia.
  - eapply Permutation_in; [apply Permutation_sym; exact (iv_perm _ _ F)|]. apply in_seq.
    assert (j < length D)%nat by (apply nth_error_Some; congruence). lia.
Qed.

(** ** C37 *)
Theorem containers_partition D g : from_modules D g ->
  length (mg_mods g) = length D
  /\ Permutation (all_ids g) (seq 0 (length D))
  /\ (forall f s nm i, In i (match dget nm (ct_get (mg_ct g) f s) with Some l => l | None => [] end) <->
        exists d, nth_error D i = Some d /\ mdef_name d = nm /\ category_of (snd d) = (f, s))
  /\ (forall i d m, nth_error D i = Some d -> nth_error (mg_mods g) i = Some m -> category_of m = category_of (snd d)).
Proof.
  intros F. apply from_modules_inv in F. conj.
  - symmetry. exact (Forall2_length _ _ _ (iv_mods _ _ F)).
  - exact (iv_perm _ _ F).
  - intros f s nm i. change (ct_get (mg_ct g) f s) with (ctc (mg_ct g) (f, s)). rewrite (iv_ct _ _ F).
    pose proof (members_iff nm (f, s) D 0 i) as MI. rewrite Nat.sub_0_r in MI.
    destruct (members nm (f, s) 0 D) eqn:M.
    + rewrite MI. split; intros (d & N & X); exists d; [tauto|]. conj; try tauto. lia.
    + rewrite MI. split; intros (d & N & X); exists d; [tauto|]. conj; try tauto. lia.
  - intros i d m Nd Nm. destruct (iv_nth _ _ _ _ F Nd) as (m' & Nm' & _ & L). rewrite Nm in Nm'.
    inversion Nm'; subst. apply mod_like_category. exact L.
Qed.
Theorem containers_numbering ds add lossc overc sh tr g :
  new_microgrid ds add lossc overc sh tr = Ok g ->
  forall k d m, nth_error (all_defs ds add lossc overc) k = Some d -> nth_error (mg_mods g) k = Some m ->
  m_name m = (Some (mdef_name d),
              Some (length (members (mdef_name d) (category_of (snd d)) 0 (firstn k (all_defs ds add lossc overc))))).
Proof.
  intros B k d m Nd Nm. destruct (new_microgrid_inv _ _ _ _ _ _ _ B) as (c & ms & G & _ & MS & _).
  destruct (get_subcontainers_mods _ _ _ _ _ G) as [_ N]. specialize (N _ _ Nd). rewrite MS, N in Nm.
  inversion Nm; subst. simpl. destruct (category_of (snd d)) as [[] []]; reflexivity.
Qed.
