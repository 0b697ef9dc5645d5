(** * The microgrid invariant *)

From Coq Require Import ZArith QArith Qabs Bool String List Lia Lqa Permutation.
From Verif Require Import Num Py Space Logger Forecast Module Container Microgrid
  Proofs_Num Proofs_Logger Spec_Module Spec_Reach Proofs_Module Proofs_Battery Proofs_Genset Proofs_Ts Proofs_Any
  Proofs_Request Spec_Microgrid Proofs_Container Proofs_Run.
Import ListNotations.
Local Open Scope string_scope.
Local Open Scope list_scope.
Local Open Scope Q_scope.

(** ** Modules up to state, clock, log, name and step window *)
Definition ts_like (t t' : tsdata Q) : Prop := exists f, ts_same (ts_set_final t f) t'.
Definition kind_like (k k' : kind Q) : Prop :=
  match k, k' with
  | KBattery b, KBattery b' => same_params b b'
  | KGenset g, KGenset g' => same_gen g g'
  | KGrid g t, KGrid g' t' => g' = g /\ ts_like t t'
  | KLoad t, KLoad t' | KRenewable t, KRenewable t' => ts_like t t'
  | KUnbalanced u, KUnbalanced u' => u' = u
  | _, _ => False
  end.
Record mod_like (m m' : module Q) : Prop := mkModLike {
  ml_kind : kind_like (m_kind m) (m_kind m');
  ml_raise : m_raise m' = m_raise m;
  ml_act : m_act m' = m_act m;
  ml_obs : m_obs m' = m_obs m;
  ml_prov : m_prov m' = m_prov m;
  ml_abs : m_abs m' = m_abs m
}.
Lemma set_final_same (t : tsdata Q) : ts_set_final t (ts_final t) = t.
Proof. destruct t; reflexivity. Qed.
Lemma ts_like_same t t' : ts_same t t' -> ts_like t t'.
Proof. intros S. exists (ts_final t). rewrite set_final_same. exact S. Qed.
Lemma ts_like_trans t1 t2 t3 : ts_like t1 t2 -> ts_like t2 t3 -> ts_like t1 t3.
Proof.
  intros (f & S1) (f' & S2). exists f'. eapply ts_same_trans; [|exact S2].
  destruct S1. constructor; simpl in *; auto.
Qed.
Lemma kind_like_same k k' : kind_same k k' -> kind_like k k'.
Proof.
  destruct k, k'; simpl; try tauto; try apply ts_like_same.
  intros [E S]. split; [exact E|]. apply ts_like_same. exact S.
Qed.
Lemma kind_like_refl k : kind_like k k.
Proof. apply kind_like_same, kind_same_refl. Qed.
Lemma kind_like_trans k1 k2 k3 : kind_like k1 k2 -> kind_like k2 k3 -> kind_like k1 k3.
Proof.
  intros A B. destruct k1, k2; simpl in A; try contradiction; destruct k3; simpl in B; try contradiction; simpl.
  - eapply same_params_trans; eauto.
  - unfold same_gen in *. rewrite B, A. reflexivity.
  - destruct A as [-> A], B as [-> B]. split; [reflexivity|]. eapply ts_like_trans; eauto.
  - eapply ts_like_trans; eauto.
  - eapply ts_like_trans; eauto.
  - congruence.
Qed.
Lemma mod_like_refl m : mod_like m m.
Proof. constructor; auto using kind_like_refl. Qed.
Lemma mod_like_trans m1 m2 m3 : mod_like m1 m2 -> mod_like m2 m3 -> mod_like m1 m3.
Proof. intros [] []. constructor; try congruence. eapply kind_like_trans; eauto. Qed.
Lemma mod_like_same m m' : mod_same m m' -> mod_like m m'.
Proof. intros []. constructor; auto using kind_like_same. Qed.
Lemma kind_like_roles k k' : kind_like k k' ->
  is_source k' = is_source k /\ is_sink k' = is_sink k /\ module_type k' = module_type k
  /\ default_name k' = default_name k /\ energy_pos k' = energy_pos k /\ is_genset k' = is_genset k.
Proof.
  destruct k, k'; simpl; try contradiction; intros L; conj; auto. destruct L as [-> _]. reflexivity.
Qed.
Lemma mod_like_category m m' : mod_like m m' -> category_of m' = category_of m.
Proof.
  intros L. destruct (kind_like_roles _ _ (ml_kind _ _ L)) as (A & B & C & _).
  unfold category_of, ssink_of. rewrite A, B, C. reflexivity.
Qed.

Definition likes (m m' : module Q) : Prop := mod_ok m -> mod_ok m' /\ mod_like m m' /\ m_name m' = m_name m.
Lemma likes_refl m : likes m m.
Proof. intros O. split; [exact O|split; [apply mod_like_refl|reflexivity]]. Qed.
Lemma likes_trans m1 m2 m3 : likes m1 m2 -> likes m2 m3 -> likes m1 m3.
Proof.
  intros R1 R2 O. destruct (R1 O) as (O2 & S2 & N2). destruct (R2 O2) as (O3 & S3 & N3).
  split; [exact O3|]. split; [eapply mod_like_trans; eauto|congruence].
Qed.
Lemma likes_rel m m' : mod_rel m m' -> likes m m'.
Proof.
  intros R O. destruct (R O) as [O' S]. split; [assumption|]. split; [apply mod_like_same; assumption|].
  apply (sm_name _ _ S).
Qed.

Lemma set_init_likes m v : likes m (set_init m v).
Proof.
  intros [K R I]. split; [|split; [|destruct m; reflexivity]; destruct m; constructor; simpl; auto using kind_like_refl].
  constructor; destruct m; simpl in *; auto.
Qed.
Lemma set_name_likes m v : mod_ok m -> mod_ok (set_name m v) /\ mod_like m (set_name m v).
Proof.
  intros [K R I]. split; [|destruct m; constructor; simpl; auto using kind_like_refl].
  constructor; destruct m; simpl in *; auto.
Qed.
Lemma ts_ok_final t f : ts_ok t -> ts_ok (ts_set_final t f).
Proof. intros []. constructor; auto. Qed.
Lemma set_final_likes v m m' r : module_set_final v m = (m', r) -> likes m m'.
Proof.
  unfold module_set_final. intros E O. destruct (kind_ts (m_kind m)) as [t|] eqn:KT.
  2:{ inversion E; subst. split; [exact O|split; [apply mod_like_refl|reflexivity]]. }
  destruct O as [K R I]. unfold set_final_step in E.
  destruct m as [k re init cur act obs prov abs log nm]; simpl in *.
  inversion E; subst m' r; clear E. set (f := if (v <=? 0)%Z then _ else _).
  assert (L : ts_like t (ts_set_final t f)) by (exists f; apply ts_same_refl).
  split.
  - constructor; simpl; auto.
    + unfold kind_ok in *; simpl in *. destruct k; simpl in *; inversion KT; subst;
        unfold ts_mod in *; simpl in *.
      * destruct K as (A & B & C & (D1 & D2 & D3) & E). conj; auto; try apply E.
        apply ts_ok_final; exact D1.
      * destruct K as (A & B & C & (D1 & D2 & D3) & E). conj; auto; try apply E.
        apply ts_ok_final; exact D1.
      * destruct K as (A & B & C & (D1 & D2 & D3) & E). conj; auto; try apply E.
        apply ts_ok_final; exact D1.
    + unfold log_keys in *. simpl in *. destruct k; simpl in *; inversion KT; subst; exact I.
  - split; [|reflexivity]. constructor; simpl; auto. destruct k; simpl in *; inversion KT; subst; auto.
Qed.

(** ** The balance log *)
Definition balance_keys : list string := map fst (bal_row 0 0 0 0 0 0 0 0).
Lemma bal_row_keys fp fa p a p3 a3 r3 s3 : map fst (bal_row fp fa p a p3 a3 r3 s3) = balance_keys.
Proof. reflexivity. Qed.
Lemma NoDup_balance_keys : NoDup balance_keys.
Proof.
  unfold balance_keys. vm_compute. repeat constructor; simpl; intuition discriminate.
Qed.
Definition bal_ok (lg : logger Q) : Prop :=
  log_rect lg /\ incl (map fst (lg_data lg)) balance_keys
  /\ (lg = logger_empty \/ (lg_len lg <> 0%nat /\ lg_data lg <> [])).
Lemma bal_ok_empty : bal_ok logger_empty.
Proof. split; [apply log_rect_empty|]. split; [intros k []|left; reflexivity]. Qed.
Lemma bal_log fp fa p a p3 a3 r3 s3 lg : bal_ok lg ->
  exists lg', logger_log (bal_row fp fa p a p3 a3 r3 s3) lg = (lg', Ok tt) /\ bal_ok lg'
    /\ lg_len lg' = S (lg_len lg).
Proof.
  intros (R & I & _). destruct (logger_log_rect (bal_row fp fa p a p3 a3 r3 s3) lg R) as (lg' & L & R' & N & K).
  - rewrite bal_row_keys. exact NoDup_balance_keys.
  - rewrite bal_row_keys. exact I.
  - exists lg'. split; [exact L|]. split; [|exact N]. split; [exact R'|]. split.
    + intros k H. apply K in H. rewrite bal_row_keys in H. exact H.
    + right. split; [lia|]. intros C. rewrite C in K. apply (K "fixed_provided_to_microgrid").
      rewrite bal_row_keys. vm_compute. tauto.
Qed.

(** ** What every call preserves *)
Record mg_rel (g g' : mgrid Q) : Prop := mkMgRel {
  mr_ct : mg_ct g' = mg_ct g;
  mr_shaper : mg_shaper g' = mg_shaper g;
  mr_traj : mg_traj g' = mg_traj g;
  mr_mods : Forall2 likes (mg_mods g) (mg_mods g');
  mr_bal : bal_ok (mg_balance g) -> bal_ok (mg_balance g');
  mr_other : mg_other g = logger_empty -> mg_other g' = logger_empty
}.
Lemma mg_rel_refl g : mg_rel g g.
Proof. constructor; auto. apply Forall2_refl. exact likes_refl. Qed.
Lemma mg_rel_trans g1 g2 g3 : mg_rel g1 g2 -> mg_rel g2 g3 -> mg_rel g1 g3.
Proof.
  intros [] []. constructor; try congruence; auto.
  eapply Forall2_trans; [exact likes_trans| |]; eauto.
Qed.
Lemma inner_mg_rel (R : module Q -> module Q -> Prop) g g' : (forall m m', R m m' -> likes m m') -> inner R g g' -> mg_rel g g'.
Proof.
  intros H [E F]. rewrite E. constructor; simpl; auto.
  clear E. induction F; constructor; auto.
Qed.

Lemma run_mg_rel (c : control Q) n g g' r : run c n g = (g', r) -> mg_rel g g'.
Proof.
  intros E. destruct (run_any _ _ _ _ _ E) as [(e & _ & I)|D].
  - eapply inner_mg_rel; [|exact I]. exact likes_rel.
  - destruct D as (ci & efix & ectl & eflex & ms1 & ms2 & ms3 & r2 & fp & fa & p & a & p3 & a3 & r3 & s3 & lg & x & _ & F & L & -> & _).
    constructor; simpl; auto.
    + clear - F. induction F; constructor; auto. apply likes_rel. assumption.
    + intros B. destruct (bal_log fp fa p a p3 a3 r3 s3 _ B) as (lg' & L' & B' & _). congruence.
Qed.

Lemma set_module_attr_inner (R : module Q -> module Q -> Prop) has (set : M (module Q) unit) :
  (forall m, R m m) -> (forall m1 m2 m3, R m1 m2 -> R m2 m3 -> R m1 m3) ->
  (forall m m' r, set m = (m', r) -> R m m') ->
  inners R (set_module_attr has set).
Proof.
  intros Rr Rt Rs. unfold set_module_attr. apply inners_bind; auto.
  - apply inners_get; auto.
  - intros g. apply inners_bind; auto.
    + apply inners_fold; auto. intros b i. apply inners_bind; auto.
      * apply inners_module; auto.
      * intros m. destruct (has m).
        -- apply inners_bind; auto.
           ++ apply inners_with; auto.
           ++ intros _. apply inners_ret; auto.
        -- apply inners_ret; auto.
    + intros b. destruct b; [apply inners_ret|apply inners_raise]; auto.
Qed.
Lemma set_initial_steps_inner v : inners likes (set_initial_steps v).
Proof.
  apply set_module_attr_inner; eauto using likes_refl, likes_trans.
  intros m m' r E. unfold mmodify in E. inversion E; subst. apply set_init_likes.
Qed.
Lemma set_final_steps_inner v : inners likes (set_final_steps v).
Proof.
  apply set_module_attr_inner; eauto using likes_refl, likes_trans, set_final_likes.
Qed.

Definition rels {A} (f : M (mgrid Q) A) : Prop := forall g g' r, f g = (g', r) -> mg_rel g g'.
Lemma rels_inner {A} (f : M (mgrid Q) A) (R : module Q -> module Q -> Prop) : (forall m m', R m m' -> likes m m') -> inners R f -> rels f.
Proof. intros H I g g' r E. eapply inner_mg_rel; eauto. Qed.
Lemma rels_likes {A} (f : M (mgrid Q) A) : inners likes f -> rels f.
Proof. apply rels_inner. auto. Qed.
Lemma rels_ret {A} (a : A) : rels (mret a).
Proof. intros g g' r E. unfold mret in E. inversion E; subst. apply mg_rel_refl. Qed.
Lemma rels_lift {A} (a : res A) : rels (mlift a).
Proof. intros g g' r E. unfold mlift in E. inversion E; subst. apply mg_rel_refl. Qed.
Lemma rels_get : rels (@mget (mgrid Q)).
Proof. intros g g' r E. unfold mget in E. inversion E; subst. apply mg_rel_refl. Qed.
Lemma rels_bind {A B} (x : M (mgrid Q) A) (f : A -> M (mgrid Q) B) :
  rels x -> (forall a, rels (f a)) -> rels (mbind x f).
Proof.
  intros Hx Hf g g' r E. apply mbind_any in E. destruct E as [(e & E & _)|(g1 & a & E1 & E2)].
  - eapply Hx; eauto.
  - eapply mg_rel_trans; [eapply Hx; eauto|eapply Hf; eauto].
Qed.
Lemma rels_fold {A B} (f : B -> A -> M (mgrid Q) B) l : (forall b a, rels (f b a)) ->
  forall b, rels (mfold f l b).
Proof.
  intros Hf. induction l; intros b; simpl; [apply rels_ret|].
  apply rels_bind; auto.
Qed.
Lemma rels_steps i f : rels (mmodify (fun g => mg_set_steps g (i g) (f g))).
Proof.
  intros g g' r E. unfold mmodify in E. inversion E; subst. constructor; simpl; auto.
  apply Forall2_refl. exact likes_refl.
Qed.

Lemma mg_set_initial_rel v : rels (mg_set_initial_step v).
Proof.
  unfold mg_set_initial_step. apply rels_bind; [apply rels_likes, set_initial_steps_inner|intros _].
  apply rels_bind; [apply rels_get|intros g]. apply rels_bind; [apply rels_lift|intros i].
  apply (rels_steps (fun _ => i) (fun g => mg_final g)).
Qed.
Lemma mg_set_final_rel v : rels (mg_set_final_step v).
Proof.
  unfold mg_set_final_step. apply rels_bind; [apply rels_likes, set_final_steps_inner|intros _].
  apply rels_bind; [apply rels_get|intros g]. apply rels_bind; [apply rels_lift|intros i].
  apply (rels_steps (fun g => mg_initial g) (fun _ => i)).
Qed.
Lemma set_trajectory_rel : rels set_trajectory.
Proof.
  unfold set_trajectory. intros g g' r E.
  unfold mbind at 1, mget in E. destruct (mg_traj g) as [f|].
  2:{ eapply rels_ret; eauto. }
  unfold mbind at 1, mput in E.
  eapply mg_rel_trans with (g2 := mg_set_calls g (S (mg_calls g))).
  { constructor; simpl; auto. apply Forall2_refl. exact likes_refl. }
  revert E. generalize (mg_set_calls g (S (mg_calls g))). intros g1 E. revert g1 g' r E.
  change (rels (mbind (mlift (f (mg_calls g) (mg_initial g) (mg_final g)))
                      (fun p => mbind (set_initial_steps (fst p)) (fun _ => set_final_steps (snd p))))).
  apply rels_bind; [apply rels_lift|intros p].
  apply rels_bind; [apply rels_likes, set_initial_steps_inner|intros _].
  apply rels_likes, set_final_steps_inner.
Qed.
Lemma mg_reset_rel : rels mg_reset.
Proof.
  unfold mg_reset. apply rels_bind; [apply set_trajectory_rel|intros _].
  apply rels_bind; [apply rels_get|intros g]. apply rels_bind.
  - apply rels_fold. intros acc kl. apply rels_bind; [|intros; apply rels_ret].
    apply rels_fold. intros os i. apply rels_bind; [|intros; apply rels_ret].
    apply (rels_inner _ mod_rel likes_rel).
    apply inners_with; [exact mod_rel_refl|]. intros. eapply reset_rel; eauto.
  - intros obs. apply rels_bind; [|intros; apply rels_ret].
    intros g0 g' r E. unfold mmodify in E. inversion E; subst. constructor; simpl; auto.
    + apply Forall2_refl. exact likes_refl.
    + intros _. apply bal_ok_empty.
Qed.

Lemma do_mcall_rel c g : mg_rel g (do_mcall c g).
Proof.
  destruct c; simpl.
  - destruct (run c normalized g) eqn:E. eapply run_mg_rel; eauto.
  - destruct (mg_reset g) eqn:E. eapply mg_reset_rel; eauto.
  - destruct (mg_set_initial_step v g) eqn:E. eapply mg_set_initial_rel; eauto.
  - destruct (mg_set_final_step v g) eqn:E. eapply mg_set_final_rel; eauto.
Qed.
Lemma mplay_rel cs : forall g, mg_rel g (mplay cs g).
Proof.
  induction cs as [|c cs IH]; intros g; simpl; [apply mg_rel_refl|].
  eapply mg_rel_trans; [apply do_mcall_rel|apply IH].
Qed.

(** ** Construction *)
Lemma Forall2_nth_intro {A B} (R : A -> B -> Prop) l1 : forall l2, length l2 = length l1 ->
  (forall k a b, nth_error l1 k = Some a -> nth_error l2 k = Some b -> R a b) -> Forall2 R l1 l2.
Proof.
  induction l1 as [|a l1 IH]; intros [|b l2] L H; try discriminate; constructor.
  - apply (H 0%nat); reflexivity.
  - apply IH; [simpl in L; lia|]. intros k a' b' Ha Hb. apply (H (S k)); assumption.
Qed.
Record mg_inv (D : list (mdef Q)) (g : mgrid Q) : Prop := mkMgInv {
  iv_ct : forall nm k, dget nm (ctc (mg_ct g) k)
            = match members nm k 0 D with [] => None | l => Some l end;
  iv_nodup : ct_nodup (mg_ct g);
  iv_perm : Permutation (all_ids g) (seq 0 (length D));
  iv_mods : Forall2 (fun d m => mod_ok m /\ mod_like (snd d) m) D (mg_mods g);
  iv_bal : bal_ok (mg_balance g);
  iv_other : mg_other g = logger_empty
}.

Lemma new_microgrid_inv ds add l o sh tr g :
  new_microgrid ds add l o sh tr = Ok g ->
  exists c ms, get_subcontainers 0 (all_defs ds add l o) ct_empty = (c, ms)
    /\ mg_ct g = c /\ mg_mods g = ms /\ mg_shaper g = sh /\ mg_traj g = tr
    /\ mg_balance g = logger_empty /\ mg_other g = logger_empty
    /\ get_module_initial_step g = Ok (mg_initial g)
    /\ get_module_final_step g = Ok (mg_final g)
    /\ match tr with Some t => check_trajectory (mg_initial g) (mg_final g) t = Ok tt | None => True end.
Proof.
  unfold new_microgrid, all_defs. intros E.
  destruct (get_subcontainers 0 _ ct_empty) as [c ms] eqn:G.
  exists c, ms. split; [reflexivity|]. unfold rbind in E.
  set (g0 := mkMgrid ms c 0 None sh tr 0 logger_empty logger_empty) in *.
  destruct (get_module_initial_step g0) as [i|] eqn:I; [|discriminate].
  destruct (get_module_final_step g0) as [f|] eqn:F; [|discriminate].
  destruct tr as [t|].
  - destruct (check_trajectory i f t) as [[]|] eqn:C; [|discriminate].
    inversion E; subst. simpl. conj; auto.
  - inversion E; subst. simpl. conj; auto.
Qed.

Lemma all_defs_ok ds add l o : Forall (fun d => reachable (snd d)) ds ->
  Forall (fun d => mod_ok (snd d)) (all_defs ds add l o).
Proof.
  intros F. assert (Forall (fun d : mdef Q => mod_ok (snd d)) ds).
  { eapply Forall_impl; [|exact F]. intros d R. apply reachable_ok. exact R. }
  unfold all_defs. destruct add; [|assumption]. apply Forall_app. split; [assumption|].
  constructor; [apply new_unbalanced_good|constructor].
Qed.

Lemma mbuilt_inv ds add l o sh tr g :
  mbuilt ds add l o sh tr g -> mg_inv (all_defs ds add l o) g.
Proof.
  intros [R B]. apply (all_defs_ok _ add l o) in R.
  destruct (new_microgrid_inv _ _ _ _ _ _ _ B) as (c & ms & G & CT & MS & _ & _ & BL & OT & _).
  set (D := all_defs ds add l o) in *.
  constructor.
  - intros nm k. destruct (new_microgrid_inv _ _ _ _ _ _ _ B) as (c' & ms' & G' & -> & _).
    rewrite (get_subcontainers_get _ _ _ _ _ G' nm k). destruct k as [[] []]; reflexivity.
  - destruct (new_microgrid_inv _ _ _ _ _ _ _ B) as (c' & ms' & G' & -> & _).
    eapply get_subcontainers_nodup; [exact G'|apply ct_nodup_empty].
  - unfold all_ids. destruct (new_microgrid_inv _ _ _ _ _ _ _ B) as (c' & ms' & G' & -> & _).
    pose proof (get_subcontainers_perm _ _ _ _ _ G') as P. simpl in P. rewrite app_nil_r in P. exact P.
  - rewrite MS. destruct (get_subcontainers_mods _ _ _ _ _ G) as [L N].
    clear - R L N. revert ms L N R. generalize D. clear.
    (* pointwise *)
    intros D ms L N R. apply Forall2_nth_intro; [auto|]. intros k d m Hd Hm.
    specialize (N _ _ Hd). rewrite N in Hm. inversion Hm; subst.
    rewrite Forall_forall in R. apply set_name_likes. apply R. eapply nth_error_In; eauto.
  - rewrite BL. apply bal_ok_empty.
  - exact OT.
Qed.

Lemma rel_inv D g g' : mg_rel g g' -> mg_inv D g -> mg_inv D g'.
Proof.
  intros [] []. constructor; auto; unfold all_ids in *; rewrite ?mr_ct0; auto.
  clear - mr_mods0 iv_mods0. revert mr_mods0. generalize (mg_mods g'). revert iv_mods0.
  generalize (mg_mods g). induction 1 as [|d m D ms [O L] F IH]; intros ms' F'; inversion F'; subst; constructor; auto.
  match goal with H : likes _ _ |- _ => destruct (H O) as (O' & L' & _) end.
  split; [exact O'|]. eapply mod_like_trans; eauto.
Qed.
(** Names and numbers stay what construction made them. *)
Lemma rel_names D g g' : mg_rel g g' -> mg_inv D g -> map m_name (mg_mods g') = map m_name (mg_mods g).
Proof.
  intros R V. pose proof (iv_mods _ _ V) as F. pose proof (mr_mods _ _ R) as F'. clear R V.
  revert F'. generalize (mg_mods g'). revert F. generalize (mg_mods g).
  induction 1 as [|d m E ms [O L] F IH]; intros ms' F'; inversion F'; subst; simpl; [reflexivity|].
  match goal with H : likes _ _ |- _ => destruct (H O) as (O' & L' & N) end. rewrite N. f_equal. apply IH. assumption.
Qed.
