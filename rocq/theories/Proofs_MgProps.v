(** * Proofs of the microgrid properties *)

From Coq Require Import ZArith QArith Qabs Bool String List Lia Lqa Permutation.
From Verif Require Import Num Py Space Logger Forecast Module Container Microgrid
  Proofs_Num Proofs_Logger Spec_Module Spec_Reach Proofs_Module Proofs_Ts Proofs_Any Proofs_Request
  Proofs_Data Proofs_Classes Spec_Microgrid Proofs_Container Proofs_Run Proofs_Balance Proofs_Mgrid Proofs_Views.
Import ListNotations.
Local Open Scope string_scope.
Local Open Scope list_scope.
Local Open Scope Q_scope.

Lemma from_modules_inv D g : from_modules D g -> mg_inv D g.
Proof.
  intros (ds & add & l & o & sh & tr & g0 & cs & B & -> & ->).
  eapply rel_inv; [apply mplay_rel|]. eapply mbuilt_inv; eauto.
Qed.
Lemma mreachable_from g : mreachable g -> exists D, from_modules D g.
Proof.
  intros (ds & add & l & o & sh & tr & g0 & cs & B & ->).
  exists (all_defs ds add l o), ds, add, l, o, sh, tr, g0, cs. auto.
Qed.

(** ** The ids of a run's events *)
Definition pick (c : control Q) (d : dict (list nat)) : list nat :=
  concat (map (fun kl => match dget (fst kl) c with
                         | Some v => firstn (length (ctrl_list v)) (snd kl)
                         | None => []
                         end) d).
Lemma combine_fst {A B} (l : list A) : forall l' : list B, map fst (combine l l') = firstn (length l') l.
Proof.
  induction l as [|x l IH]; intros [|y l']; simpl; auto. f_equal. apply IH.
Qed.
Lemma orders_ids c d : map (fun o => snd (fst o)) (orders c d) = pick c d.
Proof.
  unfold orders, pick. induction d as [|[k l] d IH]; simpl; [reflexivity|].
  rewrite map_app, IH. f_equal. destruct (dget k c) as [v|]; [|reflexivity].
  rewrite map_map. simpl. apply combine_fst.
Qed.
Lemma firstn_incl {A} n (l : list A) : incl (firstn n l) l.
Proof. intros x I. rewrite <- (firstn_skipn n l). apply in_or_app. auto. Qed.
Lemma firstn_nodup {A} n (l : list A) : NoDup l -> NoDup (firstn n l).
Proof. intros N. rewrite <- (firstn_skipn n l) in N. apply NoDup_app_l in N. exact N. Qed.
Lemma pick_incl c d : incl (pick c d) (concat (map snd d)).
Proof.
  induction d as [|[k l] d IH]; intros i I; [exact I|].
  unfold pick in I. simpl in *. apply in_app_or in I. apply in_or_app. destruct I as [I|I].
  - left. destruct (dget k c); [|destruct I]. apply firstn_incl in I. exact I.
  - right. apply IH. exact I.
Qed.
Lemma pick_nodup c d : NoDup (concat (map snd d)) -> NoDup (pick c d).
Proof.
  induction d as [|[k l] d IH]; intros N; [constructor|].
  unfold pick. simpl in *. apply NoDup_app_intro.
  - destruct (dget k c); [|constructor]. apply firstn_nodup. apply NoDup_app_l in N. exact N.
  - apply IH. apply NoDup_app_r in N. exact N.
  - intros i A B. apply (pick_incl c d) in B. destruct (dget k c); [|destruct A].
    apply firstn_incl in A. eapply NoDup_app_disj; eauto.
Qed.
Lemma pick_complete c d :
  (forall nm l, In (nm, l) d -> exists v, dget nm c = Some v /\ (length l <= length (ctrl_list v))%nat) ->
  pick c d = concat (map snd d).
Proof.
  induction d as [|[k l] d IH]; intros H; [reflexivity|]. unfold pick. simpl.
  destruct (H k l) as (v & -> & L); [simpl; auto|]. rewrite firstn_all2 by exact L. f_equal.
  apply IH. intros. apply H. simpl. auto.
Qed.

Section Ran.
Variables (D : list (mdef Q)) (g : mgrid Q).
Hypothesis V : mg_inv D g.
Variables (c : control Q) (n : bool) (ci : cost_info Q) (efix ectl eflex : list event)
  (ms1 ms2 ms3 : list (module Q)) (r2 fp fa p a p3 a3 r3 s3 : Q).
Hypothesis RN : ran c n g ci efix ectl eflex ms1 ms2 ms3 r2 fp fa p a p3 a3 r3 s3.
Let es := efix ++ ectl ++ eflex.

Lemma ran_fix_ids : event_ids efix = concat (map snd (part_dict Fixed g)).
Proof.
  rewrite <- part_tuples_ids, <- (rn_fix_keys _ _ _ _ _ _ _ _ _ _ _ _ _ _ _ _ _ _ _ RN), map_map. reflexivity.
Qed.
Lemma ran_ctl_ids : event_ids ectl = pick c (part_dict Controllable g).
Proof.
  rewrite <- orders_ids, <- (rn_ctl_orders _ _ _ _ _ _ _ _ _ _ _ _ _ _ _ _ _ _ _ RN), map_map. reflexivity.
Qed.
Lemma ran_flex_ids : event_ids eflex = concat (map snd (part_dict Flex g)).
Proof.
  rewrite <- part_tuples_ids, <- (rn_flex_keys _ _ _ _ _ _ _ _ _ _ _ _ _ _ _ _ _ _ _ RN), map_map. reflexivity.
Qed.
Lemma ran_ids : event_ids es = concat (map snd (part_dict Fixed g)) ++ pick c (part_dict Controllable g)
                               ++ concat (map snd (part_dict Flex g)).
Proof.
  unfold es, event_ids. rewrite !map_app.
  change (map ev_id efix) with (event_ids efix). change (map ev_id ectl) with (event_ids ectl).
  change (map ev_id eflex) with (event_ids eflex). rewrite ran_fix_ids, ran_ctl_ids, ran_flex_ids. reflexivity.
Qed.
Lemma ran_nodup : NoDup (event_ids es).
Proof.
  rewrite ran_ids. pose proof (parts_nodup D g V) as N.
  apply NoDup_app_intro.
  - apply NoDup_app_l in N. exact N.
  - apply NoDup_app_intro.
    + apply pick_nodup. apply NoDup_app_r, NoDup_app_l in N. exact N.
    + apply NoDup_app_r, NoDup_app_r in N. exact N.
    + intros i A B. apply pick_incl in A. apply NoDup_app_r in N. eapply NoDup_app_disj; eauto.
  - intros i A B. eapply NoDup_app_disj; [exact N|exact A|].
    apply in_app_or in B. apply in_or_app. destruct B as [B|B]; [left; eapply pick_incl; eauto|auto].
Qed.
Lemma ran_performs : performs (mg_mods g) es ms3.
Proof.
  unfold es. eapply performs_app; [exact (rn_fix _ _ _ _ _ _ _ _ _ _ _ _ _ _ _ _ _ _ _ RN)|].
  eapply performs_app; [exact (rn_ctl _ _ _ _ _ _ _ _ _ _ _ _ _ _ _ _ _ _ _ RN)|].
  eapply flexed_performs. exact (rn_flex _ _ _ _ _ _ _ _ _ _ _ _ _ _ _ _ _ _ _ RN).
Qed.
Lemma iv_all_ok : Forall mod_ok (mg_mods g).
Proof.
  pose proof (iv_mods _ _ V) as F. clear - F. induction F as [|d m D ms [O _] F IH]; constructor; auto.
Qed.
Lemma ran_energy : Forall (fun e => has_energy (info_of (ev_out e))) es.
Proof. eapply performs_energy; [apply ran_performs|apply iv_all_ok]. Qed.
Lemma ran_totals : p3 == sum_of ev_provided es /\ a3 == sum_of ev_absorbed es
  /\ r3 == sum_of ev_reward es /\ plain_names es.
Proof. eapply balance_totals; [apply ran_energy|]. exact (rn_b3 _ _ _ _ _ _ _ _ _ _ _ _ _ _ _ _ _ _ _ RN). Qed.
Lemma ran_totals2 : p == sum_of ev_provided (efix ++ ectl) /\ a == sum_of ev_absorbed (efix ++ ectl).
Proof.
  destruct (rn_b2 _ _ _ _ _ _ _ _ _ _ _ _ _ _ _ _ _ _ _ RN) as (r & s & B).
  pose proof ran_energy as F. unfold es in F. rewrite app_assoc in F. apply Forall_app in F.
  destruct (balance_totals _ _ _ _ _ _ _ (proj1 F) B) as (A1 & A2 & _). auto.
Qed.
Lemma ran_ms2_ok : Forall mod_ok ms2.
Proof.
  eapply performs_energy; [|apply iv_all_ok].
  eapply performs_app; [exact (rn_fix _ _ _ _ _ _ _ _ _ _ _ _ _ _ _ _ _ _ _ RN)
                       |exact (rn_ctl _ _ _ _ _ _ _ _ _ _ _ _ _ _ _ _ _ _ _ RN)].
Qed.
End Ran.

Lemma sum_of_app f es1 es2 : sum_of f (es1 ++ es2) == sum_of f es1 + sum_of f es2.
Proof. unfold sum_of. induction es1 as [|e es IH]; simpl; [lra|]. rewrite IH. lra. Qed.
Lemma sum_of_nil f : sum_of f [] = 0.
Proof. reflexivity. Qed.
Lemma sum_of_cons f e es : sum_of f (e :: es) = f e + sum_of f es.
Proof. reflexivity. Qed.

(** ** Steps of distinct modules *)
Lemma performs_other ms es ms' : performs ms es ms' -> forall i, ~ In i (event_ids es) ->
  nth_error ms' i = nth_error ms i.
Proof.
  induction 1 as [|ms e es m m' ms' N E P IH]; intros i NI; [reflexivity|].
  simpl in NI. rewrite IH by tauto. apply nth_set_other. tauto.
Qed.
Lemma performs_each ms es ms' : performs ms es ms' -> NoDup (event_ids es) ->
  forall e, In e es -> exists m m', nth_error ms (ev_id e) = Some m /\ nth_error ms' (ev_id e) = Some m'
    /\ step (ev_act e) (ev_norm e) m = (m', Ok (ev_out e)).
Proof.
  induction 1 as [|ms e es m m' ms' N E P IH]; intros ND e' I; [destruct I|].
  simpl in ND. inversion ND as [|? ? NI ND']; subst. destruct I as [<-|I].
  - exists m, m'. conj; auto. rewrite (performs_other _ _ _ P _ NI). eapply nth_set_same; eauto.
  - destruct (IH ND' _ I) as (m1 & m1' & N1 & N1' & E1). exists m1, m1'. conj; auto.
    rewrite nth_set_other in N1; [exact N1|]. intros C. apply NI. rewrite C.
    unfold event_ids. apply in_map. exact I.
Qed.
Lemma performs_rel ms es ms' : performs ms es ms' -> Forall2 mod_rel ms ms'.
Proof.
  induction 1 as [|ms e es m m' ms' N E P IH]; [apply Forall2_refl; exact mod_rel_refl|].
  eapply Forall2_trans; [exact mod_rel_trans| |exact IH].
  eapply Forall2_set_nth; [exact mod_rel_refl|exact N|]. eapply step_rel; eauto.
Qed.

(** ** Flex events *)
Definition flex_at (ms : list (module Q)) (e : event) : Prop :=
  exists m, nth_error ms (ev_id e) = Some m /\ module_type (m_kind m) = Flex.
Lemma flex_at_step ms i m m' e : nth_error ms i = Some m -> mod_rel m m' -> mod_ok m ->
  flex_at ms e -> flex_at (set_nth ms i m') e.
Proof.
  intros N R O (m1 & N1 & F). unfold flex_at. rewrite nth_set_nth, N1.
  destruct (Nat.eqb i (ev_id e)) eqn:Q; [|eauto]. apply Nat.eqb_eq in Q. subst.
  rewrite N in N1. inversion N1; subst. exists m'. split; [reflexivity|].
  destruct (R O) as [_ S]. destruct (kind_same_roles _ _ (sm_kind _ _ S)) as (_ & _ & T & _). congruence.
Qed.

(** With [r] left to cover, the events bring it down to [r2]. *)
Lemma flexed_sums src ms r es ms' r2 : flexed src ms r es ms' r2 ->
  Forall mod_ok ms -> Forall (flex_at ms) es -> 0 <= r ->
  0 <= r2 /\ r2 <= r
  /\ (if src then sum_of ev_provided es == r - r2 /\ sum_of ev_absorbed es == 0
      else sum_of ev_absorbed es == r - r2 /\ sum_of ev_provided es == 0).
Proof.
  induction 1 as [|ms r e es m m' ms' x a r1 r2 N SH NO AC AX E R1 FX IH]; intros O F R.
  - destruct src; rewrite !sum_of_nil; conj; try lra.
  - inversion F as [|? ? Fe Fs]; subst.
    assert (Om : mod_ok m). { rewrite Forall_forall in O. apply O. eapply nth_error_In; eauto. }
    destruct Fe as (m0 & N0 & Fm). rewrite N in N0. inversion N0; subst m0. clear N0.
    rewrite AC in E. destruct (flex_exact _ _ _ _ _ _ _ Om Fm R SH AX E) as (X0 & XR & X).
    assert (RL : mod_rel m m') by (eapply step_rel; eauto).
    destruct IH as (A & B & C).
    + rewrite Forall_forall in *. intros y I. apply In_nth_error in I. destruct I as (j & I).
      rewrite nth_set_nth in I. destruct (Nat.eqb (ev_id e) j).
      * destruct (nth_error ms j); inversion I; subst. apply RL. exact Om.
      * apply O. eapply nth_error_In; eauto.
    + eapply Forall_impl; [|exact Fs]. intros e' FE. eapply flex_at_step; eauto.
    + lra.
    + split; [exact A|]. split; [lra|].
      destruct src; rewrite !sum_of_cons; unfold ev_provided at 1, ev_absorbed at 1; destruct X as [X1 X2], C as [C1 C2]; split; lra.
Qed.

(** Once an unbalanced-energy module was asked, nothing is left. *)
Lemma flexed_unbalanced src ms r es ms' r2 : flexed src ms r es ms' r2 ->
  Forall mod_ok ms -> Forall (flex_at ms) es -> 0 <= r ->
  (exists e m, In e es /\ nth_error ms (ev_id e) = Some m /\ is_unbalanced m) -> r2 == 0.
Proof.
  induction 1 as [|ms r e es m m' ms' x a r1 r2 N SH NO AC AX E R1 FX IH]; intros O F R (e0 & m0 & I & N0 & U).
  - destruct I.
  - inversion F as [|? ? Fe Fs]; subst.
    assert (Om : mod_ok m). { rewrite Forall_forall in O. apply O. eapply nth_error_In; eauto. }
    destruct Fe as (m1 & N1 & Fm). rewrite N in N1. inversion N1; subst m1. clear N1.
    pose proof E as E'. rewrite AC in E'. destruct (flex_exact _ _ _ _ _ _ _ Om Fm R SH AX E') as (X0 & XR & X).
    assert (RL : mod_rel m m') by (eapply step_rel; eauto).
    assert (O' : Forall mod_ok (set_nth ms (ev_id e) m')).
    { rewrite Forall_forall in *. intros y J. apply In_nth_error in J. destruct J as (j & J).
      rewrite nth_set_nth in J. destruct (Nat.eqb (ev_id e) j).
      * destruct (nth_error ms j); inversion J; subst. apply RL. exact Om.
      * apply O. eapply nth_error_In; eauto. }
    assert (F' : Forall (flex_at (set_nth ms (ev_id e) m')) es).
    { eapply Forall_impl; [|exact Fs]. intros e' FE. eapply flex_at_step; eauto. }
    destruct (Nat.eq_dec (ev_id e) (ev_id e0)) as [Q|Q].
    + (* this is it *)
      rewrite <- Q, N in N0. inversion N0; subst m0. destruct U as (u & U).
      assert (x = r). { unfold share in SH. rewrite U in SH. destruct src; unfold max_production, max_consumption in SH;
        rewrite U in SH; simpl in SH; congruence. }
      subst x. destruct (flexed_sums _ _ _ _ _ _ FX O' F') as (A & B & _); lra.
    + destruct I as [<-|I]; [congruence|]. apply IH; auto; [lra|]. exists e0, m0. conj; auto.
      rewrite nth_set_other; auto.
Qed.

(** ** Balance *)
Lemma isclose_nearly p a : isclose p a = true -> nearly p a.
Proof.
  unfold isclose, isclose_tol, nearly. unum. intros E. apply Qle_bool_iff in E.
  eapply Qle_trans; [|eapply Qle_trans; [exact E|]]; apply Qle_lteq; right; simpl; try reflexivity.
Qed.
(** The container read last is shown in full. *)
Lemma last_shown D g i df s : mg_inv D g -> nth_error D i = Some df ->
  category_of (snd df) = (s, SourceAndSinks) -> In i (concat (map snd (part_dict s g))).
Proof.
  intros V N C.
  assert (I : In i (members (mdef_name df) (s, SourceAndSinks) 0 D)).
  { apply members_iff. exists df. rewrite Nat.sub_0_r. conj; auto. lia. }
  assert (G : dget (mdef_name df) (part_dict s g) = Some (members (mdef_name df) (s, SourceAndSinks) 0 D)).
  { rewrite part_dict_view. unfold view. rewrite dget_to_dict by (apply subs_nodup with (D := D); exact V).
    change (rev (map (ctc (mg_ct g)) (cats s)))
      with [ctc (mg_ct g) (s, SourceAndSinks); ctc (mg_ct g) (s, Sinks); ctc (mg_ct g) (s, Sources)].
    cbn [find]. unfold din. rewrite (iv_ct _ _ V).
    destruct (members (mdef_name df) (s, SourceAndSinks) 0 D) eqn:Z; [destruct I|].
    rewrite (iv_ct _ _ V), Z. reflexivity. }
  apply dget_In in G. apply in_concat. eexists. split; [apply in_map; exact G|]. exact I.
Qed.

Lemma iv_at D g i m : mg_inv D g -> nth_error (mg_mods g) i = Some m ->
  exists df, nth_error D i = Some df /\ mod_ok m /\ mod_like (snd df) m.
Proof.
  intros V N. destruct (Forall2_nth_r _ _ _ _ _ (iv_mods _ _ V) N) as (df & N' & A & B). eauto.
Qed.
Lemma unbalanced_shown D g i m : mg_inv D g -> nth_error (mg_mods g) i = Some m -> is_unbalanced m ->
  In i (concat (map snd (part_dict Flex g))).
Proof.
  intros V N (u & U). destruct (iv_at _ _ _ _ V N) as (df & Nd & _ & L).
  eapply last_shown; eauto. rewrite <- (mod_like_category _ _ L). unfold category_of. rewrite U. reflexivity.
Qed.

Section Ran2.
Variables (D : list (mdef Q)) (g : mgrid Q).
Hypothesis V : mg_inv D g.
Variables (c : control Q) (n : bool) (ci : cost_info Q) (efix ectl eflex : list event)
  (ms1 ms2 ms3 : list (module Q)) (r2 fp fa p a p3 a3 r3 s3 : Q).
Hypothesis RN : ran c n g ci efix ectl eflex ms1 ms2 ms3 r2 fp fa p a p3 a3 r3 s3.

Lemma ran_ms2_rel : Forall2 mod_rel (mg_mods g) ms2.
Proof.
  eapply performs_rel.
  eapply performs_app; [exact (rn_fix _ _ _ _ _ _ _ _ _ _ _ _ _ _ _ _ _ _ _ RN)
                       |exact (rn_ctl _ _ _ _ _ _ _ _ _ _ _ _ _ _ _ _ _ _ _ RN)].
Qed.
Lemma ran_flex_at : Forall (flex_at ms2) eflex.
Proof.
  rewrite Forall_forall. intros e I.
  assert (K : In (ev_key e) (part_tuples Flex g)).
  { rewrite <- (rn_flex_keys _ _ _ _ _ _ _ _ _ _ _ _ _ _ _ _ _ _ _ RN). apply in_map. exact I. }
  destruct (part_module _ _ _ _ _ V K) as (df & m & _ & _ & N & O & _ & F).
  destruct (Forall2_nth _ _ _ _ _ ran_ms2_rel N) as (m2 & N2 & R).
  exists m2. split; [exact N2|]. destruct (R O) as [_ S].
  destruct (kind_same_roles _ _ (sm_kind _ _ S)) as (_ & _ & T & _). congruence.
Qed.
Lemma ran_left : 0 <= r2 /\ p3 - a3 == (if nltb 0 (p - a) then r2 else - r2).
Proof.
  destruct (ran_totals _ _ V _ _ _ _ _ _ _ _ _ _ _ _ _ _ _ _ _ _ RN) as (P3 & A3 & _).
  destruct (ran_totals2 _ _ V _ _ _ _ _ _ _ _ _ _ _ _ _ _ _ _ _ _ RN) as (P2 & A2).
  pose proof (ran_ms2_ok _ _ V _ _ _ _ _ _ _ _ _ _ _ _ _ _ _ _ _ _ RN) as O2.
  assert (R0 : 0 <= (if nltb 0 (p - a) then p - a else - (p - a))).
  { unum. destruct (Qltb 0 (p - a)) eqn:Z; qprop; lra. }
  destruct (flexed_sums _ _ _ _ _ _ (rn_flex _ _ _ _ _ _ _ _ _ _ _ _ _ _ _ _ _ _ _ RN) O2 ran_flex_at R0)
    as (B1 & B2 & B3).
  split; [exact B1|]. rewrite app_assoc, sum_of_app in P3, A3. rewrite P3, A3, <- P2, <- A2.
  destruct (nltb 0 (p - a)); simpl in B3; destruct B3 as [B3 B4]; rewrite B3, B4; lra.
Qed.
Lemma ran_balanced : has_unbalanced g -> p3 == a3.
Proof.
  intros (i & m & N & U).
  pose proof (unbalanced_shown _ _ _ _ V N U) as I.
  rewrite <- (ran_flex_ids g _ _ _ _ _ _ _ _ _ _ _ _ _ _ _ _ _ _ RN) in I.
  unfold event_ids in I. apply in_map_iff in I. destruct I as (e & <- & I).
  destruct (iv_at _ _ _ _ V N) as (df & _ & O & _).
  destruct (Forall2_nth _ _ _ _ _ ran_ms2_rel N) as (m2 & N2 & R).
  destruct ran_left as [R0 E].
  assert (Z : r2 == 0).
  { eapply flexed_unbalanced; [exact (rn_flex _ _ _ _ _ _ _ _ _ _ _ _ _ _ _ _ _ _ _ RN)| | | |].
    - exact (ran_ms2_ok _ _ V _ _ _ _ _ _ _ _ _ _ _ _ _ _ _ _ _ _ RN).
    - apply ran_flex_at.
    - unum. destruct (Qltb 0 (p - a)) eqn:Z; qprop; lra.
    - exists e, m2. conj; auto. destruct (R O) as [_ S]. destruct U as (u & U).
      pose proof (sm_kind _ _ S) as K. rewrite U in K. destruct (m_kind m2) eqn:Z; simpl in K; try contradiction.
      unfold is_unbalanced. rewrite Z. eauto. }
  destruct (nltb 0 (p - a)); lra.
Qed.
End Ran2.

Lemma isclose_refl p a : p == a -> isclose p a = true.
Proof.
  intros E. unfold isclose, isclose_tol. unum. apply Qle_bool_iff.
  setoid_replace (p - a) with 0 by lra. pose proof (Qabs.Qabs_nonneg a) as H. change (Qabs 0) with 0.
  assert (0 <= (nfrac 1 100000 : Q) * Qabs a) by (apply Qmult_le_0_compat; [discriminate|exact H]).
  assert (0 <= (nfrac 1 100000000 : Q)) by discriminate. unfold nfrac in *. unum. lra.
Qed.

Lemma run_ok_full (D : list (mdef Q)) (g g' : mgrid Q) (c : control Q) n obs rw d inf : mg_inv D g -> run c n g = (g', Ok (obs, rw, d, inf)) ->
  exists ci efix ectl eflex ms1 ms2 ms3 r2 fp fa p a p3 a3 r3 lg,
    ran c n g ci efix ectl eflex ms1 ms2 ms3 r2 fp fa p a p3 a3 r3 rw
    /\ g' = mg_set_logs (mg_set_mods g ms3) lg (mg_other g)
    /\ logger_log (bal_row fp fa p a p3 a3 r3 rw) (mg_balance g) = (lg, Ok tt)
    /\ isclose p3 a3 = true
    /\ obs = ms_obs (collect (efix ++ ectl ++ eflex) mstep_init)
    /\ d = ms_done (collect (efix ++ ectl ++ eflex) mstep_init)
    /\ inf = output_info (collect (efix ++ ectl ++ eflex) mstep_init).
Proof.
  intros V E. apply run_any in E. destruct E as [(e & E & _)|E]; [discriminate|].
  destruct E as (ci & efix & ectl & eflex & ms1 & ms2 & ms3 & r2 & fp & fa & p & a & p3 & a3 & r3 & s3 & lg & x
                 & RN & _ & L & -> & E).
  destruct x as [[]|]; [|discriminate]. unfold run_result in E.
  destruct (isclose p3 a3) eqn:C; [|discriminate]. inversion E; subst.
  do 16 eexists. conj; eauto.
Qed.

(** C27 *)
Theorem run_balances D (g g' : mgrid Q) (c : control Q) n obs rw d inf :
  from_modules D g -> run c n g = (g', Ok (obs, rw, d, inf)) ->
  exists es, did g es g'
    /\ nearly (sum_of ev_provided es) (sum_of ev_absorbed es)
    /\ (has_unbalanced g -> sum_of ev_provided es == sum_of ev_absorbed es).
Proof.
  intros F E. apply from_modules_inv in F.
  destruct (run_ok_full _ _ _ _ _ _ _ _ _ F E) as (ci & efix & ectl & eflex & ms1 & ms2 & ms3 & r2 & fp & fa & p & a & p3 & a3 & r3 & lg
    & RN & -> & _ & C & _).
  exists (efix ++ ectl ++ eflex).
  destruct (ran_totals _ _ F _ _ _ _ _ _ _ _ _ _ _ _ _ _ _ _ _ _ RN) as (P3 & A3 & _).
  conj.
  - split; [exact (ran_performs _ _ _ _ _ _ _ _ _ _ _ _ _ _ _ _ _ _ _ RN)
           |exact (ran_nodup _ _ F _ _ _ _ _ _ _ _ _ _ _ _ _ _ _ _ _ _ RN)].
  - apply isclose_nearly in C. unfold nearly in *. rewrite <- P3, <- A3. exact C.
  - intros U. rewrite <- P3, <- A3. exact (ran_balanced _ _ F _ _ _ _ _ _ _ _ _ _ _ _ _ _ _ _ _ _ RN U).
Qed.
Theorem run_never_unbalanced D (g g' : mgrid Q) (c : control Q) n e :
  from_modules D g -> has_unbalanced g -> run c n g = (g', Err e) ->
  mg_balance g' = mg_balance g.
Proof.
  intros F U E. apply from_modules_inv in F. apply run_any in E. destruct E as [(e' & _ & (-> & _))|E]; [reflexivity|].
  destruct E as (ci & efix & ectl & eflex & ms1 & ms2 & ms3 & r2 & fp & fa & p & a & p3 & a3 & r3 & s3 & lg & x
                 & RN & _ & L & -> & E).
  destruct (bal_log fp fa p a p3 a3 r3 s3 _ (iv_bal _ _ F)) as (lg' & L' & _ & _).
  rewrite L in L'. inversion L'; subst. unfold run_result in E.
  rewrite (isclose_refl p3 a3) in E; [discriminate|].
  exact (ran_balanced _ _ F _ _ _ _ _ _ _ _ _ _ _ _ _ _ _ _ _ _ RN U).
Qed.
