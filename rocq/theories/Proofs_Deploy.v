(** * What a priority list deploys *)

From Coq Require Import ZArith QArith Qabs Bool String List Lia Lqa Permutation Sorted.
From Verif Require Import Num Py Space Logger Forecast Module Container Microgrid PriorityList
  Proofs_Num Proofs_Logger Spec_Module Spec_Reach Spec_Genset Proofs_Module Proofs_Space Proofs_Battery Proofs_Genset
  Proofs_Ts Proofs_Any Proofs_Request
  Proofs_Data Proofs_Classes Spec_Microgrid Spec_Sane Proofs_Container Proofs_Run Proofs_Balance
  Proofs_Mgrid Proofs_Views Proofs_MgProps Proofs_MgProps2 Proofs_Build Proofs_Episode Proofs_Sane Proofs_Progress
  Proofs_Control Proofs_Convert Spec_Priority Proofs_Perm Proofs_Priority.
Import ListNotations.
Local Open Scope string_scope.
Local Open Scope list_scope.
Local Open Scope Q_scope.

Lemma Forall2_weaken {A B} (R R' : A -> B -> Prop) l l' : (forall a b, R a b -> R' a b) -> Forall2 R l l' -> Forall2 R' l l'.
Proof. intros H. induction 1; constructor; auto. Qed.
Lemma Permutation_sumQ l l' : Permutation l l' -> fold_right Qplus 0 l == fold_right Qplus 0 l'.
Proof. induction 1; simpl; try lra. Qed.

(** ** One module *)
Lemma negligible_iff (r : Q) : negligible r = true <-> Qabs r <= 1 # 10000.
Proof. unfold negligible. unum. rewrite Qle_bool_iff. reflexivity. Qed.
Definition amount_of (action : nat) (m : module Q) (r : Q) : res Q :=
  if negligible r then Ok 0
  else if nltb 0 r then produce_from_module action m r else consume_in_module m r.
Lemma amount_share action m r x : amount_of action m r = Ok x -> share_of m action r x.
Proof.
  unfold amount_of. destruct (negligible r) eqn:N.
  - intros E. injection E as <-. apply negligible_iff in N. apply Qabs_Qle_condition in N as [N1 N2].
    split; [reflexivity|]. split; [intros; lra|]. split; intros; lra.
  - assert (NN : ~ Qabs r <= 1 # 10000) by (rewrite <- negligible_iff, N; discriminate).
    unum. destruct (Qltb 0 r) eqn:P.
    + apply Qltb_lt in P. intros E. split; [contradiction|]. split; [|split; intros; lra]. intros _.
      unfold produce_from_module in E. apply rbind_ok in E as ([mx mn] & L & E). apply rbind_ok in E as (p & EP & E).
      unum. destruct (Qle_bool 0 p) eqn:P0; [|discriminate]. injection E as <-. apply Qle_bool_iff in P0.
      exists mn, mx. split; [|split; [exact P0|]].
      * unfold production_limits. destruct (m_kind m) as [b|s|gg t|t|t|u] eqn:K;
          try (apply rbind_ok in L as (y & L & L'); injection L' as <- <-; split; [unfold min_production; rewrite K; reflexivity|exact L]).
        injection L as <- <-. auto.
      * destruct (Qle_bool mn r) eqn:M.
        -- apply Qle_bool_iff in M. split; [intros; lra|]. destruct mx as [y| |]; [|injection EP as <-; split; [intros; reflexivity|intros; discriminate]|discriminate].
           destruct (Qle_bool r y) eqn:RY.
           ++ apply Qle_bool_iff in RY. injection EP as <-. split; [intros; reflexivity|]. intros _ y' Y LT. injection Y as <-. lra.
           ++ injection EP as <-. split; [|intros _ y' Y _; injection Y as <-; reflexivity]. intros _ B. simpl in B.
              apply Qle_bool_iff in B. congruence.
        -- injection EP as <-. split; [intros; reflexivity|]. assert (~ mn <= r) by (intros X; apply Qle_bool_iff in X; congruence).
           split; intros; contradiction.
    + apply Qltb_ge in P. intros E. split; [contradiction|]. split; [intros; lra|].
      unfold consume_in_module in E. apply rbind_ok in E as (mx & MX & E). unum.
      destruct (Qle_bool r 0) eqn:R0; [|discriminate]. simpl in E. apply rbind_ok in E as (c & EC & E).
      destruct (Qle_bool c 0) eqn:C0; [|discriminate]. injection E as <-. apply Qle_bool_iff in C0.
      split; intros _ SK; rewrite SK in EC.
      * injection EC as <-. reflexivity.
      * exists mx. split; [exact MX|]. split; [exact C0|]. destruct mx as [y| |]; [|injection EC as <-; split; [intros; reflexivity|intros; discriminate]|discriminate].
        destruct (Qle_bool 0 y); [|discriminate]. simpl in EC. destruct (Qltb y (- (1) * r)) eqn:LT.
        -- apply Qltb_lt in LT. injection EC as <-. split; [|intros y' Y _; injection Y as <-; lra].
           simpl. intros. exfalso. lra.
        -- apply Qltb_ge in LT. injection EC as <-. split; [intros; reflexivity|]. intros y' Y L. injection Y as <-. exfalso. lra.
Qed.

(** ** Slots *)
Lemma dget_slot_set (a : slots Q) r v nm :
  dget nm (slot_set a r v) = if String.eqb nm (fst r) then option_map (fun l => set_nth l (snd r) (Some v)) (dget nm a) else dget nm a.
Proof.
  unfold slot_set. destruct (dget (fst r) a) as [l|] eqn:G.
  - rewrite dget_dset. destruct (String.eqb_spec nm (fst r)) as [->|N]; [|reflexivity]. rewrite G. reflexivity.
  - destruct (String.eqb_spec nm (fst r)) as [->|N]; [|reflexivity]. rewrite G. reflexivity.
Qed.
Lemma slot_set_keys (a : slots Q) r v : map fst (slot_set a r v) = map fst a.
Proof.
  unfold slot_set. destruct (dget (fst r) a) as [l|] eqn:G; [|reflexivity].
  generalize (set_nth l (snd r) (Some v)). intros l'. induction a as [|[k x] a IH]; simpl in *; [discriminate|].
  destruct (String.eqb_spec (fst r) k) as [E|N]; simpl; [congruence|]. f_equal. apply IH. exact G.
Qed.
Lemma slot_get_set (a : slots Q) r v r' o : slot_get a r = Ok o ->
  slot_get (slot_set a r v) r' = if ref_eqb r' r then Ok (Some v) else slot_get a r'.
Proof.
  unfold slot_get. rewrite dget_slot_set. destruct (dget (fst r) a) as [l|] eqn:G; [|discriminate].
  intros E. assert (L : (snd r < length l)%nat) by (apply nth_error_Some; intros X; rewrite X in E; discriminate E).
  unfold ref_eqb. destruct (String.eqb_spec (fst r') (fst r)) as [EQ|N]; simpl; [|reflexivity].
  rewrite EQ, G. simpl. rewrite nth_set_nth. destruct (Nat.eqb_spec (snd r') (snd r)) as [E'|N'].
  - rewrite E', Nat.eqb_refl. destruct (nth_error l (snd r)) eqn:X; [reflexivity|]. apply nth_error_None in X. lia.
  - replace (snd r =? snd r')%nat with false by (symmetry; apply Nat.eqb_neq; auto). reflexivity.
Qed.

(** ** The loop *)
Section Deploy.
Variables (D : list (mdef Q)) (g : mgrid Q).
Hypothesis FM : from_modules D g.
Hypothesis SEP : names_separate D.

Lemma deploy_cons e pl a r : deploy g (e :: pl) a r
  = rbind (find_module g (el_module e)) (fun m =>
    rbind (slot_get a (el_module e)) (fun s =>
    if Nat.ltb 1 (el_actions e) && (match s with Some _ => true | None => false end)
      then deploy g pl a r
      else rbind (amount_of (el_action e) m r) (fun x =>
        deploy g pl
          (slot_set a (el_module e)
             (if Nat.ltb 1 (el_actions e)
              then VA [nofZ (Z.of_nat (el_action e)); x] else VS x))
          (r - x)))).
Proof. reflexivity. Qed.

Definition driven (e : element Q) : Prop := exists i m, at_index g i m /\ deployable m /\ refers D (el_module e) i
  /\ el_actions e = (if is_genset (m_kind m) then 2 else 1)%nat /\ (el_action e < el_actions e)%nat.
Lemma order_drives pl : deployment_order D g pl -> drives D g pl.
Proof.
  intros (N & A & F). split; [exact N|]. split; [exact A|]. eapply Forall_impl; [|exact F].
  intros e (i & m & M & DP & R & A1 & A2 & _). exists i, m. auto.
Qed.
Lemma deploy_ok pl : forall a r a', deploy g pl a r = Ok a' ->
  NoDup (map el_module pl) -> Forall driven pl ->
  (forall e, In e pl -> slot_get a (el_module e) = Ok None) ->
  exists xs rest, dispatched D g pl r xs rest
    /\ Forall2 (fun e x => forall i m, refers D (el_module e) i -> at_index g i m ->
          slot_get a' (el_module e) = Ok (Some (command m e x))) pl xs
    /\ (forall r', ~ In r' (map el_module pl) -> slot_get a' r' = slot_get a r')
    /\ map fst a' = map fst a
    /\ (forall nm, option_map (@length _) (dget nm a') = option_map (@length _) (dget nm a)).
Proof.
  induction pl as [|e pl IH]; intros a r a' E N F S.
  - injection E as <-. exists [], r. split; [constructor; reflexivity|]. split; [constructor|]. auto.
  - rewrite deploy_cons in E. inversion N as [|? ? NI N']; subst. inversion F as [|? ? FE F']; subst.
    destruct FE as (i & m & M & DP & R & A1 & A2).
    rewrite (find_module_ok D g FM SEP _ i m R M) in E. cbn [rbind] in E.
    rewrite (S e (or_introl eq_refl)) in E. cbn [rbind] in E. rewrite andb_false_r in E.
    apply rbind_ok in E as (x & X & E). set (v := if (1 <? el_actions e)%nat then _ else _) in E.
    destruct (IH _ _ _ E N' F') as (xs & rest & DI & SL & OT & KE & LE).
    { intros e' I'. rewrite (slot_get_set _ _ _ _ _ (S e (or_introl eq_refl))).
      destruct (ref_eqb (el_module e') (el_module e)) eqn:Q; [|apply S; right; exact I'].
      apply ref_eqb_eq in Q. exfalso. apply NI. rewrite <- Q. apply in_map. exact I'. }
    exists (x :: xs), rest. split; [|split; [|split; [|split]]].
    + eapply disp_cons; eauto. apply amount_share. exact X.
    + constructor; [|exact SL]. intros i' m' R' M'. rewrite (OT _ NI), (slot_get_set _ _ _ _ _ (S e (or_introl eq_refl))).
      assert (Q : ref_eqb (el_module e) (el_module e) = true) by (apply ref_eqb_eq; reflexivity). rewrite Q.
      pose proof (refers_fun _ _ _ _ R R'). subst i'. unfold at_index in *. rewrite M in M'. injection M' as <-.
      unfold v, command. rewrite A1. destruct (is_genset (m_kind m)); reflexivity.
    + intros r' NR. simpl in NR. rewrite OT by tauto. rewrite (slot_get_set _ _ _ _ _ (S e (or_introl eq_refl))).
      destruct (ref_eqb r' (el_module e)) eqn:Q; [|reflexivity]. apply ref_eqb_eq in Q. subst r'. tauto.
    + rewrite KE. apply slot_set_keys.
    + intros nm. rewrite LE, dget_slot_set. destruct (String.eqb nm (fst (el_module e))); [|reflexivity].
      destruct (dget nm a); simpl; [rewrite set_nth_length|]; reflexivity.
Qed.

(** ** Load and renewables *)
Lemma sum_bounds_ok get ids y : sum_bounds get g ids = Ok y ->
  exists ys, Forall2 (fun i x => exists m, nth_error (mg_mods g) i = Some m /\ get m = Ok (BFin x)) ids ys
    /\ y == fold_right Qplus 0 ys.
Proof.
  unfold sum_bounds. intros E. apply rmap_ok in E as (ys & E & ->). exists ys. split; [|apply nsum_fold].
  apply rmapM_ok in E. eapply Forall2_weaken; [|exact E]. intros i x X. cbn beta in X.
  destruct (nth_error (mg_mods g) i) as [m|]; [|discriminate]. exists m. split; [reflexivity|].
  apply rbind_ok in X as (b & B & X). destruct b; try discriminate. injection X as <-. exact B.
Qed.
Lemma sum_over f (P : module Q -> bool) ids : Permutation ids (filter (fun i => match nth_error (mg_mods g) i with Some m => P m | None => false end) (seq 0 (length (mg_mods g)))) ->
  (forall m, P m = false -> f m == 0) ->
  fold_right Qplus 0 (map (fun i => match nth_error (mg_mods g) i with Some m => f m | None => 0 end) ids) == total f g.
Proof.
  intros PM Z. rewrite (Permutation_sumQ _ _ (Permutation_map _ PM)). clear PM. unfold total.
  assert (H : forall ms pre, mg_mods g = pre ++ ms ->
     fold_right Qplus 0 (map (fun i => match nth_error (mg_mods g) i with Some m => f m | None => 0 end)
        (filter (fun i => match nth_error (mg_mods g) i with Some m => P m | None => false end) (seq (length pre) (length ms))))
     == fold_right (fun m acc => f m + acc) 0 ms).
  { induction ms as [|m ms IH]; intros pre E; simpl; [reflexivity|].
    assert (N : nth_error (mg_mods g) (length pre) = Some m).
    { rewrite E, nth_error_app2, Nat.sub_diag by lia. reflexivity. }
    rewrite N. specialize (IH (pre ++ [m])). rewrite app_length, Nat.add_1_r in IH.
    rewrite <- IH by (rewrite <- app_assoc; exact E). destruct (P m) eqn:PM; simpl; [rewrite N; reflexivity|].
    rewrite (Z m PM). ring. }
  apply (H _ []). reflexivity.
Qed.
Lemma sub_ids_nodup k : NoDup (concat (map snd (ctc (mg_ct g) k))).
Proof.
  pose proof (from_modules_inv D g FM) as V.
  assert (N : NoDup (all_ids g)).
  { eapply Permutation_NoDup; [apply Permutation_sym; exact (iv_perm _ _ V)|apply seq_NoDup]. }
  unfold all_ids, to_list, subs_all, subs_of, all_mtypes, all_ssinks in N. cbn [map concat app] in N.
  destruct k as [[] []]; repeat first [exact (NoDup_app_l _ _ N) | apply NoDup_app_r in N].
Qed.
Lemma sub_ids_perm k : Permutation (concat (map snd (ctc (mg_ct g) k)))
  (filter (fun i => match nth_error (mg_mods g) i with
                    | Some m => mtype_eqb (module_type (m_kind m)) (fst k) && ssink_eqb (ssink_of (m_kind m)) (snd k)
                    | None => false end) (seq 0 (length (mg_mods g)))).
Proof.
  pose proof (from_modules_inv D g FM) as V.
  apply NoDup_Permutation; [apply sub_ids_nodup|apply NoDup_filter; apply seq_NoDup|].
  intros i. rewrite (sub_in D g FM), filter_In, in_seq. split.
  - intros (d & N & C). destruct (mod_at D g V i d N) as (m & M & _ & L). rewrite M.
    rewrite <- (mod_like_category _ _ L) in C. unfold category_of in C. subst k. simpl.
    split; [split; [lia|apply nth_error_Some; congruence]|]. destruct (module_type (m_kind m)), (ssink_of (m_kind m)); reflexivity.
  - intros [_ X]. destruct (nth_error (mg_mods g) i) as [m|] eqn:M; [|discriminate].
    destruct (Proofs_Run.Forall2_nth_r _ _ _ _ _ (iv_mods _ _ V) M) as (d & Nd & _ & L). exists d. split; [exact Nd|].
    rewrite <- (mod_like_category _ _ L). unfold category_of. destruct k as [f s]. simpl in X.
    destruct (module_type (m_kind m)), (ssink_of (m_kind m)), f, s; try discriminate; reflexivity.
Qed.
Lemma sum_bounds_total get (f : module Q -> Q) k y :
  (forall m x, category_of m = k -> get m = Ok (BFin x) -> f m = x) -> (forall m, category_of m <> k -> f m == 0) ->
  sum_bounds get g (concat (map snd (ctc (mg_ct g) k))) = Ok y -> y == total f g.
Proof.
  intros H1 H2 E. apply sum_bounds_ok in E as (ys & F & ->).
  rewrite <- (sum_over f _ _ (sub_ids_perm k)).
  - assert (C : forall i, In i (concat (map snd (ctc (mg_ct g) k))) -> forall m, nth_error (mg_mods g) i = Some m -> category_of m = k).
    { intros i I m M. apply (sub_in D g FM) in I as (d & N & C).
      destruct (mod_at D g (from_modules_inv D g FM) i d N) as (m' & M' & _ & L). rewrite M in M'. injection M' as <-.
      rewrite (mod_like_category _ _ L). exact C. }
    revert F C. generalize (concat (map snd (ctc (mg_ct g) k))). intros ids F.
    induction F as [|i x ids ys (m & M & G) F IH]; intros C; simpl; [reflexivity|].
    rewrite IH by (intros; eapply C; eauto; right; assumption). rewrite M, (H1 m x); [reflexivity| |exact G].
    eapply C; eauto. left. reflexivity.
  - intros m X. apply H2. unfold category_of. intros <-. simpl in X.
    destruct (module_type (m_kind m)), (ssink_of (m_kind m)); discriminate.
Qed.
Lemma load_total y : get_load g = Ok y -> y == total demand g.
Proof.
  apply (sum_bounds_total max_consumption demand (Fixed, Sinks)).
  - intros m x C G. unfold demand. unfold category_of in C. destruct (m_kind m) as [b|s|gg t|t|t|u]; simpl in C; try discriminate.
    rewrite G. reflexivity.
  - intros m C. unfold demand. destruct (m_kind m) eqn:K; try reflexivity. exfalso. apply C. unfold category_of. rewrite K. reflexivity.
Qed.
Lemma renewable_total y : get_renewable g = Ok y -> y == total renewable g.
Proof.
  apply (sum_bounds_total max_production renewable (Flex, Sources)).
  - intros m x C G. unfold renewable. unfold category_of in C. destruct (m_kind m) as [b|s|gg t|t|t|u]; simpl in C; try discriminate.
    rewrite G. reflexivity.
  - intros m C. unfold renewable. destruct (m_kind m) eqn:K; try reflexivity. exfalso. apply C. unfold category_of. rewrite K. reflexivity.
Qed.

(** ** The whole action *)
Lemma empty_slot r i m : refers D r i -> nth_error (mg_mods g) i = Some m -> module_type (m_kind m) = Controllable ->
  slot_get (get_empty_action g false) r = Ok None.
Proof.
  intros R M T. pose proof (from_modules_inv D g FM) as V. destruct (refers_name _ _ _ R) as (d & N & E).
  destruct (mod_at D g V i d N) as (m' & M' & _ & L). rewrite M in M'. injection M' as <-.
  unfold slot_get. rewrite <- E, (empty_ctrl D g V SEP d (nth_error_In _ _ N)); [|rewrite (like_type _ _ L); exact T].
  rewrite E. assert (LT : (snd r < length (positions (fst r) D))%nat) by (apply nth_error_Some; unfold refers in R; congruence).
  rewrite nth_error_repeat by exact LT. reflexivity.
Qed.
Lemma dispatched_start pl r r' xs rest : r == r' -> dispatched D g pl r xs rest -> dispatched D g pl r' xs rest.
Proof.
  intros E H. revert r' E. induction H as [r rest Z|e pl r x xs rest i m R M S H IH]; intros r' E.
  - constructor. rewrite <- E. exact Z.
  - econstructor; eauto; [|apply IH; rewrite E; reflexivity].
    destruct S as (S1 & S2 & S3 & S4). split; [|split; [|split]].
    + rewrite <- E. exact S1.
    + rewrite <- E. intros L. destruct (S2 L) as (lo & hi & P & X & A1 & A2 & A3). exists lo, hi. split; [exact P|]. split; [exact X|].
      split; [rewrite <- E; exact A1|]. split.
      * intros L1 B. rewrite A2; [exact E|rewrite E; exact L1|]. destruct hi; simpl in *; auto. rewrite E. exact B.
      * intros L1 y Y L2. apply A3; [rewrite E; exact L1|exact Y|rewrite E; exact L2].
    + rewrite <- E. exact S3.
    + rewrite <- E. intros L K. destruct (S4 L K) as (b & B & X & A1 & A2). exists b. split; [exact B|]. split; [exact X|].
      split; [|intros y Y L1; apply A2; [exact Y|rewrite E; exact L1]]. intros L1. rewrite A1; [exact E|].
      destruct b; simpl in *; auto. rewrite E. exact L1.
Qed.
Lemma rmapM_some (l : list (option (pyval Q))) : (forall o, In o l -> o <> None) ->
  exists vs, rmapM (fun o => match o with Some v => Ok v | None => raise TypeError "NoneType" end) l = Ok vs /\ l = map Some vs.
Proof.
  induction l as [|o l IH]; intros H; [exists []; split; reflexivity|].
  destruct IH as (vs & E & Q); [intros o' I; apply H; right; exact I|].
  destruct o as [v|]; [|exfalso; exact (H None (or_introl eq_refl) eq_refl)].
  exists (v :: vs). simpl. rewrite E. split; [reflexivity|]. rewrite Q. reflexivity.
Qed.
Lemma as_control_ok (a : slots Q) : (forall nm l, In (nm, l) a -> forall o, In o l -> o <> None) ->
  exists c, as_control a = Ok c
    /\ forall nm, match dget nm a with
                  | Some l => exists vs, dget nm c = Some (CList vs) /\ l = map Some vs
                  | None => dget nm c = None
                  end.
Proof.
  unfold as_control. induction a as [|[k l] a IH]; intros H; [exists []; split; reflexivity|].
  destruct IH as (c & E & Q); [intros nm l' I; apply (H nm l'); right; exact I|].
  destruct (rmapM_some l (H k l (or_introl eq_refl))) as (vs & E1 & Q1).
  exists ((k, CList vs) :: c). simpl. rewrite E1. simpl. rewrite E. split; [reflexivity|].
  intros nm. simpl. destruct (String.eqb nm k); [|apply Q]. exists vs. auto.
Qed.

Theorem populate_ok pl a : drives D g pl -> populate_action g pl = Ok a ->
  0 <= total demand g /\ 0 <= total renewable g
  /\ exists xs rest c, dispatched D g pl (total demand g - total renewable g) xs rest
    /\ as_control a = Ok c
    /\ Forall2 (fun e x => forall i m, refers D (el_module e) i -> at_index g i m ->
          slot_get a (el_module e) = Ok (Some (command m e x)) /\ commands D c i (command m e x)) pl xs
    /\ (forall nm w, dget nm c = Some w -> exists d, In d D /\ mdef_name d = nm /\ module_type (m_kind (snd d)) = Controllable
          /\ length (ctrl_list w) = length (positions nm D)).
Proof.
  intros (N & ALL & F) E. pose proof (from_modules_inv D g FM) as V. unfold populate_action in E.
  apply rbind_ok in E as (ld & L & E). apply rbind_ok in E as (rn & R & E).
  apply load_total in L. apply renewable_total in R. unum.
  destruct (Qle_bool 0 ld && Qle_bool 0 rn) eqn:P; [|discriminate]. simpl in E. apply andb_true_iff in P as [P1 P2].
  apply Qle_bool_iff in P1, P2. split; [rewrite <- L; exact P1|]. split; [rewrite <- R; exact P2|].
  destruct (deploy_ok pl _ _ _ E N F) as (xs & rest & DI & SL & OT & KE & LE).
  { intros e I. rewrite Forall_forall in F. destruct (F e I) as (i & m & M & [T _] & RF & _). exact (empty_slot _ i m RF M T). }
  (* names in the action *)
  assert (NM : forall nm l, dget nm a = Some l -> exists d, In d D /\ mdef_name d = nm /\ module_type (m_kind (snd d)) = Controllable
     /\ length l = length (positions nm D)).
  { intros nm l G. pose proof (LE nm) as X. rewrite G in X. simpl in X.
    destruct (find (fun d => String.eqb nm (mdef_name d) && mtype_eqb (module_type (m_kind (snd d))) Controllable) D) as [d|] eqn:FD.
    - apply find_some in FD as [I Q]. apply andb_true_iff in Q as [Q1 Q2]. apply String.eqb_eq in Q1. subst nm.
      assert (T : module_type (m_kind (snd d)) = Controllable) by (destruct (module_type (m_kind (snd d))); try discriminate; reflexivity).
      exists d. split; [exact I|]. split; [reflexivity|]. split; [exact T|].
      rewrite (empty_ctrl D g V SEP d I T) in X. simpl in X. rewrite repeat_length in X. congruence.
    - exfalso. rewrite (empty_other D g V SEP nm) in X; [discriminate|]. intros d I Q T.
      eapply find_none in FD; [|exact I]. simpl in FD. rewrite Q, String.eqb_refl, T in FD. discriminate. }
  (* every slot is filled *)
  assert (FL : forall nm l k o, dget nm a = Some l -> nth_error l k = Some o -> o <> None).
  { intros nm l k o G NO. destruct (NM nm l G) as (d & I & Q & T & LL).
    assert (LT : (k < length (positions nm D))%nat) by (rewrite <- LL; apply nth_error_Some; congruence).
    destruct (nth_error (positions nm D) k) as [i|] eqn:NI; [|apply nth_error_None in NI; lia].
    assert (RF : refers D (nm, k) i) by exact NI.
    destruct (refers_name _ _ _ RF) as (d' & Nd & Q'). simpl in Q'.
    destruct (mod_at D g V i d' Nd) as (m & M & _ & LK).
    assert (CT : category_of (snd d') = category_of (snd d)) by (apply SEP; [apply nth_error_In in Nd; exact Nd|exact I|congruence]).
    assert (DP : deployable m).
    { pose proof (mod_like_category _ _ LK) as CM. rewrite CT in CM. unfold category_of in CM. rewrite T in CM. injection CM as C1 C2.
      split; [exact C1|]. destruct (m_kind m); try reflexivity. discriminate C1. }
    destruct (ALL i m M DP) as (e & IE & RE). apply In_nth_error in IE as (j & NE).
    destruct (Proofs_Run.Forall2_nth _ _ _ _ _ SL NE) as (x & _ & SX). specialize (SX i m RE M).
    rewrite (refers_inj _ _ _ _ RE RF) in SX. unfold slot_get in SX. simpl in SX. rewrite G, NO in SX.
    injection SX as ->. discriminate. }
  assert (NDa : NoDup (map fst a)).
  { rewrite KE. unfold get_empty_action. rewrite map_map. simpl. rewrite (action_dict_ctrl D g V). apply part_nodup. }
  destruct (as_control_ok a) as (c & EC & HC).
  { intros nm l I o IO. apply In_nth_error in IO as (k & NO). eapply FL; [|exact NO]. apply Proofs_Num.In_dget; [exact NDa|exact I]. }
  exists xs, rest, c. split; [|split; [exact EC|split]].
  - eapply dispatched_start; [|exact DI]. rewrite L, R. reflexivity.
  - eapply Forall2_weaken; [|exact SL]. intros e x H i m RF M. specialize (H i m RF M). split; [exact H|].
    unfold slot_get in H. pose proof (HC (fst (el_module e))) as HN.
    destruct (dget (fst (el_module e)) a) as [l|]; [|discriminate]. destruct HN as (vs & DV & ->).
    exists (el_module e), (CList vs). split; [exact RF|]. split; [exact DV|]. simpl.
    rewrite nth_error_map in H. destruct (nth_error vs (snd (el_module e))) as [v|]; simpl in H; [|discriminate]. injection H as ->. reflexivity.
  - intros nm w G. specialize (HC nm). destruct (dget nm a) as [l|] eqn:GA; [|congruence].
    destruct HC as (vs & DV & ->). rewrite G in DV. injection DV as ->.
    destruct (NM nm _ GA) as (d & I & Q & T & LL). rewrite map_length in LL. exists d. auto.
Qed.
End Deploy.
