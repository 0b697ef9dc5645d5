(** * Rule-based control *)

From Coq Require Import ZArith QArith Qabs Bool String List Lia Lqa Permutation Sorted.
From Verif Require Import Num Py Space Logger Forecast Module Container Microgrid PriorityList
  Proofs_Num Proofs_Logger Spec_Module Spec_Reach Spec_Genset Proofs_Module Proofs_Space Proofs_Battery Proofs_Genset
  Proofs_Ts Proofs_Any Proofs_Request
  Proofs_Data Proofs_Classes Spec_Microgrid Spec_Sane Proofs_Container Proofs_Run Proofs_Balance
  Proofs_Mgrid Proofs_Views Proofs_MgProps Proofs_MgProps2 Proofs_Build Proofs_Episode Proofs_Sane Proofs_Progress
  Proofs_Control Proofs_Convert Spec_Priority Proofs_Perm Proofs_Priority Proofs_Deploy.
Import ListNotations.
Local Open Scope string_scope.
Local Open Scope list_scope.
Local Open Scope Q_scope.

(** ** Consequences of greedy dispatch *)
Section Greedy.
Variables (D : list (mdef Q)) (g : mgrid Q).
Lemma share_small m goal r x : r <= 1 # 10000 -> share_of m goal r x -> r - x <= 1 # 10000.
Proof.
  intros L (S1 & S2 & S3 & S4). destruct (Qlt_le_dec r (- (1 # 10000))) as [N|N].
  - destruct (is_sink (m_kind m)) eqn:K.
    + destruct (S4 N eq_refl) as (b & B & X & A1 & A2). destruct b as [y| |].
      * destruct (Qlt_le_dec y (- r)) as [Y|Y]; [rewrite (A2 y eq_refl Y); lra|rewrite (A1 Y); lra].
      * rewrite (A1 I). lra.
      * rewrite (A1 I). lra.
    + rewrite (S3 N eq_refl). lra.
  - rewrite S1; [lra|]. apply Qabs_Qle_condition. split; lra.
Qed.
Lemma dispatched_small pl r xs rest : dispatched D g pl r xs rest -> r <= 1 # 10000 -> rest <= 1 # 10000.
Proof.
  induction 1 as [r rest Z|e pl r x xs rest i m R M SH H IH]; intros L; [lra|].
  apply IH. exact (share_small m _ r x L SH).
Qed.
(** Load is left over only if every module produces what it can. *)
Theorem short_all_at_maximum pl r xs rest : dispatched D g pl r xs rest -> 1 # 10000 < rest ->
  rest <= r /\ Forall2 (fun e x => forall i m, refers D (el_module e) i -> at_index g i m ->
    exists lo y, production_limits m (el_action e) lo (BFin y) /\ x == y) pl xs.
Proof.
  induction 1 as [r rest Z|e pl r x xs rest i m R M SH H IH]; intros L; [split; [lra|constructor]|].
  destruct (IH L) as [IH1 IH2].
  assert (LR : 1 # 10000 < r).
  { destruct (Qlt_le_dec (1 # 10000) r) as [X|X]; [exact X|]. pose proof (dispatched_small _ _ _ _ H (share_small m _ r x X SH)). lra. }
  destruct SH as (_ & S2 & _). destruct (S2 LR) as (lo & hi & P & X0 & A1 & A2 & A3).
  split; [lra|]. constructor; [|exact IH2]. intros i' m' R' M'.
  pose proof (refers_fun _ _ _ _ R R'). subst i'. unfold at_index in *. rewrite M in M'. injection M' as <-.
  destruct (Qlt_le_dec r lo) as [Y|Y]; [rewrite (A1 Y) in *; lra|].
  destruct hi as [y| |].
  - destruct (Qlt_le_dec y r) as [Y'|Y']; [|rewrite (A2 Y Y') in *; lra].
    exists lo, y. split; [exact P|]. exact (A3 Y y eq_refl Y').
  - rewrite (A2 Y I) in *. lra.
  - rewrite (A2 Y I) in *. lra.
Qed.
(** More than needed is produced only by a genset at its minimum. *)
Theorem over_by_minimum pl r xs rest : dispatched D g pl r xs rest -> 0 <= r -> rest < 0 ->
  exists k e x i m s, nth_error pl k = Some e /\ nth_error xs k = Some x /\ refers D (el_module e) i /\ at_index g i m
    /\ m_kind m = KGenset s /\ x == next_min_production s (negb (Nat.eqb (el_action e) 0)) /\ 0 < x.
Proof.
  induction 1 as [r rest Z|e pl r x xs rest i m R M SH H IH]; intros L N; [lra|].
  assert (C : 0 <= r - x \/ exists s, m_kind m = KGenset s /\ x == next_min_production s (negb (Nat.eqb (el_action e) 0)) /\ 0 < x).
  { destruct SH as (S1 & S2 & _). destruct (Qlt_le_dec (1 # 10000) r) as [X|X].
    - destruct (S2 X) as (lo & hi & P & X0 & A1 & A2 & A3). destruct (Qlt_le_dec r lo) as [Y|Y].
      + right. unfold production_limits in P. destruct (m_kind m) as [b|s|gg t|t|t|u]; try (destruct P as [-> _]; lra).
        exists s. destruct P as [-> _]. split; [reflexivity|]. split; [exact (A1 Y)|]. rewrite (A1 Y). lra.
      + left. destruct hi as [y| |].
        * destruct (Qlt_le_dec y r) as [Y'|Y']; [rewrite (A3 Y y eq_refl Y')|rewrite (A2 Y Y')]; lra.
        * rewrite (A2 Y I). lra.
        * rewrite (A2 Y I). lra.
    - left. rewrite S1; [lra|]. apply Qabs_Qle_condition. split; lra. }
  destruct C as [C|(s & K & E & P)].
  - destruct (IH C N) as (k & e' & x' & i' & m' & s & H1 & H2 & H3). exists (S k), e', x', i', m', s. auto.
  - exists 0%nat, e, x, i, m, s. auto 10.
Qed.
Lemma dispatched_idle pl r xs rest : dispatched D g pl r xs rest -> r <= 0 -> - (1 # 10000) <= r -> rest == r.
Proof.
  induction 1 as [r rest Z|e pl r x xs rest i m R M SH H IH]; intros L1 L2; [lra|].
  destruct SH as (S1 & _). assert (E : x == 0) by (apply S1; apply Qabs_Qle_condition; split; lra).
  rewrite IH; lra.
Qed.
(** A surplus is never turned into a deficit, and what is left of it could not
    be absorbed. *)
Theorem surplus_absorbed pl r xs rest : dispatched D g pl r xs rest -> r <= 0 ->
  rest <= 0 /\ (rest < - (1 # 10000) ->
    Forall2 (fun e x => forall i m, refers D (el_module e) i -> at_index g i m ->
      if is_sink (m_kind m) then exists y, max_consumption m = Ok (BFin y) /\ x == - y else x == 0) pl xs).
Proof.
  induction 1 as [r rest Z|e pl r x xs rest i m R M SH H IH]; intros L; [split; [lra|constructor]|].
  destruct SH as (S1 & S2 & S3 & S4).
  assert (X : r - x <= 0 /\ (- (1 # 10000) <= r -> - (1 # 10000) <= r - x)
     /\ (r - x < - (1 # 10000) -> if is_sink (m_kind m) then exists y, max_consumption m = Ok (BFin y) /\ x == - y else x == 0)).
  { destruct (Qlt_le_dec r (- (1 # 10000))) as [N|N].
    - destruct (is_sink (m_kind m)) eqn:K.
      + destruct (S4 N eq_refl) as (b & B & X & A1 & A2). destruct b as [y| |].
        * destruct (Qlt_le_dec y (- r)) as [Y|Y].
          -- pose proof (A2 y eq_refl Y) as E. split; [lra|]. split; [lra|]. intros _. exists y. split; [exact B|exact E].
          -- pose proof (A1 Y) as E. split; [lra|]. split; [lra|]. intros Z. exfalso. lra.
        * pose proof (A1 I) as E. split; [lra|]. split; [lra|]. intros Z. exfalso. lra.
        * pose proof (A1 I) as E. split; [lra|]. split; [lra|]. intros Z. exfalso. lra.
      + pose proof (S3 N eq_refl) as E. split; [lra|]. split; [lra|]. intros; exact E.
    - assert (E : x == 0) by (apply S1; apply Qabs_Qle_condition; split; lra). split; [lra|]. split; [lra|]. intros Z. exfalso. lra. }
  destruct X as (X1 & X2 & X3). destruct (IH X1) as [I1 I2]. split; [exact I1|]. intros RL. constructor; [|exact (I2 RL)].
  intros i' m' R' M'. pose proof (refers_fun _ _ _ _ R R'). subst i'. unfold at_index in *. rewrite M in M'. injection M' as <-.
  apply X3. destruct (Qlt_le_dec (r - x) (- (1 # 10000))) as [N|N]; [exact N|].
  pose proof (dispatched_idle _ _ _ _ H X1 N). lra.
Qed.
End Greedy.

(** ** The action can always be populated *)
Lemma genset_next (s : genset Q) goal : 0 <= g_min_prod s -> g_min_prod s <= g_max_prod s ->
  0 <= next_min_production s goal /\ next_min_production s goal <= next_max_production s goal.
Proof.
  intros A B. unfold next_min_production, next_max_production, times_status. unum.
  destruct (next_status s goal); split; lra.
Qed.
Lemma battery_limits (b : battery Q) : batt_wf b -> batt_in b -> 0 <= b_max_charge b -> 0 <= b_max_discharge b ->
  0 <= battery_max_production b /\ 0 <= battery_max_consumption b.
Proof.
  intros (E & _) (I1 & I2 & _) C Dd. unfold battery_max_production, battery_max_consumption. unum.
  destruct (Qmin_spec (b_max_discharge b) (b_charge b - b_min_capacity b)) as (_ & _ & M1).
  destruct (Qmin_spec (b_max_charge b) (b_max_capacity b - b_charge b)) as (_ & _ & M2).
  split; [apply Qmult_le_0_compat; [|lra]|apply Qle_shift_div_l; [exact E|]].
  - destruct M1 as [-> | ->]; lra.
  - setoid_replace (0 * b_efficiency b) with 0 by ring. destruct M2 as [-> | ->]; lra.
Qed.
Lemma deploy_limits (m : module Q) : phys m -> in_data m -> deployable m ->
  (forall goal, exists lo hi, production_limits m goal lo hi /\ 0 <= lo /\ hi <> BNone /\ (forall y, hi = BFin y -> 0 <= y))
  /\ (exists b, max_consumption m = Ok b /\ (is_sink (m_kind m) = true -> b <> BNone /\ forall y, b = BFin y -> 0 <= y)).
Proof.
  intros P I [T S]. pose proof (ph_kind _ P) as PK. unfold production_limits.
  destruct (m_kind m) as [b|s|gg t|t|t|u] eqn:K; simpl in T, S; try discriminate.
  - destruct PK as (WF & BI & C & Dd). destruct (battery_limits b WF BI C Dd) as [A B].
    unfold max_production, max_consumption. rewrite K. split.
    + intros _. exists 0, (BFin (battery_max_production b)). split; [auto|]. split; [lra|]. split; [discriminate|]. intros y Y. injection Y as <-. exact A.
    + eexists. split; [reflexivity|]. intros _. split; [discriminate|]. intros y Y. injection Y as <-. exact B.
  - destruct PK as (_ & A & B). unfold max_consumption. rewrite K. split.
    + intros goal. destruct (genset_next s (negb (Nat.eqb goal 0)) A B) as [X Y].
      do 2 eexists. split; [split; reflexivity|]. split; [exact X|]. split; [discriminate|]. intros y E. injection E as <-. exact (Qle_trans _ _ _ X Y).
    + eexists. split; [reflexivity|]. discriminate.
  - destruct (row_four m t (ph_ok _ P) I) as (p & q & c & s & R); [rewrite K; reflexivity|unfold columns; rewrite K; reflexivity|].
    destruct (grid_limits m gg t p q c s (ph_ok _ P) K R) as (SS & _ & _ & _ & MI & ME & X1 & X2).
    assert (S0 : 0 <= s) by (destruct SS; lra). rewrite X1, X2. split.
    + intros _. exists 0, (BFin (gr_max_import gg * s)). split; [auto|]. split; [lra|]. split; [discriminate|].
      intros y Y. injection Y as <-. apply Qmult_le_0_compat; assumption.
    + eexists. split; [reflexivity|]. intros _. split; [discriminate|]. intros y Y. injection Y as <-. apply Qmult_le_0_compat; assumption.
Qed.
Lemma amount_total (m : module Q) action r : good m -> deployable m -> exists x, amount_of action m r = Ok x.
Proof.
  intros (P & _ & I) DP. destruct (deploy_limits m P I DP) as (LI & b & B & LC). unfold amount_of.
  destruct (negligible r); [eexists; reflexivity|].
  destruct (nltb 0 r) eqn:PR; unum; qprop.
  - destruct (LI action) as (lo & hi & PL & L0 & HN & HY). unfold produce_from_module.
    match goal with |- exists x, rbind ?X _ = _ => replace X with (Ok (hi, lo) : res (bound Q * Q)) end.
    2: { unfold production_limits, min_production in *. destruct (m_kind m); destruct PL as [-> P2]; rewrite P2; reflexivity. }
    cbn [rbind]. clear PL. unum.
    assert (FIN : forall x, 0 <= x -> (if Qle_bool 0 x then Ok x else raise AssertionError "module_production >= 0") = Ok x).
    { intros x X. apply Qle_bool_iff in X. rewrite X. reflexivity. }
    destruct (Qle_bool lo r) eqn:LR; [|cbn [rbind]; rewrite FIN by exact L0; eexists; reflexivity].
    destruct hi as [y| |]; [|cbn [rbind]; rewrite FIN by lra; eexists; reflexivity|congruence].
    destruct (Qle_bool r y); cbn [rbind]; rewrite FIN; try (eexists; reflexivity); [lra|apply HY; reflexivity].
  - unfold consume_in_module. rewrite B. cbn [rbind]. unum.
    assert (X : Qle_bool r 0 = true) by (apply Qle_bool_iff; lra). rewrite X. cbn [negb].
    assert (FIN : forall x, x <= 0 -> (if Qle_bool x 0 then Ok x else raise AssertionError "module_consumption <= 0") = Ok x).
    { intros x Y. apply Qle_bool_iff in Y. rewrite Y. reflexivity. }
    destruct (is_sink (m_kind m)); [|cbn [rbind]; rewrite FIN by lra; eexists; reflexivity].
    destruct (LC eq_refl) as [BN BY]. destruct b as [y| |]; [|cbn [rbind]; rewrite FIN by lra; eexists; reflexivity|congruence].
    specialize (BY y eq_refl). apply Qle_bool_iff in BY as BY'. rewrite BY'. cbn [negb].
    destruct (Qltb y (- (1) * r)); cbn [rbind]; rewrite FIN by lra; eexists; reflexivity.
Qed.

Section Populate.
Variables (D : list (mdef Q)) (g : mgrid Q).
Hypothesis FM : from_modules D g.
Hypothesis SEP : names_separate D.
Hypothesis G : Forall good (mg_mods g).
Lemma deploy_total pl : forall a r, NoDup (map el_module pl) -> Forall (driven D g) pl ->
  (forall e, In e pl -> slot_get a (el_module e) = Ok None) -> exists a', deploy g pl a r = Ok a'.
Proof.
  induction pl as [|e pl IH]; intros a r N F SL; [eexists; reflexivity|].
  rewrite deploy_cons. inversion N as [|? ? NI N']; subst. inversion F as [|? ? FE F']; subst.
  destruct FE as (i & m & M & DP & R & A1 & A2).
  rewrite (find_module_ok D g FM SEP _ i m R M). cbn [rbind].
  rewrite (SL e (or_introl eq_refl)). cbn [rbind]. rewrite andb_false_r.
  rewrite Forall_forall in G. destruct (amount_total m (el_action e) r (G m (nth_error_In _ _ M)) DP) as (x & ->).
  cbn [rbind]. apply IH; auto. intros e' I'. rewrite (slot_get_set _ _ _ _ _ (SL e (or_introl eq_refl))).
  destruct (ref_eqb (el_module e') (el_module e)) eqn:Q; [|apply SL; right; exact I'].
  apply ref_eqb_eq in Q. exfalso. apply NI. rewrite <- Q. apply in_map. exact I'.
Qed.
Lemma sum_total get k : (forall m, good m -> category_of m = k -> exists y, get m = Ok (BFin y) /\ 0 <= y) ->
  exists y, sum_bounds get g (concat (map snd (ctc (mg_ct g) k))) = Ok y /\ 0 <= y.
Proof.
  intros H. pose proof (from_modules_inv D g FM) as V. unfold sum_bounds.
  assert (H' : forall i, In i (concat (map snd (ctc (mg_ct g) k))) -> exists y,
    match nth_error (mg_mods g) i with None => raise KeyError "no such module"
      | Some m => rbind (get m) (fun b => bound_num b) end = Ok y /\ 0 <= y).
  { intros i I. apply (sub_in D g FM) in I as (d & N & C). destruct (mod_at D g V i d N) as (m & M & _ & LK).
    rewrite Forall_forall in G. destruct (H m (G m (nth_error_In _ _ M))) as (y & E & Y).
    { rewrite <- C. symmetry. first [exact (mod_like_category _ _ LK)|symmetry; exact (mod_like_category _ _ LK)]. }
    exists y. rewrite M, E. auto. }
  destruct (rmapM_progress _ _ (fun i I => let (y, P) := H' i I in ex_intro _ y (proj1 P))) as (ys & E).
  rewrite E. eexists. split; [reflexivity|]. rewrite nsum_fold.
  apply rmapM_ok in E. assert (NN : Forall (Qle 0) ys).
  { apply Forall_forall. intros y IY. apply In_nth_error in IY as (j & NY). destruct (Proofs_Run.Forall2_nth_r _ _ _ _ _ E NY) as (i & NI & X).
    destruct (H' i (nth_error_In _ _ NI)) as (y' & X' & P). cbn beta in X. rewrite X' in X. injection X as <-. exact P. }
  clear E. induction NN; simpl; lra.
Qed.
Theorem populate_total pl : drives D g pl -> exists a, populate_action g pl = Ok a.
Proof.
  intros (N & ALL & F). unfold populate_action.
  destruct (sum_total max_consumption (Fixed, Sinks)) as (ld & L & L0).
  { intros m (P & _ & I) C. unfold category_of in C.
    destruct (m_kind m) as [b|s|gg t|t|t|u] eqn:K; cbn in C; try discriminate.
    - destruct (row_single m t (ph_ok _ P) I) as (x & R & IN); [rewrite K; reflexivity|unfold columns; rewrite K; reflexivity|].
      pose proof (mo_kind _ (ph_ok _ P)) as KO. unfold kind_ok in KO. rewrite K in KO.
      destruct KO as (_ & _ & _ & _ & _ & FX). rewrite Forall_forall in FX. specialize (FX _ IN). inversion FX; subst.
      exists (- (1) * x). unfold max_consumption, current_load, ts_item. rewrite K, R. simpl. split; [reflexivity|lra]. }
  destruct (sum_total max_production (Flex, Sources)) as (rn & R & R0).
  { intros m GM C. unfold category_of in C. injection C as C1 C2.
    destruct (flex_limit m GM C1) as [(b & E & N1 & N2) _].
    destruct (m_kind m) as [bb|s|gg t|t|t|u] eqn:K; try discriminate.
    destruct GM as (P & _ & I).
    destruct (row_single m t (ph_ok _ P) I) as (x & RR & IN); [rewrite K; reflexivity|unfold columns; rewrite K; reflexivity|].
    unfold max_production, current_renewable, ts_item in *. rewrite K, RR in *. simpl in *. injection E as <-. exists x. split; [reflexivity|apply N2; reflexivity]. }
  unfold get_load, get_renewable. unfold ctc in L, R. cbn [fst snd] in L, R. rewrite L. cbn [rbind]. rewrite R. cbn [rbind]. unum.
  apply Qle_bool_iff in L0, R0. rewrite L0, R0. cbn [andb negb].
  apply deploy_total; auto. intros e I. rewrite Forall_forall in F. destruct (F e I) as (i & m & M & [T _] & RF & _).
  exact (empty_slot D g FM SEP _ i m RF M T).
Qed.
End Populate.

(** ** What a step of the controller does *)
Lemma rbc_step_inv pl (g g' : mgrid Q) out : rbc_step pl g = (g', Ok out) ->
  exists a c, populate_action g pl = Ok a /\ as_control a = Ok c /\ run c false g = (g', Ok out).
Proof.
  unfold rbc_step. intros E. unfold mbind, mget, mlift in E.
  destruct (populate_action g pl) as [a|]; [|discriminate]. destruct (as_control a) as [c|] eqn:C; [|discriminate].
  exists a, c. auto.
Qed.
Lemma under_in {A} (f : event -> A) nm es a : In a (under f nm es) -> exists e, In e es /\ ev_name e = nm /\ f e = a.
Proof.
  unfold under. intros I. apply in_map_iff in I as (e & E & I). apply filter_In in I as [I N].
  apply String.eqb_eq in N. eauto.
Qed.
Lemma nth_combine {A B} (l : list A) (l' : list B) k a b : nth_error l k = Some a -> nth_error l' k = Some b ->
  In (a, b) (combine l l').
Proof.
  revert l l'. induction k as [|k IH]; intros [|x l] [|y l'] H1 H2; simpl in *; try discriminate.
  - injection H1 as ->. injection H2 as ->. left. reflexivity.
  - right. eauto.
Qed.
Theorem rbc_executes D (g g' : mgrid Q) pl obs rw dn inf : from_modules D g -> names_separate D -> drives D g pl ->
  rbc_step pl g = (g', Ok (obs, rw, dn, inf)) ->
  exists xs rest es, dispatched D g pl (total demand g - total renewable g) xs rest /\ did g es g'
    /\ Forall2 (fun e x => forall i m, refers D (el_module e) i -> at_index g i m ->
         exists ev, In ev es /\ ev_id ev = i /\ ev_act ev = command m e x /\ ev_norm ev = false) pl xs.
Proof.
  intros FM SEP DR E. destruct (rbc_step_inv _ _ _ _ E) as (a & c & PA & AC & R).
  destruct (populate_ok D g FM SEP pl a DR PA) as (_ & _ & xs & rest & c' & DI & AC' & CM & _).
  rewrite AC in AC'. injection AC' as <-.
  destruct (run_executes D g g' c false obs rw dn inf FM SEP R) as (es & DD & EX & _).
  exists xs, rest, es. split; [exact DI|]. split; [exact DD|].
  destruct DR as (_ & _ & FD).
  assert (H : Forall2 (fun e x => driven D g e /\ forall i m, refers D (el_module e) i -> at_index g i m ->
          slot_get a (el_module e) = Ok (Some (command m e x)) /\ commands D c i (command m e x)) pl xs).
  { clear - CM FD. induction CM as [|e x pl xs H CM IH]; [constructor|]. inversion FD; subst. constructor; auto. }
  eapply Forall2_weaken; [|exact H]. clear H. cbn beta. intros e x [(i0 & m0 & M0 & DP & R0 & _) H] i m RF M.
  pose proof (refers_fun _ _ _ _ R0 RF). subst i0. unfold at_index in *. rewrite M0 in M. injection M as <-.
  destruct (H i m0 RF M0) as [_ (r & w & RR & W & NW)].
  destruct (refers_name _ _ _ RR) as (d & ND & Q). pose proof (from_modules_inv D g FM) as V.
  destruct (mod_at D g V i d ND) as (m1 & M1 & _ & LK). rewrite M0 in M1. injection M1 as <-.
  assert (T : module_type (m_kind (snd d)) = Controllable) by (rewrite (like_type _ _ LK); apply DP).
  destruct (EX d (nth_error_In _ _ ND) T) as (v & GV & U). rewrite Q, W in GV. injection GV as <-.
  assert (IN : In (i, command m0 e x, false) (under (fun e => (ev_id e, ev_act e, ev_norm e)) (mdef_name d) es)).
  { rewrite U. apply in_map_iff. exists (i, command m0 e x). split; [reflexivity|]. rewrite Q. eapply nth_combine; [exact RR|exact NW]. }
  apply under_in in IN as (ev & I1 & _ & I3). injection I3 as X1 X2 X3. exists ev. auto.
Qed.

(** ** What the modules deliver *)
Lemma served_clip (m m' : module Q) x o :
  is_genset (m_kind m) = false -> is_fixed (module_type (m_kind m)) = false ->
  step (VS x) false m = (m', Ok o) ->
  (0 <= x -> exists hi, max_production m = Ok hi /\ hi <> BNone
     /\ provided (info_of o) = clip_to (min_production m) hi x /\ absorbed (info_of o) = 0)
  /\ (x < 0 -> exists hi, max_consumption m = Ok hi /\ hi <> BNone
     /\ absorbed (info_of o) == clip_to 0 hi (- x) /\ provided (info_of o) = 0).
Proof.
  intros G F E. pose proof (nonfixed_source _ F) as S. pose proof (nonfixed_not_load _ F) as NL.
  destruct (scalar_step _ _ _ _ G E) as [(e & _ & _ & C)|(m1 & r1 & U & D)]; [discriminate|].
  destruct r1 as [[[rw d] i]|]; [|destruct D; discriminate].
  destruct D as (_ & _ & ->). split; intros X.
  - rewrite (request_pos _ _ S X) in U.
    destruct (as_source_cases _ _ _ _ F U) as [(_ & C & _)|[(_ & _ & C & _)|(_ & _ & D)]];
      [lra|congruence|].
    destruct D as [(_ & e & _ & C)|[(_ & _ & e & C & _)|(hi & MP & NB & D)]]; try discriminate.
    exists hi. split; [exact MP|]. split; [exact NB|].
    destruct D as [(_ & _ & _ & e & C & _)|(_ & D)]; [discriminate|].
    apply (update_reports _ _ _ _ _ _ _ NL) in D. exact D.
  - rewrite (request_neg _ _ X) in U.
    destruct (as_sink_cases _ _ _ _ F U) as [(_ & C & _)|(_ & D)]; [lra|].
    destruct D as [(_ & e & _ & C)|[(_ & _ & e & C & _)|(hi & MP & NB & D)]]; try discriminate.
    exists hi. split; [exact MP|]. split; [exact NB|].
    destruct D as [(_ & _ & _ & e & C & _)|[(_ & _ & _ & e & C & _)|(_ & D)]]; [discriminate|discriminate|].
    apply (update_reports _ _ _ _ _ _ _ NL) in D. destruct D as [-> D2]. split; [|exact D2].
    apply clip_to_proper. lra.
Qed.
Lemma share_delivered (m m' : module Q) a r x o : phys m -> in_data m -> deployable m -> is_genset (m_kind m) = false ->
  share_of m a r x -> step (VS x) false m = (m', Ok o) -> provided (info_of o) - absorbed (info_of o) == x.
Proof.
  intros P I DP G SH E. destruct (deploy_limits m P I DP) as (LI & b & B & LC).
  assert (F : is_fixed (module_type (m_kind m)) = false) by (destruct DP as [-> _]; reflexivity).
  destruct (served_clip m m' x o G F E) as [A1 A2].
  assert (MP : min_production m = 0) by (unfold min_production; destruct (m_kind m); try reflexivity; discriminate).
  destruct (LI a) as (lo & hi & PL & L0 & HN & HY).
  assert (PL' : lo = 0 /\ max_production m = Ok hi) by (unfold production_limits in PL; destruct (m_kind m); try exact PL; discriminate).
  destruct PL' as [-> MX].
  destruct (Qlt_le_dec x 0) as [X|X].
  - destruct (A2 X) as (h & MC & NB & AB & PR). rewrite PR, AB. rewrite B in MC. injection MC as <-.
    destruct SH as (S1 & S2 & S3 & S4).
    assert (RN : r < - (1 # 10000)).
    { destruct (Qlt_le_dec r (- (1 # 10000))) as [Y|Y]; [exact Y|]. destruct (Qlt_le_dec (1 # 10000) r) as [Z|Z].
      - destruct (S2 Z) as (? & ? & _ & W & _). lra.
      - rewrite S1 in X; [lra|]. apply Qabs_Qle_condition. split; lra. }
    destruct (is_sink (m_kind m)) eqn:K; [|rewrite (S3 RN eq_refl) in X; lra].
    destruct (S4 RN eq_refl) as (b' & B' & _ & C1 & C2). rewrite B in B'. injection B' as <-.
    destruct (LC eq_refl) as [_ BY].
    rewrite clip_to_id; [lra|]. split; [lra|]. destruct b as [y| |]; [|exact Logic.I|exact Logic.I].
    destruct (Qlt_le_dec y (- r)) as [Y|Y]; [rewrite (C2 y eq_refl Y); lra|rewrite (C1 Y); exact Y].
  - destruct (A1 X) as (h & MC & NB & PR & AB). rewrite PR, AB, MP. rewrite MX in MC. injection MC as <-.
    rewrite clip_to_id; [lra|]. split; [exact X|]. destruct hi as [y| |]; [|exact Logic.I|exact Logic.I].
    destruct SH as (S1 & S2 & S3 & S4). specialize (HY y eq_refl).
    destruct (Qlt_le_dec (1 # 10000) r) as [Z|Z].
    + destruct (S2 Z) as (lo' & hi' & PL2 & _ & C1 & C2 & C3).
      assert (PL' : lo' = 0 /\ max_production m = Ok hi') by (unfold production_limits in PL2; destruct (m_kind m); try exact PL2; discriminate).
      destruct PL' as [-> MX']. rewrite MX in MX'. injection MX' as <-.
      destruct (Qlt_le_dec y r) as [Y|Y]; [rewrite (C3 (Qlt_le_weak 0 r (Qlt_trans 0 (1 # 10000) r eq_refl Z)) y eq_refl Y); lra|].
      rewrite (C2 (Qlt_le_weak 0 r (Qlt_trans 0 (1 # 10000) r eq_refl Z)) Y). exact Y.
    + destruct (Qlt_le_dec r (- (1 # 10000))) as [Y|Y].
      * destruct (is_sink (m_kind m)) eqn:K; [|rewrite (S3 Y eq_refl); exact HY].
        destruct (S4 Y eq_refl) as (b' & B' & N & _). lra.
      * rewrite S1; [exact HY|]. apply Qabs_Qle_condition. split; lra.
Qed.
Lemma genset_delivered (m m' : module Q) s goal x o : phys m -> m_kind m = KGenset s -> (goal < 2)%nat ->
  step (VA [inject_Z (Z.of_nat goal); x]) false m = (m', Ok o) ->
  absorbed (info_of o) = 0 /\ provided (info_of o)
    == clip (next_min_production s (negb (Nat.eqb goal 0))) (next_max_production s (negb (Nat.eqb goal 0))) x.
Proof.
  intros P K LT E. pose proof (ph_kind _ P) as PK. rewrite K in PK. destruct PK as ((p & GI) & MN & MX).
  destruct (step_genset_ok _ _ _ _ _ _ _ K GI MX E) as (s1 & e & pr & K1 & SG1 & PE & INF & _ & PR & _).
  assert (X : exists b, (b = negb (Nat.eqb goal 0)) /\ round01 (inject_Z (Z.of_nat goal)) = b /\ 0 <= inject_Z (Z.of_nat goal) /\ inject_Z (Z.of_nat goal) <= 1).
  { eexists. split; [reflexivity|]. destruct goal as [|[|?]]; [| |lia]; (split; [reflexivity|]); split; vm_compute; discriminate. }
  destruct X as (b & <- & RO & X0 & X1).
  destruct (step_genset _ _ _ _ _ _ _ K GI E) as [(_ & _ & ex & X & _)|(x' & rest' & s' & A & _ & _ & US & K' & _)]; [discriminate|].
  injection A as <- <-. rewrite K1 in K'. injection K' as <-.
  destruct (update_status_refines s p _ GI X0 X1) as (s2 & US2 & SG & _ & NS). rewrite US in US2. injection US2 as <-. rewrite RO in NS.
  cbn [pick_energy nth_error] in PE. simpl in PE. injection PE as <-.
  unfold absorbed, provided. rewrite INF. simpl. split; [reflexivity|]. rewrite PR.
  unfold genset_min_production, genset_max_production, next_min_production, next_max_production. rewrite NS.
  destruct (gen_same_in _ _ SG) as (_ & _ & _ & E1 & E2 & _). rewrite E1, E2. reflexivity.
Qed.
Theorem rbc_delivers D (g g' : mgrid Q) pl obs rw dn inf : from_modules D g -> names_separate D ->
  Forall (fun d => sane_reachable (snd d)) D -> Forall in_data (mg_mods g) -> drives D g pl ->
  rbc_step pl g = (g', Ok (obs, rw, dn, inf)) ->
  exists xs rest es, dispatched D g pl (total demand g - total renewable g) xs rest /\ did g es g'
    /\ Forall2 (fun e x => forall i m, refers D (el_module e) i -> at_index g i m ->
         exists ev, In ev es /\ ev_id ev = i /\ ev_act ev = command m e x /\ ev_norm ev = false
           /\ match m_kind m with
              | KGenset _ => forall lo hi, production_limits m (el_action e) lo (BFin hi) ->
                               ev_absorbed ev == 0 /\ ev_provided ev == clip lo hi x
              | _ => ev_provided ev - ev_absorbed ev == x
              end) pl xs.
Proof.
  intros FM SEP SR ID DR E.
  destruct (rbc_executes D g g' pl obs rw dn inf FM SEP DR E) as (xs & rest & es & DI & [PF ND] & EX).
  exists xs, rest, es. split; [exact DI|]. split; [split; assumption|].
  pose proof (from_phys D g FM SR) as PH. rewrite Forall_forall in PH, ID. destruct DR as (_ & _ & FD).
  assert (SS : Forall2 (fun e x => driven D g e /\ exists r i m, refers D (el_module e) i /\ at_index g i m /\ share_of m (el_action e) r x) pl xs).
  { clear - DI FD. induction DI as [|e pl r x xs rest i m R M SH DI IH]; [constructor|]. inversion FD; subst. constructor; eauto 8. }
  assert (B : Forall2 (fun e x => (driven D g e /\ exists r i m, refers D (el_module e) i /\ at_index g i m /\ share_of m (el_action e) r x) /\
     (forall i m, refers D (el_module e) i -> at_index g i m ->
         exists ev, In ev es /\ ev_id ev = i /\ ev_act ev = command m e x /\ ev_norm ev = false)) pl xs).
  { clear - SS EX. induction SS as [|e x pl xs H SS IH]; [constructor|]. inversion EX; subst. constructor; auto. }
  eapply Forall2_weaken; [|exact B]. cbn beta. intros e x [[DE (r & i0 & m0 & RF0 & M0 & SH)] H] i m RF M.
  pose proof (refers_fun _ _ _ _ RF RF0). subst i0. unfold at_index in *. rewrite M in M0. injection M0 as <-.
  destruct DE as (i0 & m0 & M0 & DP & RF1 & A1 & A2). pose proof (refers_fun _ _ _ _ RF RF1). subst i0.
  unfold at_index in M0. rewrite M in M0. injection M0 as <-.
  destruct (H i m RF M) as (ev & IE & IDE & AC & NO). exists ev. split; [exact IE|]. split; [exact IDE|]. split; [exact AC|]. split; [exact NO|].
  destruct (performs_each _ _ _ PF ND ev IE) as (m1 & m' & M1 & M' & ST). rewrite IDE, M in M1. injection M1 as <-.
  rewrite AC, NO in ST. specialize (PH m (nth_error_In _ _ M)). specialize (ID m (nth_error_In _ _ M)).
  unfold command in ST. destruct (m_kind m) as [bb|s|gg t|t|t|u] eqn:K; simpl in ST, A1.
  2: { rewrite A1 in A2. destruct (genset_delivered m m' s (el_action e) x _ PH K A2 ST) as [Z1 Z2].
       intros lo hi PL. unfold production_limits in PL. rewrite K in PL. destruct PL as [-> PL]. injection PL as ->.
       unfold ev_absorbed, ev_provided. rewrite Z1. split; [reflexivity|exact Z2]. }
  all: apply (share_delivered m m' (el_action e) r x _ PH ID DP); [rewrite K; reflexivity|exact SH|exact ST].
Qed.

(** ** The controller never fails *)
Lemma dispatched_nth D (g : mgrid Q) pl r xs rest : dispatched D g pl r xs rest ->
  forall j e x, nth_error pl j = Some e -> nth_error xs j = Some x ->
  exists r' i m, refers D (el_module e) i /\ at_index g i m /\ share_of m (el_action e) r' x.
Proof.
  induction 1 as [r rest Z|e pl r x xs rest i m R M SH H IH]; intros j e' x' NE NX; [destruct j; discriminate|].
  destruct j as [|j]; simpl in NE, NX; [injection NE as <-; injection NX as <-; eauto 6|eauto].
Qed.
Lemma share_nonneg (m : module Q) a r x : is_sink (m_kind m) = false -> share_of m a r x -> 0 <= x.
Proof.
  intros K (S1 & S2 & S3 & _). destruct (Qlt_le_dec (1 # 10000) r) as [X|X].
  - destruct (S2 X) as (lo & hi & _ & P & _). exact P.
  - destruct (Qlt_le_dec r (- (1 # 10000))) as [Y|Y]; [rewrite (S3 Y K); lra|].
    rewrite S1; [lra|]. apply Qabs_Qle_condition. split; lra.
Qed.
Section Total.
Variables (D : list (mdef Q)) (g : mgrid Q).
Hypothesis FM : from_modules D g.
Hypothesis SEP : names_separate D.
Hypothesis SR : Forall (fun d => sane_reachable (snd d)) D.
Hypothesis LE : Forall (fun d => lenient (snd d)) D.
Hypothesis NM : no_reserved_name D.
Hypothesis U : has_unbalanced g.
Hypothesis SH : total_shaper (mg_shaper g).
Hypothesis ID : Forall in_data (mg_mods g).
Lemma rbc_step_total pl : drives D g pl -> exists g' out, rbc_step pl g = (g', Ok out).
Proof.
  intros DR. pose proof (from_good D g FM SR LE ID) as G. pose proof (from_modules_inv D g FM) as V.
  destruct (populate_total D g FM SEP G pl DR) as (a & PA).
  destruct (populate_ok D g FM SEP pl a DR PA) as (_ & _ & xs & rest & c & DI & AC & CM & CN).
  assert (RUN : exists g' out, run c false g = (g', Ok out)).
  { apply (run_cannot_fail D g c false FM SR LE NM U SH ID).
    - (* every controllable name has an entry *)
      intros d I T. apply In_nth_error in I as (i & ND). destruct (mod_at D g V i d ND) as (m & M & _ & LK).
      assert (DP : deployable m).
      { rewrite (like_type _ _ LK) in T. split; [exact T|]. destruct (m_kind m); try reflexivity. discriminate T. }
      destruct DR as (_ & ALL & _). destruct (ALL i m M DP) as (e & IE & RE). apply In_nth_error in IE as (j & NE).
      destruct (Proofs_Run.Forall2_nth _ _ _ _ _ CM NE) as (x & _ & H). destruct (H i m RE M) as [_ (r & w & RR & W & _)].
      destruct (refers_name _ _ _ RR) as (d' & ND' & Q). rewrite ND in ND'. injection ND' as <-. rewrite Q, W. discriminate.
    - intros d v I T GV. apply Forall_forall. intros b IB. apply In_nth_error in IB as (k & NB).
      destruct (CN _ _ GV) as (d0 & _ & _ & _ & LN).
      destruct (nth_error (positions (mdef_name d) D) k) as [i|] eqn:NI;
        [|apply nth_error_None in NI; rewrite <- LN in NI; apply nth_error_None in NI; congruence].
      assert (RF : refers D (mdef_name d, k) i) by exact NI.
      destruct (refers_name _ _ _ RF) as (d' & ND & Q). simpl in Q.
      destruct (mod_at D g V i d' ND) as (m & M & _ & LK).
      assert (CT : category_of (snd d') = category_of (snd d)) by (apply SEP; [exact (nth_error_In _ _ ND)|exact I|exact Q]).
      assert (DP : deployable m).
      { pose proof (mod_like_category _ _ LK) as CM'. rewrite CT in CM'. unfold category_of in CM'. rewrite T in CM'. injection CM' as C1 C2.
        split; [exact C1|]. destruct (m_kind m); try reflexivity. discriminate C1. }
      pose proof DR as (_ & ALL & FD). destruct (ALL i m M DP) as (e & IE & RE).
      assert (DE : driven D g e) by (rewrite Forall_forall in FD; exact (FD e IE)).
      apply In_nth_error in IE as (j & NE).
      destruct (Proofs_Run.Forall2_nth _ _ _ _ _ CM NE) as (x & NX & H). destruct (H i m RE M) as [_ (r & w & RR & W & NW)].
      pose proof (refers_inj _ _ _ _ RF RR) as EQ. subst r. simpl in W, NW. rewrite GV in W. injection W as <-. rewrite NB in NW. injection NW as ->.
      (* acceptable to the listed module, hence to d *)
      destruct (dispatched_nth D g _ _ _ _ DI j e x NE NX) as (r' & i' & m' & RE' & M' & SHx).
      pose proof (refers_fun _ _ _ _ RE RE'). subst i'. unfold at_index in M'. rewrite M in M'. injection M' as <-.
      destruct DE as (i' & m' & M' & _ & RE'' & A1 & A2). pose proof (refers_fun _ _ _ _ RE RE''). subst i'.
      unfold at_index in M'. rewrite M in M'. injection M' as <-.
      pose proof (mod_like_category _ _ LK) as CM'. rewrite CT in CM'. unfold category_of in CM'.
      unfold acceptable, command. destruct (m_kind m) as [bb|s|gg t|t|t|u] eqn:K; destruct DP as [DP1 DP2]; rewrite K in DP1, DP2; simpl in DP1, DP2; try discriminate;
        destruct (m_kind (snd d)) as [bb'|s'|gg' t'|t'|t'|u'] eqn:K'; simpl in CM', T; try discriminate; simpl; try reflexivity.
      do 2 eexists. split; [reflexivity|]. simpl in A1. rewrite A1 in A2.
      assert (AA : el_action e = 0%nat \/ el_action e = 1%nat) by lia.
      split; [destruct AA as [-> | ->]; vm_compute; discriminate|]. split; [destruct AA as [-> | ->]; vm_compute; discriminate|].
      apply (share_nonneg m (el_action e) r'); [rewrite K; reflexivity|exact SHx]. }
  destruct RUN as (g' & out & R). exists g', out. unfold rbc_step, mbind, mget, mlift. rewrite PA, AC. exact R.
Qed.
End Total.

Lemma run_keeps D (g g1 : mgrid Q) (c : control Q) n out : from_modules D g -> run c n g = (g1, Ok out) ->
  from_modules D g1 /\ mg_shaper g1 = mg_shaper g /\ (has_unbalanced g -> has_unbalanced g1)
  /\ (forall k, Forall (data_left (S k)) (mg_mods g) -> Forall (data_left k) (mg_mods g1))
  /\ (forall pl, drives D g pl -> drives D g1 pl)
  /\ (forall i m m', nth_error (mg_mods g) i = Some m -> nth_error (mg_mods g1) i = Some m' -> mod_like m m').
Proof.
  intros F E. destruct out as [[[obs rw] d] inf].
  pose proof (from_modules_run D g c n g1 _ F E) as F1. pose proof (from_modules_inv D g F) as V. pose proof (from_modules_inv D g1 F1) as V1.
  pose proof (do_mcall_rel (MRun c n) g) as REL.
  assert (G1 : do_mcall (MRun c n) g = g1) by (unfold do_mcall; rewrite E; reflexivity). rewrite G1 in REL.
  assert (LK : forall i m m', nth_error (mg_mods g) i = Some m -> nth_error (mg_mods g1) i = Some m' -> mod_like m m').
  { intros i m m' A B. destruct (Proofs_Run.Forall2_nth _ _ _ _ _ (mr_mods _ _ REL) A) as (m2 & B2 & L).
    rewrite B in B2. injection B2 as <-. apply L. exact (mods_ok D g V i m A). }
  assert (AT : forall i m, nth_error (mg_mods g) i = Some m -> exists m', nth_error (mg_mods g1) i = Some m').
  { intros i m A. destruct (Proofs_Run.Forall2_nth _ _ _ _ _ (mr_mods _ _ REL) A) as (m2 & B2 & _). eauto. }
  assert (AT' : forall i m', nth_error (mg_mods g1) i = Some m' -> exists m, nth_error (mg_mods g) i = Some m).
  { intros i m' A. destruct (Proofs_Run.Forall2_nth_r _ _ _ _ _ (mr_mods _ _ REL) A) as (m2 & B2 & _). eauto. }
  assert (CAT : forall (m m' : module Q), mod_like m m' -> category_of m = category_of m' /\ is_genset (m_kind m) = is_genset (m_kind m')
     /\ (deployable m <-> deployable m')).
  { intros m m' L. pose proof (mod_like_category _ _ L) as C. pose proof (ml_kind _ _ L) as KL. split; [congruence|].
    unfold deployable. unfold category_of in C. injection C as C1 C2. rewrite <- C1.
    destruct (m_kind m), (m_kind m'); simpl in KL, C2 |- *; try contradiction; try discriminate; split; try reflexivity. }
  split; [exact F1|]. split; [exact (mr_shaper _ _ REL)|]. split; [|split; [|split; [|exact LK]]].
  - intros (i & m & A & (u & K)). destruct (AT i m A) as (m' & B).
    exists i, m'. split; [exact B|]. pose proof (ml_kind _ _ (LK i m m' A B)) as KL. rewrite K in KL.
    destruct (m_kind m') as [| | | | |u'] eqn:K'; simpl in KL; try contradiction. exists u'. exact K'.
  - intros k DL. apply Forall_forall. intros m' IN. apply In_nth_error in IN. destruct IN as (i & B).
    destruct (Proofs_Run.Forall2_nth_r _ _ _ _ _ (run_steps_at_most_once D g g1 c n obs rw d inf F E) B) as (m & A & [ST|EQ]).
    + pose proof (LK i m m' A B) as L. destruct (like_series _ _ L) as [SE TS]. destruct ST as (a & nn & o & _ & CUR & _).
      intros T'. rewrite Forall_forall in DL. destruct (DL m (nth_error_In _ _ A) (TS T')) as (j & C & LL).
      exists (S j). rewrite CUR, C, SE. split; lia.
    + subst m'. intros T'. rewrite Forall_forall in DL. destruct (DL m (nth_error_In _ _ A) T') as (j & C & LL).
      exists j. split; [exact C|]. lia.
  - intros pl (N & ALL & FD). split; [exact N|]. split.
    + intros i m' B DP. destruct (AT' i m' B) as (m & A). destruct (CAT _ _ (LK i m m' A B)) as (_ & _ & DD).
      apply (ALL i m A). apply DD. exact DP.
    + eapply Forall_impl; [|exact FD]. intros e (i & m & A & DP & RF & A1 & A2). destruct (AT i m A) as (m' & B).
      destruct (CAT _ _ (LK i m m' A B)) as (_ & IG & DD). exists i, m'. split; [exact B|]. split; [apply DD; exact DP|].
      split; [exact RF|]. rewrite <- IG. auto.
Qed.
Theorem rbc_loop_total D pl n : forall (g : mgrid Q), from_modules D g -> names_separate D ->
  Forall (fun d => sane_reachable (snd d)) D -> Forall (fun d => lenient (snd d)) D -> no_reserved_name D ->
  has_unbalanced g -> total_shaper (mg_shaper g) -> Forall (data_left n) (mg_mods g) -> drives D g pl ->
  exists g', rbc_loop n pl g = (g', Ok tt).
Proof.
  induction n as [|n IH]; intros g FM SEP SR LE NM U SH DL DR; [exists g; reflexivity|].
  destruct (rbc_step_total D g FM SEP SR LE NM U SH) with (pl := pl) as (g1 & out & E); auto.
  { eapply Forall_impl; [|exact DL]. intros m. apply left_in_data. }
  cbn [rbc_loop]. rewrite (mbind_eq _ _ _ _ _ E). destruct out as [[[obs rw] d] inf].
  destruct d; [exists g1; reflexivity|].
  destruct (rbc_step_inv _ _ _ _ E) as (a & c & _ & _ & R).
  destruct (run_keeps D g g1 c false _ FM R) as (F1 & S1 & U1 & D1 & P1 & _).
  apply IH; auto. rewrite S1. exact SH.
Qed.

(** ** A genset that is never asked to start *)
Lemma off_step (a : pyval Q) x rest n (m m' : module Q) s o : phys m -> m_kind m = KGenset s ->
  running m = false -> goal_on m = false -> a = VA (x :: rest) -> 0 <= x -> x <= 1 # 2 ->
  step a n m = (m', Ok o) -> running m' = false /\ goal_on m' = false /\ provided (info_of o) == 0 /\ is_genset (m_kind m') = true.
Proof.
  intros P K R0 G0 -> X0 X1 E. pose proof (ph_kind _ P) as PK. rewrite K in PK. destruct PK as ((p & GI) & MN & MX).
  unfold running in R0. unfold goal_on in G0. rewrite K in R0, G0. pose proof (settled_off s p GI R0 G0). subst p.
  destruct (step_genset_ok _ _ _ _ _ _ _ K GI MX E) as (s1 & e & pr & K1 & _ & _ & INF & _ & PR & _).
  destruct (step_genset _ _ _ _ _ _ _ K GI E) as [(_ & _ & ex & X & _)|(x' & rest' & s' & A & _ & _ & _ & K' & SG & GI' & _)]; [discriminate|].
  injection A as <- <-. rewrite K1 in K'. injection K' as <-.
  assert (RO : round01 x = false) by (destruct (round01 x) eqn:RR; [apply round01_on in RR; lra|reflexivity]).
  rewrite RO in GI'. simpl in GI'. destruct GI' as (_ & _ & (S1 & S2 & _) & _).
  unfold running, goal_on, provided. rewrite K1. split; [exact S1|]. split; [exact S2|]. split; [|reflexivity].
  rewrite INF, PR. unfold genset_min_production, genset_max_production, times_status, clip. rewrite S1. unum. simpl.
  destruct (Qlt_le_dec (0 * g_max_prod s1) e); [lra|]. destruct (Qlt_le_dec e (0 * g_min_prod s1)); lra.
Qed.
Theorem rbc_step_off D (g g' : mgrid Q) pl obs rw dn inf el i m : from_modules D g -> names_separate D ->
  Forall (fun d => sane_reachable (snd d)) D -> drives D g pl ->
  rbc_step pl g = (g', Ok (obs, rw, dn, inf)) ->
  In el pl -> refers D (el_module el) i -> el_action el = 0%nat ->
  at_index g i m -> is_genset (m_kind m) = true -> running m = false -> goal_on m = false ->
  exists es m', did g es g' /\ at_index g' i m' /\ is_genset (m_kind m') = true /\ running m' = false /\ goal_on m' = false
    /\ forall ev, In ev es -> ev_id ev = i -> ev_provided ev == 0.
Proof.
  intros FM SEP SR DR E IE RF A0 M IG R0 G0.
  destruct (rbc_executes D g g' pl obs rw dn inf FM SEP DR E) as (xs & rest & es & DI & [PF ND] & EX).
  apply In_nth_error in IE as (j & NE). destruct (Proofs_Run.Forall2_nth _ _ _ _ _ EX NE) as (x & NX & H).
  destruct (H i m RF M) as (ev & IEV & ID & AC & NO).
  destruct (performs_each _ _ _ PF ND ev IEV) as (m1 & m' & M1 & M' & ST). rewrite ID in M1, M'.
  unfold at_index in M. rewrite M in M1. injection M1 as <-.
  pose proof (from_phys D g FM SR) as PH. rewrite Forall_forall in PH. specialize (PH m (nth_error_In _ _ M)).
  destruct (m_kind m) as [bb|s|gg t|t|t|u] eqn:K; try discriminate. 
  unfold command in AC. rewrite K, A0 in AC. simpl in AC.
  destruct (off_step (ev_act ev) (inject_Z 0) [x] (ev_norm ev) m m' s (ev_out ev) PH K R0 G0 AC) as (B1 & B2 & B3 & B4);
    [vm_compute; discriminate|vm_compute; discriminate|exact ST|].
  exists es, m'. split; [split; assumption|]. split; [exact M'|]. split; [exact B4|]. split; [exact B1|]. split; [exact B2|].
  intros ev' I' ID'. assert (ev' = ev).
  { clear - ND IEV ID I' ID'. unfold event_ids in ND. induction es as [|e0 es IH]; [contradiction|]. simpl in ND. inversion ND as [|? ? NI ND']; subst.
    destruct IEV as [->|IEV], I' as [->|I']; [reflexivity| | |auto].
    - exfalso. apply NI. rewrite <- ID'. apply in_map. exact I'.
    - exfalso. apply NI. rewrite ID'. apply in_map. exact IEV. }
  subst ev'. exact B3.
Qed.
Theorem rbc_loop_off D pl n : forall (g g' : mgrid Q) el i m, from_modules D g -> names_separate D ->
  Forall (fun d => sane_reachable (snd d)) D -> drives D g pl ->
  rbc_loop n pl g = (g', Ok tt) ->
  In el pl -> refers D (el_module el) i -> el_action el = 0%nat ->
  at_index g i m -> is_genset (m_kind m) = true -> running m = false -> goal_on m = false ->
  exists m', at_index g' i m' /\ running m' = false /\ goal_on m' = false.
Proof.
  induction n as [|n IH]; intros g g' el i m FM SEP SR DR E IE RF A0 M IG R0 G0.
  - injection E as <-. eauto.
  - cbn [rbc_loop] in E. destruct (rbc_step pl g) as [g1 [[[[obs rw] dn] inf]|ex]] eqn:ST.
    2: { unfold mbind in E. rewrite ST in E. discriminate. }
    rewrite (mbind_eq _ _ _ _ _ ST) in E.
    destruct (rbc_step_off D g g1 pl obs rw dn inf el i m FM SEP SR DR ST IE RF A0 M IG R0 G0) as (es & m1 & _ & M1 & IG1 & R1 & G1 & _).
    destruct dn; [injection E as <-; eauto|].
    destruct (rbc_step_inv _ _ _ _ ST) as (a & c & _ & _ & R).
    destruct (run_keeps D g g1 c false _ FM R) as (F1 & _ & _ & _ & P1 & _).
    eapply IH; eauto.
Qed.

(** ** The default list *)
Section Default.
Variables (D : list (mdef Q)) (g : mgrid Q).
Hypothesis FM : from_modules D g.
Hypothesis SEP : names_separate D.
Variable rr : bool.
Definition default_for (i : nat) (e : element Q) : Prop :=
  exists m, at_index g i m /\ deployable m /\ stands_for D e i m /\ el_action e = default_action rr m.

(** Elements that may not occur. *)
Definition marked (rs : list (element Q)) (e : element Q) : bool := rr && existsb (fun r => el_eqb r e) rs.
Lemma good_marked rs pl :
  good_list (marked rs) pl = (if rr then negb (existsb (fun r => existsb (el_eqb r) pl) rs) else true).
Proof.
  unfold good_list, marked. destruct rr; simpl; [|induction pl; simpl; auto].
  induction pl as [|e pl IH]; simpl.
  - induction rs; simpl; auto.
  - rewrite IH. rewrite <- negb_orb. f_equal. clear IH. induction rs as [|r rs IH]; simpl; [reflexivity|].
    rewrite <- IH. destruct (el_eqb r e), (existsb (el_eqb r) pl), (existsb (fun r => el_eqb r e) rs); reflexivity.
Qed.
Lemma marked_iff rs : (forall r, In r rs <-> exists i m s, refers D (el_module r) i /\ at_index g i m /\ m_kind m = KGenset s
       /\ g_min_prod s == 0 /\ el_actions r = 2%nat /\ el_action r = 0%nat /\ production_marginal_cost m = Ok (el_cost r)) ->
  forall e i m, refers D (el_module e) i -> at_index g i m -> deployable m -> production_marginal_cost m = Ok (el_cost e) ->
  el_actions e = (if is_genset (m_kind m) then 2 else 1)%nat ->
  marked rs e = rr && Nat.eqb (el_action e) 0 && match m_kind m with KGenset s => Qeq_bool (g_min_prod s) 0 | _ => false end.
Proof.
  intros RS e i m RF M DP C A. unfold marked. destruct rr; [|reflexivity]. simpl.
  apply eq_true_iff_eq. rewrite existsb_exists. split.
  - intros (r & I & EQ). apply el_eqb_iff in EQ as (E1 & E2 & E3 & E4). apply RS in I as (i' & m' & s & R' & M' & K & Z & _ & A0 & _).
    rewrite E1 in R'. pose proof (refers_fun _ _ _ _ RF R'). subst i'. unfold at_index in *. rewrite M in M'. injection M' as <-.
    rewrite K, <- E3, A0. simpl. apply Qeq_bool_iff. exact Z.
  - intros H. apply andb_true_iff in H as [H1 H2]. apply Nat.eqb_eq in H1. destruct (m_kind m) as [bb|s|gg t|t|t|u] eqn:K; try discriminate.
    apply Qeq_bool_iff in H2. exists e. split; [|apply el_eqb_refl]. apply RS. exists i, m, s. auto 10.
Qed.
Theorem default_list : exists first pl, rbc_priority_list g None rr = Ok pl
  /\ Forall2 default_for (controllable_source_ids g) first
  /\ Permutation pl first /\ StronglySorted in_cost_order pl
  /\ forall k, filter (same_rank k) pl = filter (same_rank k) first.
Proof.
  destruct (source_elements_ok D g FM) as (gs & SE & GS).
  destruct (redundant_ok D g FM SEP) as (rs & RE & RS).
  pose proof (marked_iff rs RS) as MK.
  (* the first list *)
  assert (X : exists fs, Forall2 default_for (controllable_source_ids g) fs
     /\ ready (marked rs) [] (concat gs) fs).
  { assert (Y : exists rfs, Forall2 (fun i rf => refers D (fst rf) i /\ default_for i (snd rf)) (controllable_source_ids g) rfs
       /\ Forall2 (fun es rf => group (marked rs) es (fst rf) (snd rf)) gs rfs).
    { clear SE. induction GS as [|i es ids gs' (m & c & M & DP & C & ->) GS' IH]; [exists []; split; constructor|].
      destruct IH as (rfs & I1 & I2).
      pose proof (ref_refers D g FM SEP i m M) as RF.
      assert (MKc : forall a, marked rs (mkElement (module_ref m) (if is_genset (m_kind m) then 2 else 1)%nat a c)
         = rr && Nat.eqb a 0 && match m_kind m with KGenset s => Qeq_bool (g_min_prod s) 0 | _ => false end).
      { intros a. exact (MK (mkElement (module_ref m) (if is_genset (m_kind m) then 2 else 1)%nat a c) i m RF M DP C eq_refl). }
      assert (SF : forall a, (a < if is_genset (m_kind m) then 2 else 1)%nat -> stands_for D (mkElement (module_ref m) (if is_genset (m_kind m) then 2 else 1)%nat a c) i m).
      { intros a LT. split; [exact RF|]. split; [reflexivity|]. split; [exact LT|exact C]. }
      unfold choices. destruct (is_genset (m_kind m)) eqn:IG.
      - simpl. set (e0 := mkElement (module_ref m) 2%nat 0%nat c) in *. set (e1 := mkElement (module_ref m) 2%nat 1%nat c) in *.
        exists ((module_ref m, if marked rs e0 then e1 else e0) :: rfs). split; constructor; auto.
        + cbn [fst snd]. split; [exact RF|]. exists m. split; [exact M|]. split; [exact DP|].
          unfold default_action. pose proof (MKc 0%nat) as M0. fold e0 in M0.
          destruct (m_kind m) as [bb|s|gg t|t|t|u]; try discriminate IG. rewrite andb_true_r in M0. rewrite M0.
          destruct (rr && Qeq_bool (g_min_prod s) 0); split; try reflexivity; apply SF; lia.
        + cbn [fst snd]. apply (group_two (marked rs) e0 e1); [reflexivity|]. unfold e1. rewrite MKc. simpl. rewrite andb_false_r. reflexivity.
      - simpl. set (e0 := mkElement (module_ref m) 1%nat 0%nat c) in *.
        exists ((module_ref m, e0) :: rfs). split; constructor; auto.
        + cbn [fst snd]. split; [exact RF|]. exists m. split; [exact M|]. split; [exact DP|]. split; [apply SF; lia|].
          unfold default_action. destruct (m_kind m); try discriminate IG; reflexivity.
        + cbn [fst snd]. apply (group_one (marked rs) e0). unfold e0. rewrite MKc.
          destruct (m_kind m); try discriminate IG; rewrite andb_false_r; reflexivity. }
    destruct Y as (rfs & Y1 & Y2). exists (map snd rfs). split.
    { clear - Y1. induction Y1 as [|i rf ids rfs [_ H] Y IH]; constructor; auto. }
    apply (ready_groups (marked rs) gs (map fst rfs) (map snd rfs)); [|rewrite 2 map_length; reflexivity| |intros r _ []].
    - replace (combine (map fst rfs) (map snd rfs)) with rfs; [exact Y2|].
      clear. induction rfs as [|[a b] rfs IH]; simpl; congruence.
    - pose proof (csi_nodup D g FM) as ND. clear - Y1 ND. induction Y1 as [|i rf ids rfs [RF _] Y IH]; [constructor|].
      inversion ND as [|? ? NI ND']; subst. simpl. constructor; [|auto]. intros I. apply in_map_iff in I as (rf' & E & I).
      apply In_nth_error in I as (k & NK). destruct (Proofs_Run.Forall2_nth_r _ _ _ _ _ Y NK) as (i' & NI' & RF' & _).
      rewrite E in RF'. pose proof (refers_fun _ _ _ _ RF RF'). subst i'. apply NI. exact (nth_error_In _ _ NI'). }
  destruct X as (fs & DF & RD). destruct (ready_first _ _ _ _ RD) as (p & HD & KF).
  destruct (sort_els_all fs) as (PM & SO & ST). exists fs, (sort_els fs). split.
  - unfold rbc_priority_list.
    assert (GL : exists pls, get_priority_lists g rr = Ok pls /\ hd_error pls = Some fs).
    { unfold get_priority_lists. rewrite SE. cbn [rbind].
      assert (HF : hd_error (filter (good_list (marked rs)) (unique gs)) = Some fs).
      { unfold unique. rewrite hd_filter_uniq.
        - rewrite <- KF. apply hd_filter_map. exact HD.
        - intros a b IA IB EQ. f_equal. symmetry.
          apply (pl_eqb_eq (concat gs)); [exact (elements_identified D g FM SEP gs GS)|apply order_incl with (gs := gs); exact IA|apply order_incl with (gs := gs); exact IB|exact EQ]. }
      fold (unique gs). pose proof (good_marked rs) as GM. destruct rr.
      - unfold remove_redundant_gensets. rewrite RE. cbn [rbind]. eexists. split; [reflexivity|].
        rewrite <- HF. f_equal. apply filter_ext. intros pl. symmetry. apply GM.
      - eexists. split; [reflexivity|]. rewrite <- HF. f_equal. symmetry. apply filter_all. intros pl _. apply GM. }
    destruct GL as (pls & -> & H). cbn [rbind]. destruct pls; [discriminate|]. injection H as ->. reflexivity.
  - split; [exact DF|]. split; [exact PM|]. split; [|exact ST].
    clear - SO. induction SO as [|a l SO IH F]; constructor; [exact IH|]. eapply Forall_impl; [|exact F]. intros b. apply el_le_iff.
Qed.
Lemma default_order first pl : Forall2 default_for (controllable_source_ids g) first -> Permutation pl first ->
  deployment_order D g pl.
Proof.
  intros DF PM. split; [|split].
  - apply (Permutation_NoDup (l := map el_module first)); [apply Permutation_map; symmetry; exact PM|].
    pose proof (csi_nodup D g FM) as ND. clear - DF ND. induction DF as [|i e ids first (m & _ & _ & (RF & _) & _) Y IH]; [constructor|].
    inversion ND as [|? ? NI ND']; subst. simpl. constructor; [|auto]. intros I. apply in_map_iff in I as (e' & E & I).
    apply In_nth_error in I as (k & NK). destruct (Proofs_Run.Forall2_nth_r _ _ _ _ _ Y NK) as (i' & NI' & (m' & _ & _ & (RF' & _) & _)).
    rewrite E in RF'. pose proof (refers_fun _ _ _ _ RF RF'). subst i'. apply NI. exact (nth_error_In _ _ NI').
  - intros i m M DP. assert (I : In i (controllable_source_ids g)) by (apply (csi_in D g FM); eauto).
    apply In_nth_error in I as (k & NK). destruct (Proofs_Run.Forall2_nth _ _ _ _ _ DF NK) as (e & NE & (m' & _ & _ & (RF & _) & _)).
    exists e. split; [|exact RF]. apply (Permutation_in (l := first)); [symmetry; exact PM|exact (nth_error_In _ _ NE)].
  - apply Forall_forall. intros e I. apply (Permutation_in (l' := first)) in I; [|exact PM].
    apply In_nth_error in I as (k & NE). destruct (Proofs_Run.Forall2_nth_r _ _ _ _ _ DF NE) as (i & _ & (m & M & DP & SF & _)).
    exists i, m. auto.
Qed.
End Default.

(** ** Lists given by the caller *)
Theorem given_list D (g : mgrid Q) rr l : from_modules D g -> names_separate D ->
  raises ValueError (rbc_priority_list g (Some (PLList l)) rr)
  /\ (forall pl, rbc_priority_list g (Some (PLTuple l)) rr = Ok pl <->
        pl = l /\ exists pl', Forall2 same_element l pl' /\ deployment_order D g pl' /\ (rr = true -> ~ idles_free_genset D g pl'))
  /\ (forall e, rbc_priority_list g (Some (PLTuple l)) rr = Err e -> ex_class e = ValueError).
Proof.
  intros FM SEP. destruct (priority_lists_ok D g FM SEP rr) as (pls & E & _ & H).
  unfold rbc_priority_list. rewrite E. cbn [rbind]. split; [eexists; split; reflexivity|].
  assert (X : existsb (pl_eqb l) pls = true <-> exists pl', Forall2 same_element l pl' /\ deployment_order D g pl' /\ (rr = true -> ~ idles_free_genset D g pl')).
  { rewrite existsb_exists. split.
    - intros (pl' & I & Q). exists pl'. split; [|apply H; exact I]. apply pl_eqb_forall2 in Q. eapply Forall2_weaken; [|exact Q].
      intros a b. apply el_eqb_iff.
    - intros (pl' & F & O). exists pl'. split; [apply H; exact O|]. apply pl_eqb_forall2. eapply Forall2_weaken; [|exact F].
      intros a b. apply el_eqb_iff. }
  destruct (existsb (pl_eqb l) pls) eqn:Q.
  - split; [|discriminate]. intros pl. split; [intros Z; injection Z as <-; split; [reflexivity|apply X; reflexivity]|intros [-> _]; reflexivity].
  - split; [|intros e Z; injection Z as <-; reflexivity]. intros pl. split; [discriminate|]. intros [_ Z]. apply X in Z. discriminate.
Qed.
Lemma csi_gensets_first D (g : mgrid Q) : from_modules D g -> exists l1 l2, controllable_source_ids g = l1 ++ l2
  /\ (forall i m, In i l1 -> at_index g i m -> is_genset (m_kind m) = true)
  /\ (forall i m, In i l2 -> at_index g i m -> is_genset (m_kind m) = false).
Proof.
  intros FM. pose proof (from_modules_inv D g FM) as V.
  exists (concat (map snd (ct_get (mg_ct g) Controllable Sources))), (concat (map snd (ct_get (mg_ct g) Controllable SourceAndSinks))).
  split; [reflexivity|].
  assert (X : forall s i m, In i (concat (map snd (ctc (mg_ct g) (Controllable, s)))) -> at_index g i m -> category_of m = (Controllable, s)).
  { intros s i m I M. apply (sub_in D g FM) in I as (d & N & C). destruct (mod_at D g V i d N) as (m' & M' & _ & LK).
    unfold at_index in M. rewrite M in M'. injection M' as <-. rewrite <- C. exact (mod_like_category _ _ LK) || (symmetry; exact (mod_like_category _ _ LK)). }
  split; intros i m I M; [apply (X Sources i m I) in M|apply (X SourceAndSinks i m I) in M]; unfold category_of in M;
    destruct (m_kind m); try reflexivity; discriminate.
Qed.

(** ** Shares are within the limits *)
Lemma share_within (m : module Q) a r x : phys m -> in_data m -> deployable m -> is_genset (m_kind m) = false ->
  share_of m a r x ->
  (0 <= x -> exists hi, max_production m = Ok hi /\ below x hi)
  /\ (x < 0 -> exists hi, max_consumption m = Ok hi /\ below (- x) hi).
Proof.
  intros P I DP G (S1 & S2 & S3 & S4). destruct (deploy_limits m P I DP) as (LI & b & B & LC).
  assert (PLN : forall lo hi, production_limits m a lo hi -> lo = 0 /\ max_production m = Ok hi)
    by (intros lo hi PL; unfold production_limits in PL; destruct (m_kind m); try exact PL; discriminate).
  destruct (LI a) as (lo & hi & PL & L0 & HN & HY). apply PLN in PL as [-> MX].
  assert (R3 : r < - (1 # 10000) \/ 1 # 10000 < r \/ Qabs r <= 1 # 10000).
  { destruct (Qlt_le_dec r (- (1 # 10000))); [auto|]. destruct (Qlt_le_dec (1 # 10000) r); [auto|]. right. right.
    apply Qabs_Qle_condition. split; lra. }
  split; intros X.
  - exists hi. split; [exact MX|]. destruct hi as [y| |]; try exact Logic.I. cbn [below]. specialize (HY y eq_refl).
    destruct R3 as [R|[R|R]].
    + destruct (is_sink (m_kind m)); [destruct (S4 R eq_refl) as (? & _ & N & _); lra|rewrite (S3 R eq_refl); lra].
    + destruct (S2 R) as (lo' & hi' & PL2 & _ & C1 & C2 & C3). apply PLN in PL2 as [-> MX']. rewrite MX in MX'. injection MX' as <-.
      assert (R0 : 0 <= r) by lra.
      destruct (Qlt_le_dec y r) as [Y|Y]; [rewrite (C3 R0 y eq_refl Y); lra|rewrite (C2 R0 Y); exact Y].
    + rewrite (S1 R). exact HY.
  - exists b. split; [exact B|]. destruct b as [y| |]; try exact Logic.I. cbn [below].
    destruct R3 as [R|[R|R]].
    + destruct (is_sink (m_kind m)) eqn:K; [|rewrite (S3 R eq_refl) in X; lra].
      destruct (S4 R eq_refl) as (b' & B' & _ & C1 & C2). rewrite B in B'. injection B' as <-.
      destruct (Qlt_le_dec y (- r)) as [Y|Y]; [rewrite (C2 y eq_refl Y); lra|rewrite (C1 Y); exact Y].
    + destruct (S2 R) as (? & ? & _ & W & _). lra.
    + rewrite (S1 R) in X. lra.
Qed.
Theorem dispatched_within D (g : mgrid Q) pl r xs rest : from_modules D g ->
  Forall (fun d => sane_reachable (snd d)) D -> Forall in_data (mg_mods g) -> drives D g pl ->
  dispatched D g pl r xs rest ->
  Forall2 (fun e x => forall i m, refers D (el_module e) i -> at_index g i m -> is_genset (m_kind m) = false ->
    (0 <= x -> exists hi, max_production m = Ok hi /\ below x hi)
    /\ (x < 0 -> exists hi, max_consumption m = Ok hi /\ below (- x) hi)) pl xs.
Proof.
  intros FM SR ID (_ & _ & FD) DI. pose proof (from_phys D g FM SR) as PH. rewrite Forall_forall in PH, ID.
  induction DI as [|e pl r x xs rest i0 m0 R M SH DI IH]; [constructor|]. inversion FD as [|? ? (i1 & m1 & M1 & DP & R1 & _) FD']; subst.
  constructor; [|auto]. intros i m RF MM G. pose proof (refers_fun _ _ _ _ R RF). subst i0. pose proof (refers_fun _ _ _ _ R1 RF). subst i1.
  unfold at_index in *. rewrite M in MM. injection MM as <-. rewrite M in M1. injection M1 as <-.
  apply (share_within m0 (el_action e) r); auto; [apply PH|apply ID]; exact (nth_error_In _ _ M).
Qed.
