(** * When a run cannot fail *)

From Coq Require Import ZArith QArith Qabs Bool String List Lia Lqa Permutation.
From Verif Require Import Num Py Space Logger Forecast Module Container Microgrid
  Proofs_Num Proofs_Logger Spec_Module Spec_Reach Spec_Genset Proofs_Module Proofs_Space Proofs_Battery Proofs_Genset
  Proofs_Ts Proofs_Any Proofs_Request
  Proofs_Data Proofs_Classes Spec_Microgrid Spec_Sane Proofs_Container Proofs_Run Proofs_Balance
  Proofs_Mgrid Proofs_Views Proofs_MgProps Proofs_MgProps2 Proofs_Build Proofs_Episode Proofs_Sane.
Import ListNotations.
Local Open Scope string_scope.
Local Open Scope list_scope.
Local Open Scope Q_scope.

(** ** One module *)

Lemma in_data_row (m : module Q) t : in_data m -> kind_ts (m_kind m) = Some t ->
  exists r, ts_row t (m_cur m) = Some r /\ In r (ts_rows t).
Proof.
  intros I K. destruct I as (k & row & C & Dd); [unfold is_ts; rewrite K; discriminate|].
  unfold data_at, series in Dd. rewrite K in Dd. exists row. split; [|exact (nth_error_In _ _ Dd)].
  unfold ts_row, py_nth. rewrite C.
  assert (LL : (k < length (ts_rows t))%nat) by (apply nth_error_Some; rewrite Dd; discriminate).
  replace (0 <=? Z.of_nat k)%Z with true by (symmetry; apply Z.leb_le; lia).
  replace (Z.of_nat k <? Z.of_nat (length (ts_rows t)))%Z with true by (symmetry; apply Z.ltb_lt; lia).
  simpl. rewrite Nat2Z.id. exact Dd.
Qed.
Lemma row_one (m : module Q) t r : mod_ok m -> kind_ts (m_kind m) = Some t -> ts_row t (m_cur m) = Some r ->
  length r = columns m.
Proof.
  intros O K R. destruct (ts_state _ _ O K) as (r' & _ & _ & E & _ & L & _). rewrite <- (E _ R). exact L.
Qed.
Lemma row_single (m : module Q) t : mod_ok m -> in_data m -> kind_ts (m_kind m) = Some t -> columns m = 1%nat ->
  exists x, ts_row t (m_cur m) = Some [x] /\ In [x] (ts_rows t).
Proof.
  intros O I K C. destruct (in_data_row _ _ I K) as (r & R & IN).
  pose proof (row_one _ _ _ O K R) as L. rewrite C in L.
  destruct r as [|x [|? ?]]; try discriminate. eauto.
Qed.
Lemma row_four (m : module Q) t : mod_ok m -> in_data m -> kind_ts (m_kind m) = Some t -> columns m = 4%nat ->
  exists p q c s, ts_row t (m_cur m) = Some [p; q; c; s].
Proof.
  intros O I K C. destruct (in_data_row _ _ I K) as (r & R & IN).
  pose proof (row_one _ _ _ O K R) as L. rewrite C in L.
  destruct r as [|p [|q [|c [|s [|? ?]]]]]; try discriminate. eauto 6.
Qed.

Definition good (m : module Q) : Prop := phys m /\ lenient m /\ in_data m.

Lemma fixed_step (m : module Q) : good m -> module_type (m_kind m) = Fixed ->
  exists m' o, step (VS 0) false m = (m', Ok o).
Proof.
  intros (P & L & I) T.
  destruct (m_kind m) as [b|s|gg t|t|t|u] eqn:K; simpl in T; try discriminate.
  - pose proof (ph_kind _ P) as PK. rewrite K in PK. simpl in PK. contradiction.
  - destruct (row_single m t (ph_ok _ P) I) as (x & R & _); [rewrite K; reflexivity|unfold columns; rewrite K; reflexivity|].
    destruct (request_load m t x 0 K R) as [H _].
    destruct (scalar_served 0 m m 0 (ts_done t (m_cur m)) [("absorbed_energy", - (1) * x)] (ph_ok _ P) (ph_fc _ P)) as (m' & o & E);
      [rewrite K; reflexivity|apply H; lra|]. eauto.
Qed.

Lemma flex_step (m : module Q) e : good m -> module_type (m_kind m) = Flex ->
  (0 <= e \/ is_sink (m_kind m) = true) ->
  exists m' o, step (VS e) false m = (m', Ok o).
Proof.
  intros (P & L & I) T S.
  assert (X : exists m1 rw d i, unnormalized_step e m = (m1, Ok (rw, d, i))).
  { unfold lenient in L.
    destruct (m_kind m) as [b|s|gg t|t|t|u] eqn:K; simpl in T; try discriminate.
    - destruct (row_four m t (ph_ok _ P) I) as (p & q & c & s & R); [rewrite K; reflexivity|unfold columns; rewrite K; reflexivity|].
      pose proof (ph_kind _ P) as PK. rewrite K in PK. simpl in PK.
      destruct (request_grid m gg t p q c s e (ph_ok _ P) K PK R) as (H1 & H2 & _).
      destruct (Qlt_le_dec e 0) as [N|N].
      + destruct H2 as (rw & co & x & U & _); [exact N|rewrite L; discriminate|]. eauto.
      + destruct H1 as (rw & co & x & U & _); [exact N|rewrite L; discriminate|]. eauto.
    - destruct S as [S|S]; [|discriminate].
      destruct (row_single m t (ph_ok _ P) I) as (x & R & IN); [rewrite K; reflexivity|unfold columns; rewrite K; reflexivity|].
      pose proof (mo_kind _ (ph_ok _ P)) as KO. unfold kind_ok in KO. rewrite K in KO.
      destruct KO as (_ & _ & _ & _ & _ & F). rewrite Forall_forall in F. specialize (F _ IN).
      inversion F; subst.
      destruct (request_renewable m t x e K R) as (H & _); [assumption|].
      destruct H as (p & U & _); [exact S|rewrite L; discriminate|]. eauto.
    - pose proof (ph_kind _ P) as PK. rewrite K in PK. destruct PK as [C1 C2].
      destruct (request_unbalanced m u e K) as [H1 H2].
      destruct (Qlt_le_dec e 0) as [N|N].
      + destruct (H2 N) as [H _]. do 4 eexists. apply H. apply Qmult_le_0_compat; lra.
      + destruct (H1 N) as [H _]. do 4 eexists. apply H. apply Qmult_le_0_compat; lra. }
  destruct X as (m1 & rw & d & i & U).
  destruct (scalar_served e m m1 rw d i (ph_ok _ P) (ph_fc _ P)) as (m' & o & E); eauto.
  destruct (flex_source _ T) as (_ & _ & G). exact G.
Qed.

Lemma flex_limit (m : module Q) : good m -> module_type (m_kind m) = Flex ->
  (exists b, max_production m = Ok b /\ b <> BNone /\ forall y, b = BFin y -> 0 <= y)
  /\ (is_sink (m_kind m) = true ->
      exists b, max_consumption m = Ok b /\ b <> BNone /\ forall y, b = BFin y -> 0 <= y).
Proof.
  intros (P & L & I) T.
  assert (C : match m_kind m with KGrid _ _ => columns m = 4%nat | _ => columns m = 1%nat end)
    by (unfold columns; destruct (m_kind m); reflexivity).
  assert (KK := mo_kind _ (ph_ok _ P)). unfold kind_ok in KK.
  destruct (m_kind m) as [b|s|gg t|t|t|u] eqn:K; simpl in T; try discriminate.
  - destruct (row_four m t (ph_ok _ P) I) as (p & q & c & s & R); [rewrite K; reflexivity|exact C|].
    destruct (grid_limits m gg t p q c s (ph_ok _ P) K R) as (SS & _ & _ & _ & MI & ME & X1 & X2).
    assert (S0 : 0 <= s) by (destruct SS; lra).
    split; [|intros _]; eexists; (split; [eassumption|]); (split; [discriminate|]);
      intros y Ey; injection Ey as <-; apply Qmult_le_0_compat; assumption.
  - destruct (row_single m t (ph_ok _ P) I) as (x & R & IN); [rewrite K; reflexivity|exact C|].
    destruct KK as (_ & _ & _ & _ & _ & F). rewrite Forall_forall in F. specialize (F _ IN). inversion F; subst.
    split; [|discriminate]. exists (BFin x). unfold max_production, current_renewable, ts_item. rewrite K, R. simpl.
    split; [reflexivity|]. split; [discriminate|]. intros y Ey. injection Ey as <-. assumption.
  - split; [|intros _]; unfold max_production, max_consumption; rewrite K; exists BInf;
      (split; [reflexivity|]); split; discriminate.
Qed.

Lemma share_ok src (m : module Q) r : good m -> module_type (m_kind m) = Flex -> 0 <= r ->
  exists x, share src m r = Ok x /\ 0 <= x /\ x <= r.
Proof.
  intros G T R. destruct (flex_limit m G T) as [(b & E & N & Y) S]. destruct (flex_source _ T) as (SR & _ & _).
  unfold share. destruct src.
  - rewrite SR, E. destruct b as [y| |]; [|eexists; split; [reflexivity|lra]|congruence].
    specialize (Y _ eq_refl). destruct (Qlt_le_dec y r); eexists; (split; [reflexivity|]); lra.
  - destruct (is_sink (m_kind m)); [|exists 0; split; [reflexivity|lra]].
    destruct (S eq_refl) as (b' & E' & N' & Y'). rewrite E'.
    destruct b' as [y| |]; [|eexists; split; [reflexivity|lra]|congruence].
    specialize (Y' _ eq_refl). destruct (Qlt_le_dec y r); eexists; (split; [reflexivity|]); lra.
Qed.

Lemma one_entry (a : pyval Q) : length (entries a) = 1%nat -> (exists x, a = VS x) \/ exists x, a = VA [x].
Proof.
  destruct a as [x|[|x [|? ?]]]; simpl; intros L; try discriminate; eauto.
Qed.

Lemma control_step (m : module Q) a n : good m -> module_type (m_kind m) = Controllable -> acceptable m a ->
  exists m' o, step a n m = (m', Ok o).
Proof.
  intros (P & L & I) T A. unfold acceptable in A. unfold lenient in L.
  pose proof (mo_kind _ (ph_ok _ P)) as KO. unfold kind_ok in KO.
  destruct (m_kind m) as [b|s|gg t|t|t|u] eqn:K; simpl in T; try discriminate.
  - pose proof (ph_kind _ P) as PK. rewrite K in PK. destruct PK as (WF & BI & C & Dd).
    destruct KO as (_ & _ & OD & _).
    assert (X : exists da e, (if n then denorm_action m a else Ok a) = Ok da /\ pick_energy (energy_pos (m_kind m)) da = Ok e).
    { rewrite K. destruct n.
      - unfold one_dim in OD. unfold denorm_action. destruct (m_act m) as [sp|]; [|contradiction].
        rewrite denormalize_eq by (unfold fits; rewrite A; symmetry; apply OD).
        destruct (item_or_arr _) as [v|[|v l]].
        + exists (VS v), v. split; reflexivity.
        + exists (VA []), 0. split; reflexivity.
        + exists (VA (v :: l)), v. split; reflexivity.
      - destruct (one_entry _ A) as [(x & ->)|(x & ->)]; do 2 eexists; split; reflexivity. }
    destruct X as (da & e & E1 & E2).
    destruct (request_battery_ok m b e K WF BI C Dd) as (b' & rw & i & U & _); [rewrite L; discriminate|].
    destruct (step_served a n m (set_kind m (KBattery b')) da e rw false i (ph_ok _ P) (ph_fc _ P)) as (m' & o & E);
      [rewrite K; reflexivity|exact E1|exact E2|exact U|]. eauto.
  - pose proof (ph_kind _ P) as PK. rewrite K in PK. destruct PK as ((p & GI) & MN & MX).
    destruct A as (goal & e & -> & G0 & G1 & E0).
    destruct (update_status_refines s p goal GI G0 G1) as (g' & US & SG & GI' & _).
    destruct KO as (KP & KA & (x & y & AC) & LL & LH).
    set (m1 := set_kind m (KGenset g')).
    assert (O1 : mod_ok m1).
    { destruct (ph_ok _ P) as [KK RR KE]. constructor.
      - unfold kind_ok, m1. simpl. repeat split; eauto.
      - exact RR.
      - unfold m1. unfold log_keys in *. rewrite K in KE. exact KE. }
    assert (F1 : ~ user_forecaster m1) by (intros (? & ? & ? & KT & _); discriminate).
    assert (X : exists da e', (if n then denorm_action m1 (VA [goal; e]) else Ok (VA [goal; e])) = Ok da
              /\ pick_energy 1 da = Ok e' /\ 0 <= e').
    { destruct n; [|do 2 eexists; repeat split; eauto].
      pose proof (ph_act _ P) as H. rewrite K in H. specialize (H eq_refl _ AC). simpl in H.
      inversion H as [|? ? H1 H2]; subst. inversion H2; subst.
      unfold denorm_action, m1. simpl. rewrite AC. rewrite denormalize_eq by reflexivity.
      do 2 eexists. split; [reflexivity|]. split; [reflexivity|].
      unfold denorm1, spread1. unum. simpl.
      destruct (Qeq_bool _ _); [lra|].
      assert (0 <= (y - 0) * e) by (apply Qmult_le_0_compat; lra). lra. }
    destruct X as (da & e' & E1 & E2 & E3).
    assert (KM : m_kind m1 = KGenset g') by reflexivity.
    destruct (request_genset_full m1 g' e' KM) as [H _]. specialize (H E3).
    assert (LM : m_raise m1 = true -> genset_min_production g' <= e' /\ e' <= genset_max_production g')
      by (simpl; rewrite L; discriminate).
    specialize (H LM).
    destruct (base_step_served (VA [goal; e]) n m1 m1 da e' _ _ _ O1 F1 E1 E2 H) as (m' & o & BS).
    exists m'. eexists. unfold step, mbind at 1, mget. rewrite K. unfold mbind at 1, mret.
    unfold massert.
    assert (R : nleb n0 goal && nleb goal n1 = true) by (apply andb_true_iff; split; apply Qleb_le; assumption).
    rewrite R. unfold mbind at 1. unfold mret. unfold lift_kind, mbind at 1. rewrite US. exact BS.
  - pose proof (ph_kind _ P) as PK. rewrite K in PK. simpl in PK.
    destruct (row_four m t (ph_ok _ P) I) as (p & q & c & s & R); [rewrite K; reflexivity|unfold columns; rewrite K; reflexivity|].
    destruct KO as (_ & _ & OD & _).
    assert (X : exists da e, (if n then denorm_action m a else Ok a) = Ok da /\ pick_energy (energy_pos (m_kind m)) da = Ok e).
    { rewrite K. destruct n.
      - unfold one_dim in OD. unfold denorm_action. destruct (m_act m) as [sp|]; [|contradiction].
        rewrite denormalize_eq by (unfold fits; rewrite A; symmetry; apply OD).
        destruct (item_or_arr _) as [v|[|v l]].
        + exists (VS v), v. split; reflexivity.
        + exists (VA []), 0. split; reflexivity.
        + exists (VA (v :: l)), v. split; reflexivity.
      - destruct (one_entry _ A) as [(x & ->)|(x & ->)]; do 2 eexists; split; reflexivity. }
    destruct X as (da & e & E1 & E2).
    assert (Y : exists m1 rw d i, unnormalized_step e m = (m1, Ok (rw, d, i))).
    { destruct (request_grid m gg t p q c s e (ph_ok _ P) K PK R) as (H1 & H2 & _).
      destruct (Qlt_le_dec e 0) as [N|N].
      + destruct H2 as (rw & co & x & U & _); [exact N|rewrite L; discriminate|]. eauto.
      + destruct H1 as (rw & co & x & U & _); [exact N|rewrite L; discriminate|]. eauto. }
    destruct Y as (m1 & rw & d & i & U).
    destruct (step_served a n m m1 da e rw d i (ph_ok _ P) (ph_fc _ P)) as (m' & o & E);
      [rewrite K; reflexivity|exact E1|exact E2|exact U|]. eauto.
Qed.

(** ** Steps one after the other *)
Lemma mbind_eq {S A B} (x : M S A) (f : A -> M S B) s s1 a : x s = (s1, Ok a) -> mbind x f s = f a s1.
Proof. intros E. unfold mbind. rewrite E. reflexivity. Qed.

Lemma step_append_good nm i (a : pyval Q) n st g m : nth_error (mg_mods g) i = Some m ->
  (exists m' o, step a n m = (m', Ok o)) ->
  exists g' st', step_append nm i a n st g = (g', Ok st')
    /\ forall j, j <> i -> nth_error (mg_mods g') j = nth_error (mg_mods g) j.
Proof.
  intros N (m' & o & E). unfold step_append, mbind, with_module. rewrite N, E. simpl.
  do 2 eexists. split; [reflexivity|]. intros j J. simpl. apply nth_set_other. congruence.
Qed.

Definition kept (l : list nat) (g g' : mgrid Q) : Prop :=
  forall j, ~ In j l -> nth_error (mg_mods g') j = nth_error (mg_mods g) j.

Lemma fixed_good l : forall st g, NoDup (map snd l) ->
  (forall ni, In ni l -> exists m, nth_error (mg_mods g) (snd ni) = Some m /\ good m
                                   /\ module_type (m_kind m) = Fixed) ->
  exists g' st', mfold (fun st (ni : string * nat) => step_append (fst ni) (snd ni) (VS n0) false st) l st g = (g', Ok st')
    /\ kept (map snd l) g g'.
Proof.
  induction l as [|ni l IH]; intros st g ND H; simpl.
  - do 2 eexists. split; [reflexivity|]. intros j _. reflexivity.
  - inversion ND as [|? ? NI ND']; subst. destruct (H ni (or_introl eq_refl)) as (m & N & G & T).
    destruct (step_append_good (fst ni) (snd ni) (VS 0) false st g m N (fixed_step m G T)) as (g1 & st1 & E & K1).
    destruct (IH st1 g1 ND') as (g' & st' & E' & K').
    { intros ni' IN. destruct (H ni' (or_intror IN)) as (m' & N' & G' & T'). exists m'. split; [|auto].
      rewrite K1; [exact N'|]. intros EQ. apply NI. rewrite <- EQ. apply in_map. exact IN. }
    do 2 eexists. split; [unfold mbind; rewrite E; exact E'|].
    intros j J. rewrite K' by (intros X; apply J; right; exact X). apply K1. intros ->. apply J. left. reflexivity.
Qed.

Lemma ctrl_one_good nm n l : forall st g, NoDup (map fst l) ->
  (forall ia, In ia l -> exists m, nth_error (mg_mods g) (fst ia) = Some m /\ good m
                 /\ module_type (m_kind m) = Controllable /\ acceptable m (snd ia)) ->
  exists g' st', mfold (fun st (ia : nat * pyval Q) => step_append nm (fst ia) (snd ia) n st) l st g = (g', Ok st')
    /\ kept (map fst l) g g'.
Proof.
  induction l as [|ia l IH]; intros st g ND H; simpl.
  - do 2 eexists. split; [reflexivity|]. intros j _. reflexivity.
  - inversion ND as [|? ? NI ND']; subst. destruct (H ia (or_introl eq_refl)) as (m & N & G & T & A).
    destruct (step_append_good nm (fst ia) (snd ia) n st g m N (control_step m _ n G T A)) as (g1 & st1 & E & K1).
    destruct (IH st1 g1 ND') as (g' & st' & E' & K').
    { intros ia' IN. destruct (H ia' (or_intror IN)) as (m' & N' & G'). exists m'. split; [|auto].
      rewrite K1; [exact N'|]. intros EQ. apply NI. rewrite <- EQ. apply in_map. exact IN. }
    do 2 eexists. split; [unfold mbind; rewrite E; exact E'|].
    intros j J. rewrite K' by (intros X; apply J; right; exact X). apply K1. intros ->. apply J. left. reflexivity.
Qed.

Lemma ctrl_good n d : forall c st g, NoDup (map fst d) -> NoDup (concat (map snd d)) ->
  (forall nm l, In (nm, l) d -> exists v, dget nm c = Some v
     /\ forall i a, In (i, a) (combine l (ctrl_list v)) ->
          exists m, nth_error (mg_mods g) i = Some m /\ good m
             /\ module_type (m_kind m) = Controllable /\ acceptable m a) ->
  exists g' cs', mfold (fun cs (kl : string * list nat) =>
           match dget (fst kl) (fst cs) with
           | None => mraise ValueError "Control for module not found"
           | Some v =>
               mbind (mfold (fun st ia => step_append (fst kl) (fst ia) (snd ia) n st)
                            (combine (snd kl) (ctrl_list v)) (snd cs))
                     (fun st' => mret (dremove (fst kl) (fst cs), st'))
           end) d (c, st) g = (g', Ok cs')
    /\ kept (concat (map snd d)) g g'.
Proof.
  induction d as [|[nm l] d IH]; intros c st g ND NC H; simpl.
  - do 2 eexists. split; [reflexivity|]. intros j _. reflexivity.
  - inversion ND as [|? ? NI ND']; subst. destruct (H nm l (or_introl eq_refl)) as (v & E & HV).
    simpl in NC.
    destruct (ctrl_one_good nm n (combine l (ctrl_list v)) st g) as (g1 & st1 & E1 & K1).
    { rewrite combine_fst. apply firstn_nodup. exact (NoDup_app_l _ _ NC). }
    { intros [i a] IN. exact (HV i a IN). }
    assert (INC : incl (map fst (combine l (ctrl_list v))) l) by (rewrite combine_fst; apply firstn_incl).
    destruct (IH (dremove nm c) st1 g1 ND' (NoDup_app_r _ _ NC)) as (g' & cs' & E' & K').
    { intros nm' l' IN. destruct (H nm' l' (or_intror IN)) as (v' & E2 & HV'). exists v'. split.
      - rewrite dget_dremove; [exact E2|]. intros ->. apply NI. exact (in_map fst _ _ IN).
      - intros i a IA. destruct (HV' i a IA) as (m & N & X). exists m. split; [|exact X].
        rewrite K1; [exact N|]. intros J.
        apply (NoDup_app_disj _ _ i NC); [exact (INC _ J)|].
        apply in_concat. exists l'. split; [exact (in_map snd _ _ IN)|]. exact (in_combine_l _ _ _ _ IA). }
    do 2 eexists. split.
    + unfold mbind at 1. rewrite E. unfold mbind at 1. rewrite E1. unfold mret at 1. exact E'.
    + intros j J. rewrite K' by (intros X; apply J; apply in_or_app; right; exact X).
      apply K1. intros X. apply J. apply in_or_app. left. exact (INC _ X).
Qed.

Lemma excess_good l : forall st x g, NoDup (map snd l) -> 0 <= x ->
  (forall ni, In ni l -> exists m, nth_error (mg_mods g) (snd ni) = Some m /\ good m
                                   /\ module_type (m_kind m) = Flex) ->
  exists g' sx, mfold (fun se (ni : string * nat) =>
           mbind (get_module (snd ni)) (fun m =>
           mbind (if negb (is_sink (m_kind m)) then mret n0
                   else mbind (mlift (max_consumption m)) (fun mx =>
                        mbind (mlift (gt_bound (snd se) mx)) (fun small =>
                        match (small : bool), mx with
                        | true, BFin x => mret (nmul (nopp n1) x)
                        | _, _ => mret (nmul (nopp n1) (snd se))
                        end))) (fun amt =>
           mbind (step_append (fst ni) (snd ni) (VS amt) false (fst se)) (fun st' =>
           mret (st', nadd (snd se) amt)))))
        l (st, x) g = (g', Ok sx).
Proof.
  induction l as [|ni l IH]; intros st x g ND X H; simpl.
  - do 2 eexists. reflexivity.
  - inversion ND as [|? ? NI ND']; subst. destruct (H ni (or_introl eq_refl)) as (m & N & G & T).
    destruct (flex_limit m G T) as [_ SC].
    assert (A : exists amt : Q, (if negb (is_sink (m_kind m)) then @mret (mgrid Q) Q n0
                   else mbind (mlift (max_consumption m)) (fun mx =>
                        mbind (mlift (gt_bound x mx)) (fun small =>
                        match (small : bool), mx with
                        | true, BFin x => mret (nmul (nopp n1) x)
                        | _, _ => mret (nmul (nopp n1) x)
                        end))) g = (g, Ok amt) /\ (0 <= amt \/ is_sink (m_kind m) = true) /\ 0 <= nadd x amt).
    { destruct (is_sink (m_kind m)) eqn:SK; simpl.
      - destruct (SC eq_refl) as (b & E & NN & Y). unfold mbind, mlift. rewrite E.
        destruct b as [y| |]; [| |congruence]; simpl.
        + unfold gt_bound. unum. destruct (Qltb y x) eqn:L; unfold mret; eexists; (split; [reflexivity|]);
            (split; [auto|]); qprop; lra.
        + eexists. split; [reflexivity|]. split; [auto|]. unum. lra.
      - exists n0. split; [reflexivity|]. unum. split; [left|]; lra. }
    destruct A as (amt & E1 & S1 & X1).
    destruct (step_append_good (fst ni) (snd ni) (VS amt) false st g m N (flex_step m amt G T S1)) as (g1 & st1 & E & K1).
    destruct (IH st1 (nadd x amt) g1 ND' X1) as (g' & sx & E').
    { intros ni' IN. destruct (H ni' (or_intror IN)) as (m' & N' & G' & T'). exists m'. split; [|auto].
      rewrite K1; [exact N'|]. intros EQ. apply NI. rewrite <- EQ. apply in_map. exact IN. }
    exists g', sx.
    assert (GM : get_module (snd ni) g = (g, Ok m)).
    { unfold get_module, with_module. rewrite N. unfold mget. rewrite set_nth_id by exact N. rewrite mg_set_mods_id. reflexivity. }
    erewrite mbind_eq; [exact E'|]. rewrite (mbind_eq _ _ _ _ _ GM). cbn [fst snd].
    rewrite (mbind_eq _ _ _ _ _ E1). rewrite (mbind_eq _ _ _ _ _ E). reflexivity.
Qed.

Lemma deficit_good l : forall st x g, NoDup (map snd l) -> 0 <= x ->
  (forall ni, In ni l -> exists m, nth_error (mg_mods g) (snd ni) = Some m /\ good m
                                   /\ module_type (m_kind m) = Flex) ->
  exists g' sx, mfold (fun se (ni : string * nat) =>
           mbind (get_module (snd ni)) (fun m =>
           mbind (if negb (is_source (m_kind m)) then mret n0
                   else mbind (mlift (max_production m)) (fun mx =>
                        mbind (mlift (gt_bound (snd se) mx)) (fun small =>
                        match (small : bool), mx with
                        | true, BFin x => mret x
                        | _, _ => mret (snd se)
                        end))) (fun amt =>
           mbind (step_append (fst ni) (snd ni) (VS amt) false (fst se)) (fun st' =>
           mret (st', nsub (snd se) amt)))))
        l (st, x) g = (g', Ok sx).
Proof.
  induction l as [|ni l IH]; intros st x g ND X H; simpl.
  - do 2 eexists. reflexivity.
  - inversion ND as [|? ? NI ND']; subst. destruct (H ni (or_introl eq_refl)) as (m & N & G & T).
    destruct (flex_limit m G T) as [(b & EB & NN & Y) _]. destruct (flex_source _ T) as (SR & _ & _).
    assert (A : exists amt : Q, (if negb (is_source (m_kind m)) then @mret (mgrid Q) Q n0
                   else mbind (mlift (max_production m)) (fun mx =>
                        mbind (mlift (gt_bound x mx)) (fun small =>
                        match (small : bool), mx with
                        | true, BFin x => mret x
                        | _, _ => mret x
                        end))) g = (g, Ok amt) /\ 0 <= amt /\ 0 <= nsub x amt).
    { rewrite SR. simpl. unfold mbind, mlift. rewrite EB.
      destruct b as [y| |]; [| |congruence]; simpl.
      - specialize (Y _ eq_refl). unfold gt_bound. unum. destruct (Qltb y x) eqn:L; unfold mret; eexists; (split; [reflexivity|]);
          qprop; lra.
      - eexists. split; [reflexivity|]. unum. lra. }
    destruct A as (amt & E1 & S1 & X1).
    destruct (step_append_good (fst ni) (snd ni) (VS amt) false st g m N (flex_step m amt G T (or_introl S1))) as (g1 & st1 & E & K1).
    destruct (IH st1 (nsub x amt) g1 ND' X1) as (g' & sx & E').
    { intros ni' IN. destruct (H ni' (or_intror IN)) as (m' & N' & G' & T'). exists m'. split; [|auto].
      rewrite K1; [exact N'|]. intros EQ. apply NI. rewrite <- EQ. apply in_map. exact IN. }
    exists g', sx.
    assert (GM : get_module (snd ni) g = (g, Ok m)).
    { unfold get_module, with_module. rewrite N. unfold mget. rewrite set_nth_id by exact N. rewrite mg_set_mods_id. reflexivity. }
    erewrite mbind_eq; [exact E'|]. rewrite (mbind_eq _ _ _ _ _ GM). cbn [fst snd].
    rewrite (mbind_eq _ _ _ _ _ E1). rewrite (mbind_eq _ _ _ _ _ E). reflexivity.
Qed.

(** ** Marginal costs can always be read *)
Lemma state_nth_ok (m : module Q) t i : mod_ok m -> kind_ts (m_kind m) = Some t -> (i < columns m)%nat ->
  exists x, state_nth m i = Ok x.
Proof.
  intros O K L. destruct (ts_state _ _ O K) as (r & S & _ & _ & _ & LR & _).
  unfold state_nth, rbind. rewrite S.
  destruct (nth_error (r ++ concat (fc_view t)) i) as [x|] eqn:N; [eauto|].
  apply nth_error_None in N. rewrite app_length in N. lia.
Qed.
Lemma costs_ok (m : module Q) : mod_ok m ->
  exists p a, production_marginal_cost m = Ok p /\ absorption_marginal_cost m = Ok a.
Proof.
  intros O. unfold production_marginal_cost, absorption_marginal_cost.
  destruct (m_kind m) as [b|s|gg t|t|t|u] eqn:K; eauto.
  destruct (state_nth_ok m t 0 O) as (x & X); [rewrite K; reflexivity|unfold columns; rewrite K; lia|].
  destruct (state_nth_ok m t 1 O) as (y & Y); [rewrite K; reflexivity|unfold columns; rewrite K; lia|].
  eauto.
Qed.
Lemma rmapM_progress {A B} (f : A -> res B) l : (forall a, In a l -> exists b, f a = Ok b) ->
  exists l', rmapM f l = Ok l'.
Proof.
  induction l as [|a l IH]; intros H; simpl; [eauto|].
  destruct (H a (or_introl eq_refl)) as (b & E). rewrite E. simpl.
  destruct IH as (l' & E'); [intros; apply H; right; assumption|]. rewrite E'. simpl. eauto.
Qed.
Lemma cost_info_ok D g : mg_inv D g -> exists ci, get_cost_info g = Ok ci.
Proof.
  intros V. unfold get_cost_info. apply rmapM_progress. intros [nm l] IN. cbn [fst snd].
  assert (X : exists l', rmapM (fun i => match nth_error (mg_mods g) i with
                          | None => raise KeyError "no such module"
                          | Some m => rbind (production_marginal_cost m) (fun p =>
                                      rbind (absorption_marginal_cost m) (fun a => Ok (p, a))) end) l = Ok l').
  { apply rmapM_progress. intros i II.
    rewrite all_dict_view in IN. destruct (view_in D g V categories nm l i IN II) as (df & N & _).
    destruct (iv_nth D g i df V N) as (m & NM & O & _). rewrite NM.
    destruct (costs_ok m O) as (p & a & E1 & E2). rewrite E1. simpl. rewrite E2. simpl. eauto. }
  destruct X as (l' & E). rewrite E. simpl. eauto.
Qed.

(** ** The whole run *)
Lemma shaped_ok sh ci st : total_shaper sh -> exists s : Q, shaped_reward sh ci st = Ok s.
Proof. destruct sh as [f|]; simpl; intros H; [apply H|eauto]. Qed.

Lemma accept_like (m m' : module Q) a : mod_like m m' -> acceptable m a -> acceptable m' a.
Proof.
  intros [K _ _ _ _ _]. unfold acceptable.
  destruct (m_kind m), (m_kind m'); simpl in K; try contradiction; auto.
Qed.
Lemma like_type (m m' : module Q) : mod_like m m' -> module_type (m_kind m) = module_type (m_kind m').
Proof.
  intros [K _ _ _ _ _]. destruct (m_kind m), (m_kind m'); simpl in *; try contradiction; auto.
  destruct K as [-> _]. reflexivity.
Qed.
Lemma part_shown D g f nm l : mg_inv D g -> In (nm, l) (part_dict f g) -> l <> [].
Proof.
  intros V IN. rewrite part_dict_view in IN.
  assert (ND : NoDup (map fst (view (mg_ct g) (cats f)))) by (rewrite <- part_dict_view; apply part_nodup).
  pose proof (In_dget _ _ _ ND IN) as DG.
  destruct (view_get D g V _ nm l DG) as (k & _ & _ & NE). exact NE.
Qed.
Lemma part_entry D g f nm l i : mg_inv D g -> In (nm, l) (part_dict f g) -> In i l ->
  exists df m, In df D /\ mdef_name df = nm /\ nth_error (mg_mods g) i = Some m
     /\ mod_ok m /\ mod_like (snd df) m /\ module_type (m_kind m) = f.
Proof.
  intros V IN II. assert (T : In (nm, i) (part_tuples f g)) by (apply part_tuples_in; eauto).
  destruct (part_module D g _ nm i V T) as (df & m & N & E & N' & O & L & M). exists df, m.
  exact (conj (nth_error_In _ _ N) (conj E (conj N' (conj O (conj L M))))).
Qed.

(** The control has an entry for each name, and only acceptable actions. *)
Definition served (g : mgrid Q) (c : control Q) : Prop :=
  forall nm l, In (nm, l) (part_dict Controllable g) -> exists v, dget nm c = Some v
     /\ forall i a, In (i, a) (combine l (ctrl_list v)) ->
          exists m, nth_error (mg_mods g) i = Some m /\ acceptable m a.
Lemma well_shaped_served D g c : mg_inv D g ->
  (forall d, In d D -> module_type (m_kind (snd d)) = Controllable -> dget (mdef_name d) c <> None) ->
  well_shaped D c -> served g c.
Proof.
  intros V CC WS nm l IN. pose proof (part_shown D g _ nm l V IN) as LN.
  destruct l as [|i0 l0]; [congruence|].
  destruct (part_entry D g _ _ _ i0 V IN (or_introl eq_refl)) as (df & m & ID & E & _ & _ & L & T).
  destruct (dget nm c) as [v|] eqn:DG;
    [|exfalso; apply (CC df ID (eq_trans (like_type _ _ L) T)); rewrite E; exact DG].
  exists v. split; [reflexivity|]. intros i a IA.
  destruct (part_entry D g _ _ _ i V IN (in_combine_l _ _ _ _ IA)) as (df' & m' & ID' & E' & N' & _ & L' & T').
  exists m'. split; [exact N'|].
  apply (accept_like (snd df')); [exact L'|].
  assert (W := WS df' v ID' (eq_trans (like_type _ _ L') T')). rewrite E' in W. specialize (W DG).
  rewrite Forall_forall in W. apply W. exact (in_combine_r _ _ _ _ IA).
Qed.

Section Progress.
Variables (D : list (mdef Q)) (g : mgrid Q) (c : control Q) (n : bool).
Hypothesis F : from_modules D g.
Hypothesis U : has_unbalanced g.
Hypothesis S : total_shaper (mg_shaper g).
Hypothesis NM : forall d, In d D -> mdef_name d <> "provided_energy" /\ mdef_name d <> "absorbed_energy".
Hypothesis G : Forall good (mg_mods g).
Hypothesis SV : served g c.
Let V : mg_inv D g := from_modules_inv D g F.

Lemma pr_part f ni : In ni (part_tuples f g) -> exists m, nth_error (mg_mods g) (snd ni) = Some m /\ good m
  /\ module_type (m_kind m) = f.
Proof.
  destruct ni as [nm i]. intros IN. destruct (part_module D g f nm i V IN) as (df & m & _ & _ & N & _ & _ & T).
  exists m. split; [exact N|]. split; [|exact T]. rewrite Forall_forall in G. apply G. exact (nth_error_In _ _ N).
Qed.
Lemma pr_names f es : map ev_key es = part_tuples f g -> plain_names es.
Proof.
  intros E. apply Forall_forall. intros e IN.
  assert (I : In (ev_key e) (part_tuples f g)) by (rewrite <- E; apply in_map; exact IN).
  unfold ev_key in I. destruct (part_module D g f _ _ V I) as (df & m & N & <- & _).
  apply NM. exact (nth_error_In _ _ N).
Qed.
Lemma pr_ctrl nm l : In (nm, l) (part_dict Controllable g) -> exists v, dget nm c = Some v
     /\ forall i a, In (i, a) (combine l (ctrl_list v)) ->
          exists m, nth_error (mg_mods g) i = Some m /\ good m
             /\ module_type (m_kind m) = Controllable /\ acceptable m a.
Proof.
  intros IN. destruct (SV nm l IN) as (v & DV & H). exists v. split; [exact DV|]. intros i a IA.
  destruct (H i a IA) as (m & N & A). exists m.
  destruct (part_entry D g _ _ _ i V IN (in_combine_l _ _ _ _ IA)) as (df' & m' & _ & _ & N' & _ & _ & T').
  rewrite N in N'. injection N' as <-. rewrite Forall_forall in G.
  exact (conj N (conj (G m (nth_error_In _ _ N)) (conj T' A))).
Qed.

Theorem run_progress : exists g' out, run c n g = (g', Ok out).
Proof.
  destruct (cost_info_ok D g V) as (ci & CI).
  pose proof (iv_all_ok D g V) as OK.
  pose proof (parts_nodup D g V) as ND.
  pose proof (NoDup_app_l _ _ ND) as ND1. pose proof (NoDup_app_r _ _ ND) as ND23.
  pose proof (NoDup_app_l _ _ ND23) as ND2. pose proof (NoDup_app_r _ _ ND23) as ND3.
  (* fixed *)
  destruct (fixed_good (part_tuples Fixed g) mstep_init g) as (g1 & st1 & E1 & K1).
  { rewrite part_tuples_ids. exact ND1. } { intros ni. apply pr_part. }
  destruct (run_fixed_ok _ _ _ _ _ E1) as (efix & T1 & C1 & KE1 & _).
  destruct (performs_energy _ _ _ (proj1 T1) OK) as [OK1 EN1].
  destruct (shaped_ok (mg_shaper g) ci (collect efix mstep_init) S) as (s1 & S1).
  destruct (balance_ok _ _ _ _ EN1 (pr_names _ _ KE1) S1) as (fp & fa & r1 & B1).
  (* controllable *)
  assert (KEPT1 : forall j, In j (concat (map snd (part_dict Controllable g))) \/ In j (concat (map snd (part_dict Flex g))) ->
             nth_error (mg_mods g1) j = nth_error (mg_mods g) j).
  { intros j J. apply K1. rewrite part_tuples_ids. intros X.
    apply (NoDup_app_disj _ _ j ND X). apply in_or_app. exact J. }
  destruct (ctrl_good n (part_dict Controllable g) c st1 g1) as (g2 & cs & E2 & K2).
  { apply part_nodup. } { exact ND2. }
  { intros nm l IN. destruct (pr_ctrl nm l IN) as (v & DV & H). exists v. split; [exact DV|].
    intros i a IA. destruct (H i a IA) as (m & N & R). exists m. split; [|exact R].
    rewrite KEPT1; [exact N|]. left. apply in_concat. exists l. split; [exact (in_map snd _ _ IN)|].
    exact (in_combine_l _ _ _ _ IA). }
  destruct (run_ctrl_ok n _ _ _ _ _ _ (part_nodup Controllable g) E2) as (ectl & T2 & C2 & KE2 & _ & _).
  destruct (performs_energy _ _ _ (proj1 T2) OK1) as [OK2 EN2].
  assert (P12 : Forall (fun e => has_energy (info_of (ev_out e))) (efix ++ ectl)) by (apply Forall_app; split; assumption).
  assert (PN2 : plain_names ectl).
  { apply Forall_forall. intros e IN.
    assert (I : In (ev_order e) (orders c (part_dict Controllable g))) by (rewrite <- KE2; apply in_map; exact IN).
    unfold orders in I. apply in_concat in I. destruct I as (x & XI & EX). apply in_map_iff in XI.
    destruct XI as ([nm l] & <- & IL). cbn [fst snd] in EX. destruct (dget nm c) as [v|]; [|contradiction].
    apply in_map_iff in EX. destruct EX as ([i a] & EQ & IC). unfold ev_order in EQ. injection EQ as Q1 Q2 Q3.
    cbn [fst snd] in *.
    assert (TT : In (nm, i) (part_tuples Controllable g)) by (apply part_tuples_in; exists l; split; [exact IL|exact (in_combine_l _ _ _ _ IC)]).
    destruct (part_module D g _ _ _ V TT) as (df & m & N & NE & _). rewrite <- Q1, <- NE.
    apply NM. exact (nth_error_In _ _ N). }
  assert (PN12 : plain_names (efix ++ ectl)) by (apply Forall_app; split; [exact (pr_names _ _ KE1)|exact PN2]).
  destruct (shaped_ok (mg_shaper g) ci (collect (efix ++ ectl) mstep_init) S) as (s2 & S2).
  destruct (balance_ok _ _ _ _ P12 PN12 S2) as (p & a & r2 & B2).
  (* flex *)
  assert (KEPT2 : forall ni, In ni (part_tuples Flex g) -> exists m, nth_error (mg_mods g2) (snd ni) = Some m /\ good m
            /\ module_type (m_kind m) = Flex).
  { intros ni IN. destruct (pr_part Flex ni IN) as (m & N & R). exists m. split; [|exact R].
    assert (J : In (snd ni) (concat (map snd (part_dict Flex g)))) by (rewrite <- part_tuples_ids; apply in_map; exact IN).
    rewrite K2; [rewrite KEPT1; auto|]. intros X. exact (NoDup_app_disj _ _ _ ND23 X J). }
  assert (NDF : NoDup (map snd (part_tuples Flex g))) by (rewrite part_tuples_ids; exact ND3).
  assert (X3 : exists g3 sx, (if nltb n0 (nsub p a) then run_excess g (snd cs) (nsub p a)
                              else run_deficit g (snd cs) (nopp (nsub p a))) g2 = (g3, Ok sx)).
  { unfold run_excess, run_deficit. destruct (nltb n0 (nsub p a)) eqn:L; unum; qprop.
    - apply excess_good; [exact NDF|lra|exact KEPT2].
    - apply deficit_good; [exact NDF|lra|exact KEPT2]. }
  destruct X3 as (g3 & sx & E3).
  assert (Y3 : exists eflex, traced g2 eflex g3 /\ fst sx = collect eflex (snd cs) /\ map ev_key eflex = part_tuples Flex g).
  { unfold run_excess, run_deficit in E3. destruct (nltb n0 (nsub p a)).
    - destruct (run_excess_ok _ _ _ _ _ _ E3) as (es & A1 & A2 & A3 & _). eauto.
    - destruct (run_deficit_ok _ _ _ _ _ _ E3) as (es & A1 & A2 & A3 & _). eauto. }
  destruct Y3 as (eflex & T3 & C3 & KE3).
  destruct (performs_energy _ _ _ (proj1 T3) OK2) as [_ EN3].
  assert (P123 : Forall (fun e => has_energy (info_of (ev_out e))) ((efix ++ ectl) ++ eflex)) by (apply Forall_app; split; assumption).
  assert (PN123 : plain_names ((efix ++ ectl) ++ eflex)) by (apply Forall_app; split; [exact PN12|exact (pr_names _ _ KE3)]).
  destruct (shaped_ok (mg_shaper g) ci (collect ((efix ++ ectl) ++ eflex) mstep_init) S) as (s3 & S3).
  destruct (balance_ok _ _ _ _ P123 PN123 S3) as (p3 & a3 & r3 & B3).
  assert (BG : mg_balance g3 = mg_balance g).
  { destruct T1 as [_ Q1], T2 as [_ Q2], T3 as [_ Q3]. rewrite Q3, Q2, Q1. reflexivity. }
  destruct (bal_log fp fa p a p3 a3 r3 s3 (mg_balance g) (iv_bal _ _ V)) as (lg & LG & _ & LN).
  rewrite C1 in *. rewrite collect_app in B2, S2. rewrite <- C2 in B2, S2.
  rewrite 2 collect_app in B3, S3. rewrite <- C2, <- C3 in B3, S3. subst st1.
  (* all together *)
  assert (R : exists gl, run c n g = (gl, if isclose p3 a3 then Ok (ms_obs (fst sx), s3, ms_done (fst sx), output_info (fst sx))
              else raise RuntimeError "Microgrid modules unable to balance energy")
              /\ mg_balance gl = lg).
  { exists (mg_set_logs g3 lg (mg_other g3)). split; [|reflexivity]. unfold run.
    erewrite mbind_eq; [|reflexivity]. erewrite mbind_eq; [|unfold mlift; rewrite CI; reflexivity].
    cbv zeta.
    erewrite mbind_eq; [|unfold run_fixed; exact E1].
    erewrite mbind_eq; [|unfold mlift; rewrite B1; reflexivity]. cbv beta iota.
    erewrite mbind_eq; [|unfold run_controllable; erewrite mbind_eq; [|exact E2]; reflexivity].
    erewrite mbind_eq; [|unfold mlift; rewrite B2; reflexivity]. cbv beta iota.
    erewrite mbind_eq; [|exact E3].
    erewrite mbind_eq; [|unfold mlift; rewrite B3; reflexivity]. cbv beta iota.
    unfold bal_row in LG.
    erewrite mbind_eq; [|rewrite BG, LG; reflexivity].
    destruct (isclose p3 a3); [|reflexivity].
    erewrite mbind_eq; [|unfold mlift; rewrite S3; reflexivity]. reflexivity. }
  destruct R as (gl & R & BL). destruct (isclose p3 a3); [eauto|].
  exfalso. pose proof (run_never_unbalanced D g gl c n _ F U R) as B. rewrite BL in B.
  rewrite B in LN. exact (Nat.neq_succ_diag_r _ LN).
Qed.
End Progress.

(** ** Sampled actions *)
Section Sample.
Variables (D : list (mdef Q)) (g : mgrid Q).
Hypothesis V : mg_inv D g.
Variable draw : nat -> Q.
Hypothesis DR : forall k, 0 <= draw k /\ draw k <= 1.

Lemma base_sample_loose r (m : module Q) : base_sample_action false r m = Ok (nadd (nmul r (nsub n1 n0)) n0).
Proof. reflexivity. Qed.
Lemma sample_ok (m : module Q) r0 r1 : 0 <= r0 -> r0 <= 1 -> 0 <= r1 ->
  module_type (m_kind m) = Controllable ->
  exists a, sample_action false r0 r1 m = Ok a /\ acceptable m a.
Proof.
  intros A B C T. unfold sample_action, acceptable.
  destruct (m_kind m) as [b|s|gg t|t|t|u]; try discriminate; rewrite base_sample_loose; simpl;
    eexists; (split; [reflexivity|]); [reflexivity| |reflexivity].
  do 2 eexists. split; [reflexivity|]. repeat split; [assumption|assumption|]. unum. lra.
Qed.
Lemma sample_list_ok ids : forall k,
  (forall i, In i ids -> exists m, nth_error (mg_mods g) i = Some m /\ module_type (m_kind m) = Controllable) ->
  exists k' l, sample_list g false draw k ids = Ok (k', l) /\ length l = length ids
    /\ forall i a, In (i, a) (combine ids l) -> exists m, nth_error (mg_mods g) i = Some m /\ acceptable m a.
Proof.
  induction ids as [|i ids IH]; intros k H; simpl.
  - exists k, []. split; [reflexivity|]. split; [reflexivity|]. intros i a [].
  - destruct (H i (or_introl eq_refl)) as (m & N & T). rewrite N.
    destruct (sample_ok m (draw k) (draw (S k))) as (a & E & A); [apply DR|apply DR|apply DR|exact T|].
    rewrite E. cbn [rbind].
    destruct (IH (k + draws_used m)%nat) as (k' & l & E' & LL & HL); [intros; apply H; right; assumption|].
    rewrite E'. cbn [rbind fst snd]. exists k', (a :: l). split; [reflexivity|]. split; [simpl; congruence|].
    simpl. intros i' a' [Q|Q]; [injection Q as <- <-; eauto|eauto].
Qed.
Lemma sample_dict_ok d : forall k, NoDup (map fst d) ->
  (forall nm l, In (nm, l) d -> forall i, In i l -> exists m, nth_error (mg_mods g) i = Some m
                                             /\ module_type (m_kind m) = Controllable) ->
  exists c, sample_dict g false draw k d = Ok c /\ map fst c = map fst d
    /\ forall nm l, In (nm, l) d -> exists v, dget nm c = Some v /\ length (ctrl_list v) = length l
        /\ forall i a, In (i, a) (combine l (ctrl_list v)) -> exists m, nth_error (mg_mods g) i = Some m /\ acceptable m a.
Proof.
  induction d as [|[nm l] d IH]; intros k ND H; simpl.
  - exists []. split; [reflexivity|]. split; [reflexivity|]. intros nm l [].
  - inversion ND as [|? ? NI ND']; subst.
    destruct (sample_list_ok l k (H nm l (or_introl eq_refl))) as (k' & acts & E & LL & HL).
    rewrite E. cbn [rbind fst snd].
    destruct (IH k' ND') as (c & E' & KE & HC); [intros nm' l' IN; exact (H nm' l' (or_intror IN))|].
    rewrite E'. cbn [rbind]. eexists. split; [reflexivity|]. split; [simpl; rewrite KE; reflexivity|].
    intros nm' l' [Q|Q].
    + injection Q as <- <-. exists (CList acts). simpl. rewrite String.eqb_refl. auto.
    + destruct (HC nm' l' Q) as (v & DV & R). exists v. split; [|exact R]. simpl.
      destruct (String.eqb_spec nm' nm) as [->|NE]; [|exact DV].
      exfalso. apply NI. exact (in_map fst _ _ Q).
Qed.
Lemma act_dims_pos (m : module Q) : mod_ok m -> act_dims m = match m_kind m with KGenset _ => 2 | KLoad _ => 0 | _ => 1 end%nat.
Proof.
  intros O. pose proof (mo_kind _ O) as K. unfold kind_ok in K. unfold act_dims.
  destruct (m_kind m) as [b|s|gg t|t|t|u].
  - destruct K as (_ & _ & OD & _). unfold one_dim in OD. destruct (m_act m); [apply OD|contradiction].
  - destruct K as (_ & _ & (x & y & ->) & _). reflexivity.
  - destruct K as (_ & _ & OD & _). unfold one_dim in OD. destruct (m_act m); [apply OD|contradiction].
  - destruct K as (_ & _ & -> & _). reflexivity.
  - destruct K as (_ & _ & OD & _). unfold one_dim in OD. destruct (m_act m); [apply OD|contradiction].
  - destruct K as (_ & _ & -> & _). reflexivity.
Qed.
Lemma filter_all {A} (f : A -> bool) l : (forall a, In a l -> f a = true) -> filter f l = l.
Proof.
  induction l as [|a l IH]; intros H; simpl; [reflexivity|]. rewrite (H a) by (left; reflexivity).
  f_equal. apply IH. intros; apply H; right; assumption.
Qed.
Lemma action_dict_ctrl : action_dict g false = part_dict Controllable g.
Proof.
  unfold action_dict. apply filter_all. intros [nm l] IN. cbn [snd].
  pose proof (part_shown D g _ nm l V IN) as NE. destruct l as [|i l]; [congruence|].
  destruct (part_entry D g _ _ _ i V IN (or_introl eq_refl)) as (df & m & _ & _ & N & O & _ & T).
  rewrite N, (act_dims_pos m O). destruct (m_kind m); try discriminate; reflexivity.
Qed.
Lemma sample_served : exists c, mg_sample_action g false false draw = Ok c /\ served g c
  /\ map fst c = map fst (part_dict Controllable g)
  /\ forall nm l, In (nm, l) (part_dict Controllable g) -> exists v, dget nm c = Some v /\ length (ctrl_list v) = length l.
Proof.
  unfold mg_sample_action. rewrite action_dict_ctrl.
  destruct (sample_dict_ok (part_dict Controllable g) 0 (part_nodup _ _)) as (c & E & KE & H).
  { intros nm l IN i II. destruct (part_entry D g _ _ _ i V IN II) as (df & m & _ & _ & N & _ & _ & T). eauto. }
  exists c. split; [exact E|]. split; [|split; [exact KE|]].
  - intros nm l IN. destruct (H nm l IN) as (v & DV & _ & R). eauto.
  - intros nm l IN. destruct (H nm l IN) as (v & DV & R & _). eauto.
Qed.
End Sample.
