(** * Controls: what run does with them, merit order, empty and sampled actions *)

From Coq Require Import ZArith QArith Qabs Bool String List Lia Lqa Permutation.
From Verif Require Import Num Py Space Logger Forecast Module Container Microgrid
  Proofs_Num Proofs_Logger Spec_Module Spec_Reach Spec_Genset Proofs_Module Proofs_Space Proofs_Battery Proofs_Genset
  Proofs_Ts Proofs_Any Proofs_Request
  Proofs_Data Proofs_Classes Spec_Microgrid Spec_Sane Proofs_Container Proofs_Run Proofs_Balance
  Proofs_Mgrid Proofs_Views Proofs_MgProps Proofs_MgProps2 Proofs_Build Proofs_Episode Proofs_Sane Proofs_Progress.
Import ListNotations.
Local Open Scope string_scope.
Local Open Scope list_scope.
Local Open Scope Q_scope.

(** ** C30: what is executed *)

Lemma under_none {A} (f : event -> A) nm es : (forall e, In e es -> ev_name e <> nm) -> under f nm es = [].
Proof.
  intros H. unfold under. induction es as [|e es IH]; simpl; [reflexivity|].
  destruct (String.eqb_spec nm (ev_name e)) as [->|_]; [exfalso; exact (H e (or_introl eq_refl) eq_refl)|].
  apply IH. intros; apply H; right; assumption.
Qed.
Lemma under_all_map {A B} (f : event -> A) (h : A -> B) nm es : under (fun e => h (f e)) nm es = map h (under f nm es).
Proof. unfold under. rewrite map_map. reflexivity. Qed.
Lemma under_ext {A} (f h : event -> A) nm es : Forall (fun e => f e = h e) es -> under f nm es = under h nm es.
Proof.
  intros F. unfold under. induction F as [|e es E F IH]; simpl; [reflexivity|].
  destruct (String.eqb nm (ev_name e)); simpl; [rewrite E, IH|exact IH]; reflexivity.
Qed.
Lemma under_orders nm es : under (fun e => (ev_id e, ev_act e)) nm es
  = map (fun o => (snd (fst o), snd o)) (filter (fun o => String.eqb nm (fst (fst o))) (map ev_order es)).
Proof.
  unfold under. induction es as [|e es IH]; simpl; [reflexivity|].
  destruct (String.eqb nm (ev_name e)); simpl; rewrite IH; reflexivity.
Qed.
Lemma filter_same {A} (f : A -> bool) l b : (forall a, In a l -> f a = b) -> filter f l = if b then l else [].
Proof.
  intros H. induction l as [|a l IH]; simpl; [destruct b; reflexivity|].
  rewrite (H a) by (left; reflexivity). rewrite IH by (intros; apply H; right; assumption).
  destruct b; reflexivity.
Qed.
Lemma filter_concat {A} (f : A -> bool) (ll : list (list A)) : filter f (concat ll) = concat (map (filter f) ll).
Proof. induction ll as [|l ll IH]; simpl; [reflexivity|]. rewrite filter_app, IH. reflexivity. Qed.

Lemma orders_under (c : control Q) nm d : NoDup (map fst d) ->
  map (fun o : string * nat * pyval Q => (snd (fst o), snd o)) (filter (fun o => String.eqb nm (fst (fst o))) (orders c d))
  = match dget nm d, dget nm c with
    | Some l, Some v => combine l (ctrl_list v)
    | _, _ => []
    end.
Proof.
  induction d as [|[k l] d IH]; intros ND; [reflexivity|].
  unfold orders in *. simpl. inversion ND as [|? ? NI ND']; subst. specialize (IH ND').
  rewrite filter_app, map_app, IH. cbn [fst snd].
  destruct (String.eqb_spec nm k) as [->|NE].
  - assert (DN : dget k d = None) by (apply dget_None; exact NI). rewrite DN, app_nil_r.
    destruct (dget k c) as [v|]; [|reflexivity].
    rewrite (filter_same _ _ true); [rewrite map_map; simpl; rewrite <- map_id; apply map_ext; intros []; reflexivity|].
    + intros a IA. apply in_map_iff in IA. destruct IA as (ia & <- & _). simpl. apply String.eqb_refl.
  - replace (map _ (filter _ (match dget k c with Some v => _ | None => [] end))) with (@nil (nat * pyval Q)); [reflexivity|].
    destruct (dget k c) as [v|]; [|reflexivity].
    rewrite (filter_same _ _ false); [reflexivity|].
    intros a IA. apply in_map_iff in IA. destruct IA as (ia & <- & _). simpl. apply String.eqb_neq. exact NE.
Qed.

(** A name belongs to one of the three parts only. *)
Lemma sep_part D g f nm d i : mg_inv D g -> names_separate D -> In d D -> mdef_name d = nm ->
  In (nm, i) (part_tuples f g) -> f = module_type (m_kind (snd d)).
Proof.
  intros V SEP ID EN IN. destruct (part_module D g f nm i V IN) as (df & m & N & E & _ & _ & L & T).
  rewrite <- T, <- (like_type _ _ L).
  assert (C : category_of (snd df) = category_of (snd d)).
  { apply SEP; [exact (nth_error_In _ _ N)|exact ID|congruence]. }
  unfold category_of in C. injection C as C _. exact C.
Qed.
Lemma keys_other {A} D g f nm d (h : event -> A) es : mg_inv D g -> names_separate D -> In d D -> mdef_name d = nm ->
  incl (map ev_key es) (part_tuples f g) -> f <> module_type (m_kind (snd d)) -> under h nm es = [].
Proof.
  intros V SEP ID EN KE NF. apply under_none. intros e IE EQ. apply NF.
  apply (sep_part D g f nm d (ev_id e) V SEP ID EN). rewrite <- EQ. apply KE. exact (in_map ev_key _ _ IE).
Qed.
Lemma orders_incl c (g : mgrid Q) : incl (map (fun o => fst o) (orders c (part_dict Controllable g))) (part_tuples Controllable g).
Proof.
  intros [nm i] IN. apply in_map_iff in IN. destruct IN as ([[nm' i'] a] & EQ & IN). cbn [fst] in EQ.
  injection EQ as -> ->. unfold orders in IN. apply in_concat in IN. destruct IN as (x & XI & IX).
  apply in_map_iff in XI. destruct XI as ([k l] & <- & IL). cbn [fst snd] in IX.
  destruct (dget k c) as [v|]; [|contradiction]. apply in_map_iff in IX. destruct IX as ([j b] & EQ & IC).
  cbn [fst snd] in EQ. injection EQ as -> -> ->. apply part_tuples_in. exists l. split; [exact IL|].
  exact (in_combine_l _ _ _ _ IC).
Qed.
Lemma ev_key_order es : map ev_key es = map (fun o => fst o) (map ev_order es).
Proof. rewrite map_map. reflexivity. Qed.

Section Executed.
Variables (D : list (mdef Q)) (g : mgrid Q).
Hypothesis V : mg_inv D g.
Hypothesis SEP : names_separate D.
Variables (c : control Q) (n : bool) (ci : cost_info Q) (efix ectl eflex : list event)
  (ms1 ms2 ms3 : list (module Q)) (r2 fp fa p a p3 a3 r3 s3 : Q).
Hypothesis RN : ran c n g ci efix ectl eflex ms1 ms2 ms3 r2 fp fa p a p3 a3 r3 s3.
Let es := efix ++ ectl ++ eflex.

Lemma ex_name d : In d D -> forall d', In d' D -> mdef_name d' = mdef_name d -> category_of (snd d') = category_of (snd d).
Proof. intros I d' I' E. apply SEP; assumption. Qed.

Lemma ex_parts {A} (h : event -> A) d : In d D ->
  under h (mdef_name d) es = under h (mdef_name d)
    (match module_type (m_kind (snd d)) with Fixed => efix | Controllable => ectl | Flex => eflex end).
Proof.
  intros I. unfold es. rewrite 2 under_app.
  assert (X1 : module_type (m_kind (snd d)) <> Fixed -> under h (mdef_name d) efix = []).
  { intros N. apply (keys_other D g Fixed _ d); auto. rewrite (rn_fix_keys _ _ _ _ _ _ _ _ _ _ _ _ _ _ _ _ _ _ _ RN). apply incl_refl. }
  assert (X2 : module_type (m_kind (snd d)) <> Controllable -> under h (mdef_name d) ectl = []).
  { intros N. apply (keys_other D g Controllable _ d); auto.
    rewrite ev_key_order, (rn_ctl_orders _ _ _ _ _ _ _ _ _ _ _ _ _ _ _ _ _ _ _ RN). apply orders_incl. }
  assert (X3 : module_type (m_kind (snd d)) <> Flex -> under h (mdef_name d) eflex = []).
  { intros N. apply (keys_other D g Flex _ d); auto. rewrite (rn_flex_keys _ _ _ _ _ _ _ _ _ _ _ _ _ _ _ _ _ _ _ RN). apply incl_refl. }
  destruct (module_type (m_kind (snd d))); rewrite ?X1, ?X2, ?X3 by discriminate; rewrite ?app_nil_r; reflexivity.
Qed.
Lemma ex_of_name d f : In d D -> module_type (m_kind (snd d)) = f -> of_name (mdef_name d) f g = positions (mdef_name d) D.
Proof.
  intros I T. rewrite (of_name_sep D g (mdef_name d) f V SEP (category_of (snd d)) (ex_name d I)).
  unfold category_of. cbn [fst]. rewrite T. destruct f; reflexivity.
Qed.
Lemma ex_ctl d : In d D -> module_type (m_kind (snd d)) = Controllable ->
  exists v, dget (mdef_name d) c = Some v
    /\ under (fun e => (ev_id e, ev_act e, ev_norm e)) (mdef_name d) es
       = map (fun ia => (fst ia, snd ia, n)) (combine (positions (mdef_name d) D) (ctrl_list v)).
Proof.
  intros I T. pose proof (ex_of_name d _ I T) as ON. unfold of_name in ON.
  assert (PI : positions (mdef_name d) D <> []).
  { apply In_nth_error in I. destruct I as (k & N). intros E.
    assert (IN : In k (positions (mdef_name d) D)); [|rewrite E in IN; destruct IN].
    unfold positions. apply in_map_iff. exists (k, d). split; [reflexivity|]. apply filter_In. split; [|apply String.eqb_refl].
    apply (nth_error_In _ k). rewrite <- (Nat.add_0_l k) at 2.
    clear -N. revert k N. generalize 0%nat. induction D as [|d' D' IH]; intros i k N; [destruct k; discriminate|].
    destruct k; simpl in *; [injection N as ->; rewrite Nat.add_0_r; reflexivity|].
    rewrite (IH (S i) k N). do 2 f_equal. lia. }
  destruct (dget (mdef_name d) (part_dict Controllable g)) as [l|] eqn:DG; [|congruence].
  destruct (dget (mdef_name d) c) as [v|] eqn:DC.
  2:{ exfalso. apply (rn_ctl_given _ _ _ _ _ _ _ _ _ _ _ _ _ _ _ _ _ _ _ RN (mdef_name d)); [|exact DC].
      apply dget_In in DG. exact (in_map fst _ _ DG). }
  exists v. split; [reflexivity|]. rewrite ex_parts, T by exact I.
  transitivity (map (fun x => (fst x, snd x, n)) (under (fun e => (ev_id e, ev_act e)) (mdef_name d) ectl)).
  2:{ f_equal. rewrite under_orders, (rn_ctl_orders _ _ _ _ _ _ _ _ _ _ _ _ _ _ _ _ _ _ _ RN).
    rewrite orders_under by apply part_nodup. rewrite DG, DC, <- ON. reflexivity. }
  rewrite <- under_all_map. apply under_ext.
  apply (Forall_impl _ (fun e E => f_equal (fun x => (ev_id e, ev_act e, x)) E) (rn_ctl_norm _ _ _ _ _ _ _ _ _ _ _ _ _ _ _ _ _ _ _ RN)).
Qed.
Lemma ex_fix d : In d D -> module_type (m_kind (snd d)) = Fixed ->
  under (fun e => (ev_id e, ev_act e, ev_norm e)) (mdef_name d) es
  = map (fun i => (i, VS 0, false)) (positions (mdef_name d) D).
Proof.
  intros I T. rewrite ex_parts, T by exact I.
  transitivity (map (fun i => (i, VS 0, false)) (under ev_id (mdef_name d) efix)).
  2:{ f_equal. rewrite under_keys, (rn_fix_keys _ _ _ _ _ _ _ _ _ _ _ _ _ _ _ _ _ _ _ RN), part_tuples_dict.
    rewrite filter_name_tuples by apply part_nodup. exact (ex_of_name d _ I T). }
  rewrite <- under_all_map. apply under_ext.
  eapply Forall_impl; [|exact (rn_fix_acts _ _ _ _ _ _ _ _ _ _ _ _ _ _ _ _ _ _ _ RN)].
    intros e [E1 E2]. cbn beta. rewrite E1, E2. reflexivity.
Qed.
Lemma flexed_norm src ms r l ms' r' : flexed src ms r l ms' r' -> Forall (fun e => ev_norm e = false) l.
Proof. induction 1; constructor; auto. Qed.
Lemma ex_flex d : In d D -> module_type (m_kind (snd d)) = Flex ->
  under (fun e => (ev_id e, ev_norm e)) (mdef_name d) es = map (fun i => (i, false)) (positions (mdef_name d) D).
Proof.
  intros I T. rewrite ex_parts, T by exact I.
  transitivity (map (fun i => (i, false)) (under ev_id (mdef_name d) eflex)).
  2:{ f_equal. rewrite under_keys, (rn_flex_keys _ _ _ _ _ _ _ _ _ _ _ _ _ _ _ _ _ _ _ RN), part_tuples_dict.
    rewrite filter_name_tuples by apply part_nodup. exact (ex_of_name d _ I T). }
  rewrite <- under_all_map. apply under_ext.
  eapply Forall_impl; [|exact (flexed_norm _ _ _ _ _ _ (rn_flex _ _ _ _ _ _ _ _ _ _ _ _ _ _ _ _ _ _ _ RN))].
    intros e E1. cbn beta. rewrite E1. reflexivity.
Qed.
End Executed.

Theorem run_executes D (g g' : mgrid Q) (c : control Q) n obs rw d inf :
  from_modules D g -> names_separate D -> run c n g = (g', Ok (obs, rw, d, inf)) ->
  exists es, did g es g'
    /\ (forall d, In d D -> module_type (m_kind (snd d)) = Controllable ->
          exists v, dget (mdef_name d) c = Some v
            /\ under (fun e => (ev_id e, ev_act e, ev_norm e)) (mdef_name d) es
               = map (fun ia => (fst ia, snd ia, n)) (combine (positions (mdef_name d) D) (ctrl_list v)))
    /\ (forall d, In d D -> module_type (m_kind (snd d)) = Fixed ->
          under (fun e => (ev_id e, ev_act e, ev_norm e)) (mdef_name d) es
          = map (fun i => (i, VS 0, false)) (positions (mdef_name d) D))
    /\ (forall d, In d D -> module_type (m_kind (snd d)) = Flex ->
          under (fun e => (ev_id e, ev_norm e)) (mdef_name d) es
          = map (fun i => (i, false)) (positions (mdef_name d) D)).
Proof.
  intros F SEP E. pose proof (from_modules_inv D g F) as V.
  destruct (run_ok_full D g g' c n obs rw d inf V E)
    as (ci & efix & ectl & eflex & ms1 & ms2 & ms3 & r2 & fp & fa & p & a & p3 & a3 & r3 & lg & RN & -> & _).
  exists (efix ++ ectl ++ eflex). split.
  - split; [exact (ran_performs _ _ _ _ _ _ _ _ _ _ _ _ _ _ _ _ _ _ _ RN)|].
    exact (ran_nodup D g V _ _ _ _ _ _ _ _ _ _ _ _ _ _ _ _ _ _ RN).
  - split; [|split].
    + intros d' I T. eapply ex_ctl; eassumption.
    + intros d' I T. eapply ex_fix; eassumption.
    + intros d' I T. eapply ex_flex; eassumption.
Qed.

Lemma mbind_err {S A B} (x : M S A) (f : A -> M S B) s s1 e : x s = (s1, Err e) -> mbind x f s = (s1, Err e).
Proof. intros E. unfold mbind. rewrite E. reflexivity. Qed.

(** Every definition's name is a key of its part. *)
Lemma part_key D g d : mg_inv D g -> In d D ->
  exists l, dget (mdef_name d) (part_dict (module_type (m_kind (snd d))) g) = Some l.
Proof.
  intros V I. rewrite part_dict_view. unfold view. rewrite dget_to_dict by (apply (subs_nodup D); exact V).
  assert (IK : In (category_of (snd d)) (cats (module_type (m_kind (snd d))))) by (apply in_cats; reflexivity).
  assert (DN : din (mdef_name d) (ctc (mg_ct g) (category_of (snd d))) = true).
  { unfold din. rewrite (iv_ct _ _ V). apply In_nth_error in I. destruct I as (k & N).
    assert (M : In k (members (mdef_name d) (category_of (snd d)) 0 D)).
    { apply members_iff. exists d. rewrite Nat.sub_0_r. repeat split; auto. lia. }
    destruct (members _ _ _ _); [destruct M|reflexivity]. }
  destruct (find _ _) as [s|] eqn:FD.
  - apply find_some in FD. destruct FD as [_ Q]. unfold din in Q. destruct (dget (mdef_name d) s); [eauto|discriminate].
  - exfalso. eapply find_none in FD; [|apply -> in_rev; apply in_map; exact IK]. simpl in FD. congruence.
Qed.

Theorem run_missing D (g g' : mgrid Q) (c : control Q) n r d :
  from_modules D g -> In d D -> module_type (m_kind (snd d)) = Controllable -> dget (mdef_name d) c = None ->
  run c n g = (g', r) -> exists e, r = Err e /\ mg_balance g' = mg_balance g.
Proof.
  intros F I T DN E. pose proof (from_modules_inv D g F) as V.
  destruct (run_any _ _ _ _ _ E) as [(e & -> & IN)|H].
  - exists e. split; [reflexivity|]. destruct IN as [-> _]. reflexivity.
  - destruct H as (ci & efix & ectl & eflex & ms1 & ms2 & ms3 & r2 & fp & fa & p & a & p3 & a3 & r3 & s3 & lg & x & RN & _).
    exfalso. destruct (part_key D g d V I) as (l & DG). rewrite T in DG.
    apply (rn_ctl_given _ _ _ _ _ _ _ _ _ _ _ _ _ _ _ _ _ _ _ RN (mdef_name d)); [|exact DN].
    apply dget_In in DG. exact (in_map fst _ _ DG).
Qed.

(** Fixed modules have moved on when the missing control is noticed. *)
Lemma ctrl_missing n d : forall c st g, NoDup (map fst d) -> NoDup (concat (map snd d)) ->
  (forall nm l v, In (nm, l) d -> dget nm c = Some v ->
     forall i a, In (i, a) (combine l (ctrl_list v)) ->
          exists m, nth_error (mg_mods g) i = Some m /\ good m
             /\ module_type (m_kind m) = Controllable /\ acceptable m a) ->
  (exists nm l, In (nm, l) d /\ dget nm c = None) ->
  exists g' e, mfold (fun cs (kl : string * list nat) =>
           match dget (fst kl) (fst cs) with
           | None => mraise ValueError "Control for module not found"
           | Some v =>
               mbind (mfold (fun st ia => step_append (fst kl) (fst ia) (snd ia) n st)
                            (combine (snd kl) (ctrl_list v)) (snd cs))
                     (fun st' => mret (dremove (fst kl) (fst cs), st'))
           end) d (c, st) g = (g', Err e)
    /\ ex_class e = ValueError
    /\ (forall j, (forall nm l, In (nm, l) d -> In j l -> dget nm c = None) ->
          nth_error (mg_mods g') j = nth_error (mg_mods g) j)
    /\ g' = mg_set_mods g (mg_mods g').
Proof.
  induction d as [|[nm l] d IH]; intros c st g ND NC H X; simpl.
  - destruct X as (? & ? & [] & _).
  - inversion ND as [|? ? NI ND']; subst. simpl in NC.
    destruct (dget nm c) as [v|] eqn:E.
    2:{ do 2 eexists. split; [reflexivity|]. split; [reflexivity|]. split; [intros j _; reflexivity|].
        symmetry. apply mg_set_mods_id. }
    destruct (ctrl_one_good nm n (combine l (ctrl_list v)) st g) as (g1 & st1 & E1 & K1).
    { rewrite combine_fst. apply firstn_nodup. exact (NoDup_app_l _ _ NC). }
    { intros [i a] IN. exact (H nm l v (or_introl eq_refl) E i a IN). }
    assert (INC : incl (map fst (combine l (ctrl_list v))) l) by (rewrite combine_fst; apply firstn_incl).
    destruct (IH (dremove nm c) st1 g1 ND' (NoDup_app_r _ _ NC)) as (g' & e & E' & CE & K' & M').
    { intros nm' l' v' IN DV i a IA. rewrite dget_dremove in DV by (intros ->; apply NI; exact (in_map fst _ _ IN)).
      destruct (H nm' l' v' (or_intror IN) DV i a IA) as (m & N & Y). exists m. split; [|exact Y].
      rewrite K1; [exact N|]. intros J.
      apply (NoDup_app_disj _ _ i NC); [exact (INC _ J)|].
      apply in_concat. exists l'. split; [exact (in_map snd _ _ IN)|]. exact (in_combine_l _ _ _ _ IA). }
    { destruct X as (nm' & l' & [Q|IN] & DN); [injection Q as <- <-; congruence|].
      exists nm', l'. split; [exact IN|]. rewrite dget_dremove; [exact DN|]. intros ->. apply NI. exact (in_map fst _ _ IN). }
    do 2 eexists. split; [|split; [exact CE|split]].
    + unfold mbind at 1. unfold mbind at 1. rewrite E1. unfold mret at 1. exact E'.
    + intros j J. rewrite K'.
      * apply K1. intros Y. rewrite (J nm l (or_introl eq_refl) (INC _ Y)) in E. discriminate.
      * intros nm' l' IN IJ. rewrite dget_dremove by (intros ->; apply NI; exact (in_map fst _ _ IN)).
        exact (J nm' l' (or_intror IN) IJ).
    + destruct (ctrl_one_ok _ _ _ _ _ _ _ E1) as (es & [_ Q1] & _). rewrite M', Q1. reflexivity.
Qed.

(** What a refused run leaves behind. *)
Theorem run_missing_effects D (g : mgrid Q) (c : control Q) n d0 :
  from_modules D g -> total_shaper (mg_shaper g) ->
  (forall d, In d D -> mdef_name d <> "provided_energy" /\ mdef_name d <> "absorbed_energy") ->
  Forall good (mg_mods g) -> well_shaped D c ->
  In d0 D -> module_type (m_kind (snd d0)) = Controllable -> dget (mdef_name d0) c = None ->
  exists g' e, run c n g = (g', Err e) /\ ex_class e = ValueError
    /\ mg_balance g' = mg_balance g
    /\ (forall i m, nth_error (mg_mods g) i = Some m -> module_type (m_kind m) = Flex ->
          nth_error (mg_mods g') i = Some m)
    /\ (names_separate D -> forall i m, nth_error (mg_mods g) i = Some m -> module_type (m_kind m) = Fixed ->
          exists m', nth_error (mg_mods g') i = Some m' /\ stepped_once m m')
    /\ (forall i m df, nth_error D i = Some df -> nth_error (mg_mods g) i = Some m ->
          module_type (m_kind m) = Controllable -> dget (mdef_name df) c = None ->
          nth_error (mg_mods g') i = Some m).
Proof.
  intros F S NM G WS ID0 T0 DN0. pose proof (from_modules_inv D g F) as V.
  destruct (cost_info_ok D g V) as (ci & CI).
  pose proof (iv_all_ok D g V) as OK.
  pose proof (parts_nodup D g V) as ND.
  pose proof (NoDup_app_l _ _ ND) as ND1. pose proof (NoDup_app_r _ _ ND) as ND23.
  pose proof (NoDup_app_l _ _ ND23) as ND2. pose proof (NoDup_app_r _ _ ND23) as ND3.
  assert (PP : forall f ni, In ni (part_tuples f g) -> exists m, nth_error (mg_mods g) (snd ni) = Some m /\ good m
            /\ module_type (m_kind m) = f).
  { intros f ni. apply (pr_part D g F G). }
  destruct (fixed_good (part_tuples Fixed g) mstep_init g) as (g1 & st1 & E1 & K1).
  { rewrite part_tuples_ids. exact ND1. } { intros ni. apply PP. }
  destruct (run_fixed_ok _ _ _ _ _ E1) as (efix & T1 & C1 & KE1 & _).
  destruct (performs_energy _ _ _ (proj1 T1) OK) as [OK1 EN1].
  destruct (shaped_ok (mg_shaper g) ci (collect efix mstep_init) S) as (s1 & S1).
  assert (PN1 : plain_names efix) by exact (pr_names D g F NM _ _ KE1).
  destruct (balance_ok _ _ _ _ EN1 PN1 S1) as (fp & fa & r1 & B1).
  assert (KEPT1 : forall j, In j (concat (map snd (part_dict Controllable g))) \/ In j (concat (map snd (part_dict Flex g))) ->
             nth_error (mg_mods g1) j = nth_error (mg_mods g) j).
  { intros j J. apply K1. rewrite part_tuples_ids. intros X.
    apply (NoDup_app_disj _ _ j ND X). apply in_or_app. exact J. }
  destruct (ctrl_missing n (part_dict Controllable g) c st1 g1) as (g2 & e & E2 & CE & K2 & M2).
  { apply part_nodup. } { exact ND2. }
  { intros nm l v IN DV i a IA.
    destruct (part_entry D g _ _ _ i V IN (in_combine_l _ _ _ _ IA)) as (df' & m' & ID' & E' & N' & _ & L' & T').
    exists m'. split; [|split; [|split]].
    - rewrite KEPT1; [exact N'|]. left. apply in_concat. exists l. split; [exact (in_map snd _ _ IN)|].
      exact (in_combine_l _ _ _ _ IA).
    - rewrite Forall_forall in G. apply G. exact (nth_error_In _ _ N').
    - exact T'.
    - apply (accept_like (snd df')); [exact L'|].
      assert (W := WS df' v ID' (eq_trans (like_type _ _ L') T')). rewrite E' in W. specialize (W DV).
      rewrite Forall_forall in W. apply W. exact (in_combine_r _ _ _ _ IA). }
  { destruct (part_key D g d0 V ID0) as (l & DG). rewrite T0 in DG. exists (mdef_name d0), l.
    split; [exact (dget_In _ _ _ DG)|exact DN0]. }
  exists g2, e. split.
  { unfold run.
    erewrite mbind_eq; [|reflexivity]. erewrite mbind_eq; [|unfold mlift; rewrite CI; reflexivity].
    cbv zeta.
    erewrite mbind_eq; [|unfold run_fixed; exact E1]. rewrite <- C1 in B1.
    erewrite mbind_eq; [|unfold mlift; rewrite B1; reflexivity]. cbv beta iota.
    apply mbind_err. unfold run_controllable. apply mbind_err. exact E2. }
  split; [exact CE|]. split.
  { rewrite M2. destruct T1 as [_ Q1]. rewrite Q1. reflexivity. }
  assert (SH : forall i m f, nth_error (mg_mods g) i = Some m -> module_type (m_kind m) = f ->
     forall f', In i (concat (map snd (part_dict f' g))) -> f' = f).
  { intros i m f N T f' IN. destruct (part_ids_in D g f' i V IN) as (df & m' & _ & N' & _ & _ & T'). congruence. }
  assert (SH2 : forall i m, nth_error (mg_mods g) i = Some m -> module_type (m_kind m) <> Controllable ->
     nth_error (mg_mods g2) i = nth_error (mg_mods g1) i).
  { intros i m N T. apply K2. intros nm l IN IL. exfalso. apply T. symmetry. apply (SH i m _ N eq_refl).
    apply in_concat. exists l. split; [exact (in_map snd _ _ IN)|exact IL]. }
  split; [|split].
  - intros i m N T. rewrite (SH2 i m N) by congruence. rewrite K1; [exact N|].
    rewrite part_tuples_ids. intros X. pose proof (SH i m _ N T _ X). discriminate.
  - intros SEP i m N T.
    assert (LI : (i < length D)%nat).
    { assert (LL : length D = length (mg_mods g)) by exact (Forall2_length _ _ _ (iv_mods _ _ V)).
      rewrite LL. apply nth_error_Some. rewrite N. discriminate. }
    assert (IP : In i (concat (map snd (part_dict Fixed g)))).
    { pose proof (parts_perm D g V SEP) as PM.
      assert (IN : In i (seq 0 (length D))) by (apply in_seq; lia).
      apply (Permutation_in _ (Permutation_sym PM)) in IN. apply in_app_or in IN. destruct IN as [IN|IN]; [exact IN|].
      apply in_app_or in IN. destruct IN as [IN|IN]; pose proof (SH i m _ N T _ IN); discriminate. }
    rewrite <- part_tuples_ids, <- KE1 in IP. rewrite map_map in IP. simpl in IP.
    apply in_map_iff in IP. destruct IP as (ev & EI & IE).
    assert (NDE : NoDup (event_ids efix)).
    { unfold event_ids. replace (map ev_id efix) with (map snd (map ev_key efix)) by (rewrite map_map; reflexivity).
      rewrite KE1, part_tuples_ids. exact ND1. }
    destruct (performs_each _ _ _ (proj1 T1) NDE ev IE) as (m0 & m1 & N0 & N1 & ST).
    rewrite EI in *. rewrite N in N0. injection N0 as <-. exists m1. split.
    + rewrite (SH2 i m N) by congruence. exact N1.
    + rewrite Forall_forall in OK. destruct (step_clock _ _ _ _ _ (OK m (nth_error_In _ _ N)) ST) as (_ & _ & CL & LG & _).
      exists (ev_act ev), (ev_norm ev), (ev_out ev). auto.
  - intros i m df ND' N T DN. rewrite K2.
    + rewrite K1; [exact N|]. rewrite part_tuples_ids. intros X. pose proof (SH i m _ N T _ X). discriminate.
    + intros nm l IN IL. assert (TT : In (nm, i) (part_tuples Controllable g)) by (apply part_tuples_in; eauto).
      destruct (part_module D g _ _ _ V TT) as (df' & m' & N' & E' & _). rewrite ND' in N'. injection N' as <-.
      rewrite <- E'. exact DN.
Qed.

(** ** Superfluous entries change nothing *)
Lemma mbind_ext {S A B} (x x' : M S A) (f f' : A -> M S B) s :
  x s = x' s -> (forall s1 a, f a s1 = f' a s1) -> mbind x f s = mbind x' f' s.
Proof. intros E H. unfold mbind. rewrite E. destruct (x' s) as [s1 [a|e]]; [apply H|reflexivity]. Qed.

Lemma ctrl_same n d : forall (c c' : control Q) st g, NoDup (map fst d) ->
  (forall nm, In nm (map fst d) -> dget nm c = dget nm c') ->
  let step := fun cs (kl : string * list nat) =>
           match dget (fst kl) (fst cs) with
           | None => mraise ValueError "Control for module not found"
           | Some v =>
               mbind (mfold (fun st ia => step_append (fst kl) (fst ia) (snd ia) n st)
                            (combine (snd kl) (ctrl_list v)) (snd cs))
                     (fun st' => mret (dremove (fst kl) (fst cs), st'))
           end in
  mbind (mfold step d (c, st)) (fun cs => mret (snd cs)) g
  = mbind (mfold step d (c', st)) (fun cs => mret (snd cs)) g.
Proof.
  intros c c' st g ND H step. revert c c' st g ND H.
  induction d as [|[nm l] d IH]; intros c c' st g ND H; [reflexivity|].
  inversion ND as [|? ? NI ND']; subst.
  cbn [mfold]. unfold mbind at 1 2 3 4. unfold step at 1 3. cbn [fst snd].
  rewrite (H nm) by (left; reflexivity).
  destruct (dget nm c') as [v|]; [|reflexivity].
  unfold mbind at 1 2. destruct (mfold _ (combine l (ctrl_list v)) st g) as [g1 [st1|e]]; [|reflexivity].
  unfold mret at 1 3. apply (IH (dremove nm c) (dremove nm c') st1 g1 ND').
  intros nm' IN. rewrite 2 dget_dremove by (intros ->; exact (NI IN)). apply H. right. exact IN.
Qed.
Theorem run_superfluous D (g : mgrid Q) (c c' : control Q) n :
  from_modules D g ->
  (forall d, In d D -> module_type (m_kind (snd d)) = Controllable -> dget (mdef_name d) c = dget (mdef_name d) c') ->
  run c n g = run c' n g.
Proof.
  intros F H. pose proof (from_modules_inv D g F) as V.
  assert (K : forall nm, In nm (map fst (part_dict Controllable g)) -> dget nm c = dget nm c').
  { intros nm IN. apply in_map_iff in IN. destruct IN as ([nm' l] & E & IN). cbn [fst] in E. subst nm'.
    pose proof (part_shown D g _ nm l V IN) as NE. destruct l as [|i l]; [congruence|].
    destruct (part_entry D g _ _ _ i V IN (or_introl eq_refl)) as (df & m & ID & <- & _ & _ & L & T).
    apply H; [exact ID|]. rewrite (like_type _ _ L). exact T. }
  assert (R : forall st g1, run_controllable g c n st g1 = run_controllable g c' n st g1).
  { intros st g1. unfold run_controllable. apply (ctrl_same n (part_dict Controllable g) c c' st g1 (part_nodup _ _) K). }
  unfold run. unfold mbind at 1. symmetry. unfold mbind at 1. symmetry. unfold mget.
  apply mbind_ext; [reflexivity|]. intros s1 ci. cbv zeta.
  apply mbind_ext; [reflexivity|]. intros s2 st1.
  apply mbind_ext; [reflexivity|]. intros s3 [[[fp fa] x] y].
  apply mbind_ext; [apply R|]. intros s4 st2. reflexivity.
Qed.

(** ** C31: merit order *)
Definition amount (src : bool) (e : event) : Q := if src then ev_provided e else ev_absorbed e.
Definition limit (src : bool) (m : module Q) : res (bound Q) := if src then max_production m else max_consumption m.
Definition able (src : bool) (m : module Q) : bool := if src then is_source (m_kind m) else is_sink (m_kind m).

Lemma forall_set {A} (P : A -> Prop) (l : list A) i x : Forall P l -> P x -> Forall P (set_nth l i x).
Proof.
  intros F. revert i. induction F; intros [|i] X; simpl; constructor; auto.
Qed.

Lemma flexed_amount src ms r es ms' r2 : flexed src ms r es ms' r2 ->
  Forall mod_ok ms -> Forall (flex_at ms) es -> 0 <= r ->
  forall e, In e es -> 0 <= amount src e /\ amount src e <= r /\ amount (negb src) e == 0.
Proof.
  intros FX. induction FX as [|ms r e es m m' ms' x a r1 r2 N SH NO AC AX ST R1 FX IH]; intros OK FL R0 e' IN; [destruct IN|].
  inversion FL as [|? ? FA FL']; subst. destruct FA as (m0 & N0 & T). rewrite N in N0. injection N0 as <-.
  assert (O : mod_ok m) by (rewrite Forall_forall in OK; apply OK; exact (nth_error_In _ _ N)).
  rewrite AC in ST.
  destruct (flex_exact src m m' r x a _ O T R0 SH AX ST) as (X0 & XR & PA).
  destruct IN as [<-|IN].
  - unfold amount, ev_provided, ev_absorbed. destruct src; simpl; destruct PA as [P1 P2]; lra.
  - assert (RL : mod_rel m m') by (eapply step_rel; exact ST).
    assert (OK' : Forall mod_ok (set_nth ms (ev_id e) m')).
    { apply forall_set; [exact OK|exact (proj1 (RL O))]. }
    assert (FL2 : Forall (flex_at (set_nth ms (ev_id e) m')) es).
    { eapply Forall_impl; [|exact FL']. intros q. apply (flex_at_step ms _ m); assumption. }
    destruct (IH OK' FL2) with (e := e') as (A1 & A2 & A3); [lra|exact IN|]. lra.
Qed.

Lemma flexed_merit src ms r es ms' r2 : flexed src ms r es ms' r2 ->
  Forall mod_ok ms -> Forall (flex_at ms) es -> NoDup (event_ids es) -> 0 <= r ->
  forall es1 e es2, es = es1 ++ e :: es2 -> 0 < amount src e ->
  forall e', In e' es1 -> exists m, nth_error ms (ev_id e') = Some m
    /\ (able src m = true -> exists y, limit src m = Ok (BFin y) /\ amount src e' == y).
Proof.
  intros FX. induction FX as [|ms r e0 es m m' ms' x a r1 r2 N SH NO AC AX ST R1 FX IH]; intros OK FL ND R0 es1 e es2 EQ AM e' IN.
  - destruct es1; discriminate.
  - inversion FL as [|? ? FA FL']; subst. destruct FA as (m0 & N0 & T). rewrite N in N0. injection N0 as <-.
    assert (O : mod_ok m) by (rewrite Forall_forall in OK; apply OK; exact (nth_error_In _ _ N)).
    rewrite AC in ST. pose proof (flex_exact src m m' r x a _ O T R0 SH AX ST) as (X0 & XR & PA).
    assert (RL : mod_rel m m') by (eapply step_rel; exact ST).
    assert (OK' : Forall mod_ok (set_nth ms (ev_id e0) m')).
    { apply forall_set; [exact OK|exact (proj1 (RL O))]. }
    assert (FL2 : Forall (flex_at (set_nth ms (ev_id e0) m')) es).
    { eapply Forall_impl; [|exact FL']. intros q. apply (flex_at_step ms _ m); assumption. }
    inversion ND as [|? ? NI ND']; subst.
    destruct es1 as [|e1 es1]; [destruct IN|]. simpl in EQ. injection EQ as <- ->.
    destruct IN as [<-|IN].
    + exists m. split; [exact N|]. intros AB.
      assert (NR : ~ r1 == 0).
      { intros Z. destruct (flexed_amount _ _ _ _ _ _ FX OK' FL2) with (e := e) as (_ & A2 & _); [lra| |lra].
        apply in_or_app. right. left. reflexivity. }
      assert (AX0 : amount src e0 == x).
      { unfold amount, ev_provided, ev_absorbed. destruct src; apply PA. }
      unfold share, able, limit in *. destruct src; rewrite AB in SH.
      * destruct (max_production m) as [[y| |]|]; try discriminate; injection SH as <-; try (exfalso; apply NR; lra).
        exists y. split; [reflexivity|]. destruct (Qlt_le_dec y r); [exact AX0|exfalso; apply NR; lra].
      * destruct (max_consumption m) as [[y| |]|]; try discriminate; injection SH as <-; try (exfalso; apply NR; lra).
        exists y. split; [reflexivity|]. destruct (Qlt_le_dec y r); [exact AX0|exfalso; apply NR; lra].
    + assert (R10 : 0 <= r1) by lra.
      destruct (IH OK' FL2 ND' R10 es1 e es2 eq_refl AM e' IN) as (mm & NN & L).
      exists mm. split; [|exact L]. rewrite nth_set_other in NN; [exact NN|].
      intros E. apply NI. rewrite E. unfold event_ids. apply in_map. apply in_or_app. left. exact IN.
Qed.

Section Merit.
Variables (D : list (mdef Q)) (g : mgrid Q).
Hypothesis V : mg_inv D g.
Variables (c : control Q) (n : bool) (ci : cost_info Q) (efix ectl eflex : list event)
  (ms1 ms2 ms3 : list (module Q)) (r2 fp fa p a p3 a3 r3 s3 : Q).
Hypothesis RN : ran c n g ci efix ectl eflex ms1 ms2 ms3 r2 fp fa p a p3 a3 r3 s3.
Let es := efix ++ ectl ++ eflex.

Lemma mr_at e : In e eflex -> nth_error ms2 (ev_id e) = nth_error (mg_mods g) (ev_id e).
Proof.
  intros IN. pose proof (ran_nodup D g V _ _ _ _ _ _ _ _ _ _ _ _ _ _ _ _ _ _ RN) as ND.
  unfold event_ids in ND. rewrite 2 map_app in ND.
  assert (P12 : performs (mg_mods g) (efix ++ ectl) ms2).
  { eapply performs_app; [exact (rn_fix _ _ _ _ _ _ _ _ _ _ _ _ _ _ _ _ _ _ _ RN)|exact (rn_ctl _ _ _ _ _ _ _ _ _ _ _ _ _ _ _ _ _ _ _ RN)]. }
  apply (performs_other _ _ _ P12). unfold event_ids. rewrite map_app. rewrite app_assoc in ND.
  intros X. apply (NoDup_app_disj _ _ _ ND X). apply in_map. exact IN.
Qed.
Lemma mr_flex e m : In e es -> nth_error (mg_mods g) (ev_id e) = Some m -> module_type (m_kind m) = Flex -> In e eflex.
Proof.
  intros IN N T. unfold es in IN. apply in_app_or in IN. destruct IN as [IN|IN].
  - exfalso. assert (K : In (ev_key e) (part_tuples Fixed g))
      by (rewrite <- (rn_fix_keys _ _ _ _ _ _ _ _ _ _ _ _ _ _ _ _ _ _ _ RN); apply in_map; exact IN).
    destruct (part_module D g _ _ _ V K) as (df & m' & _ & _ & N' & _ & _ & T'). congruence.
  - apply in_app_or in IN. destruct IN as [IN|IN]; [|exact IN].
    exfalso. assert (K : In (ev_key e) (part_tuples Controllable g)).
    { apply (orders_incl c g). rewrite <- (rn_ctl_orders _ _ _ _ _ _ _ _ _ _ _ _ _ _ _ _ _ _ _ RN), <- ev_key_order.
      apply in_map. exact IN. }
    destruct (part_module D g _ _ _ V K) as (df & m' & _ & _ & N' & _ & _ & T'). congruence.
Qed.
Let src := negb (nltb 0 (p - a)).
Let r := if nltb 0 (p - a) then p - a else - (p - a).
Lemma mr_r : 0 <= r.
Proof. unfold r. destruct (nltb 0 (p - a)) eqn:L; unum; qprop; lra. Qed.
Lemma mr_nd : NoDup (event_ids eflex).
Proof.
  pose proof (ran_nodup D g V _ _ _ _ _ _ _ _ _ _ _ _ _ _ _ _ _ _ RN) as ND.
  unfold event_ids in *. rewrite 2 map_app in ND. exact (NoDup_app_r _ _ (NoDup_app_r _ _ ND)).
Qed.
(** Either no flex module absorbs or none provides; whoever comes into play
    does so after its predecessors are exhausted. *)
Lemma mr_main e m : In e es -> nth_error (mg_mods g) (ev_id e) = Some m -> module_type (m_kind m) = Flex ->
  0 <= amount src e /\ amount (negb src) e == 0.
Proof.
  intros IN N T. pose proof (mr_flex e m IN N T) as IF.
  destruct (flexed_amount _ _ _ _ _ _ (rn_flex _ _ _ _ _ _ _ _ _ _ _ _ _ _ _ _ _ _ _ RN)) with (e := e) as (A1 & _ & A3).
  - exact (ran_ms2_ok D g V _ _ _ _ _ _ _ _ _ _ _ _ _ _ _ _ _ _ RN).
  - exact (ran_flex_at D g V _ _ _ _ _ _ _ _ _ _ _ _ _ _ _ _ _ _ RN).
  - exact mr_r.
  - exact IF.
  - split; assumption.
Qed.
Lemma in_split_flex es1 e es2 : es = es1 ++ e :: es2 -> In e eflex ->
  exists l, es1 = efix ++ ectl ++ l /\ eflex = l ++ e :: es2.
Proof.
  intros EQ IN. pose proof (ran_nodup D g V _ _ _ _ _ _ _ _ _ _ _ _ _ _ _ _ _ _ RN) as ND.
  fold es in ND. apply in_split in IN. destruct IN as (l1 & l2 & EF).
  assert (E2 : es = (efix ++ ectl ++ l1) ++ e :: l2) by (unfold es; rewrite EF, <- !app_assoc; reflexivity).
  assert (U : es1 = efix ++ ectl ++ l1 /\ es2 = l2).
  { rewrite EQ in E2, ND. clear -E2 ND.
    revert E2 ND. generalize (efix ++ ectl ++ l1) as k. induction es1 as [|x es1 IH]; intros k E ND.
    - destruct k as [|y k]; simpl in E; [injection E as ->; auto|].
      injection E as <- ->. exfalso. unfold event_ids in ND. simpl in ND. inversion ND as [|? ? NI _]; subst.
      apply NI. rewrite map_app. apply in_or_app. right. left. reflexivity.
    - destruct k as [|y k]; simpl in E.
      + injection E as -> <-. exfalso. unfold event_ids in ND. simpl in ND. inversion ND as [|? ? NI _]; subst.
        apply NI. rewrite map_app. apply in_or_app. right. left. reflexivity.
      + injection E as -> E. unfold event_ids in ND. simpl in ND. inversion ND; subst.
        destruct (IH k E) as [-> ->]; [assumption|auto]. }
  destruct U as [-> ->]. exists l1. auto.
Qed.
Lemma mr_merit es1 e es2 m : es = es1 ++ e :: es2 -> nth_error (mg_mods g) (ev_id e) = Some m ->
  module_type (m_kind m) = Flex -> 0 < amount src e ->
  forall e' m', In e' es1 -> nth_error (mg_mods g) (ev_id e') = Some m' -> module_type (m_kind m') = Flex ->
    able src m' = true -> exists y, limit src m' = Ok (BFin y) /\ amount src e' == y.
Proof.
  intros EQ N T AM e' m' IN' N' T' AB.
  assert (IE : In e es) by (rewrite EQ; apply in_or_app; right; left; reflexivity).
  destruct (in_split_flex es1 e es2 EQ (mr_flex e m IE N T)) as (l & E1 & E2).
  assert (IL : In e' l).
  { assert (IF : In e' eflex) by (apply (mr_flex e' m'); auto; rewrite EQ; apply in_or_app; left; exact IN').
    pose proof (ran_nodup D g V _ _ _ _ _ _ _ _ _ _ _ _ _ _ _ _ _ _ RN) as ND. fold es in ND.
    rewrite E1 in IN'. rewrite app_assoc in IN'. apply in_app_or in IN'. destruct IN' as [IN'|IN']; [|exact IN'].
    exfalso. unfold es, event_ids in ND. rewrite app_assoc, map_app in ND.
    apply (NoDup_app_disj _ _ (ev_id e') ND); apply in_map; assumption. }
  destruct (flexed_merit _ _ _ _ _ _ (rn_flex _ _ _ _ _ _ _ _ _ _ _ _ _ _ _ _ _ _ _ RN)
     (ran_ms2_ok D g V _ _ _ _ _ _ _ _ _ _ _ _ _ _ _ _ _ _ RN)
     (ran_flex_at D g V _ _ _ _ _ _ _ _ _ _ _ _ _ _ _ _ _ _ RN) mr_nd mr_r l e es2 E2 AM e' IL) as (mm & NN & H).
  rewrite mr_at in NN by (rewrite E2; apply in_or_app; left; exact IL).
  rewrite N' in NN. injection NN as <-. exact (H AB).
Qed.
End Merit.

Lemma ran_merit D (g : mgrid Q) (V : mg_inv D g) c n ci efix ectl eflex ms1 ms2 ms3 r2 fp fa p a p3 a3 r3 s3 :
  ran c n g ci efix ectl eflex ms1 ms2 ms3 r2 fp fa p a p3 a3 r3 s3 ->
  let es := efix ++ ectl ++ eflex in
  (forall es1 e es2 m, es = es1 ++ e :: es2 -> at_index g (ev_id e) m -> is_flex m ->
     0 <= ev_provided e /\ 0 <= ev_absorbed e
     /\ (0 < ev_provided e -> Forall (exhausts g) es1
          /\ forall e' m', In e' es -> at_index g (ev_id e') m' -> is_flex m' -> ev_absorbed e' == 0)
     /\ (0 < ev_absorbed e -> Forall (saturates g) es1
          /\ forall e' m', In e' es -> at_index g (ev_id e') m' -> is_flex m' -> ev_provided e' == 0)).
Proof.
  intros RN es es1 e es2 m EQ N T.
  assert (IE : In e es) by (rewrite EQ; apply in_or_app; right; left; reflexivity).
  pose proof (fun e m => mr_main D g V _ _ _ _ _ _ _ _ _ _ _ _ _ _ _ _ _ _ RN e m) as MM.
  pose proof (fun es1 e es2 m => mr_merit D g V _ _ _ _ _ _ _ _ _ _ _ _ _ _ _ _ _ _ RN es1 e es2 m) as MT.
  pose proof (MM e m IE N T) as [A1 A2].
  destruct (negb (nltb 0 (p - a))) eqn:S; simpl in A1, A2, MM, MT.
  - split; [exact A1|]. split; [lra|]. split; [intros P|intros P; exfalso; lra]. split.
    + apply Forall_forall. intros e' IN' m' N' T'. apply (MT es1 e es2 m EQ N T P e' m' IN' N' T').
      apply flex_source. exact T'.
    + intros e' m' IN' N' T'. apply (MM e' m' IN' N' T').
  - split; [lra|]. split; [exact A1|]. split; [intros P; exfalso; lra|intros P]. split.
    + apply Forall_forall. intros e' IN' m' N' T' SK. exact (MT es1 e es2 m EQ N T P e' m' IN' N' T' SK).
    + intros e' m' IN' N' T'. apply (MM e' m' IN' N' T').
Qed.

Theorem run_merit D (g g' : mgrid Q) (c : control Q) n obs rw d inf :
  from_modules D g -> run c n g = (g', Ok (obs, rw, d, inf)) ->
  exists es, did g es g'
    /\ (forall es1 e es2 m, es = es1 ++ e :: es2 -> at_index g (ev_id e) m -> is_flex m ->
     0 <= ev_provided e /\ 0 <= ev_absorbed e
     /\ (0 < ev_provided e -> Forall (exhausts g) es1
          /\ forall e' m', In e' es -> at_index g (ev_id e') m' -> is_flex m' -> ev_absorbed e' == 0)
     /\ (0 < ev_absorbed e -> Forall (saturates g) es1
          /\ forall e' m', In e' es -> at_index g (ev_id e') m' -> is_flex m' -> ev_provided e' == 0)).
Proof.
  intros F E. pose proof (from_modules_inv D g F) as V.
  destruct (run_ok_full D g g' c n obs rw d inf V E)
    as (ci & efix & ectl & eflex & ms1 & ms2 & ms3 & r2 & fp & fa & p & a & p3 & a3 & r3 & lg & RN & -> & _).
  exists (efix ++ ectl ++ eflex). split.
  - split; [exact (ran_performs _ _ _ _ _ _ _ _ _ _ _ _ _ _ _ _ _ _ _ RN)|].
    exact (ran_nodup D g V _ _ _ _ _ _ _ _ _ _ _ _ _ _ _ _ _ _ RN).
  - exact (ran_merit D g V _ _ _ _ _ _ _ _ _ _ _ _ _ _ _ _ _ _ RN).
Qed.

(** The default unbalanced-energy module is the last flex module. *)
Lemma get_subcontainers_app (ds1 : list (mdef Q)) : forall i c ds2,
  get_subcontainers i (ds1 ++ ds2) c
  = let '(c1, ms1) := get_subcontainers i ds1 c in
    let '(c2, ms2) := get_subcontainers (i + length ds1) ds2 c1 in (c2, ms1 ++ ms2).
Proof.
  induction ds1 as [|d ds1 IH]; intros i c ds2; cbn [get_subcontainers app length].
  - rewrite Nat.add_0_r. destruct (get_subcontainers i ds2 c); reflexivity.
  - rewrite IH. destruct (get_subcontainers (S i) ds1 _) as [c1 ms1].
    replace (i + S (length ds1))%nat with (S i + length ds1)%nat by lia.
    destruct (get_subcontainers (S i + length ds1) ds2 c1); reflexivity.
Qed.
Lemma dset_new {A} k (v : A) d : ~ In k (map fst d) -> dset k v d = d ++ [(k, v)].
Proof.
  induction d as [|[k' v'] d IH]; simpl; intros N; [reflexivity|].
  destruct (String.eqb_spec k k') as [->|NE]; [exfalso; apply N; left; reflexivity|].
  rewrite IH; [reflexivity|]. intros X. apply N. right. exact X.
Qed.
Lemma keys_dupdate {A} (kvs : list (string * A)) : forall d k, In k (map fst (dupdate d kvs)) ->
  In k (map fst d) \/ In k (map fst kvs).
Proof.
  induction kvs as [|[k' v'] kvs IH]; intros d k IN; simpl in *; [auto|].
  destruct (IH _ _ IN) as [X|X]; [|auto].
  assert (Y : In k (map fst d) \/ k = k').
  { clear -X. induction d as [|[q w] d IHd]; simpl in *; [intuition|].
    destruct (String.eqb_spec k' q) as [->|NE]; simpl in X; [intuition|]. destruct X as [X|X]; [auto|]. destruct (IHd X); auto. }
  destruct Y; auto.
Qed.
Lemma sub_new nm i d : ~ In nm (map fst d) -> sub_add nm i d = d ++ [(nm, [i])].
Proof.
  induction d as [|[k l] d IH]; simpl; intros N; [reflexivity|].
  destruct (String.eqb_spec nm k) as [->|NE]; [exfalso; apply N; left; reflexivity|].
  rewrite IH; [reflexivity|]. intros X. apply N. right. exact X.
Qed.

Lemma default_last ds lossc overc sh tr (g : mgrid Q) :
  new_microgrid ds true lossc overc sh tr = Ok g -> (forall d, In d ds -> mdef_name d <> "balancing") ->
  exists l, part_tuples Flex g = l ++ [("balancing", length ds)].
Proof.
  intros E NB. destruct (new_microgrid_inv _ _ _ _ _ _ _ E) as (c & ms & GS & CT & _).
  unfold all_defs in GS. rewrite get_subcontainers_app in GS.
  destruct (get_subcontainers 0 ds ct_empty) as [c1 ms1] eqn:G1.
  cbn [get_subcontainers] in GS. injection GS as GS _.
  assert (NB1 : forall k, ~ In "balancing" (map fst (ctc c1 k))).
  { intros k IN. assert (X : dget "balancing" (ctc c1 k) <> None) by (intros X; apply dget_None in X; exact (X IN)).
    rewrite (get_subcontainers_get ds _ _ _ _ G1) in X.
    assert (M : members "balancing" k 0 ds = []).
    { destruct (members "balancing" k 0 ds) as [|j l] eqn:ME; [reflexivity|].
      assert (IJ : In j (members "balancing" k 0 ds)) by (rewrite ME; left; reflexivity).
      apply members_iff in IJ. destruct IJ as (d & N & _ & Nm & _). exfalso. exact (NB d (nth_error_In _ _ N) Nm). }
    rewrite M in X. replace (dget "balancing" (ctc ct_empty k)) with (@None (list nat)) in X; [exact (X eq_refl)|].
    destruct k as [[] []]; reflexivity. }
  rewrite part_tuples_dict, part_dict_view. unfold view, to_dict. rewrite CT. subst c.
  change (cats Flex) with [(Flex, Sources); (Flex, Sinks); (Flex, SourceAndSinks)]. cbn [map fold_left].
  set (c2 := ct_upd _ _ _ _).
  assert (S1 : ctc c2 (Flex, Sources) = ctc c1 (Flex, Sources)) by (destruct c1; reflexivity).
  assert (S2 : ctc c2 (Flex, Sinks) = ctc c1 (Flex, Sinks)) by (destruct c1; reflexivity).
  assert (S3 : ctc c2 (Flex, SourceAndSinks) = ctc c1 (Flex, SourceAndSinks) ++ [("balancing", [length ds])]).
  { transitivity (sub_add "balancing" (length ds) (ctc c1 (Flex, SourceAndSinks))); [destruct c1; reflexivity|].
    apply sub_new. apply NB1. }
  rewrite S1, S2, S3. set (d12 := dupdate (dupdate [] _) _).
  unfold dupdate at 1. rewrite fold_left_app. fold (dupdate d12 (ctc c1 (Flex, SourceAndSinks))). cbn [fold_left fst snd].
  rewrite dset_new.
  - rewrite map_app, concat_app. eexists. reflexivity.
  - intros X. destruct (keys_dupdate _ _ _ X) as [Y|Y]; [|exact (NB1 _ Y)].
    unfold d12 in Y. destruct (keys_dupdate _ _ _ Y) as [Z|Z]; [|exact (NB1 _ Z)].
    destruct (keys_dupdate _ _ _ Z) as [W|W]; [destruct W|exact (NB1 _ W)].
Qed.

Theorem run_last_resort ds lossc overc sh tr g0 cs (g g' : mgrid Q) (c : control Q) n obs rw d inf :
  mbuilt ds true lossc overc sh tr g0 -> g = mplay cs g0 -> (forall d, In d ds -> mdef_name d <> "balancing") ->
  run c n g = (g', Ok (obs, rw, d, inf)) ->
  exists es e, did g (es ++ [e]) g' /\ ev_id e = length ds /\ ev_name e = "balancing"
    /\ (0 < ev_provided e -> Forall (exhausts g) es)
    /\ (0 < ev_absorbed e -> Forall (saturates g) es
         /\ forall e' m', In e' es -> at_index g (ev_id e') m' -> is_flex m' -> ev_provided e' == 0)
    /\ ~ (0 < ev_provided e /\ 0 < ev_absorbed e).
Proof.
  intros B EG NB E.
  assert (F : from_modules (all_defs ds true lossc overc) g) by (do 8 eexists; split; [exact B|split; [reflexivity|exact EG]]).
  pose proof (from_modules_inv _ g F) as V.
  destruct (run_ok_full _ g g' c n obs rw d inf V E)
    as (ci & efix & ectl & eflex & ms1 & ms2 & ms3 & r2 & fp & fa & p & a & p3 & a3 & r3 & lg & RN & -> & _).
  destruct (default_last ds lossc overc sh tr g0 (proj2 B) NB) as (l & PT).
  assert (PTG : part_tuples Flex g = l ++ [("balancing", length ds)]).
  { rewrite <- PT. unfold part_tuples. rewrite EG. rewrite (mr_ct _ _ (mplay_rel cs g0)). reflexivity. }
  pose proof (rn_flex_keys _ _ _ _ _ _ _ _ _ _ _ _ _ _ _ _ _ _ _ RN) as KE. rewrite PTG in KE.
  destruct (exists_last (l := eflex)) as (ef & e & EF).
  { intros ->. destruct l; discriminate. }
  subst eflex. rewrite map_app in KE. apply app_inj_tail in KE. destruct KE as [_ KE]. unfold ev_key in KE. injection KE as K1 K2.
  pose proof (ran_merit _ g V _ _ _ _ _ _ _ _ _ _ _ _ _ _ _ _ _ _ RN) as MR. cbv zeta in MR.
  assert (AT : exists m, at_index g (ev_id e) m /\ is_flex m).
  { assert (IN : In (ev_name e, ev_id e) (part_tuples Flex g)) by (rewrite K1, K2, PTG; apply in_or_app; right; left; reflexivity).
    destruct (part_module _ g _ _ _ V IN) as (df & m & _ & _ & N & _ & _ & T). exists m. split; assumption. }
  destruct AT as (m & AT & FX).
  assert (ES : efix ++ ectl ++ ef ++ [e] = (efix ++ ectl ++ ef) ++ [e]) by (rewrite <- !app_assoc; reflexivity).
  destruct (MR (efix ++ ectl ++ ef) e [] m ES AT FX) as (_ & _ & M1 & M2).
  exists (efix ++ ectl ++ ef), e. split; [|split; [exact K2|split; [exact K1|split; [|split]]]].
  - rewrite <- ES. split; [exact (ran_performs _ _ _ _ _ _ _ _ _ _ _ _ _ _ _ _ _ _ _ RN)|].
    exact (ran_nodup _ g V _ _ _ _ _ _ _ _ _ _ _ _ _ _ _ _ _ _ RN).
  - intros P. apply M1. exact P.
  - intros P. destruct (M2 P) as [S1 S2]. split; [exact S1|]. intros e' m' IN. apply S2. rewrite ES. apply in_or_app. left. exact IN.
  - intros [P1 P2]. destruct (M1 P1) as [_ X]. specialize (X e m). rewrite X in P2; [lra| |exact AT|exact FX].
    rewrite ES. apply in_or_app. right. left. reflexivity.
Qed.
