(** * Proofs for C44 *)

From Coq Require Import ZArith QArith Qabs Bool String List Lia Lqa.
From Verif Require Import Num Py Space Logger Forecast Module Container Microgrid Shaping
  Spec_Module Spec_Reach Spec_Microgrid Spec_Shaping
  Proofs_Num Proofs_Module Proofs_Ts Proofs_Any Proofs_Data Proofs_Container Proofs_Run Proofs_Balance Proofs_Mgrid
  Proofs_Views Proofs_MgProps Proofs_MgProps2.
Import ListNotations.
Local Open Scope string_scope.
Local Open Scope list_scope.
Local Open Scope Q_scope.

Lemma nsum_acc (l : list Q) : forall a, fold_left Qplus l a == a + fold_right Qplus 0 l.
Proof. induction l as [|x l IH]; intros a; simpl; [ring|]. rewrite IH. ring. Qed.

Lemma attrs_ok key (l : list event) : forall r,
  rmapM (entry_attr key) (map (fun e => EInfo (info_of (ev_out e))) l) = r ->
  (exists xs, r = Ok xs /\ fold_right Qplus 0 xs == sum_of (ev_entry key) l
     /\ forall e, In e l -> dget key (info_of (ev_out e)) <> None)
  \/ (exists e, r = Err e /\ ex_class e = KeyError /\ exists ev, In ev l /\ dget key (info_of (ev_out ev)) = None).
Proof.
  induction l as [|e l IH]; intros r E.
  - left. exists []. simpl in E. subst r. split; [reflexivity|]. split; [reflexivity|]. intros ? [].
  - cbn [map rmapM entry_attr] in E. destruct (dget key (info_of (ev_out e))) as [x|] eqn:G.
    + cbn [rbind] in E. destruct (IH _ eq_refl) as [(xs & R & S & A)|(ex & R & C & ev & I & N)]; rewrite R in E; subst r.
      * left. exists (x :: xs). split; [reflexivity|]. split.
        -- cbn [fold_right]. unfold sum_of in *. cbn [fold_right]. rewrite S. unfold ev_entry at 2. rewrite G. reflexivity.
        -- intros e' [<-|I]; [congruence|auto].
      * right. exists ex. split; [reflexivity|]. split; [exact C|]. exists ev. split; [right; exact I|exact N].
    + right. subst r. eexists. split; [reflexivity|]. split; [reflexivity|]. exists e. split; [left; reflexivity|exact G].
Qed.

Lemma sum_module_counted (inf : infos Q) key nm es :
  dget nm inf = entry_for (under (fun e => EInfo (info_of (ev_out e))) nm es) ->
  exists x, sum_module_val inf nm key = Ok x /\ counted key nm es x.
Proof.
  intros G. unfold sum_module_val. rewrite G. unfold under.
  set (l := filter (fun e => String.eqb nm (ev_name e)) es).
  assert (IL : forall e, In e l <-> In e es /\ ev_name e = nm).
  { intros e. unfold l. rewrite filter_In, String.eqb_eq. intuition. }
  destruct l as [|e0 l0] eqn:EL.
  - exists 0. split; [reflexivity|]. left. split.
    + intros e I N. destruct (proj2 (IL e) (conj I N)).
    + unfold sum_named. fold l. rewrite EL. reflexivity.
  - assert (EF : entry_for (map (fun e : event => @EInfo Q (info_of (ev_out e))) (e0 :: l0))
                = Some (map (fun e : event => @EInfo Q (info_of (ev_out e))) (e0 :: l0))) by reflexivity.
    rewrite EF. clear EF. destruct (attrs_ok key (e0 :: l0) _ eq_refl) as [(xs & R & S & A)|(ex & R & C & ev & I & N)]; rewrite R.
    + cbn [rmap]. eexists. split; [reflexivity|]. left. split.
      * intros e I N. apply A. apply IL. auto.
      * unfold nsum. unum. rewrite nsum_acc, S. unfold sum_named. fold l. rewrite EL. ring.
    + cbn [rmap]. rewrite C. exists 0. split; [reflexivity|]. right. split; [|reflexivity].
      intros AR. apply IL in I. destruct I as [I1 I2]. exact (AR _ I1 I2 N).
Qed.

Lemma not_key nm : (nm = "pv" \/ nm = "battery" \/ nm = "load" \/ nm = "unbalanced_energy")%string -> ~ In nm energy_keys.
Proof. intros H. simpl. intros I. destruct H as [->|[->|[->| ->]]]; intuition discriminate. Qed.

Theorem pv_reward D (g g' : mgrid Q) (c : control Q) n obs rw d inf :
  from_modules D g -> mg_shaper g = Some pv_curtailment_shaper -> run c n g = (g', Ok (obs, rw, d, inf)) ->
  exists es x, did g es g' /\ counted "curtailment" "pv" es x /\ rw == - x
    /\ (forall e, In e es -> exists df, nth_error D (ev_id e) = Some df /\ mdef_name df = ev_name e).
Proof.
  intros F SH E. destruct (run_reports _ _ _ _ _ _ _ _ _ F E) as (es & ci & DI & _ & _ & R & _ & IN & ID).
  rewrite SH in R. destruct (sum_module_counted inf "curtailment" "pv" es (IN "pv" (not_key _ (or_introl eq_refl)))) as (x & X & C).
  exists es, x. conj; auto. unfold pv_curtailment_shaper in R. rewrite X in R. cbn [rbind] in R. inversion R; subst.
  unfold nneg. unum. ring.
Qed.

Lemma isclose_bound p b : isclose p b = true -> Qabs (p - b) <= (1#100000000) + (1#100000) * Qabs b.
Proof. intros E. exact (isclose_nearly p b E). Qed.

Theorem discharge_reward D (g g' : mgrid Q) (c : control Q) n np obs rw d inf :
  from_modules D g -> mg_shaper g = Some (battery_discharge_shaper np) -> run c n g = (g', Ok (obs, rw, d, inf)) ->
  exists es disch load loss, did g es g'
    /\ counted "provided_energy" "battery" es disch /\ counted "absorbed_energy" "load" es load
    /\ counted "provided_energy" "unbalanced_energy" es loss
    /\ (load == 0 -> np = false /\ rw == 0)
    /\ (~ load == 0 -> rw * load == disch - loss /\ -1 <= rw /\ rw <= 1 + (1001#100000000))
    /\ (forall e, In e es -> exists df, nth_error D (ev_id e) = Some df /\ mdef_name df = ev_name e).
Proof.
  intros F SH E. destruct (run_reports _ _ _ _ _ _ _ _ _ F E) as (es & ci & DI & _ & _ & R & _ & IN & ID).
  rewrite SH in R.
  destruct (sum_module_counted inf "provided_energy" "battery" es (IN "battery" (not_key _ (or_intror (or_introl eq_refl))))) as (x & X & CX).
  destruct (sum_module_counted inf "absorbed_energy" "load" es (IN "load" (not_key _ (or_intror (or_intror (or_introl eq_refl)))))) as (y & Y & CY).
  destruct (sum_module_counted inf "provided_energy" "unbalanced_energy" es (IN "unbalanced_energy" (not_key _ (or_intror (or_intror (or_intror eq_refl)))))) as (z & Z & CZ).
  exists es, x, y, z. unfold battery_discharge_shaper in R. rewrite X, Y, Z in R. cbn [rbind] in R.
  change (neqb y n0) with (Qeq_bool y 0) in R. destruct (Qeq_bool y 0) eqn:Y0.
  - apply Qeq_bool_iff in Y0. destruct np; [discriminate R|]. inversion R; subst. conj; auto.
    + intros _. split; reflexivity.
    + intros NZ. contradiction.
  - assert (NZ : ~ y == 0). { intros C. apply Qeq_bool_iff in C. congruence. }
    destruct (_ || _) eqn:G in R; [|discriminate R]. inversion R; subst rw. conj; auto.
    + intros C. contradiction.
    + intros _. clear R. unum. change (ndiv (nsub x z) y) with ((x - z) / y) in G. change (ndiv (nsub x z) y) with ((x - z) / y).
      set (p := (x - z) / y) in *. split; [unfold p; field; exact NZ|]. clearbody p.
      apply orb_prop in G. destruct G as [G|G]; [apply orb_prop in G; destruct G as [G|G]|].
      * apply andb_prop in G. destruct G as [A B]. apply Qle_bool_iff in A. apply Qle_bool_iff in B. simpl in A, B. split; lra.
      * apply isclose_bound in G. change (Qabs (p - 1) <= (1#100000000) + (1#100000) * 1) in G. apply Qabs_Qle_condition in G. lra.
      * apply isclose_bound in G. change (Qabs (p - 0) <= (1#100000000) + (1#100000) * 0) in G. apply Qabs_Qle_condition in G. lra.
Qed.

(** A module's kind at a step of a run is that of its definition. *)
Lemma event_kind D (g g' : mgrid Q) es e : from_modules D g -> did g es g' -> In e es ->
  exists df m m', nth_error D (ev_id e) = Some df /\ mod_ok m /\ mod_like (snd df) m
    /\ step (ev_act e) (ev_norm e) m = (m', Ok (ev_out e)).
Proof.
  intros F [P ND] I. apply from_modules_inv in F.
  destruct (performs_each _ _ _ P ND e I) as (m & m' & N & _ & S).
  destruct (iv_at _ _ _ _ F N) as (df & N' & O & L). exists df, m, m'. conj; auto.
Qed.
Lemma report_of_kind D (g g' : mgrid Q) es key nm (K : module Q -> Prop) : from_modules D g -> did g es g' ->
  (forall e, In e es -> exists df, nth_error D (ev_id e) = Some df /\ mdef_name df = ev_name e) ->
  all_named nm D K ->
  (forall m m' i, K m -> mod_like m m' -> info_shape (m_kind m') i -> dget key i <> None) ->
  all_report key nm es.
Proof.
  intros F DI ID AN H e I N. destruct (event_kind _ _ _ _ _ F DI I) as (df & m & m' & N1 & O & L & S).
  destruct (ID e I) as (df' & N2 & NM). rewrite N1 in N2. inversion N2; subst df'.
  apply (H (snd df) m); [|exact L|eapply step_shape; eauto].
  apply AN; [eapply nth_error_In; eauto|congruence].
Qed.
Lemma like_renewable m m' : is_renewable m -> mod_like m m' -> is_renewable m'.
Proof.
  intros (t & K) L. pose proof (ml_kind _ _ L) as KL. rewrite K in KL. unfold is_renewable.
  destruct (m_kind m'); simpl in KL; try contradiction. eauto.
Qed.
Lemma like_load m m' : is_load m -> mod_like m m' -> is_load m'.
Proof.
  intros (t & K) L. pose proof (ml_kind _ _ L) as KL. rewrite K in KL. unfold is_load.
  destruct (m_kind m'); simpl in KL; try contradiction. eauto.
Qed.
Lemma counted_all key nm es x : counted key nm es x -> all_report key nm es -> x == sum_named (ev_entry key) nm es.
Proof. intros [[_ H]|[H _]] A; [exact H|contradiction]. Qed.
Lemma counted_not key nm es x : counted key nm es x -> ~ all_report key nm es -> x == 0.
Proof. intros [[H _]|[_ H]] A; [contradiction|exact H]. Qed.

(** The usual case: the modules called 'pv' are renewables. *)
Theorem pv_reward_sum D (g g' : mgrid Q) (c : control Q) n obs rw d inf :
  from_modules D g -> mg_shaper g = Some pv_curtailment_shaper -> all_named "pv" D is_renewable ->
  run c n g = (g', Ok (obs, rw, d, inf)) ->
  exists es, did g es g' /\ rw == - sum_named (ev_entry "curtailment") "pv" es
    /\ (forall e, In e es -> exists df, nth_error D (ev_id e) = Some df /\ mdef_name df = ev_name e).
Proof.
  intros F SH AN E. destruct (pv_reward _ _ _ _ _ _ _ _ _ F SH E) as (es & x & DI & C & R & ID).
  exists es. conj; auto. rewrite R. apply Qopp_comp. apply (counted_all _ _ _ _ C).
  apply (report_of_kind D g g' es "curtailment" "pv" is_renewable F DI ID AN).
  intros m m' i K L S. destruct (like_renewable _ _ K L) as (t & K'). rewrite K' in S. destruct S as (e & cu & ->).
  simpl. discriminate.
Qed.
Lemma nobody_named nm D (g g' : mgrid Q) es f : from_modules D g -> did g es g' ->
  (forall e, In e es -> exists df, nth_error D (ev_id e) = Some df /\ mdef_name df = ev_name e) ->
  (forall d, In d D -> mdef_name d <> nm) -> sum_named f nm es == 0.
Proof.
  intros F DI ID NO. unfold sum_named. replace (filter _ es) with (@nil event); [reflexivity|].
  symmetry. destruct (filter (fun e => String.eqb nm (ev_name e)) es) as [|e l] eqn:FE; [reflexivity|].
  assert (I : In e (filter (fun e => String.eqb nm (ev_name e)) es)) by (rewrite FE; left; reflexivity).
  apply filter_In in I. destruct I as [I E]. apply String.eqb_eq in E. destruct (ID e I) as (df & N & NM).
  exfalso. apply (NO df); [eapply nth_error_In; eauto|congruence].
Qed.
Theorem pv_reward_without_pv D (g g' : mgrid Q) (c : control Q) n obs rw d inf :
  from_modules D g -> mg_shaper g = Some pv_curtailment_shaper -> (forall d, In d D -> mdef_name d <> "pv"%string) ->
  run c n g = (g', Ok (obs, rw, d, inf)) -> rw == 0.
Proof.
  intros F SH NO E. destruct (pv_reward_sum D g g' c n obs rw d inf F SH) as (es & DI & R & ID); auto.
  - intros df I N. destruct (NO df I N).
  - rewrite R, (nobody_named "pv" D g g' es _ F DI ID NO). reflexivity.
Qed.

(** The usual case for the other shaper: the modules called 'load' are loads. *)
Theorem discharge_reward_load D (g g' : mgrid Q) (c : control Q) n np obs rw d inf :
  from_modules D g -> mg_shaper g = Some (battery_discharge_shaper np) -> all_named "load" D is_load ->
  (forall d, In d D -> mdef_name d <> "unbalanced_energy"%string) ->
  run c n g = (g', Ok (obs, rw, d, inf)) ->
  exists es, did g es g' /\
    let load := sum_named (ev_entry "absorbed_energy") "load" es in
    let discharged := sum_named (ev_entry "provided_energy") "battery" es in
    (load == 0 -> rw == 0)
    /\ (~ load == 0 -> all_report "provided_energy" "battery" es ->
          rw * load == discharged /\ -1 <= rw /\ rw <= 1 + (1001#100000000))
    /\ (~ all_report "provided_energy" "battery" es -> rw == 0).
Proof.
  intros F SH AN NO E. destruct (discharge_reward _ _ _ _ _ _ _ _ _ _ F SH E) as (es & x & y & z & DI & CX & CY & CZ & L0 & LN & ID).
  exists es. split; [exact DI|]. cbv zeta.
  assert (Y : y == sum_named (ev_entry "absorbed_energy") "load" es).
  { apply (counted_all _ _ _ _ CY). apply (report_of_kind D g g' es "absorbed_energy" "load" is_load F DI ID AN).
    intros m m' i K L S. destruct (like_load _ _ K L) as (t & K'). rewrite K' in S. destruct S as (e & ->). simpl. discriminate. }
  assert (Z : z == 0).
  { destruct CZ as [[_ Z]|[_ Z]]; [|exact Z]. rewrite Z. apply (nobody_named _ D g g'); auto. }
  rewrite <- Y. conj.
  - intros H. apply L0. exact H.
  - intros H A. destruct (LN H) as (P & B). split; [|exact B]. rewrite P, Z, (counted_all _ _ _ _ CX A). ring.
  - intros A. pose proof (counted_not _ _ _ _ CX A) as X. destruct (Qeq_dec y 0) as [H|H]; [apply L0; exact H|].
    destruct (LN H) as (P & _). rewrite X, Z in P. destruct (Qmult_integral rw y) as [R|R]; [rewrite P; ring|exact R|contradiction].
Qed.
