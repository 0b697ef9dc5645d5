(** * Requests and limits *)

From Coq Require Import ZArith QArith Qabs Bool String List Lia Lqa.
From Verif Require Import Num Py Space Logger Forecast Module
  Proofs_Num Proofs_Logger Spec_Module Spec_Reach Proofs_Module Proofs_Space Proofs_Battery
  Proofs_Genset Proofs_Ts Proofs_Any.
Import ListNotations.
Local Open Scope string_scope.
Local Open Scope list_scope.
Local Open Scope Q_scope.

Lemma built_ok m : built m -> mod_ok m.
Proof.
  intros [].
  - eapply new_battery_good; eassumption.
  - eapply new_genset_good; eassumption.
  - destruct (new_load_ok _ _ _ _ _ _ _ _ _ H H0) as (t & _ & OK & _). exact OK.
  - destruct (new_renewable_ok _ _ _ _ _ _ _ _ _ _ H H0) as (t & lo & hi & _ & OK & _). exact OK.
  - destruct (new_grid_ok _ _ _ _ _ _ _ _ _ _ _ _ _ H) as (t & _ & OK & _). exact OK.
  - apply new_unbalanced_good.
Qed.

Lemma reachable_ok m : reachable m -> mod_ok m.
Proof. intros (m0 & cs & B & ->). apply play_good. apply built_ok. exact B. Qed.

(** What an update reports is what it was asked for. *)
Lemma update_reports v src (m m' : module Q) rw d i :
  (forall t, m_kind m <> KLoad t) ->
  update (Some v) src m = (m', Ok (rw, d, i)) ->
  (if src then provided i = v /\ absorbed i = 0 else absorbed i = v /\ provided i = 0).
Proof.
  intros NL E. unfold update in E. destruct (m_kind m) as [b|g|g t|t|t|u] eqn:K.
  - unfold lift_kind in E. destruct (battery_update v src b) as [b' r] eqn:B. inversion E; subst.
    unfold battery_update in B. destruct src; minv; split; reflexivity.
  - unfold lift_kind in E. destruct (genset_update v src g) as [g' r] eqn:B. inversion E; subst.
    unfold genset_update in B. minv. 
    split; reflexivity.
  - apply pair_equal_spec in E. destruct E as [<- E]. unfold grid_update in E.
    apply rbind_ok in E. destruct E as (r & _ & E). apply rbind_ok in E. destruct E as (c & _ & E).
    inversion E; subst. destruct src; split; reflexivity.
  - destruct (NL t eq_refl).
  - apply pair_equal_spec in E. destruct E as [<- E]. unfold renewable_update in E.
    destruct src; [|discriminate]. apply rbind_ok in E. destruct E as (r & _ & E).
    destruct (nleb v r); [|discriminate]. inversion E; subst. split; reflexivity.
  - apply pair_equal_spec in E. destruct E as [<- E]. unfold unbalanced_update in E.
    match type of E with context [if ?c then _ else _] => destruct c; [|discriminate] end.
    inversion E; subst. destruct src; split; reflexivity.
Qed.

Lemma nonfixed_not_load (k : kind Q) : is_fixed (module_type k) = false -> forall t, k <> KLoad t.
Proof. intros F t ->. discriminate. Qed.

(** [gt_bound] and [clip_to] *)
Lemma gt_bound_true x (b : bound Q) : gt_bound x b = Ok true -> exists y, b = BFin y /\ y < x.
Proof.
  destruct b; simpl; intros E; try discriminate. exists x0. split; [reflexivity|].
  inversion E. unum. qprop. assumption.
Qed.
Lemma gt_bound_false x (b : bound Q) : gt_bound x b = Ok false ->
  match b with BFin y => x <= y | BInf => True | BNone => False end.
Proof.
  destruct b; simpl; intros E; try discriminate; [|exact I].
  inversion E. unum. qprop. assumption.
Qed.

Lemma clip_over lo h x : h < x -> clip lo h x = h.
Proof. intros L. unfold clip. destruct (Qlt_le_dec h x); [reflexivity|lra]. Qed.
Lemma clip_under lo h x : x <= h -> x < lo -> clip lo h x = lo.
Proof.
  intros L U. unfold clip. destruct (Qlt_le_dec h x); [lra|].
  destruct (Qlt_le_dec x lo); [reflexivity|lra].
Qed.
Lemma clip_id lo h x : lo <= x -> x <= h -> clip lo h x = x.
Proof.
  intros L U. unfold clip. destruct (Qlt_le_dec h x); [lra|].
  destruct (Qlt_le_dec x lo); [lra|reflexivity].
Qed.
Lemma clip_to_id lo b x : within lo b x -> clip_to lo b x = x.
Proof.
  intros [L U]. destruct b; simpl; [apply clip_id; assumption| |];
    destruct (Qlt_le_dec x lo); try reflexivity; lra.
Qed.

(** All ways an [as_source] call can go. *)
Lemma as_source_cases x (m m' : module Q) r :
  is_fixed (module_type (m_kind m)) = false ->
  as_source x m = (m', r) ->
  (m' = m /\ x < 0 /\ raises AssertionError r)
  \/ (m' = m /\ 0 <= x /\ is_source (m_kind m) = false /\ raises AssertionError r)
  \/ (0 <= x /\ is_source (m_kind m) = true
      /\ ((m' = m /\ exists e, max_production m = Err e /\ r = Err e)
          \/ (m' = m /\ max_production m = Ok BNone /\ raises TypeError r)
          \/ exists hi, max_production m = Ok hi /\ hi <> BNone
             /\ ((m_raise m = true /\ ~ within (min_production m) hi x /\ m' = m /\ raises ValueError r)
                 \/ ((m_raise m = true -> within (min_production m) hi x)
                     /\ update (Some (clip_to (min_production m) hi x)) true m = (m', r))))).
Proof.
  intros F E. unfold as_source, mbind, massert, mget, mlift in E. unum.
  destruct (Qle_bool 0 x) eqn:P; qprop.
  2:{ left. inversion E; subst. conj; auto. eexists. split; reflexivity. }
  right. destruct (is_source (m_kind m)) eqn:S.
  2:{ left. inversion E; subst. conj; auto. eexists. split; reflexivity. }
  right. split; [assumption|]. split; [reflexivity|]. rewrite F in E.
  destruct (max_production m) as [hi|e] eqn:MP.
  2:{ left. inversion E; subst. eauto. }
  right. destruct (gt_bound x hi) as [ov|e] eqn:GB.
  2:{ left. destruct hi; try discriminate. inversion GB; subst. inversion E; subst.
      conj; auto. eexists. split; reflexivity. }
  right. exists hi. split; [reflexivity|]. destruct ov.
  - apply gt_bound_true in GB. destruct GB as (y & -> & LT). split; [discriminate|].
    destruct (m_raise m).
    + left. inversion E; subst. conj; auto; [intros [_ W]; lra|]. eexists. split; reflexivity.
    + right. split; [discriminate|]. simpl. rewrite (clip_over _ _ _ LT). exact E.
  - apply gt_bound_false in GB. split; [destruct hi; try discriminate; tauto|].
    destruct (Qltb x (min_production m)) eqn:U; qprop.
    + destruct (m_raise m).
      * left. inversion E; subst. conj; auto; [intros [W _]; lra|]. eexists. split; reflexivity.
      * right. split; [discriminate|].
        replace (clip_to (min_production m) hi x) with (min_production m); [exact E|].
        destruct hi; simpl; [rewrite clip_under; auto| |tauto].
        destruct (Qlt_le_dec x (min_production m)); [reflexivity|lra].
    + right. assert (W : within (min_production m) hi x) by (split; [assumption|destruct hi; tauto]).
      split; [auto|]. rewrite (clip_to_id _ _ _ W). exact E.
Qed.

Lemma as_sink_cases x (m m' : module Q) r :
  is_fixed (module_type (m_kind m)) = false ->
  as_sink x m = (m', r) ->
  (m' = m /\ x < 0 /\ raises AssertionError r)
  \/ (0 <= x
      /\ ((m' = m /\ exists e, max_consumption m = Err e /\ r = Err e)
          \/ (m' = m /\ max_consumption m = Ok BNone /\ raises TypeError r)
          \/ exists hi, max_consumption m = Ok hi /\ hi <> BNone
             /\ ((m_raise m = true /\ ~ within 0 hi x /\ m' = m /\ raises ValueError r)
                 \/ (m_raise m = false /\ (exists h, hi = BFin h /\ h < 0) /\ m' = m
                     /\ raises AssertionError r)
                 \/ ((m_raise m = true -> within 0 hi x)
                     /\ update (Some (clip_to 0 hi x)) false m = (m', r))))).
Proof.
  intros F E. unfold as_sink, mbind, massert, mget, mlift in E. unum.
  destruct (Qle_bool 0 x) eqn:P; qprop.
  2:{ left. inversion E; subst. conj; auto. eexists. split; reflexivity. }
  right. split; [assumption|]. rewrite F in E.
  destruct (max_consumption m) as [hi|e] eqn:MP.
  2:{ left. inversion E; subst. eauto. }
  right. destruct (gt_bound x hi) as [ov|e] eqn:GB.
  2:{ left. destruct hi; try discriminate. inversion GB; subst. inversion E; subst.
      conj; auto. eexists. split; reflexivity. }
  right. exists hi. split; [reflexivity|]. destruct ov.
  - apply gt_bound_true in GB. destruct GB as (y & -> & LT). split; [discriminate|].
    destruct (m_raise m).
    + left. inversion E; subst. conj; auto; [intros [_ W]; lra|]. eexists. split; reflexivity.
    + right. destruct (Qle_bool 0 y) eqn:PY; qprop.
      * right. split; [discriminate|]. simpl. rewrite (clip_over _ _ _ LT). exact E.
      * left. inversion E; subst. conj; auto; [eauto|]. eexists. split; reflexivity.
  - apply gt_bound_false in GB. split; [destruct hi; try discriminate; tauto|].
    right. right. assert (W : within 0 hi x) by (split; [assumption|destruct hi; tauto]).
    split; [auto|]. rewrite (clip_to_id _ _ _ W). exact E.
Qed.

Lemma clip_proper lo h x y : x == y -> clip lo h x == clip lo h y.
Proof.
  intros E. unfold clip. destruct (Qlt_le_dec h x), (Qlt_le_dec h y); try lra;
    destruct (Qlt_le_dec x lo), (Qlt_le_dec y lo); lra.
Qed.
Lemma clip_to_proper lo b x y : x == y -> clip_to lo b x == clip_to lo b y.
Proof.
  intros E. destruct b; simpl; [apply clip_proper; exact E| |];
    destruct (Qlt_le_dec x lo), (Qlt_le_dec y lo); lra.
Qed.
Lemma within_proper lo b x y : x == y -> within lo b x -> within lo b y.
Proof. intros E [A B]. split; [lra|]. destruct b; [lra|exact I|exact I]. Qed.

Lemma step_not_genset a n (m : module Q) :
  is_genset (m_kind m) = false -> step a n m = base_step a n m.
Proof. unfold step, mbind, mget. destruct (m_kind m); simpl; [reflexivity|discriminate|..]; reflexivity. Qed.

Lemma nonfixed_source (k : kind Q) : is_fixed (module_type k) = false -> is_source k = true.
Proof. destruct k; simpl; auto; discriminate. Qed.

(** A scalar step, in terms of the request it makes. *)
Lemma scalar_step x (m m' : module Q) r :
  is_genset (m_kind m) = false ->
  step (VS x) false m = (m', r) ->
  (exists e, state_dict m = Err e /\ m' = m /\ r = Err e)
  \/ exists m1 r1, unnormalized_step x m = (m1, r1)
      /\ match r1 with
         | Err e => m' = m1 /\ r = Err e
         | Ok (rw, d, i) => match r with Ok o => reward_of o = rw /\ done_of o = d /\ info_of o = i
                            | Err _ => True end
         end.
Proof.
  intros G E. rewrite (step_not_genset _ _ _ G) in E.
  destruct (base_step_cases _ _ _ _ _ E)
    as [(-> & e & -> & D)|(da & e & sd & D1 & D2 & D3 & D)].
  - destruct D as [D|[(da & D & D')|D]]; [discriminate| |left; eauto].
    inversion D; subst. discriminate.
  - right. inversion D1; subst. inversion D2; subst.
    destruct D as [(ex & U & ->)|(m1 & rw & d & i & U & D)].
    + exists m', (Err ex). auto.
    + exists m1, (Ok (rw, d, i)). split; [exact U|].
      destruct r as [[[[o rw'] d'] i']|]; [|exact I].
      destruct D as [(ex & _ & C)|(m2 & _ & D)]; [discriminate|].
      destruct D as [(ex & _ & C)|(D & D')]; [discriminate|].
      destruct (norm_obs m'); inversion D'; subst. repeat split.
Qed.

Lemma request_pos x (m : module Q) : is_source (m_kind m) = true -> 0 <= x ->
  unnormalized_step x m = as_source x m.
Proof.
  intros S P. unfold unnormalized_step. unum. destruct (Qltb 0 x) eqn:A; [reflexivity|].
  destruct (Qltb x 0) eqn:B; qprop; [lra|]. unfold mbind, mget. rewrite S. reflexivity.
Qed.
Lemma request_neg x (m : module Q) : x < 0 -> unnormalized_step x m = as_sink (- (1) * x) m.
Proof.
  intros N. unfold unnormalized_step. unum. destruct (Qltb 0 x) eqn:A; qprop; [lra|].
  destruct (Qltb x 0) eqn:B; qprop; [reflexivity|lra].
Qed.

(** C03, lenient modules *)
Lemma C03_lenient (m m' : module Q) x o :
  is_genset (m_kind m) = false -> is_fixed (module_type (m_kind m)) = false ->
  m_raise m = false -> step (VS x) false m = (m', Ok o) ->
  (0 <= x -> exists hi, max_production m = Ok hi /\ hi <> BNone
     /\ provided (info_of o) = clip_to (min_production m) hi x /\ absorbed (info_of o) = 0)
  /\ (x < 0 -> exists hi, max_consumption m = Ok hi /\ hi <> BNone
     /\ absorbed (info_of o) == clip_to 0 hi (- x) /\ provided (info_of o) = 0).
Proof.
  intros G F R E. pose proof (nonfixed_source _ F) as S. pose proof (nonfixed_not_load _ F) as NL.
  destruct (scalar_step _ _ _ _ G E) as [(e & _ & _ & C)|(m1 & r1 & U & D)]; [discriminate|].
  destruct r1 as [[[rw d] i]|]; [|destruct D; discriminate].
  destruct D as (_ & _ & ->). split; intros X.
  - rewrite (request_pos _ _ S X) in U.
    destruct (as_source_cases _ _ _ _ F U) as [(_ & C & _)|[(_ & _ & C & _)|(_ & _ & D)]];
      [lra|congruence|].
    destruct D as [(_ & e & _ & C)|[(_ & _ & e & C & _)|(hi & MP & NB & D)]]; try discriminate.
    exists hi. split; [exact MP|]. split; [exact NB|].
    destruct D as [(C & _)|(_ & D)]; [congruence|].
    apply (update_reports _ _ _ _ _ _ _ NL) in D. exact D.
  - rewrite (request_neg _ _ X) in U.
    destruct (as_sink_cases _ _ _ _ F U) as [(_ & C & _)|(_ & D)]; [lra|].
    destruct D as [(_ & e & _ & C)|[(_ & _ & e & C & _)|(hi & MP & NB & D)]]; try discriminate.
    exists hi. split; [exact MP|]. split; [exact NB|].
    destruct D as [(C & _)|[(_ & _ & _ & e & C & _)|(_ & D)]]; [congruence|discriminate|].
    apply (update_reports _ _ _ _ _ _ _ NL) in D. destruct D as [-> D2]. split; [|exact D2].
    apply clip_to_proper. lra.
Qed.

(** C03, strict modules: exact service or a clean refusal *)
Lemma C03_strict (m m' : module Q) x r :
  reachable m ->
  is_genset (m_kind m) = false -> is_fixed (module_type (m_kind m)) = false ->
  m_raise m = true -> step (VS x) false m = (m', r) ->
  (forall o, r = Ok o ->
     (0 <= x -> exists hi, max_production m = Ok hi /\ within (min_production m) hi x
                   /\ provided (info_of o) = x /\ absorbed (info_of o) = 0)
     /\ (x < 0 -> exists hi, max_consumption m = Ok hi /\ within 0 hi (- x)
                   /\ absorbed (info_of o) == - x /\ provided (info_of o) = 0))
  /\ (forall hi, 0 <= x -> max_production m = Ok hi -> ~ within (min_production m) hi x ->
        m' = m /\ raises ValueError r)
  /\ (forall h, x < 0 -> max_consumption m = Ok (BFin h) -> h < - x ->
        m' = m /\ raises ValueError r).
Proof.
  intros RE G F R E. pose proof (nonfixed_source _ F) as S. pose proof (nonfixed_not_load _ F) as NL.
  destruct (state_dict_ok _ (mo_kind _ (reachable_ok _ RE))) as (sd & SD & _).
  destruct (scalar_step _ _ _ _ G E) as [(e & C & _)|(m1 & r1 & U & D)]; [congruence|].
  split; [|split].
  - intros o ->. destruct r1 as [[[rw d] i]|]; [|destruct D; discriminate].
    destruct D as (_ & _ & ->). split; intros X.
    + rewrite (request_pos _ _ S X) in U.
      destruct (as_source_cases _ _ _ _ F U) as [(_ & C & _)|[(_ & _ & C & _)|(_ & _ & D)]];
        [lra|congruence|].
      destruct D as [(_ & e & _ & C)|[(_ & _ & e & C & _)|(hi & MP & NB & D)]]; try discriminate.
      exists hi. split; [exact MP|].
      destruct D as [(_ & _ & _ & e & C & _)|(W & D)]; [discriminate|].
      specialize (W R). split; [exact W|]. rewrite (clip_to_id _ _ _ W) in D.
      apply (update_reports _ _ _ _ _ _ _ NL) in D. exact D.
    + rewrite (request_neg _ _ X) in U.
      destruct (as_sink_cases _ _ _ _ F U) as [(_ & C & _)|(_ & D)]; [lra|].
      destruct D as [(_ & e & _ & C)|[(_ & _ & e & C & _)|(hi & MP & NB & D)]]; try discriminate.
      exists hi. split; [exact MP|].
      destruct D as [(_ & _ & _ & e & C & _)|[(_ & _ & _ & e & C & _)|(W & D)]]; try discriminate.
      specialize (W R). rewrite (clip_to_id _ _ _ W) in D.
      split; [apply (within_proper _ _ (-(1)*x)); [lra|exact W]|].
      apply (update_reports _ _ _ _ _ _ _ NL) in D. destruct D as [-> D2]. split; [lra|exact D2].
  - intros hi X MP NW. rewrite (request_pos _ _ S X) in U.
    destruct (as_source_cases _ _ _ _ F U) as [(_ & C & _)|[(_ & _ & C & _)|(_ & _ & D')]];
      [lra|congruence|].
    destruct D' as [(-> & e & C & ->)|[(-> & C & V)|(hi' & MP' & NB & D')]]; [congruence| |].
    + rewrite MP in C. inversion C; subst.
      unfold max_production in MP. destruct (m_kind m); try discriminate.
      * apply rmap_ok in MP. destruct MP as (s & _ & C'). discriminate.
      * apply rmap_ok in MP. destruct MP as (s & _ & C'). discriminate.
    + rewrite MP in MP'. inversion MP'; subst hi'.
      destruct D' as [(_ & _ & -> & e & -> & V)|(W & _)]; [|elim (NW (W R))].
      destruct D as [-> ->]. split; [reflexivity|]. exists e. auto.
  - intros h X MC L. rewrite (request_neg _ _ X) in U.
    destruct (as_sink_cases _ _ _ _ F U) as [(_ & C & _)|(_ & D')]; [lra|].
    destruct D' as [(-> & e & C & ->)|[(-> & C & V)|(hi' & MP' & NB & D')]]; [congruence|congruence|].
    rewrite MC in MP'. inversion MP'; subst hi'.
    destruct D' as [(_ & _ & -> & e & -> & V)|[(C & _)|(W & _)]]; [|congruence|].
    + destruct D as [-> ->]. split; [reflexivity|]. exists e. auto.
    + destruct (W R) as [_ W2]. lra.
Qed.

(** C03, any class: a call that raised has not advanced the clock nor logged a
    row, unless a user-defined forecaster failed. *)
Lemma C03_failed (m m' : module Q) a n e :
  reachable m -> ~ user_fc m -> step a n m = (m', Err e) ->
  m_cur m' = m_cur m /\ m_log m' = m_log m.
Proof.
  intros RE NU E. destruct (step_good _ _ _ _ _ (reachable_ok _ RE) E) as (_ & _ & D).
  destruct D as [(A & B & _)|(m0 & da & x & m1 & rw & d & i & D)]; [auto|].
  destruct D as (_ & _ & _ & _ & _ & _ & _ & _ & _ & _ & _ & D).
  destruct D as [(o & C & _)|(_ & C)]; [discriminate|tauto].
Qed.
