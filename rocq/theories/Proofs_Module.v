(** * Structure of a module step *)

From Coq Require Import ZArith QArith Qabs Bool String List Lia Lqa.
From Verif Require Import Num Py Space Logger Forecast Module Proofs_Num Spec_Module.
Import ListNotations.
Local Open Scope list_scope.

Section Generic.
Context {T : Type} `{NumOps T}.

Lemma module_log_any (sd : dict T) r i m m' x :
  module_log sd r i m = (m', x) -> exists lg, m' = set_log m lg.
Proof.
  unfold module_log. intros E.
  assert (base : m = set_log m (m_log m)) by (destruct m; reflexivity).
  apply mbind_inv in E. destruct E as [(s1 & a & E1 & E)|(e & E1 & ->)].
  2:{ unfold mget in E1. discriminate. }
  unfold mget in E1. inversion E1; subst. clear E1.
  apply mbind_inv in E. destruct E as [(s2 & d1 & E1 & E)|(e & E1 & ->)].
  2:{ destruct (m_prov a), (dget _ i); inversion E1; subst; exists (m_log m'); destruct m'; reflexivity. }
  assert (s2 = a) by (destruct (m_prov a), (dget "provided_energy" i); inversion E1; auto).
  subst s2.
  apply mbind_inv in E. destruct E as [(s3 & d2 & E2 & E)|(e & E2 & ->)].
  2:{ destruct (m_abs a), (dget "absorbed_energy" i); inversion E2; subst;
        exists (m_log m'); destruct m'; reflexivity. }
  assert (s3 = a) by (destruct (m_abs a), (dget "absorbed_energy" i); inversion E2; auto).
  subst s3.
  destruct (logger_log (dupdate d2 sd) (m_log a)) as [lg rr]. inversion E; subst. eauto.
Qed.

Lemma update_step_any reset (m m' : module T) x :
  update_step reset m = (m', x) ->
  match kind_ts (m_kind m) with
  | None => m' = set_cur m (if reset then m_init m else m_cur m + 1)%Z /\ x = Ok tt
  | Some t =>
      let c := (if reset then m_init m else m_cur m + 1)%Z in
      exists t', ts_refresh c t = (t', x)
                 /\ m' = set_kind (set_cur m c) (kind_set_ts (m_kind m) t')
  end.
Proof.
  unfold update_step, mbind, mmodify. simpl.
  destruct (kind_ts (m_kind m)) as [t|] eqn:K.
  - destruct (ts_refresh _ t) as [t' r] eqn:R. intros E; inversion E; subst.
    exists t'. split; reflexivity.
  - intros E; inversion E; subst. auto.
Qed.

(** Shape of any base step, successful or not. *)
Lemma base_step_any a n (m m' : module T) x :
  base_step a n m = (m', x) ->
  (m' = m /\ is_ok x = false)
  \/ exists e m1 r1, unnormalized_step e m = (m1, r1)
     /\ (match x with Ok (_, rw, d, i) => r1 = Ok (rw, d, i) | Err _ => True end)
     /\ ((m' = m1 /\ is_ok x = false)
         \/ exists lg, (m' = set_log m1 lg /\ is_ok x = false)
                       \/ m' = fst (update_step false (set_log m1 lg))).
Proof.
  unfold base_step. intros E.
  apply mbind_inv in E. destruct E as [(s1 & a1 & E1 & E)|(e & E1 & ->)].
  2:{ unfold mget in E1; discriminate. }
  unfold mget in E1. inversion E1; subst. clear E1.
  apply mbind_inv in E.
  destruct E as [(s2 & da & E1 & E)|(e & E1 & ->)].
  2:{ unfold mlift in E1. inversion E1; subst. left; auto. }
  unfold mlift in E1. inversion E1; subst s2. clear E1.
  apply mbind_inv in E.
  destruct E as [(s3 & en & E1 & E)|(e & E1 & ->)].
  2:{ unfold mlift in E1. inversion E1; subst. left; auto. }
  unfold mlift in E1. inversion E1; subst s3. clear E1.
  apply mbind_inv in E.
  destruct E as [(s4 & sd & E1 & E)|(e & E1 & ->)].
  2:{ unfold mlift in E1. inversion E1; subst. left; auto. }
  unfold mlift in E1. inversion E1; subst s4. clear E1.
  right. exists en.
  apply mbind_inv in E. destruct E as [(m1 & out & E1 & E)|(e & E1 & ->)].
  2:{ exists m', (Err e). repeat split; auto. }
  destruct out as [[rw d] i]. exists m1, (Ok (rw, d, i)). split; [exact E1|].
  apply mbind_inv in E. destruct E as [(m2 & u & E2 & E)|(e & E2 & ->)].
  2:{ split; [exact I|]. right. destruct (module_log_any _ _ _ _ _ _ E2) as [lg ->].
      exists lg. left; auto. }
  destruct (module_log_any _ _ _ _ _ _ E2) as [lg ->].
  apply mbind_inv in E. destruct E as [(m3 & u3 & E3 & E)|(e & E3 & ->)].
  2:{ split; [exact I|]. right. exists lg. right. rewrite E3. reflexivity. }
  unfold mbind, mget, mlift in E.
  destruct (norm_obs m3) as [o|e]; inversion E; subst.
  - split; [reflexivity|]. right. exists lg. right. rewrite E3. reflexivity.
  - split; [exact I|]. right. exists lg. right. rewrite E3. reflexivity.
Qed.

(** A successful base step, in full. *)
Lemma base_step_ok a n (m m' : module T) obs rw d i :
  base_step a n m = (m', Ok (obs, rw, d, i)) ->
  exists da e m1 sd m2,
    (if n then denorm_action m a else Ok a) = Ok da
    /\ pick_energy (energy_pos (m_kind m)) da = Ok e
    /\ state_dict m = Ok sd
    /\ unnormalized_step e m = (m1, Ok (rw, d, i))
    /\ module_log sd rw i m1 = (m2, Ok tt)
    /\ update_step false m2 = (m', Ok tt)
    /\ norm_obs m' = Ok obs.
Proof.
  unfold base_step. intros E.
  apply mbind_ok in E. destruct E as (s1 & a1 & E1 & E).
  unfold mget in E1. inversion E1; subst. clear E1.
  apply mbind_ok in E. destruct E as (s2 & da & E1 & E).
  unfold mlift in E1. inversion E1; subst. clear E1.
  apply mbind_ok in E. destruct E as (s3 & e & E1 & E).
  unfold mlift in E1. inversion E1; subst. clear E1.
  apply mbind_ok in E. destruct E as (s4 & sd & E1 & E).
  unfold mlift in E1. inversion E1; subst. clear E1.
  apply mbind_ok in E. destruct E as (m1 & [[rw' d'] i'] & E1 & E).
  apply mbind_ok in E. destruct E as (m2 & [] & E2 & E).
  apply mbind_ok in E. destruct E as (m3 & [] & E3 & E).
  unfold mbind, mget, mlift, mret in E.
  destruct (norm_obs m3) as [o|] eqn:NO; inversion E; subst.
  exists da, e, m1, sd, m2. repeat split; auto.
Qed.

End Generic.
