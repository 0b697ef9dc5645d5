(** * Histories of a non-modular microgrid *)

From Coq Require Import ZArith QArith Qabs Qminmax Bool String List Lia Lqa Permutation.
From Verif Require Import Num Py Proofs_Num Proofs_Run NonModular Spec_NonModular Proofs_NonModular Proofs_NmRun.
Import ListNotations.
Local Open Scope string_scope.
Local Open Scope list_scope.
Local Open Scope Q_scope.

(** ** Records that grow *)

Definition grown (r r' : record Q) : Prop :=
  map fst r' = map fst r
  /\ forall k l, dget k r = Some l -> exists m, dget k r' = Some (l ++ m).

Lemma grown_refl r : grown r r.
Proof. split; [reflexivity|]. intros k l E. exists []. rewrite app_nil_r. assumption. Qed.
Lemma grown_trans r1 r2 r3 : grown r1 r2 -> grown r2 r3 -> grown r1 r3.
Proof.
  intros (A1 & A2) (C1 & C2). split; [congruence|]. intros k l E.
  destruct (A2 _ _ E) as (m & E'). destruct (C2 _ _ E') as (m' & E''). exists (m ++ m').
  rewrite app_assoc. assumption.
Qed.

Definition grows {A} (f : M (record Q) A) : Prop := forall r r' x, f r = (r', x) -> grown r r'.

Lemma grows_same {A} (f : M (record Q) A) : (forall g, fst (f g) = g) -> grows f.
Proof. intros K g g' r E. specialize (K g). rewrite E in K. simpl in K. subst. apply grown_refl. Qed.
Lemma grows_bind {A C} (f : M (record Q) A) (k : A -> M (record Q) C) :
  grows f -> (forall a, grows (k a)) -> grows (mbind f k).
Proof.
  intros F K g g' r. unfold mbind. destruct (f g) as [g1 [a|e]] eqn:E; intros E'.
  - eapply grown_trans; [eapply F; eassumption|]. eapply K; eassumption.
  - inversion E'; subst. eapply F; eassumption.
Qed.
Lemma grows_lift {A} (r : res A) : grows (mlift r).
Proof. apply grows_same. reflexivity. Qed.
Lemma grows_ret {A} (a : A) : grows (mret a).
Proof. apply grows_same. reflexivity. Qed.
Lemma grows_get : grows mget.
Proof. apply grows_same. reflexivity. Qed.

Lemma dset_keys {A} k (x y : A) d : dget k d = Some y -> map fst (dset k x d) = map fst d.
Proof.
  induction d as [|[k' z] d IH]; simpl; [discriminate|].
  destruct (String.eqb k k') eqn:E; [reflexivity|]. intros G. simpl. rewrite IH by assumption. reflexivity.
Qed.

Lemma grown_dset k l x (r : record Q) : dget k r = Some l -> grown r (dset k (l ++ [x]) r).
Proof.
  intros E. split; [eapply dset_keys; eassumption|]. intros k' l' E'.
  destruct (String.eqb k' k) eqn:D.
  - apply String.eqb_eq in D. subst. rewrite E in E'. injection E' as <-. exists [x]. apply dget_dset_same.
  - apply String.eqb_neq in D. exists []. rewrite app_nil_r, dget_dset_other by assumption. assumption.
Qed.
Lemma grows_append k x : grows (append k x).
Proof.
  intros r r' u. unfold append. destruct (dget k r) as [l|] eqn:E; intros H; inversion H; subst.
  - apply grown_dset. assumption.
  - apply grown_refl.
Qed.

Ltac grow := repeat first
    [ apply grows_lift | apply grows_ret | apply grows_append | apply grows_get
    | match goal with |- grows (if ?b then _ else _) => destruct b end
    | match goal with |- grows (let '(_, _) := ?b in _) => destruct b end
    | apply grows_bind | intro ].

Lemma record_production_grows par ar c st : grows (record_production par ar c st).
Proof. unfold record_production. grow. Qed.
Lemma record_co2_grows par ar prod x : grows (record_co2 par ar prod x).
Proof. unfold record_co2. grow. Qed.
Lemma record_cost_grows par ar prod o x y : grows (record_cost par ar prod o x y).
Proof. unfold record_cost. grow. Qed.

Lemma append_row_any row (df df' : record Q) r : append_row row df = (df', r) ->
  map fst df' = map fst df
  /\ forall k l, dget k df = Some l ->
       dget k df' = Some l \/ exists x, dget k row = Some x /\ dget k df' = Some (l ++ [x]).
Proof.
  revert df' r. induction df as [|[k l] df IH]; simpl; intros df' r H.
  - inversion H; subst. split; [reflexivity|]. discriminate.
  - destruct (dget k row) as [x|] eqn:E.
    + destruct (append_row row df) as [d r'] eqn:R. inversion H; subst.
      destruct (IH _ _ eq_refl) as (A1 & A2). simpl. split; [congruence|].
      intros k' l'. destruct (String.eqb k' k) eqn:D; [|apply A2].
      apply String.eqb_eq in D. subst. intros G; injection G as <-. right. eauto.
    + inversion H; subst. split; [reflexivity|]. auto.
Qed.

Lemma append_row_grows row : grows (append_row row).
Proof.
  intros r r' x H. apply append_row_any in H. destruct H as (A1 & A2). split; [assumption|].
  intros k l E. destruct (A2 _ _ E) as [E'|(y & _ & E')]; [exists []; rewrite app_nil_r|]; eauto.
Qed.
Lemma update_status_grows par ar t prod nx : grows (update_status par ar t prod nx).
Proof.
  unfold update_status. apply grows_bind; [apply grows_get|intro]. apply grows_bind; [apply grows_lift|intro].
  apply append_row_grows.
Qed.

(** ** A run, whether it returns or raises *)

Inductive clocked (g g1 : nonmod Q) : nonmod Q -> Prop :=
| CkNone : clocked g g1 g1
| CkDone : ended g = true -> clocked g g1 (set_clock (nm_t g) (nm_len g) true g1)
| CkStep n x b : ended g = false ->
    clocked g g1 (set_battery b (set_next x (set_now n (set_clock (nm_t g + 1) (nm_len g) (nm_done g) g1)))).

Definition state_step (control : dict Q) (g : nonmod Q) (p s : record Q) : Prop :=
  s = nm_state g
  \/ exists prod u r,
      record_production (nm_par g) (nm_arch g) (full_control control g) (nm_state g) (nm_production g) = (p, Ok u)
      /\ last_row p = Ok prod
      /\ update_status (nm_par g) (nm_arch g) (nm_t g) (status_source g prod control) (nm_next g) (nm_state g) = (s, r).

Ltac mgo H E g1 :=
  apply mbind_inv in H; destruct H as [(g1 & ? & E & H)|(? & E & ?)].

Lemma nm_run_any control (g : nonmod Q) g' r : nm_run control g = (g', r) ->
  exists p c o s, grown (nm_production g) p /\ grown (nm_cost g) c /\ grown (nm_co2 g) o
    /\ state_step control g p s /\ clocked g (after_records control g p c o s) g'.
Proof.
  intros H. unfold nm_run in H.
  mgo H E g1; [unfold mget in E; injection E as <- <-|discriminate E].
  mgo H E g1; [unfold mmodify in E; injection E as <- <-|discriminate E].
  apply mbind_inv in H. destruct H as [(g1 & u & E & H)|(e & E & ->)];
    apply on_production_inv in E; destruct E as (p & EP & ->);
    pose proof (record_production_grows _ _ _ _ _ _ _ EP) as GP.
  2:{ exists p, (nm_cost g), (nm_co2 g), (nm_state g). split; [exact GP|]. split; [apply grown_refl|].
      split; [apply grown_refl|]. split; [left; reflexivity|]. apply CkNone. }
  mgo H E g1; [unfold mget in E; injection E as <- <-|discriminate E].
  apply mbind_inv in H. unfold mlift at 1 3 in H.
  destruct H as [(g1 & prod & E & H)|(e & E & ->)].
  2:{ injection E as <- _. exists p, (nm_cost g), (nm_co2 g), (nm_state g). split; [exact GP|]. split; [apply grown_refl|].
      split; [apply grown_refl|]. split; [left; reflexivity|]. apply CkNone. }
  injection E as <- EL.
  assert (R : forall f g1 r1 price_i price_e kc (sr : dict (cell Q)),
     sr = status_source g prod control ->
     (on_co2 (record_co2 (nm_par g) (nm_arch g) prod kc) ;;
      g2 <- mget ;;
      on_cost (record_cost (nm_par g) (nm_arch g) prod (nm_co2 g2) price_i price_e) ;;
      on_state (update_status (nm_par g) (nm_arch g) (nm_t g) sr (nm_next g)))%py f = (g1, r1) ->
     f = after_records control g p (nm_cost g) (nm_co2 g) (nm_state g) ->
     exists c o s, grown (nm_cost g) c /\ grown (nm_co2 g) o /\ state_step control g p s
       /\ g1 = after_records control g p c o s).
  { clear H. intros f g1 r1 pi pe kc sr Esr H Ef. subst f.
    apply mbind_inv in H. destruct H as [(g2 & ? & E & H)|(e & E & ->)];
      apply on_co2_inv in E; destruct E as (o & EO & ->); pose proof (record_co2_grows _ _ _ _ _ _ _ EO) as GO.
    2:{ exists (nm_cost g), o, (nm_state g). split; [apply grown_refl|]. split; [exact GO|].
        split; [left; reflexivity|]. reflexivity. }
    mgo H E g2; [unfold mget in E; injection E as <- <-|discriminate E].
    apply mbind_inv in H. destruct H as [(g2 & ? & E & H)|(e & E & ->)];
      apply on_cost_inv in E; destruct E as (c & EC & ->); pose proof (record_cost_grows _ _ _ _ _ _ _ _ _ EC) as GC.
    2:{ exists c, o, (nm_state g). split; [exact GC|]. split; [exact GO|].
        split; [left; reflexivity|]. reflexivity. }
    apply on_state_inv in H. destruct H as (s & ES & ->). exists c, o, s.
    split; [exact GC|]. split; [exact GO|]. split; [|reflexivity].
    right. exists prod, u, r1. split; [exact EP|]. split; [exact EL|]. rewrite <- Esr. exact ES. }
  assert (R' : forall g1 r1, (if has_grid (nm_arch g) then
     on_co2 (record_co2 (nm_par g) (nm_arch g) prod (now_co2 (nm_now g))) ;;
     g2 <- mget ;;
     on_cost (record_cost (nm_par g) (nm_arch g) prod (nm_co2 g2)
                          (now_import (nm_now g)) (now_export (nm_now g))) ;;
     on_state (update_status (nm_par g) (nm_arch g) (nm_t g) prod (nm_next g))
   else
     on_co2 (record_co2 (nm_par g) (nm_arch g) prod n0) ;;
     g2 <- mget ;;
     on_cost (record_cost (nm_par g) (nm_arch g) prod (nm_co2 g2) n0 n0) ;;
     on_state (update_status (nm_par g) (nm_arch g) (nm_t g)
                 (map (fun kv => (fst kv, CNum (snd kv))) (full_control control g)) (nm_next g)))%py
     (after_records control g p (nm_cost g) (nm_co2 g) (nm_state g)) = (g1, r1) ->
     exists c o s, grown (nm_cost g) c /\ grown (nm_co2 g) o /\ state_step control g p s
       /\ g1 = after_records control g p c o s).
  { intros g1 r1 E. destruct (has_grid (nm_arch g)) eqn:G.
    - eapply R; [|exact E|reflexivity]. unfold status_source. rewrite G. reflexivity.
    - eapply R; [|exact E|reflexivity]. unfold status_source. rewrite G. reflexivity. }
  clear R. apply mbind_inv in H. destruct H as [(g1 & ? & E & H)|(e & E & ->)];
    apply R' in E; destruct E as (c & o & s & GC & GO & SS & ->); exists p, c, o, s;
    split; [exact GP| |exact GP|]; (split; [exact GC|]); (split; [exact GO|]); (split; [exact SS|]).
  2: apply CkNone.
  clear R' SS GC GO GP EL EP.
  change (((nm_t g =? nm_len g - nm_horizon g) || (nm_t g =? nm_len g - 1))%Z) with (ended g) in H.
  destruct (ended g) eqn:D.
  - mgo H E g1; [unfold mmodify in E; injection E as <- <-|discriminate E].
    mgo H E g1; [unfold mget in E; injection E as <- <-|discriminate E].
    unfold mlift in H. injection H as <- _. apply CkDone. exact D.
  - mgo H E g1; [unfold mmodify in E; injection E as <- <-|discriminate E].
    apply mbind_inv in H. destruct H as [(g1 & ? & E & H)|(e & E & ->)];
      apply update_variables_varies in E; destruct E as (n & x' & b & ->).
    + mgo H E g1; [unfold mget in E; injection E as <- <-|discriminate E].
      unfold mlift in H. injection H as <- _. apply CkStep. exact D.
    + apply CkStep. exact D.
Qed.

(** ** Resetting *)

Definition epochs_after (g : nonmod Q) : list (record Q * nat) :=
  match nm_use g with Training => nm_per_epoch g ++ [(nm_cost g, nm_epoch g)] | _ => nm_per_epoch g end.
Definition cleared (r : record Q) : record Q := map (fun kl => (fst kl, [])) r.
Definition firsts (r : record Q) : res (record Q) :=
  rmapM (fun kl => rbind (first_of (snd kl)) (fun x => Ok (fst kl, [x]))) r.
Definition use_after (testing : bool) (g : nonmod Q) : dataset :=
  match testing, nm_default g with true, Training => Testing | _, d => d end.
Definition rewound (testing : bool) (st : record Q) (g : nonmod Q) : nonmod Q :=
  set_epochs (epochs_after g) (nm_epoch g)
    (set_clock 0 (data_length (use_after testing g) g) (nm_done g)
      (set_data (nm_limit g) (nm_split g) (nm_default g) (use_after testing g)
        (set_records (cleared (nm_actions g)) st (cleared (nm_production g)) (cleared (nm_cost g))
           (cleared (nm_co2 g)) g))).

Lemma nm_reset_any testing (g : nonmod Q) g' r : nm_reset testing g = (g', r) ->
  (exists e, r = Err e /\ firsts (nm_state g) = Err e
     /\ g' = set_epochs (epochs_after g) (nm_epoch g)
         (set_records (cleared (nm_actions g)) (nm_state g) (nm_production g) (nm_cost g) (nm_co2 g) g))
  \/ (exists st g1 r1, firsts (nm_state g) = Ok st /\ update_variables (rewound testing st g) = (g1, r1)
        /\ match r1 with
           | Ok _ => r = Ok tt
               /\ g' = set_epochs (nm_per_epoch g1) (S (nm_epoch g1)) (set_clock (nm_t g1) (nm_len g1) false g1)
           | Err e => r = Err e /\ g' = g1
           end).
Proof.
  intros H. unfold nm_reset in H.
  mgo H E g1; [unfold mmodify in E; injection E as <- <-|discriminate E].
  mgo H E g1; [unfold mmodify in E; injection E as <- <-|discriminate E].
  mgo H E g1; [unfold mget in E; injection E as <- <-|discriminate E].
  assert (X : (match nm_use g with
               | Training => set_epochs (nm_per_epoch g ++ [(nm_cost g, nm_epoch g)]) (nm_epoch g) g
               | _ => g
               end) = set_epochs (epochs_after g) (nm_epoch g) g).
  { unfold epochs_after. destruct g; simpl. destruct nm_use; reflexivity. }
  rewrite X in H. clear X.
  apply mbind_inv in H. destruct H as [(g1 & st & E & H)|(e & E & ->)]; unfold mlift in E.
  2:{ left. injection E as <- E'. exists e. split; [reflexivity|]. split; [exact E'|reflexivity]. }
  injection E as <- E'. right.
  mgo H E g1; [unfold mmodify in E; injection E as <- <-|discriminate E].
  mgo H E g1; [unfold mmodify in E; injection E as <- <-|discriminate E].
  apply mbind_inv in H. destruct H as [(g1 & [] & E & H)|(e & E & ->)].
  - exists st, g1, (Ok tt). split; [exact E'|]. split; [exact E|].
    unfold mmodify in H. injection H as <- <-. split; reflexivity.
  - exists st, g', (Err e). split; [exact E'|]. split; [exact E|]. split; reflexivity.
Qed.

(** ** What every history keeps *)

Record descends (g0 g : nonmod Q) : Prop := mkDescends {
  ds_arch : nm_arch g = nm_arch g0;
  ds_load : nm_load_ts g = nm_load_ts g0;
  ds_pv : nm_pv_ts g = nm_pv_ts g0;
  ds_status : nm_status_ts g = nm_status_ts g0;
  ds_import : nm_import_ts g = nm_import_ts g0;
  ds_export : nm_export_ts g = nm_export_ts g0;
  ds_co2 : nm_co2_ts g = nm_co2_ts g0;
  ds_par : forall k, k <> "cost_co2" -> dget k (nm_par g) = dget k (nm_par g0);
  ds_cost_co2 : forall x, dget "cost_co2" (nm_par g0) = Some x -> exists y, dget "cost_co2" (nm_par g) = Some y;
  ds_actions : map fst (nm_actions g) = map fst (nm_actions g0);
  ds_production : map fst (nm_production g) = map fst (nm_production g0);
  ds_cost : map fst (nm_cost g) = map fst (nm_cost g0);
  ds_emitted : map fst (nm_co2 g) = map fst (nm_co2 g0);
  ds_state : map fst (nm_state g) = map fst (nm_state g0);
  ds_first : forall k x l, dget k (nm_state g0) = Some (x :: l) -> exists l', dget k (nm_state g) = Some (x :: l')
}.

Lemma descends_refl g : descends g g.
Proof. constructor; eauto. Qed.

Lemma cleared_keys r : map fst (cleared r) = map fst r.
Proof. unfold cleared. rewrite map_map. apply map_ext. reflexivity. Qed.

Lemma firsts_ok (r r' : record Q) : firsts r = Ok r' ->
  map fst r' = map fst r /\ (forall k x l, dget k r = Some (x :: l) -> dget k r' = Some [x])
  /\ (forall k l, dget k r' = Some l -> exists x l', l = [x] /\ dget k r = Some (x :: l')).
Proof.
  revert r'. induction r as [|[k l] r IH]; intros r' H.
  - inversion H; subst. split; [reflexivity|]. split; discriminate.
  - destruct l as [|x m]; [discriminate H|].
    unfold firsts in H. simpl in H. apply rbind_ok in H. destruct H as (r1 & H1 & H).
    destruct (IH _ H1) as (A1 & A2 & A3). injection H as <-.
    simpl. split; [congruence|]. split.
    + intros k' x' l'. destruct (String.eqb k' k); [|apply A2]. intros G; injection G as <- _. reflexivity.
    + intros k' l'. destruct (String.eqb k' k); [|apply A3]. intros G; injection G as <-. eauto.
Qed.

Lemma state_step_grown control g p s : state_step control g p s -> grown (nm_state g) s.
Proof.
  intros [->|(prod & u & r & _ & _ & E)]; [apply grown_refl|]. eapply update_status_grows. exact E.
Qed.

Lemma record_action_keys c (df : record Q) : map fst (record_action c df) = map fst df.
Proof. unfold record_action. rewrite map_map. reflexivity. Qed.

Lemma descends_reset g0 testing g : descends g0 g -> descends g0 (fst (nm_reset testing g)).
Proof.
  intros D. destruct (nm_reset testing g) as [g' r] eqn:E. apply nm_reset_any in E.
  destruct E as [(e & _ & _ & ->)|(st & g1 & r1 & ES & E & K)].
  + simpl. destruct D. constructor; cbn; try assumption. rewrite cleared_keys. assumption.
  + apply update_variables_varies in E. destruct E as (n & x & b & ->).
    apply firsts_ok in ES. destruct ES as (F1 & F2 & _).
    assert (D1 : descends g0 (rewound testing st g)).
    { destruct D. unfold rewound. constructor; cbn; rewrite ?cleared_keys; try assumption; [congruence|].
      intros k x' l G. destruct (ds_first0 _ _ _ G) as (l' & G'). apply F2 in G'. eauto. }
    destruct D1. destruct r1 as [u|e]; destruct K as (-> & ->); constructor; assumption.
Qed.

Lemma descends_do g0 c g : descends g0 g -> descends g0 (nm_do c g).
Proof.
  intros D. destruct c as [control|testing|limit cancel|h|x]; simpl.
  - destruct (nm_run control g) as [g' r] eqn:E. apply nm_run_any in E.
    destruct E as (p & cc & o & s & GP & GC & GO & SS & CK). apply state_step_grown in SS.
    assert (D1 : descends g0 (after_records control g p cc o s)).
    { destruct D. unfold after_records. constructor; cbn; try assumption.
      - unfold actions_after. rewrite record_action_keys. assumption.
      - rewrite (proj1 GP). assumption.
      - rewrite (proj1 GC). assumption.
      - rewrite (proj1 GO). assumption.
      - rewrite (proj1 SS). assumption.
      - intros k x l E. destruct (ds_first0 _ _ _ E) as (l' & E'). destruct (proj2 SS _ _ E') as (m & E'').
        simpl. eauto. }
    destruct D1. destruct CK; constructor; assumption.
  - apply descends_reset. assumption.
  - unfold train_test_split. unfold mbind, mmodify.
    apply descends_reset. destruct D. destruct (negb (nm_split g)); [constructor; assumption|].
    destruct cancel; constructor; assumption.
  - destruct D. constructor; assumption.
  - destruct D. constructor; cbn; try assumption.
    + intros k N. rewrite dget_dset_other by assumption. auto.
    + intros y E. exists x. apply dget_dset_same.
Qed.

Lemma nm_after_ind (P : nonmod Q -> Prop) cs g :
  P g -> (forall c g', P g' -> P (nm_do c g')) -> P (nm_after cs g).
Proof.
  intros B I. unfold nm_after. revert g B. induction cs as [|c cs IH]; simpl; intros g B; [assumption|].
  apply IH. apply I. assumption.
Qed.

Lemma descends_after cs g : descends g (nm_after cs g).
Proof. apply nm_after_ind; [apply descends_refl|]. intros c g'. apply descends_do. Qed.
