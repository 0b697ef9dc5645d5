(** * One run of a non-modular microgrid *)

From Coq Require Import ZArith QArith Qabs Qminmax Bool String List Lia Lqa Permutation.
From Verif Require Import Num Py Proofs_Num Proofs_Run NonModular Spec_NonModular Proofs_NonModular.
Import ListNotations.
Local Open Scope string_scope.
Local Open Scope list_scope.
Local Open Scope Q_scope.

(** ** One run *)

Lemma on_production_inv f g g' r : @on_production Q f g = (g', r) ->
  exists d, f (nm_production g) = (d, r)
    /\ g' = set_records (nm_actions g) (nm_state g) d (nm_cost g) (nm_co2 g) g.
Proof. unfold on_production. destruct (f (nm_production g)) as [d x]. intros H; inversion H; subst. eauto. Qed.
Lemma on_state_inv f g g' r : @on_state Q f g = (g', r) ->
  exists d, f (nm_state g) = (d, r)
    /\ g' = set_records (nm_actions g) d (nm_production g) (nm_cost g) (nm_co2 g) g.
Proof. unfold on_state. destruct (f (nm_state g)) as [d x]. intros H; inversion H; subst. eauto. Qed.
Lemma on_cost_inv f g g' r : @on_cost Q f g = (g', r) ->
  exists d, f (nm_cost g) = (d, r)
    /\ g' = set_records (nm_actions g) (nm_state g) (nm_production g) d (nm_co2 g) g.
Proof. unfold on_cost. destruct (f (nm_cost g)) as [d x]. intros H; inversion H; subst. eauto. Qed.
Lemma on_co2_inv f g g' r : @on_co2 Q f g = (g', r) ->
  exists d, f (nm_co2 g) = (d, r)
    /\ g' = set_records (nm_actions g) (nm_state g) (nm_production g) (nm_cost g) d g.
Proof. unfold on_co2. destruct (f (nm_co2 g)) as [d x]. intros H; inversion H; subst. eauto. Qed.

(** The control as it reaches the production *)
Definition full_control (control : dict Q) (g : nonmod Q) : dict Q :=
  dremove "pv_consummed" (dset "pv" (now_pv (nm_now g)) (dset "load" (now_load (nm_now g)) control)).
Definition actions_after (control : dict Q) (g : nonmod Q) : record Q :=
  record_action (dset "pv" (now_pv (nm_now g)) (dset "load" (now_load (nm_now g)) control)) (nm_actions g).
(** What the state is updated from *)
Definition status_source (g : nonmod Q) (prod : dict (cell Q)) (control : dict Q) : dict (cell Q) :=
  if has_grid (nm_arch g) then prod else map (fun kv => (fst kv, CNum (snd kv))) (full_control control g).
Definition grid_now (g : nonmod Q) (f : now Q -> Q) : Q := if has_grid (nm_arch g) then f (nm_now g) else 0.

Record recorded (control : dict Q) (g : nonmod Q) (p c o s : record Q) (prod : dict (cell Q)) : Prop := mkRecorded {
  rc_prod : exists u, record_production (nm_par g) (nm_arch g) (full_control control g) (nm_state g) (nm_production g) = (p, Ok u);
  rc_last : last_row p = Ok prod;
  rc_co2 : exists u, record_co2 (nm_par g) (nm_arch g) prod (grid_now g now_co2) (nm_co2 g) = (o, Ok u);
  rc_cost : exists u, record_cost (nm_par g) (nm_arch g) prod o (grid_now g now_import) (grid_now g now_export) (nm_cost g) = (c, Ok u);
  rc_state : exists u, update_status (nm_par g) (nm_arch g) (nm_t g) (status_source g prod control) (nm_next g) (nm_state g) = (s, Ok u)
}.

Definition ended (g : nonmod Q) : bool := ((nm_t g =? nm_len g - nm_horizon g) || (nm_t g =? nm_len g - 1))%Z.

Definition after_records (control : dict Q) (g : nonmod Q) (p c o s : record Q) : nonmod Q :=
  set_records (actions_after control g) s p c o g.

(** Computations that change only the variables *)
Definition varies {A} (f : M (nonmod Q) A) : Prop :=
  forall g g' r, f g = (g', r) -> exists n x b, g' = set_battery b (set_next x (set_now n g)).

Lemma varies_same {A} (f : M (nonmod Q) A) : (forall g, fst (f g) = g) -> varies f.
Proof.
  intros K g g' r E. specialize (K g). rewrite E in K. simpl in K. subst.
  exists (nm_now g), (nm_next g), (nm_battery g). destruct g; reflexivity.
Qed.
Lemma varies_bind {A C} (f : M (nonmod Q) A) (k : A -> M (nonmod Q) C) :
  varies f -> (forall a, varies (k a)) -> varies (mbind f k).
Proof.
  intros F K g g' r. unfold mbind. destruct (f g) as [g1 [a|e]] eqn:E; intros E'.
  - destruct (F _ _ _ E) as (n & x & b & ->). destruct (K _ _ _ _ E') as (n' & x' & b' & ->).
    exists n', x', b'. reflexivity.
  - inversion E'; subst. eauto.
Qed.
Lemma varies_lift {A} (r : res A) : varies (mlift r).
Proof. apply varies_same. reflexivity. Qed.
Lemma varies_ret {A} (a : A) : varies (mret a).
Proof. apply varies_same. reflexivity. Qed.
Lemma varies_now f : varies (now_grid f).
Proof.
  intros g g' r E. unfold now_grid, mmodify in E. inversion E; subst.
  exists (f (nm_now g)), (nm_next g), (nm_battery g). reflexivity.
Qed.
Lemma varies_next f : varies (next_grid f).
Proof.
  intros g g' r E. unfold next_grid, mmodify in E. inversion E; subst.
  exists (nm_now g), (f (nm_next g)), (nm_battery g). reflexivity.
Qed.
Lemma varies_battery f : varies (mmodify (fun g => set_battery (f g) g)).
Proof.
  intros g g' r E. unfold mmodify in E. inversion E; subst.
  exists (nm_now g), (nm_next g), (f g). reflexivity.
Qed.

Lemma update_variables_varies : varies update_variables.
Proof.
  unfold update_variables. apply varies_bind; [apply varies_same; reflexivity|]. intros g0.
  repeat first
    [ apply varies_lift | apply varies_ret | apply varies_now | apply varies_next | apply varies_battery
    | match goal with |- varies (if ?b then _ else _) => destruct b end
    | apply varies_bind | intro ].
Qed.

Lemma nm_run_ok control g g' v : nm_run control g = (g', Ok v) ->
  exists p c o s prod, recorded control g p c o s prod
    /\ (let g1 := after_records control g p c o s in
        if ended g then g' = set_clock (nm_t g) (nm_len g) true g1
        else update_variables (set_clock (nm_t g + 1) (nm_len g) (nm_done g) g1) = (g', Ok tt))
    /\ last_row s = Ok v.
Proof.
  intros H. unfold nm_run in H.
  apply mbind_ok in H. destruct H as (g0 & ? & E & H). unfold mget in E. injection E as <- <-.
  apply mbind_ok in H. destruct H as (g1 & ? & E & H). unfold mmodify in E. injection E as <- <-.
  apply mbind_ok in H. destruct H as (g1 & ? & E & H).
  apply on_production_inv in E. destruct E as (p & EP & ->).
  apply mbind_ok in H. destruct H as (g1 & ? & E & H). unfold mget in E. injection E as <- <-.
  apply mbind_ok in H. destruct H as (g1 & prod & E & H). unfold mlift in E.
  injection E; intros EL <-; clear E.
  apply mbind_ok in H. destruct H as (g1 & [] & E & H).
  assert (R : exists c o s, recorded control g p c o s prod
     /\ g1 = after_records control g p c o s).
  { destruct (has_grid (nm_arch g)) eqn:G.
    - apply mbind_ok in E. destruct E as (g2 & ? & E1 & E). apply on_co2_inv in E1.
      destruct E1 as (o & EO & ->).
      apply mbind_ok in E. destruct E as (g2 & ? & E1 & E). unfold mget in E1. injection E1 as <- <-.
      apply mbind_ok in E. destruct E as (g2 & ? & E1 & E). apply on_cost_inv in E1.
      destruct E1 as (c & EC & ->).
      apply on_state_inv in E. destruct E as (s & ES & ->).
      exists c, o, s. split; [|reflexivity].
      constructor; unfold grid_now, status_source, full_control; rewrite ?G; [eexists; exact EP|exact EL|eexists; exact EO|eexists; exact EC|eexists; exact ES].
    - apply mbind_ok in E. destruct E as (g2 & ? & E1 & E). apply on_co2_inv in E1.
      destruct E1 as (o & EO & ->).
      apply mbind_ok in E. destruct E as (g2 & ? & E1 & E). unfold mget in E1. injection E1 as <- <-.
      apply mbind_ok in E. destruct E as (g2 & ? & E1 & E). apply on_cost_inv in E1.
      destruct E1 as (c & EC & ->).
      apply on_state_inv in E. destruct E as (s & ES & ->).
      exists c, o, s. split; [|reflexivity].
      constructor; unfold grid_now, status_source, full_control; rewrite ?G; [eexists; exact EP|exact EL|eexists; exact EO|eexists; exact EC|eexists; exact ES]. }
  clear E. destruct R as (c & o & s & R & ->).
  exists p, c, o, s, prod. split; [exact R|]. clear R EP EL.
  change (((nm_t g =? nm_len g - nm_horizon g) || (nm_t g =? nm_len g - 1))%Z) with (ended g) in H.
  destruct (ended g).
  - apply mbind_ok in H. destruct H as (g1 & ? & E & H). unfold mmodify in E. injection E as <- <-.
    apply mbind_ok in H. destruct H as (g1 & ? & E & H). unfold mget in E. injection E as <- <-.
    unfold mlift in H. injection H as <- HL. split; [reflexivity|exact HL].
  - apply mbind_ok in H. destruct H as (g1 & ? & E & H). unfold mmodify in E. injection E as <- <-.
    apply mbind_ok in H. destruct H as (g1 & [] & E & H).
    apply mbind_ok in H. destruct H as (g2 & ? & E1 & H). unfold mget in E1. injection E1 as <- <-.
    unfold mlift in H. injection H as <- HL.
    split; [exact E|].
    apply update_variables_varies in E. destruct E as (? & ? & ? & ->). exact HL.
Qed.

(** What does not change in a run *)
Lemma run_kept control (g : nonmod Q) g' v : nm_run control g = (g', Ok v) ->
  nm_par g' = nm_par g /\ nm_arch g' = nm_arch g.
Proof.
  intros H. apply nm_run_ok in H. destruct H as (p & c & o & s & prod & R & H & _).
  cbv zeta in H. destruct (ended g); [subst g'; split; reflexivity|].
  apply update_variables_varies in H. destruct H as (? & ? & ? & ->). split; reflexivity.
Qed.

Lemma run_records control (g : nonmod Q) g' v : nm_run control g = (g', Ok v) ->
  exists prod, recorded control g (nm_production g') (nm_cost g') (nm_co2 g') (nm_state g') prod
    /\ nm_actions g' = actions_after control g /\ last_row (nm_state g') = Ok v.
Proof.
  intros H. apply nm_run_ok in H. destruct H as (p & c & o & s & prod & R & H & HL). exists prod.
  cbv zeta in H. destruct (ended g); [subst g'; split; [exact R|split; [reflexivity|exact HL]]|].
  apply update_variables_varies in H. destruct H as (? & ? & ? & ->). split; [exact R|split; [reflexivity|exact HL]].
Qed.

(** *** Limits *)

Lemma full_control_get control g k : k <> "pv_consummed" -> k <> "pv" -> k <> "load" ->
  dget k (full_control control g) = dget k control.
Proof.
  intros A1 A2 A3. unfold full_control. rewrite dget_dremove by assumption.
  rewrite !dget_dset_other by assumption. reflexivity.
Qed.
Lemma full_control_load control g : dget "load" (full_control control g) = Some (now_load (nm_now g)).
Proof.
  unfold full_control. rewrite dget_dremove by discriminate.
  rewrite dget_dset_other by discriminate. apply dget_dset_same.
Qed.
Lemma full_control_pv control g : dget "pv" (full_control control g) = Some (now_pv (nm_now g)).
Proof. unfold full_control. rewrite dget_dremove by discriminate. apply dget_dset_same. Qed.

Lemma capa_charge_ok par soc x : capa_to_charge par soc = Ok x ->
  exists smax cap eff, dget "battery_soc_max" par = Some smax /\ dget "battery_capacity" par = Some cap
    /\ dget "battery_efficiency" par = Some eff /\ x == Qmax 0 ((smax - soc) * cap * eff).
Proof.
  unfold capa_to_charge. intros H. minv. unfind. injection H as <-.
  do 3 eexists. do 3 (split; [eassumption|]). rewrite nmax_Q. unum.
  rewrite Q.max_comm. setoid_replace ((x0 * x1 - soc * x1) * x2) with ((x0 - soc) * x1 * x2) by ring. reflexivity.
Qed.
Lemma capa_discharge_ok par soc x : capa_to_discharge par soc = Ok x ->
  exists smin cap eff, dget "battery_soc_min" par = Some smin /\ dget "battery_capacity" par = Some cap
    /\ dget "battery_efficiency" par = Some eff /\ x == Qmax 0 ((soc - smin) * cap * eff).
Proof.
  unfold capa_to_discharge. intros H. minv. unfind. injection H as <-.
  do 3 eexists. do 3 (split; [eassumption|]). rewrite nmax_Q. unum.
  rewrite Q.max_comm. setoid_replace ((soc * x1 - x0 * x1) * x2) with ((soc - x0) * x1 * x2) by ring. reflexivity.
Qed.

Lemma check_battery_ok g x y soc c d : check_battery (nm_par g) x y soc = Ok (c, d) ->
  exists cc cd, charge_limit g soc cc /\ discharge_limit g soc cd
    /\ c == limited x cc /\ d == limited y cd.
Proof.
  unfold check_battery. intros H. minv. unfind. unum. injection H as <- <-.
  match goal with H : capa_to_charge _ _ = Ok ?a |- _ => rename a into cc; rename H into HC end.
  match goal with H : capa_to_discharge _ _ = Ok ?a |- _ => rename a into cd; rename H into HD end.
  match goal with H : dget "battery_power_charge" _ = Some ?a |- _ => rename a into pc end.
  match goal with H : dget "battery_power_discharge" _ = Some ?a |- _ => rename a into pd end.
  exists (Qmin cc pc), (Qmin cd pd).
  apply capa_charge_ok in HC. apply capa_discharge_ok in HD.
  destruct HC as (sM & cap & eff & ? & ? & ? & EC). destruct HD as (sm & cap' & eff' & ? & ? & ? & ED).
  split; [exists sM, cap, eff, pc; repeat split; auto; rewrite EC; reflexivity|].
  split; [exists sm, cap', eff', pd; repeat split; auto; rewrite ED; reflexivity|].
  unfold limited. rewrite !limited_3, !limited_1. split; reflexivity.
Qed.

Lemma check_grid_ok g x y i e : check_grid (nm_par g) x y = Ok (i, e) ->
  exists mi me, parameter g "grid_power_import" mi /\ parameter g "grid_power_export" me
    /\ i == limited x mi /\ e == limited y me.
Proof.
  unfold check_grid. intros H. minv. unfind. unum. injection H as <- <-.
  do 2 eexists. split; [eassumption|]. split; [eassumption|].
  unfold limited. rewrite !limited_2, !limited_1. split; reflexivity.
Qed.

Lemma check_genset_ok g x p : check_genset (nm_par g) x = Ok p ->
  exists rated pmin pmax, parameter g "genset_rated_power" rated
    /\ parameter g "genset_pmin" pmin /\ parameter g "genset_pmax" pmax
    /\ (x <= 1 -> p == limited x (rated * pmax))
    /\ (1 < x -> p == Qmin (Qmax x (rated * pmin)) (rated * pmax)).
Proof.
  unfold check_genset. intros H. minv. unfind. unum. injection H as <-.
  do 3 eexists. do 3 (split; [eassumption|]). rewrite limited_2.
  set (a := x0 * x1). set (b := x0 * x2). split; intros L.
  - unfold limited. rewrite <- limited_1. destruct (Qltb x 0) eqn:E; qprop.
    + replace (Qltb 1 0) with false by reflexivity. rewrite andb_false_r. reflexivity.
    + replace (Qltb 1 x) with false by (symmetry; apply Qltb_ge; assumption). rewrite andb_false_r. reflexivity.
  - replace (Qltb x 0) with false by (symmetry; apply Qltb_ge; lra).
    replace (Qltb 1 x) with true by (symmetry; apply Qltb_lt; assumption). rewrite andb_true_r.
    destruct (Qltb x a) eqn:E; qprop.
    + rewrite (Q.max_r x a) by lra. reflexivity.
    + rewrite (Q.max_l x a) by lra. reflexivity.
Qed.

Lemma recorded_outcome control g p c o s prod : recorded control g p c o s prod ->
  exists x, columns_gained (nm_arch g) (nm_production g) p x /\ follows g control x
    /\ battery_part (nm_par g) (nm_arch g) (full_control control g) (nm_state g) x
    /\ pv_part (full_control control g) x.
Proof.
  intros R. destruct (rc_prod _ _ _ _ _ _ _ R) as (u & E). apply record_production_ok in E.
  destruct E as (x & BP & GP & SP & PV & C). exists x. split; [exact C|]. split; [|split; assumption].
  unfold follows, battery_part, grid_part, genset_part in *. clear C PV.
  destruct (has_battery (nm_arch g)), (has_grid (nm_arch g)), (has_genset (nm_arch g));
    repeat match goal with H : exists _, _ |- _ => destruct H | H : _ /\ _ |- _ => destruct H end;
    repeat match goal with H : dget _ (full_control _ _) = _ |- _ => rewrite full_control_get in H by discriminate end;
    repeat match goal with
    | H : check_battery _ _ _ _ = Ok _ |- _ => apply check_battery_ok in H; destruct H as (? & ? & ? & ? & ? & ?)
    | H : check_grid _ _ _ = Ok _ |- _ => apply check_grid_ok in H; destruct H as (? & ? & ? & ? & ? & ?)
    | H : check_genset _ _ = Ok _ |- _ => apply check_genset_ok in H; destruct H as (? & ? & ? & ? & ? & ? & ? & ?)
    end;
    (split; [|split]);
    first [ split; assumption | assumption | do 5 eexists; repeat (split; [eassumption|]); assumption
          | do 4 eexists; repeat (split; [eassumption|]); assumption ].
Qed.

Lemma run_follows control (g : nonmod Q) g' v : nm_run control g = (g', Ok v) ->
  exists o, produced g g' o /\ follows g control o.
Proof.
  intros H. apply run_records in H. destruct H as (prod & R & _). apply recorded_outcome in R.
  destruct R as (o & C & F & _). exists o. split; [exact C|exact F].
Qed.

(** *** The balance *)

Lemma nfrac_thousandth : (nfrac 1 1000 : Q) == 1 # 1000.
Proof. reflexivity. Qed.

Lemma balance_pv_ok req av c l cu ov : balance_pv req av = Ok (c, l, cu, ov) ->
  (l == 0 /\ cu == 0 /\ ov == 0 /\ c == av /\ Qabs (req - av) < 1 # 1000)
  \/ (av < req /\ c == av /\ l == req - av /\ cu == 0 /\ ov == 0)
  \/ (0 < req < av /\ c == req /\ l == 0 /\ cu == av - req /\ ov == 0)
  \/ (req < 0 /\ c == 0 /\ l == 0 /\ cu == Qmax 0 av /\ ov == - req).
Proof.
  unfold balance_pv. unum.
  destruct (Qltb (Qabs (req - av)) (nfrac 1 1000)) eqn:E1; qprop.
  - intros HH; injection HH as <- <- <- <-. left.
    repeat split; try reflexivity. assumption.
  - destruct (Qltb av req) eqn:E2; qprop.
    + intros HH; injection HH as <- <- <- <-. right; left. repeat split; try reflexivity. assumption.
    + destruct (Qltb 0 req && Qltb req av) eqn:E3; qprop.
      * intros HH; injection HH as <- <- <- <-. right; right; left.
        repeat split; try reflexivity; assumption.
      * destruct (Qltb req 0) eqn:E4; qprop.
        -- intros HH; injection HH as <- <- <- <-. right; right; right.
           repeat split; try reflexivity; try assumption.
           destruct (Qltb 0 av) eqn:E5; qprop.
           ++ rewrite Q.max_r by lra. reflexivity.
           ++ rewrite Q.max_l by lra. reflexivity.
        -- intros HH; discriminate HH.
Qed.

Lemma run_balance control (g : nonmod Q) g' v : nm_run control g = (g', Ok v) ->
  exists o, produced g g' o
    /\ (supply o == demand (now_load (nm_now g)) o
        \/ (Qabs (supply o - demand (now_load (nm_now g)) o) < 1 # 1000
            /\ oc_pv o == now_pv (nm_now g) /\ oc_loss o == 0 /\ oc_over o == 0))
    /\ 0 <= oc_loss o /\ 0 <= oc_over o
    /\ (oc_loss o == 0 \/ oc_over o == 0 /\ oc_pv o == now_pv (nm_now g))
    /\ (0 <= now_pv (nm_now g) ->
        oc_pv o + oc_curtailed o == now_pv (nm_now g) /\ 0 <= oc_pv o /\ 0 <= oc_curtailed o
        /\ (oc_over o == 0 \/ oc_pv o == 0)).
Proof.
  intros H. apply run_records in H. destruct H as (prod & R & _). apply recorded_outcome in R.
  destruct R as (o & C & _ & _ & PV). exists o. split; [exact C|]. clear C.
  destruct PV as (load & pv & req & EL & EP & ER & B).
  rewrite full_control_load in EL. rewrite full_control_pv in EP. injection EL as <-. injection EP as <-.
  apply balance_pv_ok in B. unfold supply, demand.
  set (L := now_load (nm_now g)) in *. set (P := now_pv (nm_now g)) in *.
  destruct B as [(B1 & B2 & B3 & B4 & B5)|[(B1 & B2 & B3 & B4 & B5)|[((B0 & B1) & B2 & B3 & B4 & B5)|(B1 & B2 & B3 & B4 & B5)]]].
  - assert (QA : Qabs (oc_discharge o + oc_import o + oc_genset o + oc_pv o + oc_loss o -
      (L + oc_charge o + oc_export o + oc_over o)) < 1 # 1000).
    { setoid_replace (oc_discharge o + oc_import o + oc_genset o + oc_pv o + oc_loss o -
        (L + oc_charge o + oc_export o + oc_over o)) with (- (req - P)) by (rewrite B1, B3, B4, ER; ring).
      rewrite Qabs_opp. assumption. }
    split; [right; auto|]. split; [lra|]. split; [lra|]. split; [left; assumption|].
    intros K. split; [lra|]. split; [lra|]. split; [lra|]. left; assumption.
  - split; [left; lra|]. split; [lra|]. split; [lra|]. split; [right; split; lra|].
    intros K. split; [lra|]. split; [lra|]. split; [lra|]. left; assumption.
  - split; [left; lra|]. split; [lra|]. split; [lra|]. split; [left; lra|].
    intros K. split; [lra|]. split; [lra|]. split; [lra|]. left; assumption.
  - split; [left; lra|]. split; [lra|]. split; [lra|]. split; [left; lra|].
    intros K. rewrite Q.max_r in B4 by assumption. split; [lra|]. split; [lra|]. split; [lra|]. right; assumption.
Qed.
