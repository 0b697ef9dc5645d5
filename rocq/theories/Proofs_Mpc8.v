(** * What the steps of a cheapest plan look like *)

From Coq Require Import ZArith QArith Qminmax Bool String List Lia Lqa.
From Verif Require Import Num Py MPC Spec_MPC.
Import ListNotations.
Local Open Scope Q_scope.

Fixpoint put {A} (k : nat) (a : A) (l : list A) : list A :=
  match l, k with
  | [], _ => []
  | _ :: l', O => a :: l'
  | b :: l', S k' => b :: put k' a l'
  end.
Lemma put_length {A} (a : A) l : forall k, length (put k a l) = length l.
Proof. induction l as [|b l IH]; intros [|k]; cbn; auto. Qed.
Lemma put_nth {A} (a : A) l : forall k j, nth_error (put k a l) j = if Nat.eqb j k then match nth_error l k with Some _ => Some a | None => None end else nth_error l j.
Proof. induction l as [|b l IH]; intros [|k] [|j]; cbn [put nth_error Nat.eqb]; try reflexivity; [destruct (Nat.eqb j k); reflexivity|apply IH]. Qed.

Lemma plan_cost_put e s' : forall xs plan k x s, nth_error xs k = Some x -> nth_error plan k = Some s ->
  plan_cost e xs (put k s' plan) == plan_cost e xs plan - step_cost e x s + step_cost e x s'.
Proof.
  induction xs as [|x0 xs IH]; intros [|s0 plan] [|k] x s N M; try discriminate; cbn in N, M |- *.
  - injection N as <-. injection M as <-. ring.
  - rewrite (IH plan k x s N M). ring.
Qed.

Lemma allowed_before e b b' x s : b == b' -> allowed e b x s -> allowed e b' x s.
Proof. intros E [B S L1 L2 L3 L4 L5 L6 L7 L8]. split; auto. rewrite S, E. reflexivity. Qed.

(** No other step with the same change of charge is cheaper. *)
Lemma cheapest_step e soc xs plan k x s s' : cheapest e soc xs plan -> nth_error xs k = Some x -> nth_error plan k = Some s ->
  allowed e (soc_before soc plan k) x s' -> pl_soc s' == pl_soc s -> step_cost e x s <= step_cost e x s'.
Proof.
  intros ((LEN & AL) & OPT) N M A SO.
  assert (G : good_plan e soc xs (put k s' plan)).
  { split; [rewrite put_length; exact LEN|]. intros j y t NY. rewrite put_nth, M. destruct (Nat.eqb j k) eqn:E.
    - apply Nat.eqb_eq in E. subst j. rewrite N in NY. injection NY as <-. intros T. injection T as <-.
      eapply allowed_before; [|exact A]. destruct k as [|k]; [reflexivity|]. cbn [soc_before]. rewrite put_nth.
      replace (Nat.eqb k (S k)) with false by (symmetry; apply Nat.eqb_neq; lia). reflexivity.
    - intros T. eapply allowed_before; [|exact (AL j y t NY T)]. destruct j as [|j]; [reflexivity|]. cbn [soc_before]. rewrite put_nth, M.
      destruct (Nat.eqb j k) eqn:E2; [|reflexivity]. apply Nat.eqb_eq in E2. subst j. rewrite M. symmetry. exact SO. }
  pose proof (OPT _ G) as C. rewrite (plan_cost_put e s' xs plan k x s N M) in C. lra.
Qed.

Section Cheapest.
Variables (e : equipment) (soc : Q) (xs : list expected) (plan : list planned) (k : nat) (x : expected) (s : planned).
Hypothesis CH : cheapest e soc xs plan.
Hypothesis NX : nth_error xs k = Some x.
Hypothesis NS : nth_error plan k = Some s.

Lemma ch_allowed : allowed e (soc_before soc plan k) x s.
Proof. destruct CH as ((_ & AL) & _). exact (AL k x s NX NS). Qed.

(** A step that differs in amounts that do not touch the store *)
Definition moved (s : planned) (gen imp exp cur loss : Q) : planned :=
  mkPlanned (pl_genset s + gen) (pl_import s + imp) (pl_export s + exp) (pl_charge s) (pl_discharge s)
            (pl_curtail s + cur) (pl_loss s + loss) (pl_soc s) (pl_on s).
Lemma no_better gen imp exp cur loss :
  gen + imp - cur + loss == exp ->
  0 <= pl_import s + imp <= eq_import e * ex_grid x -> 0 <= pl_export s + exp <= eq_export e * ex_grid x ->
  0 <= pl_curtail s + cur <= ex_pv x -> 0 <= pl_loss s + loss <= ex_load x ->
  (gen = 0 \/ eq_gen e = true /\ pl_on s == 1 /\ 0 <= pl_genset s + gen /\ eq_gen_min e <= pl_genset s + gen <= eq_gen_max e) ->
  0 <= eq_gen_cost e * gen + ex_import x * imp + ex_export x * exp + eq_loss_cost e * loss.
Proof.
  intros BAL I E CU L G. pose proof ch_allowed as [B S L1 L2 L3 L4 L5 L6 L7 L8].
  assert (A : allowed e (soc_before soc plan k) x (moved s gen imp exp cur loss)).
  { split; cbn; auto; [lra|]. destruct G as [->|(-> & ON & G0 & G1)]; [|right; auto].
    destruct (eq_gen e); [|destruct L8 as (-> & O); split; [reflexivity|exact O]].
    destruct L8 as [(O & Z & M)|(O & P & M1 & M2)]; [left|right]; repeat split; auto; lra. }
  pose proof (cheapest_step e soc xs plan k x s _ CH NX NS A (Qeq_refl _)) as LE. unfold step_cost, moved in LE. cbn in LE. lra.
Qed.


Lemma eq_le (a b : Q) : a == b -> a <= b.
Proof. intros ->. apply Qle_refl. Qed.
Lemma small a b : 0 < a -> 0 < b -> exists d, 0 < d /\ d <= a /\ d <= b.
Proof.
  intros A B. exists (Qmin a b). split; [|split; [apply Q.le_min_l|apply Q.le_min_r]].
  destruct (Q.min_spec a b) as [[_ E]|[_ E]]; rewrite E; assumption.
Qed.
Lemma gain c d : 0 < d -> 0 <= - (d * c) -> c <= 0.
Proof. intros D H. destruct (Qlt_le_dec 0 c) as [P|P]; [|exact P]. pose proof (Qmult_lt_0_compat _ _ D P). lra. Qed.
(** Of two nonnegative amounts one is 0 if exchanging them pays. *)
Lemma one_is_0 a b c : 0 <= a -> 0 <= b -> 0 < c -> (forall d, 0 < d -> d <= a -> d <= b -> 0 <= - (d * c)) -> a == 0 \/ b == 0.
Proof.
  intros A B C H. destruct (Qlt_le_dec 0 a) as [PA|PA]; [|left; lra]. destruct (Qlt_le_dec 0 b) as [PB|PB]; [|right; lra].
  exfalso. destruct (small a b PA PB) as (d & D & D1 & D2). pose proof (gain c d D (H d D D1 D2)). lra.
Qed.
Local Ltac alw := pose proof ch_allowed as [BAL SOC L1 L2 L3 [I0 I1] [E0 E1] [C0 C1] [O0 O1] L8].
Local Ltac by_moving gen imp exp cur loss :=
  eapply Qle_trans; [apply (no_better gen imp exp cur loss); first [lra | left; reflexivity | idtac]|apply eq_le; ring].

(** Not bought and sold at once *)
Lemma ch_one_way : 0 < ex_import x + ex_export x -> pl_import s == 0 \/ pl_export s == 0.
Proof. alw. intros P. apply (one_is_0 _ _ _ I0 E0 P). intros d D D1 D2. by_moving 0 (- d) (- d) 0 0. Qed.
(** No load lost while energy is thrown away *)
Lemma ch_no_waste : 0 < eq_loss_cost e -> pl_loss s == 0 \/ pl_curtail s == 0.
Proof. alw. intros P. apply (one_is_0 _ _ _ O0 C0 P). intros d D D1 D2. by_moving 0 0 0 (- d) (- d). Qed.
(** Sun before grid *)
Lemma ch_sun_first : 0 < ex_import x -> pl_import s == 0 \/ pl_curtail s == 0.
Proof. alw. intros P. apply (one_is_0 _ _ _ I0 C0 P). intros d D D1 D2. by_moving 0 (- d) 0 (- d) 0. Qed.
(** No sun is sold if selling is an expense *)
Lemma ch_no_sale : 0 < ex_export x -> pl_export s == 0 \/ pl_curtail s == ex_pv x.
Proof.
  alw. intros P. assert (R : 0 <= ex_pv x - pl_curtail s) by lra.
  destruct (one_is_0 _ _ _ E0 R P) as [Z|Z]; [intros d D D1 D2; by_moving 0 0 (- d) d 0|auto|right; lra].
Qed.
(** Grid before loss *)
Lemma ch_serve : ex_import x < eq_loss_cost e -> pl_loss s == 0 \/ pl_import s == eq_import e * ex_grid x.
Proof.
  alw. intros P. assert (R : 0 <= eq_import e * ex_grid x - pl_import s) by lra. assert (P' : 0 < eq_loss_cost e - ex_import x) by lra.
  destruct (one_is_0 _ _ _ O0 R P') as [Z|Z]; [intros d D D1 D2; by_moving 0 d 0 0 (- d)|auto|right; lra].
Qed.

(** The genset, when it is on *)
Section On.
Hypothesis ON : pl_on s == 1.
Hypothesis GEN : eq_gen e = true.
Lemma on_range : 0 <= pl_genset s /\ eq_gen_min e <= pl_genset s <= eq_gen_max e.
Proof. alw. rewrite GEN in L8. destruct L8 as [(Z & _)|(_ & H)]; [exfalso; lra|exact H]. Qed.
Local Ltac by_running gen imp exp cur loss :=
  eapply Qle_trans; [apply (no_better gen imp exp cur loss); first [lra | right; repeat split; auto; lra]|apply eq_le; ring].
Lemma ch_gen_serve : eq_gen_cost e < eq_loss_cost e -> pl_loss s == 0 \/ pl_genset s == eq_gen_max e.
Proof.
  alw. destruct on_range as (G0 & G1 & G2). intros P. assert (R : 0 <= eq_gen_max e - pl_genset s) by lra. assert (P' : 0 < eq_loss_cost e - eq_gen_cost e) by lra.
  destruct (one_is_0 _ _ _ O0 R P') as [Z|Z]; [intros d D D1 D2; by_running d 0 0 0 (- d)|auto|right; lra].
Qed.
Lemma ch_gen_first : eq_gen_cost e < ex_import x -> pl_import s == 0 \/ pl_genset s == eq_gen_max e.
Proof.
  alw. destruct on_range as (G0 & G1 & G2). intros P. assert (R : 0 <= eq_gen_max e - pl_genset s) by lra. assert (P' : 0 < ex_import x - eq_gen_cost e) by lra.
  destruct (one_is_0 _ _ _ I0 R P') as [Z|Z]; [intros d D D1 D2; by_running d (- d) 0 0 0|auto|right; lra].
Qed.
(** Above its minimum the genset gives way *)
Lemma above_min : 0 <= pl_genset s - Qmax 0 (eq_gen_min e).
Proof. destruct on_range as (G0 & G1 & G2). destruct (Q.max_spec 0 (eq_gen_min e)) as [[_ E]|[_ E]]; rewrite E; lra. Qed.
Lemma max_both : 0 <= Qmax 0 (eq_gen_min e) /\ eq_gen_min e <= Qmax 0 (eq_gen_min e).
Proof. split; [apply Q.le_max_l|apply Q.le_max_r]. Qed.
Lemma ch_grid_first : ex_import x < eq_gen_cost e -> pl_genset s == Qmax 0 (eq_gen_min e) \/ pl_import s == eq_import e * ex_grid x.
Proof.
  alw. destruct on_range as (G0 & G1 & G2). destruct max_both. intros P. assert (R : 0 <= eq_import e * ex_grid x - pl_import s) by lra. assert (P' : 0 < eq_gen_cost e - ex_import x) by lra.
  destruct (one_is_0 _ _ _ above_min R P') as [Z|Z]; [intros d D D1 D2; by_running (- d) d 0 0 0|left; lra|right; lra].
Qed.
Lemma ch_sun_gen : 0 < eq_gen_cost e -> pl_genset s == Qmax 0 (eq_gen_min e) \/ pl_curtail s == 0.
Proof.
  alw. destruct on_range as (G0 & G1 & G2). destruct max_both. intros P.
  destruct (one_is_0 _ _ _ above_min C0 P) as [Z|Z]; [intros d D D1 D2; by_running (- d) 0 0 (- d) 0|left; lra|right; lra].
Qed.
Lemma ch_gen_sale : 0 < eq_gen_cost e + ex_export x -> pl_genset s == Qmax 0 (eq_gen_min e) \/ pl_export s == 0.
Proof.
  alw. destruct on_range as (G0 & G1 & G2). destruct max_both. intros P.
  destruct (one_is_0 _ _ _ above_min E0 P) as [Z|Z]; [intros d D D1 D2; by_running (- d) 0 (- d) 0 0|left; lra|right; lra].
Qed.
End On.

(** Charging and discharging at once is only a way to waste energy. *)
Lemma no_better_battery d cur imp loss :
  0 < eq_eta e <= 1 -> 0 <= d -> d <= pl_charge s -> d * (eq_eta e * eq_eta e) <= pl_discharge s ->
  d * (1 - eq_eta e * eq_eta e) == cur - imp - loss ->
  0 <= pl_import s + imp <= eq_import e * ex_grid x ->
  0 <= pl_curtail s + cur <= ex_pv x -> 0 <= pl_loss s + loss <= ex_load x ->
  0 <= ex_import x * imp + eq_loss_cost e * loss - eq_cycle_cost e * (d + d * (eq_eta e * eq_eta e)).
Proof.
  intros (EP & EL) D0 D1 D2 BAL' I CU L. alw. set (h := eq_eta e) in *.
  assert (HH : 0 <= d * (h * h)) by (apply Qmult_le_0_compat; [exact D0|apply Qmult_le_0_compat; lra]).
  set (s' := mkPlanned (pl_genset s) (pl_import s + imp) (pl_export s) (pl_charge s - d) (pl_discharge s - d * (h * h))
            (pl_curtail s + cur) (pl_loss s + loss) (pl_soc s) (pl_on s)).
  assert (A : allowed e (soc_before soc plan k) x s').
  { split; cbn; auto; try lra. fold h. rewrite SOC. fold h. destruct (Qeq_dec (eq_capacity e) 0) as [Z|Z].
    - unfold Qdiv. rewrite Z. change (/ 0) with 0. ring.
    - field. split; [lra|exact Z]. }
  pose proof (cheapest_step e soc xs plan k x s s' CH NX NS A (Qeq_refl _)) as LE. unfold step_cost, s' in LE. cbn in LE. lra.
Qed.
Lemma ch_battery_way : 0 < eq_eta e <= 1 -> 0 < eq_cycle_cost e -> 0 <= ex_import x -> 0 <= eq_loss_cost e ->
  pl_charge s == 0 \/ pl_discharge s == 0 \/ (eq_eta e < 1 /\ pl_curtail s == ex_pv x /\ pl_import s == 0 /\ pl_loss s == 0).
Proof.
  intros ET CY IM LC. alw. destruct L2 as [CH0 _], L3 as [DI0 _].
  destruct (Qlt_le_dec 0 (pl_charge s)) as [PC|PC]; [|left; lra]. right.
  destruct (Qlt_le_dec 0 (pl_discharge s)) as [PD|PD]; [|left; lra]. right.
  pose proof ET as [EP EL]. set (h := eq_eta e) in *.
  assert (H2 : 0 < h * h) by (apply Qmult_lt_0_compat; assumption).
  assert (H1 : h * h <= 1) by (eapply Qle_trans; [apply (Qmult_le_compat_r h 1 h); lra|lra]).
  assert (BASE : forall d cur imp loss, 0 < d -> d <= pl_charge s -> d <= pl_discharge s -> d * (1 - h * h) == cur - imp - loss ->
            imp <= 0 -> loss <= 0 -> 0 <= pl_import s + imp -> 0 <= pl_curtail s + cur <= ex_pv x -> 0 <= pl_loss s + loss -> False).
  { intros d cur imp loss D D1 D2 BA IL LL I CU L.
    assert (DH : d * (h * h) <= d) by (rewrite (Qmult_comm d); eapply Qle_trans; [apply (Qmult_le_compat_r (h * h) 1 d); lra|lra]).
    assert (DH0 : 0 < d * (h * h)) by (apply Qmult_lt_0_compat; assumption).
    assert (N : 0 <= ex_import x * imp + eq_loss_cost e * loss - eq_cycle_cost e * (d + d * (h * h))).
    { apply (no_better_battery d cur imp loss ET); fold h; try lra; exact BA. }
    pose proof (Qmult_le_0_compat _ (- imp) IM ltac:(lra)) as N1. pose proof (Qmult_le_0_compat _ (- loss) LC ltac:(lra)) as N2.
    pose proof (Qmult_lt_0_compat _ (d + d * (h * h)) CY ltac:(lra)) as N3. lra. }
  assert (DR : forall d, 0 < d -> 0 <= d * (1 - h * h) /\ d * (1 - h * h) <= d).
  { intros d D. split; [apply Qmult_le_0_compat; lra|]. pose proof (Qmult_lt_0_compat _ _ D H2). lra. }
  destruct (small _ _ PC PD) as (a & A0 & A1 & A2).
  split; [|split; [|split]].
  - destruct (Qlt_le_dec h 1) as [?|G]; [assumption|]. exfalso. assert (h == 1) by lra.
    apply (BASE a 0 0 0); try lra. rewrite H. ring.
  - destruct (Qlt_le_dec (pl_curtail s) (ex_pv x)) as [G|G]; [exfalso|lra].
    destruct (small a (ex_pv x - pl_curtail s) A0 ltac:(lra)) as (d & D0 & D1 & D2). destruct (DR d D0).
    apply (BASE d (d * (1 - h * h)) 0 0); lra.
  - destruct (Qlt_le_dec 0 (pl_import s)) as [G|G]; [exfalso|lra].
    destruct (small a (pl_import s) A0 G) as (d & D0 & D1 & D2). destruct (DR d D0).
    apply (BASE d 0 (- (d * (1 - h * h))) 0); lra.
  - destruct (Qlt_le_dec 0 (pl_loss s)) as [G|G]; [exfalso|lra].
    destruct (small a (pl_loss s) A0 G) as (d & D0 & D1 & D2). destruct (DR d D0).
    apply (BASE d 0 0 (- (d * (1 - h * h)))); lra.
Qed.
End Cheapest.

(** ** The last step: nothing is kept for later *)
Lemma cheapest_last e soc xs plan k x s s' : cheapest e soc xs plan -> length xs = S k -> nth_error xs k = Some x -> nth_error plan k = Some s ->
  allowed e (soc_before soc plan k) x s' -> step_cost e x s <= step_cost e x s'.
Proof.
  intros ((LEN & AL) & OPT) LA N M A.
  assert (G : good_plan e soc xs (put k s' plan)).
  { split; [rewrite put_length; exact LEN|]. intros j y t NY. rewrite put_nth, M. destruct (Nat.eqb j k) eqn:E.
    - apply Nat.eqb_eq in E. subst j. rewrite N in NY. injection NY as <-. intros T. injection T as <-.
      eapply allowed_before; [|exact A]. destruct k as [|k]; [reflexivity|]. cbn [soc_before]. rewrite put_nth.
      replace (Nat.eqb k (S k)) with false by (symmetry; apply Nat.eqb_neq; lia). reflexivity.
    - intros T. eapply allowed_before; [|exact (AL j y t NY T)]. destruct j as [|j]; [reflexivity|]. cbn [soc_before]. rewrite put_nth, M.
      destruct (Nat.eqb j k) eqn:E2; [|reflexivity]. apply Nat.eqb_eq in E2. subst j.
      assert (S k < length xs)%nat by (apply nth_error_Some; congruence). lia. }
  pose proof (OPT _ G) as C. rewrite (plan_cost_put e s' xs plan k x s N M) in C. lra.
Qed.

Section Last.
Variables (e : equipment) (soc : Q) (xs : list expected) (plan : list planned) (k : nat) (x : expected) (s : planned).
Hypothesis CH : cheapest e soc xs plan.
Hypothesis LA : length xs = S k.
Hypothesis NX : nth_error xs k = Some x.
Hypothesis NS : nth_error plan k = Some s.
Hypothesis ET : 0 < eq_eta e <= 1.
Hypothesis CAP : 0 < eq_capacity e.

Lemma no_better_last ch di imp cur loss :
  di + imp - cur + loss == ch ->
  0 <= pl_import s + imp <= eq_import e * ex_grid x -> 0 <= pl_curtail s + cur <= ex_pv x -> 0 <= pl_loss s + loss <= ex_load x ->
  0 <= pl_charge s + ch <= eq_charge e -> 0 <= pl_discharge s + di <= eq_discharge e ->
  let soc' := pl_soc s + (eq_eta e * ch - di / eq_eta e) / eq_capacity e in
  0 <= soc' -> eq_soc_min e <= soc' <= eq_soc_max e ->
  0 <= ex_import x * imp + eq_cycle_cost e * (ch + di) + eq_loss_cost e * loss.
Proof.
  intros BAL' I CU L CC DD soc' S0 S1. pose proof (ch_allowed e soc xs plan k x s CH NX NS) as [BAL SOC L1 L2 L3 L4 L5 L6 L7 L8].
  set (s' := mkPlanned (pl_genset s) (pl_import s + imp) (pl_export s) (pl_charge s + ch) (pl_discharge s + di)
            (pl_curtail s + cur) (pl_loss s + loss) soc' (pl_on s)).
  assert (A : allowed e (soc_before soc plan k) x s').
  { split; cbn; auto; try lra. unfold soc'. rewrite SOC. field. split; lra. }
  pose proof (cheapest_last e soc xs plan k x s s' CH LA NX NS A) as LE. unfold step_cost, s' in LE. cbn in LE. lra.
Qed.
Lemma last_charge : 0 <= soc -> eq_soc_min e <= soc -> 0 < eq_cycle_cost e -> 0 <= ex_import x -> 0 <= eq_loss_cost e ->
  pl_charge s == 0 \/ pl_curtail s == ex_pv x /\ pl_import s == 0 /\ pl_loss s == 0.
Proof.
  intros S0 SM CY IM LC. destruct (ch_battery_way e soc xs plan k x s CH NX NS ET CY IM LC) as [Z|[Z|(_ & Z)]]; [left; exact Z| |right; exact Z].
  destruct (ch_allowed e soc xs plan k x s CH NX NS) as [BAL SOC L1 [L2 L2'] L3 [I0 I1] L5 [C0 C1] [O0 O1] L8].
  destruct (Qlt_le_dec 0 (pl_charge s)) as [PC|PC]; [|left; lra]. right.
  assert (BE : 0 <= soc_before soc plan k /\ eq_soc_min e <= soc_before soc plan k).
  { destruct k as [|j]; [split; assumption|]. cbn [soc_before]. destruct (nth_error plan j) as [t|] eqn:M; [|split; assumption].
    destruct CH as ((LEN & AL) & _). destruct (nth_error xs j) as [y|] eqn:NY.
    - destruct (al_soc_limits _ _ _ _ (AL j y t NY M)) as (? & ? & _). split; assumption.
    - apply nth_error_None in NY. lia. }
  assert (UP : forall d, 0 <= d -> d <= pl_charge s -> let so := pl_soc s + (eq_eta e * - d - 0 / eq_eta e) / eq_capacity e in
            0 <= so /\ eq_soc_min e <= so <= eq_soc_max e).
  { intros d D D1. cbn zeta.
    assert (E : pl_soc s + (eq_eta e * - d - 0 / eq_eta e) / eq_capacity e == soc_before soc plan k + eq_eta e * (pl_charge s - d) / eq_capacity e).
    { rewrite SOC, Z. field. split; lra. }
    assert (P : 0 <= eq_eta e * (pl_charge s - d) / eq_capacity e).
    { apply Qle_shift_div_l; [exact CAP|]. rewrite Qmult_0_l. apply Qmult_le_0_compat; lra. }
    assert (P2 : 0 <= eq_eta e * d / eq_capacity e).
    { apply Qle_shift_div_l; [exact CAP|]. rewrite Qmult_0_l. apply Qmult_le_0_compat; lra. }
    assert (E2 : pl_soc s + (eq_eta e * - d - 0 / eq_eta e) / eq_capacity e == pl_soc s - eq_eta e * d / eq_capacity e) by (field; split; lra).
    rewrite E2 in *. rewrite E. split; [lra|]. split; [lra|]. rewrite <- E. lra. }
  assert (BASE : forall d cur imp loss, 0 < d -> d <= pl_charge s -> d == cur - imp - loss ->
            imp <= 0 -> loss <= 0 -> 0 <= pl_import s + imp -> 0 <= pl_curtail s + cur <= ex_pv x -> 0 <= pl_loss s + loss -> False).
  { intros d cur imp loss D D1 BA IL LL I CU L. destruct (UP d ltac:(lra) D1) as (U0 & U1).
    assert (N : 0 <= ex_import x * imp + eq_cycle_cost e * (- d + 0) + eq_loss_cost e * loss).
    { apply (no_better_last (- d) 0 imp cur loss); try lra; assumption. }
    pose proof (Qmult_le_0_compat _ (- imp) IM ltac:(lra)) as N1. pose proof (Qmult_le_0_compat _ (- loss) LC ltac:(lra)) as N2.
    pose proof (Qmult_lt_0_compat _ d CY ltac:(lra)) as N3. lra. }
  split; [|split].
  - destruct (Qlt_le_dec (pl_curtail s) (ex_pv x)) as [G|G]; [exfalso|lra].
    destruct (small _ (ex_pv x - pl_curtail s) PC ltac:(lra)) as (d & D0 & D1 & D2). apply (BASE d d 0 0); lra.
  - destruct (Qlt_le_dec 0 (pl_import s)) as [G|G]; [exfalso|lra].
    destruct (small _ (pl_import s) PC G) as (d & D0 & D1 & D2). apply (BASE d 0 (- d) 0); lra.
  - destruct (Qlt_le_dec 0 (pl_loss s)) as [G|G]; [exfalso|lra].
    destruct (small _ (pl_loss s) PC G) as (d & D0 & D1 & D2). apply (BASE d 0 0 (- d)); lra.
Qed.
(** What can be drawn to save buying or losing is drawn. *)
Lemma last_drawn : 0 <= eq_cycle_cost e ->
  pl_discharge s == eq_discharge e \/ pl_soc s == Qmax 0 (eq_soc_min e)
  \/ (eq_cycle_cost e < ex_import x -> pl_import s == 0) /\ (eq_cycle_cost e < eq_loss_cost e -> pl_loss s == 0).
Proof.
  intros CY. destruct (ch_allowed e soc xs plan k x s CH NX NS) as [BAL SOC (SO0 & SO1 & SO2) [L2 L2'] [D0 D1] [I0 I1] L5 [C0 C1] [O0 O1] L8].
  destruct (Qlt_le_dec (pl_discharge s) (eq_discharge e)) as [PD|PD]; [right|left; lra].
  assert (MX : Qmax 0 (eq_soc_min e) <= pl_soc s) by (apply Q.max_lub; assumption).
  destruct (Qlt_le_dec (Qmax 0 (eq_soc_min e)) (pl_soc s)) as [PS|PS]; [right|left; lra].
  pose proof (Q.le_max_l 0 (eq_soc_min e)) as M1. pose proof (Q.le_max_r 0 (eq_soc_min e)) as M2. set (mn := Qmax 0 (eq_soc_min e)) in *.
  set (r := eq_eta e * eq_capacity e). assert (R : 0 < r) by (apply Qmult_lt_0_compat; lra).
  assert (ROOM : 0 < r * (pl_soc s - mn)) by (apply Qmult_lt_0_compat; [exact R|lra]).
  destruct (small _ (eq_discharge e - pl_discharge s) ROOM ltac:(lra)) as (a & A0 & A1 & A2).
  assert (UP : forall d, 0 <= d -> d <= a -> let so := pl_soc s + (eq_eta e * 0 - d / eq_eta e) / eq_capacity e in
            0 <= so /\ eq_soc_min e <= so <= eq_soc_max e).
  { intros d D DA. cbn zeta.
    assert (E : pl_soc s + (eq_eta e * 0 - d / eq_eta e) / eq_capacity e == pl_soc s - d / r) by (unfold r; field; split; lra).
    assert (P : 0 <= d / r) by (apply Qle_shift_div_l; [exact R|lra]).
    assert (P2 : d / r <= pl_soc s - mn) by (apply Qle_shift_div_r; [exact R|lra]).
    rewrite E. lra. }
  split; intros LT.
  - destruct (Qlt_le_dec 0 (pl_import s)) as [G|G]; [exfalso|lra].
    destruct (small a (pl_import s) A0 G) as (d & Z0 & Z1 & Z2). destruct (UP d ltac:(lra) Z1) as (U0 & U1).
    assert (N : 0 <= ex_import x * - d + eq_cycle_cost e * (0 + d) + eq_loss_cost e * 0) by (apply (no_better_last 0 d (- d) 0 0); try lra; assumption).
    pose proof (Qmult_lt_0_compat _ d ltac:(exact (proj1 (Qlt_minus_iff _ _) LT)) Z0). lra.
  - destruct (Qlt_le_dec 0 (pl_loss s)) as [G|G]; [exfalso|lra].
    destruct (small a (pl_loss s) A0 G) as (d & Z0 & Z1 & Z2). destruct (UP d ltac:(lra) Z1) as (U0 & U1).
    assert (N : 0 <= ex_import x * 0 + eq_cycle_cost e * (0 + d) + eq_loss_cost e * - d) by (apply (no_better_last 0 d 0 0 (- d)); try lra; assumption).
    pose proof (Qmult_lt_0_compat _ d ltac:(exact (proj1 (Qlt_minus_iff _ _) LT)) Z0). lra.
Qed.
End Last.
