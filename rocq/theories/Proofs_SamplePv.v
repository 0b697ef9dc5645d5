(** * Proofs about samples of the PV *)

From Coq Require Import ZArith QArith Qabs Qminmax Lqa Lia Bool String List.
From Verif Require Import Num Py NonModular Sampling Spec_Sampling Spec_Module Proofs_Num Proofs_SampleGrid Proofs_SampleLoad.
Import ListNotations.
Local Open Scope string_scope.
Local Open Scope list_scope.
Local Open Scope Q_scope.

(** ** Dawn and dusk *)

Lemma dark_first col : forall k, match dark k col with
  | [] => forall i x, nth_error col i = Some x -> ~ x == 0
  | b :: _ => (k <= b)%nat /\ (exists x, nth_error col (b - k) = Some x /\ x == 0) /\ forall i x, (i < b - k)%nat -> nth_error col i = Some x -> ~ x == 0
  end.
Proof.
  induction col as [|x col IH]; intro k; [intros [|i] x; discriminate|]. cbn [dark]. change (neqb x n0) with (Qeq_bool x 0).
  destruct (Qeq_bool x 0) eqn:E.
  - apply Qeq_bool_iff in E. split; [lia|]. replace (k - k)%nat with 0%nat by lia. split; [exists x; auto|]. intros i y H. lia.
  - assert (NE : ~ x == 0) by (intro H; apply Qeq_bool_iff in H; congruence). specialize (IH (S k)). destruct (dark (S k) col) as [|b r].
    + intros [|i] y H; [injection H as <-; exact NE|exact (IH i y H)].
    + destruct IH as [I1 [[y [I2 I3]] I4]]. split; [lia|]. replace (b - k)%nat with (S (b - S k)) by lia. split; [exists y; auto|].
      intros [|i] w L H; [injection H as <-; exact NE|]. apply (I4 i w); [lia|exact H].
Qed.

Definition found (k : nat) (col : list Q) (a b : nat) : Prop :=
  (k <= a)%nat /\ (S a < b)%nat /\ (forall i, (i <= a - k)%nat -> exists x, nth_error col i = Some x /\ x == 0)
  /\ (forall i x, (a - k < i < b - k)%nat -> nth_error col i = Some x -> ~ x == 0)
  /\ (exists x, nth_error col (b - k) = Some x /\ x == 0).
Lemma dawn_dusk_cases col : forall k x0, nth_error col 0 = Some x0 -> x0 == 0 ->
  match dawn_dusk (dark k col) with
  | Ok (a, b) => found k col a b
  | Err e => ex_class e = IndexError /\ forall i j x y, (i < j)%nat -> nth_error col i = Some x -> nth_error col j = Some y -> y == 0 -> x == 0
  end.
Proof.
  induction col as [|x col IH]; intros k x0 H0 Z0; [discriminate|]. injection H0 as ->. cbn [dark]. change (neqb x0 n0) with (Qeq_bool x0 0).
  rewrite (proj2 (Qeq_bool_iff x0 0) Z0). cbn [dawn_dusk]. pose proof (dark_first col (S k)) as F. destruct (dark (S k) col) as [|b r] eqn:ED.
  - split; [reflexivity|]. intros [|i] [|j] x y L I J Q1; try lia.
    + injection I as <-. exact Z0.
    + exfalso. apply (F j y J Q1).
  - destruct F as [F1 [[y [F2 F3]] F4]]. destruct (Nat.eqb (S k) b) eqn:E.
    + apply Nat.eqb_eq in E. subst b. replace (S k - S k)%nat with 0%nat in F2 by lia.
      specialize (IH (S k) y F2 F3). rewrite ED in IH. destruct (dawn_dusk (S k :: r)) as [[a b]|e].
      * destruct IH as [G1 [G2 [G3 [G4 [w [G5 G6]]]]]]. split; [lia|]. split; [exact G2|]. split; [|split].
        -- intros [|i] L; [exists x0; auto|]. apply G3. lia.
        -- intros [|i] v L I; [lia|]. apply (G4 i v); [lia|exact I].
        -- exists w. replace (b - k)%nat with (S (b - S k)) by lia. auto.
      * destruct IH as [G1 G2]. split; [exact G1|]. intros [|i] [|j] v w L I J Q1; try lia.
        -- injection I as <-. exact Z0.
        -- apply (G2 i j v w); [lia|exact I|exact J|exact Q1].
    + apply Nat.eqb_neq in E. split; [lia|]. split; [lia|]. split; [|split].
      * intros i L. replace i with 0%nat by lia. exists x0. auto.
      * intros [|i] v L I; [lia|]. apply (F4 i v); [lia|exact I].
      * exists y. replace (b - k)%nat with (S (b - S k)) by lia. auto.
Qed.

Lemma nth_of {A} (l : list A) i x d : nth_error l i = Some x -> nth i l d = x.
Proof. intro H. apply nth_error_nth with (d := d) in H. exact H. Qed.
Lemma found_sunny col a b : length col = 24%nat -> (exists x, nth_error col 23 = Some x /\ x == 0) -> found 0 col a b -> sunny col a b.
Proof.
  intros L [n [N1 N2]] [F1 [F2 [F3 [F4 [x [F5 F6]]]]]]. rewrite Nat.sub_0_r in *. constructor; auto.
  - intros h H. destruct (F3 h ltac:(lia)) as [y [Y1 Y2]]. now rewrite (nth_of _ _ _ _ Y1).
  - intros h H. rewrite Nat.sub_0_r in F4. destruct (nth_error col h) as [y|] eqn:E.
    + rewrite (nth_of _ _ _ _ E). apply (F4 h y); assumption.
    + apply nth_error_None in E. apply nth_error_Some_lt in F5. lia.
  - now rewrite (nth_of _ _ _ _ F5).
  - now rewrite (nth_of _ _ _ _ N1).
Qed.
Lemma sunny_unique col a b a' b' : sunny col a b -> sunny col a' b' -> a = a' /\ b = b'.
Proof.
  intros S1 S2.
  assert (LT : forall a b a' b', sunny col a b -> sunny col a' b' -> ~ (a < a')%nat).
  { clear. intros a b a' b' S1 S2 H. apply (su_light _ _ _ S1 (S a)); [pose proof (su_order _ _ _ S1); lia|].
    pose proof (su_dawn _ _ _ S2 (S a) ltac:(lia)) as D. destruct (Nat.lt_ge_cases (S a) 24) as [L|L].
    - rewrite (nth_indep _ _ 1) by (rewrite (su_hours _ _ _ S1); exact L). exact D.
    - rewrite nth_overflow by (rewrite (su_hours _ _ _ S1); exact L). reflexivity. }
  assert (E : a = a'). { pose proof (LT _ _ _ _ S1 S2). pose proof (LT _ _ _ _ S2 S1). lia. }
  split; [exact E|]. subst a'.
  assert (LB : forall b b', sunny col a b -> sunny col a b' -> ~ (b < b')%nat).
  { clear. intros b b' S1 S2 H. apply (su_light _ _ _ S2 b); [pose proof (su_order _ _ _ S1); lia|]. pose proof (su_dusk _ _ _ S1) as D.
    destruct (Nat.lt_ge_cases b 24) as [L|L].
    - rewrite (nth_indep _ _ 1) by (rewrite (su_hours _ _ _ S1); exact L). exact D.
    - rewrite nth_overflow by (rewrite (su_hours _ _ _ S1); exact L). reflexivity. }
  pose proof (LB _ _ S1 S2). pose proof (LB _ _ S2 S1). lia.
Qed.
Lemma sunny_ends col a b : sunny col a b -> (exists x, nth_error col 0 = Some x /\ x == 0) /\ (exists x, nth_error col 23 = Some x /\ x == 0).
Proof.
  intros S1. pose proof (su_hours _ _ _ S1) as L. pose proof (su_dawn _ _ _ S1 0 ltac:(lia)) as D. pose proof (su_night _ _ _ S1) as N.
  split; [exists (nth 0 col 1)|exists (nth 23 col 1)]; (split; [apply nth_error_nth'; lia|assumption]).
Qed.
Lemma sunny_found col a b : sunny col a b -> dawn_dusk (dark 0 col) = Ok (a, b).
Proof.
  intros S1. destruct (sunny_ends _ _ _ S1) as [[x [X1 X2]] N]. pose proof (dawn_dusk_cases col 0 x X1 X2) as C.
  destruct (dawn_dusk (dark 0 col)) as [[a' b']|e].
  - destruct (sunny_unique col a b a' b' S1 (found_sunny _ _ _ (su_hours _ _ _ S1) N C)) as [-> ->]. reflexivity.
  - destruct C as [_ C]. exfalso. pose proof (su_order _ _ _ S1). apply (su_light _ _ _ S1 (S a)); [lia|].
    destruct N as [n [N1 N2]]. destruct (Nat.lt_ge_cases (S a) 23) as [L|L].
    + apply (C (S a) 23%nat _ n L); [apply nth_error_nth'; rewrite (su_hours _ _ _ S1); lia|exact N1|exact N2].
    + destruct (Nat.eq_dec (S a) 23) as [->|NE]; [now rewrite (nth_of _ _ _ _ N1)|].
      rewrite nth_overflow; [reflexivity|]. rewrite (su_hours _ _ _ S1). lia.
Qed.

(** ** One day *)

Lemma number_of n : of_nat (T := Q) n = number n.
Proof. reflexivity. Qed.
Lemma number_lt a b : (a < b)%nat -> number a < number b.
Proof. intro H. unfold number. rewrite <- Zlt_Qlt. lia. Qed.
Lemma number_le a b : (a <= b)%nat -> number a <= number b.
Proof. intro H. unfold number. rewrite <- Zle_Qle. lia. Qed.
Lemma parabola_arc dawn dusk peak h : (dawn < dusk)%nat -> arc dawn dusk peak h (parabola dawn dusk peak h).
Proof.
  intro O. pose proof (number_lt _ _ O) as L. unfold arc, parabola. cbv zeta. change (@of_nat Q Q_ops) with number. cbn [nadd nsub nmul ndiv n0 n1 nofZ Q_ops].
  change (inject_Z 2) with 2.
  destruct (Nat.ltb h dawn || Nat.ltb dusk h) eqn:E.
  - replace (Nat.ltb dawn h && Nat.ltb h dusk) with false; [reflexivity|]. symmetry. apply andb_false_iff. apply orb_true_iff in E. rewrite !Nat.ltb_lt in E. rewrite !Nat.ltb_ge. lia.
  - apply orb_false_iff in E. rewrite !Nat.ltb_ge in E. destruct (Nat.ltb dawn h && Nat.ltb h dusk) eqn:F.
    + field. lra.
    + apply andb_false_iff in F. rewrite !Nat.ltb_ge in F. assert (C : h = dawn \/ h = dusk) by lia. destruct C as [-> | ->]; field; lra.
Qed.
Lemma arc_bounds dawn dusk peak h v : arc dawn dusk peak h v -> 0 <= peak -> 0 <= v /\ v <= peak.
Proof.
  unfold arc. destruct (Nat.ltb dawn h && Nat.ltb h dusk) eqn:E; intros A P; [|lra].
  apply andb_true_iff in E. rewrite !Nat.ltb_lt in E. destruct E as [E1 E2]. pose proof (number_lt _ _ E1) as L1. pose proof (number_lt _ _ E2) as L2.
  set (p := number h - number dawn) in *. set (q := number dusk - number h) in *. assert (W : number dusk - number dawn == p + q) by (unfold p, q; lra).
  assert (Pp : 0 < p) by (unfold p; lra). assert (Pq : 0 < q) by (unfold q; lra).
  rewrite W in A. assert (W2 : 0 < (p + q) * (p + q)) by (apply Qmult_lt_0_compat; lra).
  split.
  - apply Qmult_le_r with (z := (p + q) * (p + q)); [exact W2|]. rewrite A. rewrite Qmult_0_l.
    apply Qmult_le_0_compat; [|exact P]. apply Qmult_le_0_compat; lra.
  - apply Qmult_le_r with (z := (p + q) * (p + q)); [exact W2|]. rewrite A.
    assert (D : peak * ((p + q) * (p + q)) - 4 * p * q * peak == peak * ((p - q) * (p - q))) by ring.
    assert (S1 : 0 <= (p - q) * (p - q)).
    { destruct (Qlt_le_dec (p - q) 0) as [N|N]; [assert (X : (p - q) * (p - q) == (- (p - q)) * (- (p - q))) by ring; rewrite X|]; apply Qmult_le_0_compat; lra. }
    assert (D2 : 0 <= peak * ((p - q) * (p - q))) by (apply Qmult_le_0_compat; assumption). lra.
Qed.
Lemma arc_night dawn dusk peak h v : arc dawn dusk peak h v -> (h <= dawn \/ dusk <= h)%nat -> v == 0.
Proof.
  unfold arc. intros A H. destruct (Nat.ltb dawn h && Nat.ltb h dusk) eqn:E; [|exact A].
  apply andb_true_iff in E. rewrite !Nat.ltb_lt in E. lia.
Qed.

Section Pv.
  Variables (least most : Q -> Q) (tri : Q -> Q -> Q -> Q -> Q).
  Notation bounds := (light_bounds least most).

  Lemma bounds_curves hour : between_curves least most hour (fst (bounds hour)) (snd (bounds hour)).
  Proof.
    unfold between_curves, light_bounds. cbn [nltb n0 Q_ops nopp]. unfold Qltb, nmax, nmin. cbn [nltb Q_ops]. unfold Qltb.
    set (a := least hour). set (b := most hour). destruct (Qle_bool 0 a) eqn:Ea; cbn [negb]; [split; reflexivity|].
    destruct (Qle_bool 0 b) eqn:Eb; cbn [negb]; [split; reflexivity|]. cbn [fst snd].
    destruct (Qle_bool b a) eqn:E1; destruct (Qle_bool a b) eqn:E2; cbn [negb];
      repeat match goal with
      | H : Qle_bool _ _ = true |- _ => apply Qle_bool_iff in H
      | H : Qle_bool ?x ?y = false |- _ => assert (y < x) by (apply Qnot_le_lt; intro; apply not_true_iff_false in H; apply H; now apply Qle_bool_iff); clear H
      end.
    - split; [rewrite Q.min_l|rewrite Q.max_r]; lra.
    - split; [rewrite Q.min_l|rewrite Q.max_r]; lra.
    - split; [rewrite Q.min_r|rewrite Q.max_l]; lra.
    - lra.
  Qed.

  Lemma fold_nmax (l : list Q) : forall a, (fold_left nmax l a = a \/ In (fold_left nmax l a) l) /\ a <= fold_left nmax l a /\ forall x, In x l -> x <= fold_left nmax l a.
  Proof.
    induction l as [|x l IH]; intro a; cbn [fold_left].
    - split; [now left|]. split; [lra|contradiction].
    - destruct (IH (nmax a x)) as [I1 [I2 I3]].
      assert (M : (nmax a x = a \/ nmax a x = x) /\ a <= nmax a x /\ x <= nmax a x).
      { unfold nmax. cbn. unfold Qltb. destruct (Qle_bool x a) eqn:E; cbn.
        - apply Qle_bool_iff in E. split; [now left|]. split; lra.
        - assert (L : a < x) by (apply Qnot_le_lt; intro H; apply Qle_bool_iff in H; congruence). split; [now right|]. split; lra. }
      destruct M as [M1 [M2 M3]]. split; [|split].
      + destruct I1 as [I1|I1]; [rewrite I1|right; right; exact I1]. destruct M1 as [M1|M1]; [left; exact M1|right; left; congruence].
      + lra.
      + intros y [->|J]; [lra|now apply I3].
  Qed.
  Lemma day_highest col dawn dusk : sunny col dawn dusk -> exists m, highest col m /\ m == fold_left nmax col 0.
  Proof.
    intro S1. destruct (sunny_ends _ _ _ S1) as [[x [X1 X2]] _]. apply nth_error_In in X1. destruct (fold_nmax col 0) as [A [B C]].
    destruct A as [A|A].
    - exists x. split; [|rewrite A; exact X2]. split; [exact X1|]. intros y I. specialize (C y I). rewrite A in C. lra.
    - exists (fold_left nmax col 0). split; [split; assumption|reflexivity].
  Qed.
  Lemma peak_uniform (a : pv_args Q) data d dawn dusk u : az_shape a = Some "uniform" -> 0 <= u -> u < 1 -> sunny (day_of_data data d) dawn dusk ->
    exists peak, peak_of tri a (bounds (nadd (of_nat (d * 24)) (ndiv (nadd (of_nat dawn) (of_nat dusk)) (nofZ 2)))) (day_of_data data d) u = Ok peak
      /\ peak_drawn least most a data d dawn dusk peak.
  Proof.
    intros A U V S1. replace (d * 24)%nat with (24 * d)%nat by lia.
    set (hour := nadd (of_nat (24 * d)) (ndiv (nadd (of_nat dawn) (of_nat dusk)) (nofZ 2))).
    change hour with (middle d dawn dusk). pose proof (bounds_curves (middle d dawn dusk)) as BC.
    destruct (bounds (middle d dawn dusk)) as [lb ub]. cbn [fst snd] in BC.
    unfold peak_of, peak_drawn. rewrite A. change (String.eqb "uniform" "uniform") with true. cbn iota. cbn [rbind].
    set (p := nadd (nadd lb (nmul (az_lower a) (nsub ub lb)))
       (nmul (nsub (nadd ub (nmul (nsub (az_upper a) n1) (nsub ub lb))) (nadd lb (nmul (az_lower a) (nsub ub lb)))) u)).
    assert (PB : peak_between least most (az_lower a) (az_upper a) d dawn dusk p).
    { exists lb, ub, u. split; [exact BC|]. split; [exact U|]. split; [exact V|]. unfold p. cbn [nadd nsub nmul n1 Q_ops]. ring. }
    destruct (az_peak a) as [r|].
    - eexists. split; [reflexivity|]. destruct (day_highest _ _ _ S1) as [m [M1 M2]]. exists p, m. split; [exact PB|]. split; [exact M1|].
      cbn [nadd nsub nmul n0 Q_ops]. rewrite M2. reflexivity.
    - exists p. split; [reflexivity|exact PB].
  Qed.

  (** ** Days *)

  Lemma day_length (data : list Q) d : (length (day_values data d) = Nat.min 24 (length data - 24 * d))%nat.
  Proof. unfold day_values. now rewrite firstn_length, skipn_length. Qed.
  Lemma sample_day_ok (a : pv_args Q) data d u base : sample_day least most tri a data d u = Ok base ->
    (24 * d + 24 <= length data)%nat /\ exists dawn dusk peak, sunny (day_of_data data d) dawn dusk
      /\ peak_of tri a (bounds (nadd (of_nat (d * 24)) (ndiv (nadd (of_nat dawn) (of_nat dusk)) (nofZ 2)))) (day_of_data data d) u = Ok peak
      /\ base = map (parabola dawn dusk peak) (seq 0 24).
  Proof.
    unfold sample_day. change (day_of_data data d) with (day_values data d). pose proof (day_length data d) as DL. set (col := day_values data d) in *. clearbody col.
    destruct (negb (neqb (hd n0 col) n0)) eqn:E0; [discriminate|]. apply negb_false_iff in E0. cbn [neqb n0 Q_ops] in E0. apply Qeq_bool_iff in E0.
    destruct (Nat.ltb (length data) 24) eqn:E1; [discriminate|]. apply Nat.ltb_ge in E1.
    destruct (Nat.ltb (length col) 24) eqn:E2; [discriminate|]. apply Nat.ltb_ge in E2. cbn [orb].
    destruct (negb (neqb (nth 23 col n0) n0)) eqn:E3; [discriminate|]. apply negb_false_iff in E3. cbn [neqb n0 Q_ops] in E3. apply Qeq_bool_iff in E3.
    assert (L : length col = 24%nat) by lia.
    destruct (dawn_dusk (dark 0 col)) as [[dawn dusk]|e] eqn:ED; [|discriminate]. cbn [rbind].
    destruct (peak_of tri a (bounds (nadd (of_nat (d * 24)) (ndiv (nadd (of_nat dawn) (of_nat dusk)) (nofZ 2)))) col u) as [peak|e] eqn:EP; [|discriminate].
    cbn [rbind]. intro H. injection H as <-. split; [lia|]. exists dawn, dusk, peak. split; [|split; [exact EP|reflexivity]].
    assert (N : exists x, nth_error col 23 = Some x /\ x == 0). { exists (nth 23 col 0). split; [apply nth_error_nth'; lia|exact E3]. }
    assert (H0 : exists x, nth_error col 0 = Some x /\ x == 0).
    { destruct col as [|x c]; [cbn in L; lia|]. exists x. split; [reflexivity|exact E0]. }
    destruct H0 as [x [X1 X2]]. pose proof (dawn_dusk_cases col 0 x X1 X2) as C. rewrite ED in C. now apply found_sunny.
  Qed.
  Lemma sample_day_sunny (a : pv_args Q) data d u dawn dusk : sunny (day_of_data data d) dawn dusk ->
    sample_day least most tri a data d u
    = rbind (peak_of tri a (bounds (nadd (of_nat (d * 24)) (ndiv (nadd (of_nat dawn) (of_nat dusk)) (nofZ 2)))) (day_of_data data d) u)
            (fun peak => Ok (map (parabola dawn dusk peak) (seq 0 24))).
  Proof.
    intros S1. unfold sample_day. change (day_of_data data d) with (day_values data d) in *. pose proof (day_length data d) as DL. set (col := day_values data d) in *. clearbody col.
    pose proof (su_hours _ _ _ S1) as L. destruct (sunny_ends _ _ _ S1) as [[x [X1 X2]] [y [Y1 Y2]]].
    assert (E0 : neqb (hd n0 col) n0 = true). { destruct col; [discriminate|]. injection X1 as ->. cbn. now apply Qeq_bool_iff. }
    assert (E3 : neqb (nth 23 col n0) n0 = true). { rewrite (nth_of _ _ _ _ Y1). now apply Qeq_bool_iff. }
    rewrite E0, E3, L. assert (G : Nat.ltb (length data) 24 = false) by (apply Nat.ltb_ge; lia). rewrite G. cbn [negb Nat.ltb Nat.leb orb].
    rewrite (sunny_found col dawn dusk S1). reflexivity.
  Qed.
  Lemma sample_day_dark (a : pv_args Q) data d u : length (day_of_data data d) = 24%nat -> (forall x, In x (day_of_data data d) -> x == 0) ->
    raises IndexError (sample_day least most tri a data d u).
  Proof.
    intros L Z. unfold sample_day. change (day_of_data data d) with (day_values data d) in *. pose proof (day_length data d) as DL. set (col := day_values data d) in *. clearbody col.
    destruct col as [|x c] eqn:EC; [discriminate|]. rewrite <- EC in *.
    assert (E0 : neqb (hd n0 col) n0 = true). { rewrite EC. cbn. apply Qeq_bool_iff. apply Z. rewrite EC. left. reflexivity. }
    assert (E3 : neqb (nth 23 col n0) n0 = true). { cbn [neqb n0 Q_ops]. apply Qeq_bool_iff. apply Z. apply nth_In. lia. }
    rewrite E0, E3, L. assert (G : Nat.ltb (length data) 24 = false) by (apply Nat.ltb_ge; lia). rewrite G. cbn [negb Nat.ltb Nat.leb orb].
    assert (X : nth_error col 0 = Some x) by (rewrite EC; reflexivity).
    pose proof (dawn_dusk_cases col 0 x X (Z x ltac:(rewrite EC; left; reflexivity))) as C. destruct (dawn_dusk (dark 0 col)) as [[dawn dusk]|e].
    - exfalso. destruct C as [C1 [C2 [C3 [C4 [v [C5 C6]]]]]]. rewrite Nat.sub_0_r in *.
      destruct (nth_error col (S dawn)) as [y|] eqn:Y.
      + apply (C4 (S dawn) y ltac:(lia) Y). apply Z. now apply nth_error_In in Y.
      + apply nth_error_None in Y. apply nth_error_Some_lt in C5. lia.
    - destruct C as [C _]. exists e. split; [reflexivity|exact C].
  Qed.
End Pv.
