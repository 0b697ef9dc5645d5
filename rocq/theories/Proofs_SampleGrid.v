(** * Proofs about samples of the grid's status *)

From Coq Require Import ZArith QArith Qabs Lqa Lia Bool String List.
From Verif Require Import Num Py NonModular Sampling Spec_Sampling Spec_Module.
Import ListNotations.
Local Open Scope string_scope.
Local Open Scope list_scope.
Local Open Scope Q_scope.

Lemma number_S n : number (S n) == 1 + number n.
Proof. unfold number. rewrite Nat2Z.inj_succ. unfold Z.succ. rewrite inject_Z_plus. change (inject_Z 1) with 1. lra. Qed.
Lemma number_0 : number 0 == 0.
Proof. reflexivity. Qed.
Lemma number_nonneg n : 0 <= number n.
Proof. unfold number. change 0 with (inject_Z 0). rewrite <- Zle_Qle. lia. Qed.
Lemma number_pos n : (0 < n)%nat -> 0 < number n.
Proof. intro H. unfold number. change 0 with (inject_Z 0). rewrite <- Zlt_Qlt. lia. Qed.
Lemma number_plus a b : number (a + b) == number a + number b.
Proof. unfold number. rewrite Nat2Z.inj_add, inject_Z_plus. reflexivity. Qed.

Definition one_if (b : bool) : nat := if b then 1%nat else 0%nat.
Lemma filter_shift {A} (f : nat -> bool) (g : nat -> A) a n :
  length (filter f (seq (S a) n)) = length (filter (fun i => f (S i)) (seq a n)).
Proof. revert a. induction n; intro a; [reflexivity|]. cbn [seq filter]. destruct (f (S a)); cbn [length]; rewrite IHn; reflexivity. Qed.

Lemma times_cons x y l a : times (x :: y :: l) a = (one_if (Qeq_bool x a) + times (y :: l) a)%nat.
Proof.
  unfold times. replace (length (x :: y :: l) - 1)%nat with (S (length (y :: l) - 1)) by (cbn; lia).
  set (n := (length (y :: l) - 1)%nat). cbn [seq filter]. change (value_is (x :: y :: l) 0 a) with (Qeq_bool x a).
  assert (E : length (filter (fun i => value_is (x :: y :: l) i a) (seq 1 n))
              = length (filter (fun i => value_is (y :: l) i a) (seq 0 n))).
  { rewrite (filter_shift (A := nat) _ (fun i => i)). reflexivity. }
  destruct (Qeq_bool x a); cbn [length one_if]; rewrite E; reflexivity.
Qed.
Lemma moves_cons x y l a b :
  moves (x :: y :: l) a b = (one_if (Qeq_bool x a && Qeq_bool y b) + moves (y :: l) a b)%nat.
Proof.
  unfold moves. replace (length (x :: y :: l) - 1)%nat with (S (length (y :: l) - 1)) by (cbn; lia).
  set (n := (length (y :: l) - 1)%nat). cbn [seq filter]. change (value_is (x :: y :: l) 0 a && value_is (x :: y :: l) 1 b) with (Qeq_bool x a && Qeq_bool y b).
  assert (E : length (filter (fun i => value_is (x :: y :: l) i a && value_is (x :: y :: l) (S i) b) (seq 1 n))
              = length (filter (fun i => value_is (y :: l) i a && value_is (y :: l) (S i) b) (seq 0 n))).
  { rewrite (filter_shift (A := nat) _ (fun i => i)). reflexivity. }
  destruct (Qeq_bool x a && Qeq_bool y b); cbn [length one_if]; rewrite E; reflexivity.
Qed.
Lemma times_short l a : (length l <= 1)%nat -> times l a = 0%nat.
Proof. intro H. unfold times. replace (length l - 1)%nat with 0%nat by lia. reflexivity. Qed.
Lemma moves_short l a b : (length l <= 1)%nat -> moves l a b = 0%nat.
Proof. intro H. unfold moves. replace (length l - 1)%nat with 0%nat by lia. reflexivity. Qed.

Lemma value_is_Qeq l i v w : v == w -> value_is l i v = value_is l i w.
Proof. intro E. unfold value_is. destruct (nth_error l i); [|reflexivity]. apply eq_true_iff_eq. rewrite !Qeq_bool_iff. split; intro H; lra. Qed.
Lemma times_Qeq l v w : v == w -> times l v = times l w.
Proof. intro E. unfold times. f_equal. apply filter_ext. intro i. now apply value_is_Qeq. Qed.
Lemma moves_Qeq l v w v' w' : v == w -> v' == w' -> moves l v v' = moves l w w'.
Proof. intros E E'. unfold moves. f_equal. apply filter_ext. intro i. now rewrite (value_is_Qeq _ _ _ _ E), (value_is_Qeq _ _ _ _ E'). Qed.

Lemma is_one_binary x : binary x -> Qeq_bool x 1 = is_one x /\ Qeq_bool x 0 = negb (is_one x).
Proof.
  intros [E|E]; unfold is_one; cbn.
  - rewrite (proj2 (Qeq_bool_iff x 0) E). assert (F : Qeq_bool x 1 = false).
    { apply not_true_is_false. rewrite Qeq_bool_iff. lra. } rewrite F. auto.
  - rewrite (proj2 (Qeq_bool_iff x 1) E). assert (F : Qeq_bool x 0 = false).
    { apply not_true_is_false. rewrite Qeq_bool_iff. lra. } rewrite F. auto.
Qed.

Lemma count_moves_ok l : forall c0 c1 o, Forall binary l ->
  let '(c0', c1', o') := count_moves l c0 c1 o in
  (fst c0' == fst c0 + number (moves l 0 0) /\ snd c0' == snd c0 + number (moves l 0 1))
  /\ (fst c1' == fst c1 + number (moves l 1 0) /\ snd c1' == snd c1 + number (moves l 1 1))
  /\ (fst o' == fst o + number (times l 0) /\ snd o' == snd o + number (times l 1)).
Proof.
  induction l as [|x l IH]; intros c0 c1 o B.
  - cbn [count_moves]. rewrite !moves_short, !times_short, !number_0 by (cbn; lia). repeat split; lra.
  - destruct l as [|y l].
    { cbn [count_moves]. rewrite !moves_short, !times_short, !number_0 by (cbn; lia). repeat split; lra. }
    inversion B as [|? ? Bx B']; subst. pose proof B' as B2. inversion B2 as [|? ? By _]; subst.
    destruct (is_one_binary x Bx) as [X1 X0]. destruct (is_one_binary y By) as [Y1 Y0].
    change (count_moves (x :: y :: l) c0 c1 o) with
      (if is_one x then count_moves (y :: l) c0 (more (is_one y) c1) (more true o)
       else count_moves (y :: l) (more (is_one y) c0) c1 (more false o)).
    destruct (is_one x) eqn:Ex.
    + specialize (IH c0 (more (is_one y) c1) (more true o) B').
      destruct (count_moves (y :: l) c0 (more (is_one y) c1) (more true o)) as [[c0' c1'] o'].
      rewrite !moves_cons, !times_cons, X0, X1, Y0, Y1. rewrite !number_plus.
      destruct IH as [[A1 A2] [[A3 A4] [A5 A6]]].
      destruct (is_one y); cbn in *; rewrite ?number_0 in *; change (number 1) with 1; repeat split; lra.
    + specialize (IH (more (is_one y) c0) c1 (more false o) B').
      destruct (count_moves (y :: l) (more (is_one y) c0) c1 (more false o)) as [[c0' c1'] o'].
      rewrite !moves_cons, !times_cons, X0, X1, Y0, Y1. rewrite !number_plus.
      destruct IH as [[A1 A2] [[A3 A4] [A5 A6]]].
      destruct (is_one y); cbn in *; rewrite ?number_0 in *; change (number 1) with 1; repeat split; lra.
Qed.
Lemma times_moves l a : Forall binary l -> times l a = (moves l a 0 + moves l a 1)%nat.
Proof.
  induction l as [|x l IH]; intro B; [reflexivity|]. destruct l as [|y l]; [reflexivity|].
  inversion B as [|? ? Bx B']; subst. pose proof B' as B2. inversion B2 as [|? ? By _]; subst.
  rewrite times_cons, !moves_cons, (IH B'). destruct (is_one_binary y By) as [Y1 Y0]. rewrite Y1, Y0.
  destruct (Qeq_bool x a), (is_one y); cbn; lia.
Qed.

(** ** Learning *)

Lemma new_grid_iff data dist (g : noisy_grid Q) : new_noisy_grid data dist = Ok g
  <-> Forall binary data /\ (dist = "naive" \/ dist = "markov") /\ g = mkNoisyGrid dist data.
Proof.
  unfold new_noisy_grid. destruct (forallb (fun x => neqb x n1 || neqb x n0) data) eqn:E; cbn [negb].
  - assert (B : Forall binary data).
    { apply Forall_forall. intros x I. rewrite forallb_forall in E. specialize (E x I). cbn in E. apply orb_true_iff in E.
      rewrite !Qeq_bool_iff in E. destruct E; [right|left]; assumption. }
    destruct (String.eqb dist "naive" || String.eqb dist "markov") eqn:D.
    + split; [intro H; injection H as <-|intros [_ [_ ->]]; reflexivity]. split; [exact B|]. split; [|reflexivity].
      apply orb_true_iff in D. rewrite !String.eqb_eq in D. exact D.
    + split; [discriminate|]. intros [_ [H _]]. exfalso. apply orb_false_iff in D. rewrite !String.eqb_neq in D. tauto.
  - split; [discriminate|]. intros [B _]. exfalso. rewrite <- not_true_iff_false in E. apply E. apply forallb_forall. intros x I.
    rewrite Forall_forall in B. specialize (B x I). apply orb_true_iff. cbn. rewrite !Qeq_bool_iff. destruct B; auto.
Qed.
Lemma new_grid_refused data dist : ~ Forall binary data -> raises ValueError (new_noisy_grid (T := Q) data dist).
Proof.
  intro H. unfold new_noisy_grid. destruct (forallb (fun x => neqb x n1 || neqb x n0) data) eqn:E; cbn [negb].
  - exfalso. apply H. apply Forall_forall. intros x I. rewrite forallb_forall in E. specialize (E x I). cbn in E. apply orb_true_iff in E.
    rewrite !Qeq_bool_iff in E. destruct E; [right|left]; assumption.
  - now eexists.
Qed.

Lemma row_ok (c : Q * Q) (o : Q) (a b t : nat) : fst c == number a -> snd c == number b -> o == number t -> t = (a + b)%nat -> (0 < t)%nat ->
  let p := (fst c / o, snd c / o) in
  0 <= fst p /\ 0 <= snd p /\ fst p + snd p == 1 /\ fst p * number t == number a /\ snd p * number t == number b.
Proof.
  intros A B O E P. cbn [fst snd]. pose proof (number_pos t P) as Pt. assert (P' : 0 < o) by lra.
  pose proof (number_nonneg a). pose proof (number_nonneg b).
  assert (S1 : number t == number a + number b) by (rewrite E; apply number_plus).
  split; [apply Qle_shift_div_l; [exact P'|lra]|]. split; [apply Qle_shift_div_l; [exact P'|lra]|].
  split; [|split].
  - rewrite A, B, O. unfold Qdiv. rewrite <- Qmult_plus_distr_l. rewrite <- S1. apply Qmult_inv_r. lra.
  - rewrite A, O. field. lra.
  - rewrite B, O. field. lra.
Qed.
Lemma number_zero n : number n == 0 -> n = 0%nat.
Proof. intro H. destruct n; [reflexivity|]. pose proof (number_pos (S n) ltac:(lia)). lra. Qed.

Lemma learn_markov (data : list Q) : Forall binary data ->
  exists r0 r1 o, learn_distribution (mkNoisyGrid "markov" data) = Ok (Markov r0 r1 o)
    /\ learned_from data 0 r0 /\ learned_from data 1 r1 /\ fst o == number (times data 0) /\ snd o == number (times data 1).
Proof.
  intro B. unfold learn_distribution. cbn [ng_dist ng_data String.eqb].
  change (String.eqb "markov" "naive") with false. cbn iota.
  pose proof (count_moves_ok data (n0, n0) (n0, n0) (n0, n0) B) as C.
  destruct (count_moves data (n0, n0) (n0, n0) (n0, n0)) as [[c0 c1] o].
  cbn [fst snd] in C. change n0 with 0 in *.
  destruct C as [[A1 A2] [[A3 A4] [A5 A6]]].
  pose proof (times_moves data 0 B) as T0. pose proof (times_moves data 1 B) as T1.
  set (row0 := if nltb 0 (fst o) then (ndiv (fst c0) (fst o), ndiv (snd c0) (fst o)) else (n1, snd c0)).
  set (row1 := if nltb 0 (snd o) then (ndiv (fst c1) (snd o), ndiv (snd c1) (snd o)) else (fst c1, n1)).
  assert (L0 : learned_from data 0 row0).
  { unfold learned_from, row0. cbn. unfold Qltb. destruct (Qle_bool (fst o) 0) eqn:E; cbn [negb fst snd].
    - apply Qle_bool_iff in E. assert (Z : times data 0 = 0%nat).
      { apply number_zero. pose proof (number_nonneg (times data 0)). lra. }
      assert (Z2 : moves data 0 1 = 0%nat) by lia. rewrite Z2, number_0 in A2. rewrite Z.
      repeat split; try lra. all: intros; try (exfalso; lia); try reflexivity; try lra.
    - assert (P : 0 < fst o) by (apply Qnot_le_lt; intro H; apply Qle_bool_iff in H; congruence).
      assert (P' : (0 < times data 0)%nat).
      { destruct (times data 0); [rewrite number_0 in A5; lra|lia]. }
      destruct (row_ok c0 (fst o) (moves data 0 0) (moves data 0 1) (times data 0)) as [R1 [R2 [R3 [R4 R5]]]]; try lra; try lia.
      cbn [fst snd] in *. repeat split; try assumption. intro H. lia. }
  assert (L1 : learned_from data 1 row1).
  { unfold learned_from, row1. cbn. unfold Qltb. destruct (Qle_bool (snd o) 0) eqn:E; cbn [negb fst snd].
    - apply Qle_bool_iff in E. assert (Z : times data 1 = 0%nat).
      { apply number_zero. pose proof (number_nonneg (times data 1)). lra. }
      assert (Z2 : moves data 1 0 = 0%nat) by lia. rewrite Z2, number_0 in A3. rewrite Z.
      repeat split; try lra. all: intros; try (exfalso; lia); try reflexivity; try lra.
    - assert (P : 0 < snd o) by (apply Qnot_le_lt; intro H; apply Qle_bool_iff in H; congruence).
      assert (P' : (0 < times data 1)%nat).
      { destruct (times data 1); [rewrite number_0 in A6; lra|lia]. }
      destruct (row_ok c1 (snd o) (moves data 1 0) (moves data 1 1) (times data 1)) as [R1 [R2 [R3 [R4 R5]]]]; try lra; try lia.
      cbn [fst snd] in *. repeat split; try assumption. intro H. lia. }
  assert (S0 : neqb (nadd (fst row0) (snd row0)) n1 = true) by (cbn; apply Qeq_bool_iff; apply L0).
  assert (S1 : neqb (nadd (fst row1) (snd row1)) n1 = true) by (cbn; apply Qeq_bool_iff; apply L1).
  rewrite S0, S1. cbn [andb]. exists row0, row1, o. split; [reflexivity|]. split; [exact L0|]. split; [exact L1|]. split; lra.
Qed.

(** ** Sampling *)

Lemma choice_sum (p : Q * Q) u : fst p + snd p == 1 -> 0 <= fst p -> 0 <= snd p -> 0 <= u -> u < 1 ->
  if choice p u then 0 < snd p else 0 < fst p.
Proof.
  intros S1 A B U V. unfold choice. cbn. destruct (Qle_bool (fst p / (fst p + snd p)) u) eqn:E.
  - apply Qle_bool_iff in E. rewrite S1 in E. unfold Qdiv in E. change (/ 1) with 1 in E. lra.
  - assert (P : u < fst p / (fst p + snd p)) by (apply Qnot_le_lt; intro H; apply Qle_bool_iff in H; congruence).
    rewrite S1 in P. unfold Qdiv in P. change (/ 1) with 1 in P. lra.
Qed.
Lemma choice_reach (p : Q * Q) (b : bool) : fst p + snd p == 1 -> 0 <= fst p -> 0 <= snd p -> (if b then 0 < snd p else 0 < fst p) ->
  exists u, 0 <= u /\ u < 1 /\ choice p u = b.
Proof.
  intros S1 A B P. destruct b.
  - exists (fst p). split; [exact A|]. split; [lra|]. unfold choice. cbn. apply Qle_bool_iff. rewrite S1. unfold Qdiv. change (/ 1) with 1. lra.
  - exists 0. split; [lra|]. split; [lra|]. unfold choice. cbn. apply not_true_iff_false. intro H. apply Qle_bool_iff in H. rewrite S1 in H. unfold Qdiv in H.
    change (/ 1) with 1 in H. lra.
Qed.

Definition val (b : bool) : Q := if b then 1 else 0.
Lemma val_as b : as_value (T := Q) b = val b.
Proof. destruct b; reflexivity. Qed.
Lemma val_binary b : binary (val b).
Proof. destruct b; [right|left]; reflexivity. Qed.
Lemma binary_val x : binary x -> exists b, x == val b.
Proof. intros [E|E]; [exists false|exists true]; exact E. Qed.

Lemma chance_pos data a p (b : bool) : learned_from data a p -> binary a -> (if b then 0 < snd p else 0 < fst p) ->
  if Nat.eqb (times data a) 0 then val b == a else (0 < moves data a (val b))%nat.
Proof.
  intros [A [B [S1 [F Z]]]] Ba P. destruct (Nat.eqb (times data a) 0) eqn:E.
  - apply Nat.eqb_eq in E. specialize (Z E). destruct (Qeq_bool a 0) eqn:E0.
    + apply Qeq_bool_iff in E0. destruct b; cbn; lra.
    + destruct Ba as [Ba|Ba]; [apply Qeq_bool_iff in Ba; congruence|]. destruct b; cbn; lra.
  - apply Nat.eqb_neq in E. destruct (F ltac:(lia)) as [F1 F2]. pose proof (number_pos (times data a) ltac:(lia)) as Pt.
    destruct b; cbn [val].
    + destruct (moves data a 1) eqn:M; [|lia]. rewrite number_0 in F2. pose proof (Qmult_lt_0_compat _ _ P Pt). lra.
    + destruct (moves data a 0) eqn:M; [|lia]. rewrite number_0 in F1. pose proof (Qmult_lt_0_compat _ _ P Pt). lra.
Qed.
Lemma chance_reach data a p (b : bool) : learned_from data a p -> binary a ->
  (if Nat.eqb (times data a) 0 then val b == a else (0 < moves data a (val b))%nat) -> if b then 0 < snd p else 0 < fst p.
Proof.
  intros [A [B [S1 [F Z]]]] Ba P. destruct (Nat.eqb (times data a) 0) eqn:E.
  - apply Nat.eqb_eq in E. specialize (Z E). destruct (Qeq_bool a 0) eqn:E0.
    + apply Qeq_bool_iff in E0. destruct b; cbn in P; lra.
    + destruct Ba as [Ba|Ba]; [apply Qeq_bool_iff in Ba; congruence|]. destruct b; cbn in P; lra.
  - apply Nat.eqb_neq in E. destruct (F ltac:(lia)) as [F1 F2]. pose proof (number_pos (times data a) ltac:(lia)) as Pt.
    pose proof (number_pos _ P) as Pm. destruct b; cbn [val] in *.
    + destruct (Qlt_le_dec 0 (snd p)) as [G|G]; [exact G|]. assert (H : snd p == 0) by lra. rewrite H in F2. lra.
    + destruct (Qlt_le_dec 0 (fst p)) as [G|G]; [exact G|]. assert (H : fst p == 0) by lra. rewrite H in F1. lra.
Qed.

Section Walk.
  Variables (data : list Q) (r0 r1 : Q * Q) (u : nat -> Q).
  Hypothesis L0 : learned_from data 0 r0.
  Hypothesis L1 : learned_from data 1 r1.
  Definition row_of (b : bool) := if b then r1 else r0.
  Lemma row_learned b : learned_from data (val b) (row_of b).
  Proof. destruct b; assumption. Qed.

  Lemma walk_ok (U : uniform u) n : forall j b, let s := walk r0 r1 u j n b in
    length s = n /\ Forall binary s
    /\ (forall i x y, nth_error (val b :: s) i = Some x -> nth_error (val b :: s) (S i) = Some y ->
          if Nat.eqb (times data x) 0 then y == x else (0 < moves data x y)%nat).
  Proof.
    induction n as [|n IH]; intros j b s.
    - subst s. cbn. repeat split; [constructor|]. intros i x y _ H. destruct i; cbn in H; [discriminate|destruct i; discriminate].
    - subst s. set (b' := choice (row_of b) (u j)).
      change (walk r0 r1 u j (S n) b) with (as_value (T := Q) b' :: walk r0 r1 u (S j) n b'). destruct (IH (S j) b') as [I1 [I2 I3]].
      rewrite val_as. split; [cbn [length]; now rewrite I1|]. split; [constructor; [apply val_binary|exact I2]|].
      intros [|i] x y H1 H2.
      + cbn in H1, H2. injection H1 as <-. injection H2 as <-.
        destruct (row_learned b) as [A [B [S1 R]]]. destruct (U j) as [U1 U2].
        pose proof (choice_sum (row_of b) (u j) S1 A B U1 U2) as P. fold b' in P.
        apply (chance_pos data (val b) (row_of b) b' (row_learned b) (val_binary b) P).
      + cbn [nth_error] in H1, H2. exact (I3 i x y H1 H2).
  Qed.
  Lemma walk_ext (v : nat -> Q) n : forall j b, (forall k, (j <= k)%nat -> u k = v k) -> walk r0 r1 u j n b = walk r0 r1 v j n b.
  Proof.
    clear L0 L1. induction n as [|n IH]; intros j b E; [reflexivity|]. cbn [walk]. rewrite (E j) by lia. f_equal. apply IH. intros k H. apply E. lia.
  Qed.
End Walk.

Lemma walk_reach data r0 r1 (L0 : learned_from data 0 r0) (L1 : learned_from data 1 r1) s : forall j b, Forall binary s ->
  (forall i x y, nth_error (val b :: s) i = Some x -> nth_error (val b :: s) (S i) = Some y ->
     if Nat.eqb (times data x) 0 then y == x else (0 < moves data x y)%nat) ->
  exists u, uniform u /\ Forall2 Qeq (walk r0 r1 u j (length s) b) s.
Proof.
  induction s as [|y s IH]; intros j b B H.
  - exists (fun _ => 0). split; [intro; lra|constructor].
  - inversion B as [|? ? By Bs]; subst. destruct (binary_val y By) as [b' Eb].
    destruct (IH (S j) b') as [u [U W]]; [exact Bs| |].
    { intros i x z H1 H2. destruct i as [|i].
      - cbn in H1, H2. injection H1 as <-. pose proof (H 1%nat y z eq_refl H2) as G. rewrite (times_Qeq _ _ _ Eb) in G.
        destruct (Nat.eqb (times data (val b')) 0); [lra|]. rewrite (moves_Qeq _ _ _ _ _ Eb (Qeq_refl z)) in G. exact G.
      - exact (H (S (S i)) x z H1 H2). }
    assert (P : if b' then 0 < snd (row_of r0 r1 b) else 0 < fst (row_of r0 r1 b)).
    { apply (chance_reach data (val b)); [now apply row_learned|apply val_binary|]. pose proof (H 0%nat (val b) y eq_refl eq_refl) as G.
      destruct (Nat.eqb (times data (val b)) 0); [lra|]. rewrite (moves_Qeq _ _ _ _ _ (Qeq_refl (val b)) Eb) in G. exact G. }
    destruct (row_learned data r0 r1 L0 L1 b) as [A [B' [S1 R]]].
    destruct (choice_reach (row_of r0 r1 b) b' S1 A B' P) as [w [W1 [W2 W3]]].
    exists (fun k => if Nat.eqb k j then w else u k). split.
    + intro k. destruct (Nat.eqb k j); [split; assumption|apply U].
    + set (v := fun k => if Nat.eqb k j then w else u k).
      change (walk r0 r1 v j (length (y :: s)) b)
        with (as_value (T := Q) (choice (row_of r0 r1 b) (v j)) :: walk r0 r1 v (S j) (length s) (choice (row_of r0 r1 b) (v j))).
      assert (Ev : v j = w) by (unfold v; now rewrite Nat.eqb_refl). rewrite Ev, W3, val_as. unfold v.
      constructor; [lra|]. rewrite (walk_ext r0 r1 _ u). { exact W. }
      intros k Hk. replace (Nat.eqb k j) with false; [reflexivity|]. symmetry. apply Nat.eqb_neq. lia.
Qed.

Lemma times_total data : Forall binary data -> (times data 0 + times data 1 = length data - 1)%nat.
Proof.
  induction data as [|x l IH]; intro B; [reflexivity|]. destruct l as [|y l]; [reflexivity|].
  inversion B as [|? ? Bx B']; subst. rewrite !times_cons. destruct (is_one_binary x Bx) as [X1 X0]. rewrite X1, X0.
  specialize (IH B'). cbn [length] in *. destruct (is_one x); cbn [negb one_if]; lia.
Qed.

Lemma first_chances (o : Q * Q) t0 t1 : fst o == number t0 -> snd o == number t1 -> (0 < t0 + t1)%nat ->
  let total := fst o + snd o in let p := (fst o / total, snd o / total) in
  ~ total == 0 /\ 0 <= fst p /\ 0 <= snd p /\ fst p + snd p == 1 /\ forall b : bool, (if b then 0 < snd p else 0 < fst p) <-> (0 < if b then t1 else t0)%nat.
Proof.
  intros A B P total p. pose proof (number_nonneg t0). pose proof (number_nonneg t1).
  assert (E : total == number (t0 + t1)) by (unfold total; rewrite number_plus; lra).
  pose proof (number_pos _ P) as Pp. assert (P' : 0 < total) by lra.
  split; [lra|]. split; [apply Qle_shift_div_l; [exact P'|lra]|]. split; [apply Qle_shift_div_l; [exact P'|lra]|].
  split.
  - unfold p. cbn [fst snd]. unfold Qdiv. rewrite <- Qmult_plus_distr_l. fold total. apply Qmult_inv_r. lra.
  - assert (G : forall x n, x == number n -> 0 < x / total <-> (0 < n)%nat).
    { intros x n Ex. split; intro Q.
      - destruct n; [|lia]. rewrite number_0 in Ex. rewrite Ex in Q. unfold Qdiv in Q. rewrite Qmult_0_l in Q. lra.
      - apply Qlt_shift_div_l; [exact P'|]. pose proof (number_pos n Q). lra. }
    intros [|]; apply G; assumption.
Qed.

Lemma sample_markov (data : list Q) u : Forall binary data -> (2 <= length data)%nat -> uniform u ->
  exists s, sample_grid (mkNoisyGrid "markov" data) u = Ok s /\ possible data s.
Proof.
  intros B L U. destruct (learn_markov data B) as [r0 [r1 [o [E [L0 [L1 [O0 O1]]]]]]].
  unfold sample_grid. rewrite E. cbn [rbind ng_data].
  pose proof (times_total data B) as TT.
  destruct (first_chances o _ _ O0 O1 ltac:(lia)) as [NZ [A [Bp [S1 G]]]].
  assert (Z : neqb (nadd (fst o) (snd o)) n0 = false).
  { cbn. apply not_true_iff_false. rewrite Qeq_bool_iff. exact NZ. }
  rewrite Z. change (@nadd Q Q_ops) with Qplus. change (@ndiv Q Q_ops) with Qdiv.
  set (b := choice (fst o / (fst o + snd o), snd o / (fst o + snd o)) (u 0%nat)).
  eexists. split; [reflexivity|]. rewrite val_as.
  destruct (walk_ok data r0 r1 u L0 L1 U (length data - 1) 1 b) as [W1 [W2 W3]].
  split; [cbn [length]; rewrite W1; lia|]. split; [constructor; [apply val_binary|exact W2]|]. split; [|exact W3].
  intros x H. cbn [nth_error] in H. injection H as <-. destruct (U 0%nat) as [U1 U2].
  pose proof (choice_sum _ _ S1 A Bp U1 U2) as P. fold b in P. apply G in P. clearbody b. destruct b; exact P.
Qed.
Lemma sample_markov_reach (data s : list Q) : Forall binary data -> (2 <= length data)%nat -> possible data s ->
  exists u s', uniform u /\ sample_grid (mkNoisyGrid "markov" data) u = Ok s' /\ Forall2 Qeq s' s.
Proof.
  intros B L [P1 [P2 [P3 P4]]]. destruct (learn_markov data B) as [r0 [r1 [o [E [L0 [L1 [O0 O1]]]]]]].
  unfold sample_grid. rewrite E. cbn [rbind ng_data].
  pose proof (times_total data B) as TT.
  destruct (first_chances o _ _ O0 O1 ltac:(lia)) as [NZ [A [Bp [S1 G]]]].
  assert (Z : neqb (nadd (fst o) (snd o)) n0 = false).
  { cbn. apply not_true_iff_false. rewrite Qeq_bool_iff. exact NZ. }
  rewrite Z. change (@nadd Q Q_ops) with Qplus. change (@ndiv Q Q_ops) with Qdiv.
  destruct s as [|x s]; [cbn in P1; lia|]. inversion P2 as [|? ? Bx Bs]; subst. destruct (binary_val x Bx) as [b Eb].
  destruct (walk_reach data r0 r1 L0 L1 s 1 b Bs) as [u [U W]].
  { intros i y z H1 H2. destruct i as [|i].
    - cbn in H1, H2. injection H1 as <-. pose proof (P4 0%nat x z eq_refl H2) as Q1. rewrite (times_Qeq _ _ _ Eb) in Q1.
      destruct (Nat.eqb (times data (val b)) 0); [lra|]. rewrite (moves_Qeq _ _ _ _ _ Eb (Qeq_refl z)) in Q1. exact Q1.
    - exact (P4 (S i) y z H1 H2). }
  assert (P : if b then 0 < snd o / (fst o + snd o) else 0 < fst o / (fst o + snd o)).
  { apply G. pose proof (P3 x eq_refl) as Q1. rewrite (times_Qeq _ _ _ Eb) in Q1. destruct b; exact Q1. }
  destruct (choice_reach (fst o / (fst o + snd o), snd o / (fst o + snd o)) b S1 A Bp P) as [w [W1 [W2 W3]]].
  exists (fun k => if Nat.eqb k 0 then w else u k). eexists. split; [|split; [reflexivity|]].
  - intro k. destruct (Nat.eqb k 0); [split; assumption|apply U].
  - cbn [Nat.eqb]. rewrite W3, val_as. constructor; [lra|].
    rewrite (walk_ext r0 r1 _ u). { cbn [length] in P1. replace (length data - 1)%nat with (length s) by lia. exact W. }
    intros [|k] Hk; [lia|reflexivity].
Qed.
Lemma sample_markov_short (data : list Q) u : Forall binary data -> (length data < 2)%nat ->
  raises ValueError (sample_grid (mkNoisyGrid "markov" data) u).
Proof.
  intros B L. destruct (learn_markov data B) as [r0 [r1 [o [E [L0 [L1 [O0 O1]]]]]]].
  unfold sample_grid. rewrite E. cbn [rbind ng_data]. pose proof (times_total data B) as TT.
  assert (Z : neqb (nadd (fst o) (snd o)) n0 = true).
  { cbn. apply Qeq_bool_iff. rewrite O0, O1, <- number_plus. replace (times data 0 + times data 1)%nat with 0%nat by lia. reflexivity. }
  rewrite Z. now eexists.
Qed.

(** ** Independent values *)

Lemma fold_acc (l : list Q) : forall a, fold_left nadd l a == a + fold_right Qplus 0 l.
Proof. induction l as [|x l IH]; intro a; cbn; [lra|]. rewrite IH. cbn. lra. Qed.
Lemma nsum_right (l : list Q) : nsum l == fold_right Qplus 0 l.
Proof. unfold nsum. rewrite fold_acc. cbn. lra. Qed.
Definition ones (l : list Q) : nat := length (filter (fun x => Qeq_bool x 1) l).
Lemma ones_sum l : Forall binary l -> fold_right Qplus 0 l == number (ones l).
Proof.
  induction l as [|x l IH]; intro B; [reflexivity|]. inversion B as [|? ? Bx B']; subst. unfold ones. cbn [fold_right filter].
  specialize (IH B'). destruct (Qeq_bool x 1) eqn:E.
  - apply Qeq_bool_iff in E. cbn [length]. rewrite number_S. fold (ones l). lra.
  - destruct Bx as [Bx|Bx]; [|apply Qeq_bool_iff in Bx; congruence]. fold (ones l). lra.
Qed.
Lemma ones_le l : (ones l <= length l)%nat.
Proof. unfold ones. induction l as [|x l IH]; [cbn; lia|]. cbn [filter]. destruct (Qeq_bool x 1); cbn [length]; lia. Qed.
Lemma learn_naive (data : list Q) : Forall binary data -> data <> [] ->
  exists p, learn_distribution (mkNoisyGrid "naive" data) = Ok (Naive p) /\ 0 <= fst p /\ 0 <= snd p /\ fst p + snd p == 1
    /\ snd p * number (length data) == number (ones data).
Proof.
  intros B NE. unfold learn_distribution. cbn [ng_dist ng_data]. change (String.eqb "naive" "naive") with true. cbn iota.
  eexists. split; [reflexivity|]. cbn [fst snd]. cbn.
  assert (P : 0 < number (length data)). { apply number_pos. destruct data; [congruence|cbn; lia]. }
  fold (number (length data)). pose proof (nsum_right data) as S1. rewrite (ones_sum data B) in S1.
  assert (LE : number (ones data) <= number (length data)).
  { unfold number. rewrite <- Zle_Qle. pose proof (ones_le data). lia. }
  pose proof (number_nonneg (ones data)).
  assert (A : 0 <= nsum data / number (length data)) by (apply Qle_shift_div_l; [exact P|lra]).
  assert (C : nsum data / number (length data) <= 1) by (apply Qle_shift_div_r; [exact P|lra]).
  repeat split; try lra. rewrite S1. field. lra.
Qed.
Lemma ones_In data x : Forall binary data -> binary x -> (if Qeq_bool x 1 then (0 < ones data)%nat else (ones data < length data)%nat) ->
  exists y, In y data /\ y == x.
Proof.
  intros B Bx H. destruct (Qeq_bool x 1) eqn:E.
  - apply Qeq_bool_iff in E. unfold ones in H. destruct (filter (fun x => Qeq_bool x 1) data) as [|y l] eqn:F; [cbn in H; lia|].
    assert (I : In y (filter (fun x => Qeq_bool x 1) data)) by (rewrite F; left; reflexivity). apply filter_In in I. destruct I as [I1 I2].
    apply Qeq_bool_iff in I2. exists y. split; [exact I1|lra].
  - destruct Bx as [Bx|Bx]; [|apply Qeq_bool_iff in Bx; congruence].
    induction data as [|y l IH]; [unfold ones in H; cbn in H; lia|]. inversion B as [|? ? By B']; subst. destruct (Qeq_bool y 1) eqn:Ey.
    + destruct IH as [z [I J]]; [exact B'| |exists z; split; [right; exact I|exact J]].
      unfold ones in *. cbn [filter] in H. rewrite Ey in H. cbn [length] in H. lia.
    + exists y. split; [left; reflexivity|]. destruct By as [By|By]; [lra|apply Qeq_bool_iff in By; congruence].
Qed.
Lemma sample_naive (data : list Q) u : Forall binary data -> data <> [] -> uniform u ->
  exists s, sample_grid (mkNoisyGrid "naive" data) u = Ok s /\ length s = length data /\ Forall binary s
    /\ forall x, In x s -> exists y, In y data /\ y == x.
Proof.
  intros B NE U. destruct (learn_naive data B NE) as [p [E [A [Bp [S1 F]]]]].
  unfold sample_grid. rewrite E. cbn [rbind ng_data].
  assert (P : (0 < length data)%nat) by (destruct data; [congruence|cbn; lia]).
  replace (Nat.eqb (length data) 0) with false by (symmetry; apply Nat.eqb_neq; lia).
  eexists. split; [reflexivity|]. split; [now rewrite map_length, seq_length|]. split.
  - apply Forall_forall. intros x I. apply in_map_iff in I. destruct I as [j [<- _]]. rewrite val_as. apply val_binary.
  - intros x I. apply in_map_iff in I. destruct I as [j [<- _]]. rewrite val_as. destruct (U j) as [U1 U2].
    pose proof (choice_sum p (u j) S1 A Bp U1 U2) as C. apply ones_In; [exact B|apply val_binary|].
    pose proof (number_pos _ P) as Pn.
    destruct (choice p (u j)); cbn [val].
    + change (Qeq_bool 1 1) with true. cbn iota. destruct (ones data); [|lia]. rewrite number_0 in F. pose proof (Qmult_lt_0_compat _ _ C Pn). lra.
    + change (Qeq_bool 0 1) with false. cbn iota. pose proof (ones_le data). destruct (Nat.eq_dec (ones data) (length data)) as [Q1|Q1]; [|lia].
      rewrite Q1 in F. assert (H0 : (1 - snd p) * number (length data) == 0) by lra.
      assert (F1 : 1 - snd p == fst p) by lra. rewrite F1 in H0. pose proof (Qmult_lt_0_compat _ _ C Pn). lra.
Qed.
Lemma sample_naive_empty u : raises ValueError (sample_grid (T := Q) (mkNoisyGrid "naive" []) u).
Proof. now eexists. Qed.
