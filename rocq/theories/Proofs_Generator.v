(** * Proofs about MicrogridGenerator.py: the series *)

From Coq Require Import ZArith QArith Qminmax Lqa Lia Bool String List Permutation.
From Verif Require Import Num Py Module NonModular Generator Proofs_Num Proofs_Ts Spec_NonModular Spec_Generator Proofs_NonModular.
Import ListNotations.
Local Open Scope string_scope.
Local Open Scope list_scope.
Local Open Scope Q_scope.

(** ** Scaling *)

Lemma list_max_ok (l : list Q) : l <> [] -> exists m, list_max l = Ok m /\ In m l /\ forall y, In y l -> y <= m.
Proof.
  intros NE. destruct (list_max l) as [m|e] eqn:E.
  - exists m. split; [reflexivity|]. exact (list_max_spec _ _ E).
  - destruct l; [congruence|discriminate E].
Qed.
Lemma peak_unique l a b : peak l a -> peak l b -> a == b.
Proof.
  intros ((x & I & E) & F) ((y & J & E') & F'). rewrite Forall_forall in F, F'.
  pose proof (F y J). pose proof (F' x I). lra.
Qed.
Lemma list_max_peak (l : list Q) m : list_max l = Ok m -> peak l m.
Proof.
  intros E. apply list_max_spec in E. destruct E as (I & F). split; [exists m; split; [exact I|reflexivity]|].
  apply Forall_forall. exact F.
Qed.
Lemma scale_spec (f : list Q) size : 0 < size -> (exists x, In x f /\ 0 < x) ->
  shaped f (scale_ts f size) /\ peak (scale_ts f size) size /\ length (scale_ts f size) = length f.
Proof.
  intros S (x0 & I0 & P0). assert (NE : f <> []) by (intros ->; exact I0).
  destruct (list_max_ok f NE) as (m & E & I & F). unfold scale_ts. rewrite E.
  change (@ndiv Q Q_ops) with Qdiv. cbn zeta. change (@nmul Q Q_ops) with Qmult.
  assert (M : 0 < m) by (pose proof (F x0 I0); lra).
  assert (R : 0 < size / m) by (apply Qlt_shift_div_l; [exact M|lra]).
  assert (RM : m * (size / m) == size) by (apply Qmult_div_r; lra).
  split; [|split].
  - exists (size / m). split; [exact R|]. clear E NE I F I0.
    induction f as [|a f IH]; constructor; [apply Qmult_comm|exact IH].
  - split.
    + exists (m * (size / m)). split; [apply (in_map (fun x => x * (size / m)) f m I)|exact RM].
    + apply Forall_forall. intros y Y. apply in_map_iff in Y. destruct Y as (a & <- & A).
      rewrite <- RM at 2. apply Qmult_le_compat_r; [apply F; exact A|lra].
  - apply map_length.
Qed.
Lemma shaped_sign f l : shaped f l -> Forall (Qle 0) f -> Forall (Qle 0) l.
Proof.
  intros (r & R & F). induction F; intros P; [constructor|]. inversion P; subst. constructor; [|auto].
  rewrite H. apply Qmult_le_0_compat; lra.
Qed.
Lemma shaped_positive f l : shaped f l -> Forall (Qlt 0) f -> Forall (Qlt 0) l.
Proof.
  intros (r & R & F). induction F; intros P; [constructor|]. inversion P; subst. constructor; [|auto].
  rewrite H. apply Qmult_lt_0_compat; lra.
Qed.
Lemma shaped_length f l : shaped f l -> length l = length f.
Proof. intros (r & _ & F). induction F; simpl; congruence. Qed.

(** ** The mean *)

Lemma nsum_acc (l : list Q) : forall a, fold_left (@nadd Q Q_ops) l a == a + sum_of l.
Proof.
  induction l as [|x l IH]; intros a; unfold sum_of in *; cbn [fold_left fold_right]; [lra|].
  rewrite IH. change (@nadd Q Q_ops a x) with (a + x). lra.
Qed.
Lemma mean_average (l : list Q) : l <> [] -> average l (mean l).
Proof.
  intros NE. unfold average, mean. change (@ndiv Q Q_ops) with Qdiv. change (@nofZ Q Q_ops) with inject_Z.
  assert (P : 0 < inject_Z (Z.of_nat (length l))).
  { change 0 with (inject_Z 0). rewrite <- Zlt_Qlt. destruct l; [congruence|]. simpl length. lia. }
  unfold nsum. change (@n0 Q Q_ops) with 0. rewrite (nsum_acc l 0). field. lra.
Qed.
Lemma sum_positive l : Forall (Qle 0) l -> (exists x, In x l /\ 0 < x) -> 0 < sum_of l.
Proof.
  intros F (x & I & P). induction F as [|a l A F IH]; [inversion I|]. unfold sum_of in *. cbn [fold_right].
  assert (SN : 0 <= fold_right Qplus 0 l) by (clear - F; induction F; cbn [fold_right]; lra).
  destruct I as [->|I]; [lra|]. specialize (IH I). lra.
Qed.

(** ** Outages *)

Lemma zero_run (i n : nat) : forall (ts : list Q) a,
  let ts' := fold_left (fun ts j => if Nat.ltb 0 (i - j) then set_nth ts (i - j) 0 else ts) (seq a n) ts in
  length ts' = length ts
  /\ forall m, (m < length ts)%nat ->
     ((exists j, (a <= j < a + n)%nat /\ m = (i - j)%nat /\ (0 < m)%nat) -> nth_error ts' m = Some 0)
     /\ (~ (exists j, (a <= j < a + n)%nat /\ m = (i - j)%nat /\ (0 < m)%nat) -> nth_error ts' m = nth_error ts m).
Proof.
  induction n as [|n IH]; intros ts a; cbn [seq fold_left].
  - split; [reflexivity|]. intros m M. split; [intros (j & J & _); lia|reflexivity].
  - set (t1 := if Nat.ltb 0 (i - a) then set_nth ts (i - a) 0 else ts).
    assert (L1 : length t1 = length ts) by (unfold t1; destruct (Nat.ltb 0 (i - a)); [apply set_nth_length|reflexivity]).
    destruct (IH t1 (S a)) as (L & R). split; [rewrite L; exact L1|]. intros m M. rewrite L1 in R. destruct (R m M) as (R1 & R2).
    assert (D : (exists j, (S a <= j < S a + n)%nat /\ m = (i - j)%nat /\ (0 < m)%nat)
                \/ ~ (exists j, (S a <= j < S a + n)%nat /\ m = (i - j)%nat /\ (0 < m)%nat)).
    { destruct (Nat.eq_dec m 0); [right; intros (j & _ & _ & X); lia|].
      destruct (le_dec (S a) (i - m)); [|right; intros (j & J & E & X); lia].
      destruct (lt_dec (i - m) (S a + n)); [|right; intros (j & J & E & X); lia].
      destruct (le_dec m i); [|right; intros (j & J & E & X); lia].
      left. exists (i - m)%nat. lia. }
    split.
    + intros (j & J & E & P). destruct D as [D|D]; [exact (R1 D)|]. rewrite (R2 D).
      assert (j = a) as -> by (destruct (Nat.eq_dec j a); [assumption|exfalso; apply D; exists j; lia]).
      unfold t1. replace (Nat.ltb 0 (i - a)) with true by (symmetry; apply Nat.ltb_lt; lia).
      rewrite E. apply nth_error_set_nth_eq. lia.
    + intros NN. rewrite R2 by (intros (j & J & E & P); apply NN; exists j; lia).
      unfold t1. destruct (Nat.ltb 0 (i - a)) eqn:B; [|reflexivity]. apply Nat.ltb_lt in B.
      apply nth_error_set_nth_neq. intros <-. apply NN. exists a. lia.
Qed.

Lemma outage_row_spec duration (ts : list Q) i :
  (forall x, nth_error ts i = Some x -> x = 0 \/ x = 1) ->
  let ts' := outage_row duration ts i in
  let hit m := nth_error ts i = Some 0 /\ (0 < m)%nat /\ exists j, (1 <= Z.of_nat j < duration)%Z /\ (m + j = i)%nat in
  length ts' = length ts
  /\ forall m, (m < length ts)%nat -> (hit m -> nth_error ts' m = Some 0) /\ (~ hit m -> nth_error ts' m = nth_error ts m).
Proof.
  intros B ts' hit. unfold ts', outage_row. destruct (nth_error ts i) as [x|] eqn:E.
  - change (@neqb Q Q_ops) with Qeq_bool. change (@n0 Q Q_ops) with 0. destruct (B x eq_refl) as [-> | ->].
    + change (Qeq_bool 0 0) with true. cbv iota.
      destruct (zero_run i (Z.to_nat (duration - 1)) ts 1) as (L & R). split; [exact L|]. intros m M. destruct (R m M) as (R1 & R2).
      split.
      * intros (_ & P & j & J & S). apply R1. exists j. lia.
      * intros NH. apply R2. intros (j & J & S & P). apply NH. split; [first [exact E|reflexivity]|]. split; [exact P|]. exists j. lia.
    + change (Qeq_bool 1 0) with false. split; [reflexivity|]. intros m M. split; [intros (X & _); try rewrite E in X; discriminate X|reflexivity].
  - split; [reflexivity|]. intros m M. split; [intros (X & _); try rewrite E in X; discriminate X|reflexivity].
Qed.

Section Weak.
Variables (rate : Q) (duration : Z) (us : list Q).
Let ts0 : list Q := map (fun u => if nltb u (ndiv rate (nofZ 24)) then n0 else n1) us.

Let start m : (m < length us)%nat -> (struck rate us m -> nth_error ts0 m = Some 0) /\ (~ struck rate us m -> nth_error ts0 m = Some 1).
Proof.
  intros M. unfold ts0. rewrite nth_error_map. destruct (nth_error us m) as [u|] eqn:E; [|apply nth_error_None in E; lia].
  cbn [option_map]. change (@nltb Q Q_ops) with Qltb. change (@ndiv Q Q_ops) with Qdiv. change (@nofZ Q Q_ops 24) with 24.
  change (@n0 Q Q_ops) with 0. change (@n1 Q Q_ops) with 1.
  destruct (Qltb u (rate / 24)) eqn:B.
  - split; [reflexivity|]. intros NS. exfalso. apply NS. exists u. split; [exact E|].
    unfold Qltb in B. apply negb_true_iff in B. apply Qnot_le_lt. intros X. apply Qle_bool_iff in X. congruence.
  - split; [|reflexivity]. intros (v & V & L). rewrite E in V. injection V as ->. exfalso.
    unfold Qltb in B. apply negb_false_iff in B. apply Qle_bool_iff in B. lra.
Qed.
Let decide m : (m < length us)%nat -> struck rate us m \/ ~ struck rate us m.
Proof.
  intros M. destruct (nth_error us m) as [u|] eqn:E; [|right; intros (v & V & _); congruence].
  destruct (Qlt_le_dec u (rate / 24)); [left; exists u; auto|]. right. intros (v & V & L). rewrite E in V. injection V as ->. lra.
Qed.

Definition off_by (k m : nat) : Prop :=
  struck rate us m \/ (0 < m)%nat /\ exists j, (1 <= Z.of_nat j < duration)%Z /\ (m + j < k)%nat /\ struck rate us (m + j).

Lemma decide_off k m : (m < length us)%nat -> (k <= length us)%nat -> off_by k m \/ ~ off_by k m.
Proof.
  intros M. induction k as [|k IH]; intros K.
  - destruct (decide m M) as [D|D]; [left; left; exact D|]. right. intros [X|(_ & j & _ & X & _)]; [auto|lia].
  - destruct (IH ltac:(lia)) as [X|X].
    + left. destruct X as [X|(P & j & J & L & S)]; [left; exact X|]. right. split; [exact P|]. exists j. repeat split; try tauto; lia.
    + destruct (decide k ltac:(lia)) as [D|D].
      * destruct (lt_dec m k) as [MK|MK]; [destruct (Nat.eq_dec m 0) as [M0|M0]; [|destruct (Z_lt_dec (Z.of_nat (k - m)) duration) as [KD|KD]]|].
        -- right. intros [Y|(P & _)]; [apply X; left; exact Y|lia].
        -- left. right. split; [lia|]. exists (k - m)%nat. replace (m + (k - m))%nat with k by lia. repeat split; try lia. exact D.
        -- right. intros [Y|(P & j & J & L & S)]; [apply X; left; exact Y|]. apply X. right. split; [exact P|]. exists j.
           split; [exact J|]. split; [lia|exact S].
        -- right. intros [Y|(P & j & J & L & S)]; [apply X; left; exact Y|lia].
      * right. intros [Y|(P & j & J & L & S)]; [apply X; left; exact Y|]. apply X. right. split; [exact P|]. exists j.
        split; [exact J|]. split; [|exact S]. destruct (Nat.eq_dec (m + j) k) as [Z|Z]; [rewrite Z in S; contradiction|lia].
Qed.

Lemma rows_upto k : (k <= length us)%nat ->
  let ts := fold_left (outage_row duration) (seq 0 k) ts0 in
  length ts = length us
  /\ forall m, (m < length us)%nat -> (off_by k m -> nth_error ts m = Some 0) /\ (~ off_by k m -> nth_error ts m = Some 1).
Proof.
  induction k as [|k IH]; intros K.
  - cbn [seq fold_left]. split; [apply map_length|]. intros m M. destruct (start m M) as (S0 & S1). split.
    + intros [X|(_ & j & _ & X & _)]; [exact (S0 X)|lia].
    + intros X. apply S1. intros Y. apply X. left. exact Y.
  - rewrite seq_S, fold_left_app. destruct (IH ltac:(lia)) as (L & R). set (ts := fold_left (outage_row duration) (seq 0 k) ts0) in *.
    clearbody ts. cbn [fold_left Nat.add]. change (0 + k)%nat with k.
    assert (B : forall x, nth_error ts k = Some x -> x = 0 \/ x = 1).
    { intros x X. destruct (R k ltac:(lia)) as (R0 & R1). destruct (decide_off k k ltac:(lia) ltac:(lia)) as [O|O].
      - rewrite (R0 O) in X. injection X. auto.
      - rewrite (R1 O) in X. injection X. auto. }
    destruct (outage_row_spec duration ts k B) as (L' & R'). rewrite L in L', R'. split; [exact L'|].
    assert (HK : nth_error ts k = Some 0 <-> struck rate us k).
    { destruct (R k ltac:(lia)) as (R0 & R1). split.
      - intros X. destruct (decide k ltac:(lia)) as [D|D]; [exact D|]. exfalso.
        assert (NO : ~ off_by k k) by (intros [Y|(_ & j & J & Y & _)]; [auto|lia]).
        rewrite (R1 NO) in X. discriminate X.
      - intros X. apply R0. left. exact X. }
    intros m M. destruct (R m M) as (R0 & R1). destruct (R' m M) as (H0 & H1). split.
    + intros [X|(P & j & J & Y & S)].
      * destruct (decide_off k m M ltac:(lia)) as [O|O]; [|exfalso; apply O; left; exact X].
        assert (Z : nth_error ts k = Some 0 /\ (0 < m)%nat /\ (exists j, (1 <= Z.of_nat j < duration)%Z /\ (m + j = k)%nat)
                    \/ ~ (nth_error ts k = Some 0 /\ (0 < m)%nat /\ (exists j, (1 <= Z.of_nat j < duration)%Z /\ (m + j = k)%nat))).
        { destruct (decide k ltac:(lia)) as [D|D]; [|right; intros (W & _); apply HK in W; auto].
          destruct (lt_dec 0 m); [|right; lia]. destruct (lt_dec m k); [|right; intros (_ & _ & j & J & E'); lia].
          destruct (Z_lt_dec (Z.of_nat (k - m)) duration); [|right; intros (_ & _ & j & J & E'); lia].
          left. split; [apply HK; exact D|]. split; [lia|]. exists (k - m)%nat. lia. }
        destruct Z as [Z|Z]; [exact (H0 Z)|]. rewrite (H1 Z). exact (R0 O).
      * destruct (Nat.eq_dec (m + j) k) as [E|E].
        -- apply H0. rewrite E in S. split; [apply HK; exact S|]. split; [exact P|]. exists j. auto.
        -- assert (O : off_by k m) by (right; split; [exact P|]; exists j; repeat split; try tauto; lia).
           assert (Z : nth_error ts k = Some 0 /\ (0 < m)%nat /\ (exists j, (1 <= Z.of_nat j < duration)%Z /\ (m + j = k)%nat)
                    \/ ~ (nth_error ts k = Some 0 /\ (0 < m)%nat /\ (exists j, (1 <= Z.of_nat j < duration)%Z /\ (m + j = k)%nat))).
           { destruct (decide k ltac:(lia)) as [D|D]; [|right; intros (W & _); apply HK in W; auto].
             destruct (lt_dec m k); [|right; intros (_ & _ & j' & J' & E'); lia].
             destruct (Z_lt_dec (Z.of_nat (k - m)) duration); [|right; intros (_ & _ & j' & J' & E'); lia].
             left. split; [apply HK; exact D|]. split; [lia|]. exists (k - m)%nat. lia. }
           destruct Z as [Z|Z]; [exact (H0 Z)|]. rewrite (H1 Z). exact (R0 O).
    + intros NO. rewrite H1.
      * apply R1. intros [X|(P & j & J & Y & S)]; apply NO; [left; exact X|]. right. split; [exact P|]. exists j.
        split; [exact J|]. split; [lia|exact S].
      * intros (W & P & j & J & E). apply NO. right. split; [exact P|]. exists j. rewrite E.
        split; [exact J|]. split; [lia|]. apply HK. exact W.
Qed.

Lemma weak_profile_spec :
  length (weak_grid_profile rate duration us) = length us
  /\ forall i s, nth_error (weak_grid_profile rate duration us) i = Some s ->
     (s = 0 \/ s = 1)
     /\ (s = 0 <-> (struck rate us i \/ (0 < i)%nat /\ exists j, (1 <= Z.of_nat j < duration)%Z /\ struck rate us (i + j))).
Proof.
  unfold weak_grid_profile. fold ts0. assert (L0 : length ts0 = length us) by apply map_length. rewrite L0.
  destruct (rows_upto (length us) (le_n _)) as (L & R). split; [exact L|]. intros i s E.
  assert (I : (i < length us)%nat) by (rewrite <- L; apply nth_error_Some; congruence).
  destruct (R i I) as (R0 & R1).
  assert (EQ : off_by (length us) i <-> (struck rate us i \/ (0 < i)%nat /\ exists j, (1 <= Z.of_nat j < duration)%Z /\ struck rate us (i + j))).
  { split; intros [X|(P & j & X)]; [left; exact X| |left; exact X|]; right; split; try exact P; exists j; try tauto.
    destruct X as (J & S). split; [exact J|]. split; [|exact S]. destruct S as (u & U & _). apply nth_error_Some. congruence. }
  rewrite <- EQ. destruct (decide_off (length us) i I (le_n _)) as [O|O].
  - rewrite (R0 O) in E. injection E as <-. split; [auto|]. split; auto.
  - rewrite (R1 O) in E. injection E as <-. split; [auto|]. split; [discriminate|contradiction].
Qed.
End Weak.

(** ** Prices *)

Lemma price_1_spec i : tariff 1 (Nat.modulo i 24) (price_1 i).
Proof.
  unfold tariff, price_1. assert (H : (Nat.modulo i 24 < 24)%nat) by (apply Nat.mod_upper_bound; lia).
  set (h := Nat.modulo i 24) in *. clearbody h. split; [intros _|discriminate].
  do 24 (destruct h as [|h]; [vm_compute; reflexivity|]). lia.
Qed.
Lemma price_2_spec i : tariff 2 (Nat.modulo i 24) (price_2 i).
Proof.
  unfold tariff, price_2. assert (H : (Nat.modulo i 24 < 24)%nat) by (apply Nat.mod_upper_bound; lia).
  set (h := Nat.modulo i 24) in *. clearbody h. split; [discriminate|intros _].
  do 24 (destruct h as [|h]; [vm_compute; reflexivity|]). lia.
Qed.
Lemma tariff_spec scenario : scenario = 1%Z \/ scenario = 2%Z ->
  let p := electricity_tariff scenario in
  length (fst p) = hours_per_year /\ snd p = repeat 0 hours_per_year
  /\ forall i x, nth_error (fst p) i = Some x -> tariff scenario (Nat.modulo i 24) x /\ 0 <= x.
Proof.
  assert (G : forall f : nat -> Q, (forall i, 0 <= f i) -> forall n i x, nth_error (map f (seq 0 n)) i = Some x -> x = f i /\ 0 <= x).
  { intros f P n i x E. rewrite nth_error_map in E. destruct (nth_error (seq 0 n) i) as [j|] eqn:J; [|discriminate E].
    injection E as <-. assert (L : (i < n)%nat) by (rewrite <- (seq_length n 0); apply nth_error_Some; congruence).
    pose proof (nth_error_nth (seq 0 n) i O J) as X. rewrite seq_nth in X by exact L. simpl in X. subst j. auto. }
  intros [-> | ->]; cbn [electricity_tariff]; unfold electricity_tariff; cbv zeta; cbn [fst snd Z.eqb Pos.eqb];
    rewrite ?app_nil_r, ?app_nil_l, map_length, seq_length; (split; [reflexivity|]); (split; [reflexivity|]); intros i x E.
  - apply G in E; [destruct E as (-> & P); split; [apply price_1_spec|exact P]|].
    intros j. unfold price_1. destruct (_ && _); [discriminate|]. destruct (_ || _); discriminate.
  - apply G in E; [destruct E as (-> & P); split; [apply price_2_spec|exact P]|].
    intros j. unfold price_2. destruct (_ || _); discriminate.
Qed.
