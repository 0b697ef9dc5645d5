(** * Time series, bounds, forecasts *)

From Coq Require Import ZArith QArith Qabs Bool String DecimalString DecimalNat List Lia Lqa.
From Verif Require Import Num Py Space Logger Forecast Module
  Proofs_Num Proofs_Logger Spec_Module Proofs_Module.
Import ListNotations.
Local Open Scope list_scope.
Local Open Scope Q_scope.

(** ** Minimum and maximum of a list *)
Lemma fold_nmin l : forall a : Q, fold_left nmin l a <= a
  /\ (forall y, In y l -> fold_left nmin l a <= y)
  /\ (fold_left nmin l a = a \/ In (fold_left nmin l a) l).
Proof.
  induction l as [|x l IH]; simpl; intros a.
  - split; [lra|]. split; [tauto|auto].
  - destruct (IH (nmin a x)) as (A & B & C). destruct (Qmin_spec a x) as (P & R & D).
    split; [lra|]. split.
    + intros y [->|I]; [lra|auto].
    + destruct C as [C|C]; [|auto]. rewrite C. destruct D as [-> | ->]; auto.
Qed.

Lemma Qmax_spec a b : a <= nmax a b /\ b <= nmax a b /\ (nmax a b = a \/ nmax a b = b).
Proof.
  unfold nmax. unum. destruct (Qltb a b) eqn:E; qprop; repeat split; try lra; auto.
Qed.

Lemma fold_nmax l : forall a : Q, a <= fold_left nmax l a
  /\ (forall y, In y l -> y <= fold_left nmax l a)
  /\ (fold_left nmax l a = a \/ In (fold_left nmax l a) l).
Proof.
  induction l as [|x l IH]; simpl; intros a.
  - split; [lra|]. split; [tauto|auto].
  - destruct (IH (nmax a x)) as (A & B & C). destruct (Qmax_spec a x) as (P & R & D).
    split; [lra|]. split.
    + intros y [->|I]; [lra|auto].
    + destruct C as [C|C]; [|auto]. rewrite C. destruct D as [-> | ->]; auto.
Qed.

Lemma list_min_spec (l : list Q) x : list_min l = Ok x -> In x l /\ forall y, In y l -> x <= y.
Proof.
  destruct l as [|a l]; simpl; [discriminate|]. intros E; inversion E; subst.
  destruct (fold_nmin l a) as (A & B & C). split.
  - destruct C as [->|C]; auto.
  - intros y [->|I]; auto.
Qed.
Lemma list_max_spec (l : list Q) x : list_max l = Ok x -> In x l /\ forall y, In y l -> y <= x.
Proof.
  destruct l as [|a l]; simpl; [discriminate|]. intros E; inversion E; subst.
  destruct (fold_nmax l a) as (A & B & C). split.
  - destruct C as [->|C]; auto.
  - intros y [->|I]; auto.
Qed.

(** ** Slices *)
Lemma skipn_add {A} a b (l : list A) : skipn b (skipn a l) = skipn (a + b) l.
Proof. revert l. induction a; intros l; simpl; [reflexivity|]. destruct l; [apply skipn_nil|apply IHa]. Qed.

Lemma firstn_app_skipn_slice {A} (a k : nat) (l : list A) :
  firstn a l ++ firstn k (skipn a l) ++ skipn (a + length (firstn k (skipn a l))) l = l.
Proof.
  assert (E : skipn (a + length (firstn k (skipn a l))) l = skipn k (skipn a l)).
  { rewrite firstn_length, skipn_length. destruct (Nat.le_gt_cases k (length l - a)).
    - rewrite Nat.min_l, skipn_add by assumption. reflexivity.
    - rewrite Nat.min_r by lia. rewrite !skipn_all2; [reflexivity|rewrite skipn_length; lia|lia]. }
  rewrite E, !firstn_skipn. reflexivity.
Qed.

Lemma py_slice_length {A} (l : list A) a h :
  (length (py_slice l a (a + Z.of_nat h)) <= h)%nat.
Proof.
  unfold py_slice. rewrite firstn_length, skipn_length. unfold py_clamp.
  destruct (Z.ltb_spec a 0), (Z.ltb_spec (a + Z.of_nat h) 0); lia.
Qed.

Lemma In_firstn' {A} k (l : list A) x : In x (firstn k l) -> In x l.
Proof. intros I. rewrite <- (firstn_skipn k l). apply in_or_app. auto. Qed.
Lemma In_skipn' {A} k (l : list A) x : In x (skipn k l) -> In x l.
Proof. intros I. rewrite <- (firstn_skipn k l). apply in_or_app. auto. Qed.
Lemma py_slice_In {A} (l : list A) a b x : In x (py_slice l a b) -> In x l.
Proof. unfold py_slice. intros I. apply In_firstn' in I. apply In_skipn' in I. assumption. Qed.
Lemma py_nth_In {A} (l : list A) i x : py_nth l i = Some x -> In x l.
Proof.
  unfold py_nth. destruct (_ && _); [apply nth_error_In|].
  destruct (_ && _); [apply nth_error_In|discriminate].
Qed.

Lemma write_back_slice {A} (l : list (list A)) cur h :
  firstn (Z.to_nat (py_clamp (Z.of_nat (length l)) (1 + cur))) l
    ++ py_slice l (1 + cur) (1 + cur + Z.of_nat h)
    ++ skipn (Z.to_nat (py_clamp (Z.of_nat (length l)) (1 + cur))
              + length (py_slice l (1 + cur) (1 + cur + Z.of_nat h))) l = l.
Proof. unfold py_slice. apply firstn_app_skipn_slice. Qed.

Lemma py_last_all {A} (l : list A) : py_last l (length l) = l.
Proof. destruct l; simpl; [reflexivity|]. rewrite Nat.sub_diag. reflexivity. Qed.

Lemma repeat_concat_length {A} (r : list A) n : length (concat (repeat r n)) = (n * length r)%nat.
Proof. induction n; simpl; [reflexivity|]. rewrite app_length, IHn. reflexivity. Qed.

Lemma firstn_app_exact {A} (l m : list A) : firstn (length l) (l ++ m) = l.
Proof. rewrite firstn_app, Nat.sub_diag, firstn_all. simpl. apply app_nil_r. Qed.
Lemma skipn_app_exact {A} (l m : list A) : skipn (length l) (l ++ m) = m.
Proof. rewrite skipn_app, Nat.sub_diag, skipn_all. reflexivity. Qed.

Lemma chunks_repeat {A} (r : list A) n fuel :
  (0 < length r)%nat -> (n <= fuel)%nat -> chunks fuel (length r) (concat (repeat r n)) = repeat r n.
Proof.
  intros P. revert n. induction fuel as [|f IH]; intros n L; simpl.
  - assert (n = 0%nat) by lia. subst. reflexivity.
  - destruct n as [|n]; simpl; [reflexivity|].
    destruct (r ++ concat (repeat r n)) eqn:E.
    + destruct r; simpl in *; [lia|discriminate].
    + rewrite <- E, firstn_app_exact, skipn_app_exact, IH by lia. reflexivity.
Qed.

Lemma reshape_repeat {A} (r : list A) n :
  (0 < length r)%nat -> reshape_rows (length r) (concat (repeat r n)) = repeat r n.
Proof.
  intros P. unfold reshape_rows. apply chunks_repeat; [assumption|].
  rewrite repeat_concat_length. nia.
Qed.

Lemma repeat_app_n {A} (r : A) a b : repeat r (a + b) = repeat r a ++ repeat r b.
Proof. induction a; simpl; congruence. Qed.

(** Last [k <= n] rows of a repeated row. *)
Lemma py_last_repeat {A} (r : A) n k : (0 < k)%nat -> (k <= n)%nat ->
  py_last (repeat r n) k = repeat r k.
Proof.
  intros P L. destruct k as [|k]; [lia|]. unfold py_last. rewrite repeat_length.
  replace n with ((n - Datatypes.S k) + Datatypes.S k)%nat at 2 by lia.
  rewrite repeat_app_n.
  replace (n - Datatypes.S k)%nat with (length (repeat r (n - Datatypes.S k))) at 1 by apply repeat_length.
  apply skipn_app_exact.
Qed.

Lemma py_last_concat_repeat {A} (r : list A) n k :
  (0 < length r)%nat -> (0 < k)%nat -> (k <= n)%nat ->
  py_last (concat (repeat r n)) (k * length r) = concat (repeat r k).
Proof.
  intros P K L. assert (0 < k * length r)%nat by nia.
  destruct (k * length r)%nat as [|x] eqn:E; [lia|]. unfold py_last. rewrite <- E.
  replace (concat (repeat r n)) with (concat (repeat r (n - k)) ++ concat (repeat r k)).
  - replace (length (concat (repeat r (n - k)) ++ concat (repeat r k)) - k * length r)%nat
      with (length (concat (repeat r (n - k))))
      by (rewrite app_length, (repeat_concat_length r k), Nat.add_sub; reflexivity).
    apply skipn_app_exact.
  - rewrite <- concat_app, <- repeat_app_n. f_equal. f_equal. lia.
Qed.

Lemma shaped_bounds_repeat (r : list Q) h : (0 < length r)%nat ->
  shaped_bounds (concat (repeat r (S h))) h (length r) = Ok (repeat r h).
Proof.
  intros P. unfold shaped_bounds.
  destruct h as [|h]; [reflexivity|].
  destruct (Datatypes.S h * length r)%nat as [|x] eqn:E; [nia|]. rewrite <- E.
  rewrite py_last_concat_repeat by lia.
  rewrite repeat_concat_length, Nat.eqb_refl, reshape_repeat by assumption. reflexivity.
Qed.

Lemma map2_app {A B C} (f : A -> B -> C) l1 l2 m1 m2 :
  length l1 = length m1 -> map2 f (l1 ++ l2) (m1 ++ m2) = map2 f l1 m1 ++ map2 f l2 m2.
Proof. revert m1. induction l1; destruct m1; simpl; intros; try discriminate; auto. f_equal. auto. Qed.

Lemma map2_concat_repeat {A B C} (f : A -> B -> C) l m n :
  length l = length m ->
  map2 f (concat (repeat l n)) (concat (repeat m n)) = concat (repeat (map2 f l m) n).
Proof.
  intros E. induction n; simpl; [reflexivity|]. rewrite map2_app by assumption. congruence.
Qed.

(** ** Rows inside bounds *)
Lemma Forall2_length {A B} (R : A -> B -> Prop) l m : Forall2 R l m -> length l = length m.
Proof. induction 1; simpl; congruence. Qed.

Definition row_in (lo hi r : list Q) : Prop := Forall2 Qle lo r /\ Forall2 Qle r hi.

Lemma row_in_length lo hi r : row_in lo hi r -> length r = length lo /\ length r = length hi.
Proof.
  intros [A B]. split; [symmetry; exact (Forall2_length _ _ _ A)|exact (Forall2_length _ _ _ B)].
Qed.

(** The midpoint of the bounds. *)
Definition midrow (lo hi : list Q) : list Q := map2 (fun h l => ndiv (nadd h l) (nofZ 2)) hi lo.

Lemma midrow_length lo hi : length lo = length hi -> length (midrow lo hi) = length lo.
Proof. intros E. unfold midrow. rewrite map2_length; congruence. Qed.

Lemma midrow_in lo hi : Forall2 Qle lo hi -> row_in lo hi (midrow lo hi).
Proof.
  induction 1 as [|l h lo hi L F [A B]]; [split; constructor|].
  unfold midrow. simpl. unum. split; constructor; try assumption.
  - apply Qle_shift_div_l; [reflexivity|]. change (inject_Z 2) with 2. lra.
  - apply Qle_shift_div_r; [reflexivity|]. change (inject_Z 2) with 2. lra.
Qed.

Lemma clip_row_id lo hi r : row_in lo hi r -> clip_row r lo hi = r.
Proof.
  intros [A B]. revert hi B. induction A as [|l x lo r L F IH]; intros hi B; inversion B; subst; simpl.
  - reflexivity.
  - f_equal; [|auto]. unfold clip1. unum.
    destruct (Qltb x l) eqn:E1, (Qltb y x) eqn:E2; qprop; try reflexivity; lra.
Qed.

Lemma clip_row_in lo hi : Forall2 Qle lo hi -> forall r, length r = length lo ->
  row_in lo hi (clip_row r lo hi).
Proof.
  induction 1 as [|l h lo hi L F IH]; intros [|x r] E; try discriminate; simpl.
  - split; constructor.
  - destruct (IH r) as [A B]; [simpl in E; congruence|].
    assert (l <= clip1 x l h /\ clip1 x l h <= h).
    { unfold clip1. unum. destruct (Qltb x l) eqn:E1, (Qltb h x) eqn:E2; qprop; split; lra. }
    split; constructor; tauto.
Qed.

Lemma clip_rows_in lo hi : Forall2 Qle lo hi -> forall m,
  Forall (fun r => length r = length lo) m ->
  Forall (row_in lo hi) (clip_rows m (repeat lo (length m)) (repeat hi (length m)))
  /\ length (clip_rows m (repeat lo (length m)) (repeat hi (length m))) = length m.
Proof.
  intros F. induction 1 as [|r m E Fm [IH1 IH2]]; simpl; [split; constructor|].
  split; [|congruence]. constructor; [|assumption]. apply clip_row_in; assumption.
Qed.

Lemma clip_rows_id lo hi m : Forall (row_in lo hi) m ->
  clip_rows m (repeat lo (length m)) (repeat hi (length m)) = m.
Proof. induction 1; simpl; [reflexivity|]. rewrite clip_row_id, IHForall by assumption. reflexivity. Qed.

(** ** The invariant of time-series data *)

(** Same forecaster class; the noise stream may have advanced. *)
Definition same_fk (k k' : fkind Q) : Prop :=
  match k with
  | FcGauss s d _ => exists c, k' = FcGauss s d c
  | _ => k' = k
  end.

Lemma same_fk_refl k : same_fk k k.
Proof. destruct k; simpl; eauto. Qed.
Lemma same_fk_trans k1 k2 k3 : same_fk k1 k2 -> same_fk k2 k3 -> same_fk k1 k3.
Proof. destruct k1; simpl; intros E; [subst; auto..| |subst; auto]. destruct E as [c ->]. auto. Qed.

Record ts_ok (t : tsdata Q) : Prop := mkTsOk {
  ok_cols : (0 < length (ts_comps t))%nat;
  ok_min : length (ts_minobs t) = length (ts_comps t);
  ok_ord : Forall2 Qle (ts_minobs t) (ts_maxobs t);
  ok_rows : Forall (row_in (ts_minobs t) (ts_maxobs t)) (ts_rows t);
  ok_frows : fc_rows (ts_fc t) = ts_horizon t;
  ok_fcols : fc_cols (ts_fc t) = length (ts_comps t);
  ok_flow : fc_low (ts_fc t) = repeat (ts_minobs t) (ts_horizon t);
  ok_fhigh : fc_high (ts_fc t) = repeat (ts_maxobs t) (ts_horizon t);
  ok_fill : fc_fill (ts_fc t)
            = concat (repeat (midrow (ts_minobs t) (ts_maxobs t)) (S (ts_horizon t)));
  ok_shape : match fc_kind (ts_fc t) with
             | FcGauss (Some (r, c)) _ _ => r = ts_horizon t /\ c = length (ts_comps t)
             | FcNone => ts_horizon t = 0%nat
             | _ => True
             end;
  ok_keys : ts_keys_cur t = keys_current (ts_comps t)
            /\ ts_keys_fc t = keys_forecast (ts_comps t) (ts_horizon t)
}.

(** A forecast of the right shape, inside the bounds. *)
Definition fc_fits (t : tsdata Q) (f : list (list Q)) : Prop :=
  length f = ts_horizon t /\ Forall (row_in (ts_minobs t) (ts_maxobs t)) f.

(** The stored forecast, if any, has the right shape. *)
Definition cur_ok (t : tsdata Q) : Prop :=
  match ts_cur_fc t with
  | Some f => fc_fits t f
  | None => ts_horizon t = 0%nat
  end.

(** Two records that differ only in the noise stream and the stored forecast. *)
Record ts_same (t t' : tsdata Q) : Prop := mkTsSame {
  same_rows : ts_rows t' = ts_rows t;
  same_comps : ts_comps t' = ts_comps t;
  same_min : ts_minobs t' = ts_minobs t;
  same_max : ts_maxobs t' = ts_maxobs t;
  same_final : ts_final t' = ts_final t;
  same_fparam : ts_fparam t' = ts_fparam t;
  same_horizon : ts_horizon t' = ts_horizon t;
  same_keys : ts_keys_cur t' = ts_keys_cur t /\ ts_keys_fc t' = ts_keys_fc t;
  same_fc : exists k, same_fk (fc_kind (ts_fc t)) k /\ ts_fc t' = fc_with_kind (ts_fc t) k
}.

Lemma fc_with_kind_same (fc : forecaster Q) : fc_with_kind fc (fc_kind fc) = fc.
Proof. destruct fc; reflexivity. Qed.

Lemma ts_same_refl t : ts_same t t.
Proof.
  constructor; auto. exists (fc_kind (ts_fc t)). split; [apply same_fk_refl|].
  rewrite fc_with_kind_same. reflexivity.
Qed.

Lemma ts_same_trans t1 t2 t3 : ts_same t1 t2 -> ts_same t2 t3 -> ts_same t1 t3.
Proof.
  intros [] []. destruct same_keys0, same_keys1.
  destruct same_fc0 as (k & K & F), same_fc1 as (k' & K' & F').
  constructor; try congruence; [split; congruence|].
  exists k'. rewrite F in K', F'. simpl in K'. split; [exact (same_fk_trans _ _ _ K K')|].
  rewrite F'. reflexivity.
Qed.

Lemma ts_same_ok t t' : ts_same t t' -> ts_ok t -> ts_ok t'.
Proof.
  intros [] []. destruct same_keys0 as [S1 S2], ok_keys0 as [K1 K2].
  destruct same_fc0 as (k & K & F).
  constructor; rewrite ?same_rows0, ?same_comps0, ?same_min0, ?same_max0, ?same_horizon0, ?F;
    simpl; auto.
  - revert ok_shape0 K. destruct (fc_kind (ts_fc t)); simpl; intros O K; subst; auto.
    destruct K as [c ->]. assumption.
  - rewrite S1, S2. auto.
Qed.

Lemma ts_same_fits t t' f : ts_same t t' -> fc_fits t f -> fc_fits t' f.
Proof. intros [] F. unfold fc_fits. rewrite same_horizon0, same_min0, same_max0. exact F. Qed.

Section WithOk.
Variable t : tsdata Q.
Hypothesis OK : ts_ok t.

Let lo := ts_minobs t.
Let hi := ts_maxobs t.
Let c := length (ts_comps t).
Let h := ts_horizon t.

Lemma ok_max : length hi = c.
Proof. unfold hi, c. rewrite <- (ok_min t OK). symmetry. exact (Forall2_length _ _ _ (ok_ord t OK)). Qed.

Lemma mid_length : length (midrow lo hi) = c.
Proof.
  rewrite midrow_length; [apply ok_min; assumption|].
  transitivity c; [apply ok_min; assumption|symmetry; apply ok_max].
Qed.

Lemma fc_pad_ok fr n : (length fr <= n)%nat -> (n <= S h)%nat ->
  fc_pad (ts_fc t) c fr n = Ok (fr ++ repeat (midrow lo hi) (n - length fr)).
Proof.
  intros L U. unfold fc_pad.
  destruct (Nat.eqb_spec (length fr) n) as [E|N].
  - rewrite E, Nat.sub_diag. simpl. rewrite app_nil_r. reflexivity.
  - replace (Nat.ltb n (length fr)) with false by (symmetry; apply Nat.ltb_ge; lia).
    rewrite (ok_fill t OK). fold lo hi h.
    rewrite <- mid_length, reshape_repeat
      by (rewrite mid_length; apply (ok_cols t OK)).
    rewrite py_last_repeat by lia. rewrite repeat_length.
    replace (Nat.ltb (n - length fr) (n - length fr)) with false
      by (symmetry; apply Nat.ltb_ge; lia). reflexivity.
Qed.

Lemma fc_clip_ok m m' : length m = h -> fc_clip (ts_fc t) m = Ok m' -> fc_fits t m'.
Proof.
  intros L. unfold fc_clip.
  assert (LB : py_last (fc_low (ts_fc t)) (length m) = repeat lo (length m)).
  { rewrite (ok_flow t OK), L. fold lo h. rewrite <- (repeat_length lo h) at 2. apply py_last_all. }
  assert (UB : py_last (fc_high (ts_fc t)) (length m) = repeat hi (length m)).
  { rewrite (ok_fhigh t OK), L. fold hi h. rewrite <- (repeat_length hi h) at 2. apply py_last_all. }
  rewrite LB, UB, repeat_length, Nat.eqb_refl. simpl.
  destruct (forallb _ m) eqn:F; [|discriminate]. intros E; inversion E; subst; clear E.
  rewrite forallb_forall in F.
  destruct (clip_rows_in lo hi (ok_ord t OK) m) as [A B].
  - apply Forall_forall. intros r I. apply F in I. apply Nat.eqb_eq in I.
    rewrite I. unfold lo. rewrite (ok_fcols t OK), (ok_min t OK). reflexivity.
  - split; [rewrite B; assumption|exact A].
Qed.

Lemma fc_clip_id m : fc_fits t m -> fc_clip (ts_fc t) m = Ok m.
Proof.
  intros [L R]. unfold fc_clip.
  assert (LB : py_last (fc_low (ts_fc t)) (length m) = repeat lo (length m)).
  { rewrite (ok_flow t OK), L. fold lo h. rewrite <- (repeat_length lo h) at 2. apply py_last_all. }
  assert (UB : py_last (fc_high (ts_fc t)) (length m) = repeat hi (length m)).
  { rewrite (ok_fhigh t OK), L. fold hi h. rewrite <- (repeat_length hi h) at 2. apply py_last_all. }
  rewrite LB, UB, repeat_length, Nat.eqb_refl, clip_rows_id by assumption. simpl.
  replace (forallb _ m) with true; [reflexivity|].
  symmetry. apply forallb_forall. intros r I. apply Nat.eqb_eq.
  rewrite Forall_forall in R. destruct (row_in_length _ _ _ (R _ I)) as [E _].
  rewrite E, (ok_fcols t OK). apply (ok_min t OK).
Qed.

Lemma fits_pad fut : Forall (row_in lo hi) fut -> (length fut <= h)%nat ->
  fc_fits t (fut ++ repeat (midrow lo hi) (h - length fut)).
Proof.
  intros F L. split.
  - rewrite app_length, repeat_length. fold h. lia.
  - apply Forall_app. split; [exact F|]. apply Forall_forall. intros r I.
    apply repeat_spec in I. subst. apply midrow_in. apply (ok_ord t OK).
Qed.

Lemma add_noise_length d (m : list (list Q)) : length (add_noise d m) = length m.
Proof. unfold add_noise. rewrite map_length, combine_length, seq_length. lia. Qed.

Lemma add_noise_widths d (m : list (list Q)) w :
  Forall (fun r => length r = w) m -> Forall (fun r => length r = w) (add_noise d m).
Proof.
  intros F. apply Forall_forall. intros r I. unfold add_noise in I.
  apply in_map_iff in I. destruct I as ([i r0] & <- & I).
  apply in_combine_r in I. rewrite Forall_forall in F. apply F in I.
  rewrite map_length, combine_length, seq_length. simpl. lia.
Qed.

(** What a call of the forecaster can return. *)
Lemma fc_call_ok val_c fut k r :
  Forall (row_in lo hi) fut -> (length fut <= h)%nat ->
  fc_call (ts_fc t) val_c fut h = (k, r) ->
  same_fk (fc_kind (ts_fc t)) k
  /\ match r with
     | Ok None => fc_kind (ts_fc t) = FcNone
     | Ok (Some (m, view)) =>
         fc_kind (ts_fc t) <> FcNone /\ fc_fits t m
         /\ (fc_kind (ts_fc t) = FcOracle -> m = fut ++ repeat (midrow lo hi) (h - length fut))
         /\ (view = true -> m = fut)
     | Err _ => exists vec f, fc_kind (ts_fc t) = FcUser vec f
     end.
Proof.
  intros F L. unfold fc_call. rewrite (ok_frows t OK). fold h.
  replace (Nat.ltb h (length fut)) with false by (symmetry; apply Nat.ltb_ge; lia).
  unfold fc_forecast. pose proof (ok_shape t OK) as SH.
  assert (W : Forall (fun r => length r = c) fut).
  { apply Forall_forall. intros x I. rewrite Forall_forall in F.
    destruct (row_in_length _ _ _ (F _ I)) as [E _]. rewrite E. apply (ok_min t OK). }
  destruct (fc_kind (ts_fc t)) as [| |sh d n|vec f] eqn:K.
  - intros E; inversion E; subst. split; [exact eq_refl|reflexivity].
  - rewrite (ok_fcols t OK). fold c. rewrite fc_pad_ok by lia. cbn [rbind].
    rewrite fc_clip_id by (apply fits_pad; assumption). cbn [rbind].
    destruct (fits_pad fut F L) as [LL FF].
    rewrite LL. fold h. rewrite Nat.eqb_refl. intros E; inversion E; subst.
    split; [exact eq_refl|]. split; [discriminate|]. split; [apply fits_pad; assumption|].
    split; [reflexivity|]. intros V. apply Nat.eqb_eq in V. rewrite V, Nat.sub_diag. simpl.
    apply app_nil_r.
  - replace (noise_ok sh (length fut) (fc_cols (ts_fc t))) with true.
    2:{ symmetry. unfold noise_ok. destruct sh as [[r0 c0]|]; [|reflexivity].
        destruct SH as [-> ->]. rewrite (ok_fcols t OK), Nat.eqb_refl. simpl.
        apply orb_true_iff. right. apply Nat.leb_le. exact L. }
    rewrite (ok_fcols t OK). fold c.
    rewrite fc_pad_ok by (rewrite ?add_noise_length; lia). cbn [rbind].
    rewrite add_noise_length.
    set (p := add_noise (d n) fut ++ repeat (midrow lo hi) (h - length fut)).
    assert (PL : length p = h).
    { unfold p. rewrite app_length, repeat_length, add_noise_length. lia. }
    destruct (fc_clip (ts_fc t) p) as [m'|e] eqn:C.
    + cbn [rbind]. pose proof (fc_clip_ok p m' PL C) as [LL FF]. fold h in LL.
      rewrite LL, Nat.eqb_refl. intros E; inversion E; subst.
      split; [simpl; eauto|]. split; [discriminate|]. split; [split; assumption|].
      split; discriminate.
    + exfalso. revert C. unfold fc_clip.
      rewrite (ok_flow t OK). fold h. rewrite <- PL at 2.
      rewrite <- (repeat_length (ts_minobs t) h) in PL. rewrite PL at 1. rewrite py_last_all.
      rewrite <- PL, Nat.eqb_refl. simpl.
      replace (forallb _ p) with true; [discriminate|].
      symmetry. apply forallb_forall. intros r0 I. apply Nat.eqb_eq. rewrite (ok_fcols t OK). fold c.
      apply in_app_iff in I. destruct I as [I|I].
      * revert r0 I. apply Forall_forall. apply add_noise_widths. exact W.
      * apply repeat_spec in I. subst. apply mid_length.
  - intros E.
    assert (K2 : k = FcUser vec f).
    { destruct vec; [destruct (uf_vec f val_c fut h) as [[[|] m]|e]|
        destruct (vectorize_scalar f val_c fut h)]; simpl in E; inversion E; reflexivity. }
    split; [exact K2|].
    destruct r as [[[m v]|]|e]; [|exfalso|eauto].
    2:{ destruct vec; [destruct (uf_vec f val_c fut h) as [[[|] m]|e]|
          destruct (vectorize_scalar f val_c fut h) as [m|]]; simpl in E; try discriminate E;
        apply (f_equal snd) in E; simpl in E; revert E;
        (destruct (fc_pad _ _ m h) as [p|]; simpl; [|discriminate]);
        (destruct (fc_clip _ p) as [q|]; simpl; [|discriminate]);
        destruct (Nat.eqb (length q) h); discriminate. }
    split; [discriminate|].
    assert (Main : exists m0, (let? p := fc_pad (ts_fc t) (fc_cols (ts_fc t)) m0 h in
         let? cc := fc_clip (ts_fc t) p in
         if Nat.eqb (length cc) h then Ok (Some (cc, false))
         else raise AssertionError "forecast.shape")%py = Ok (Some (m, v))).
    { destruct vec; [destruct (uf_vec f val_c fut h) as [[[|] m0]|e]|
        destruct (vectorize_scalar f val_c fut h) as [m0|]]; simpl in E; try discriminate E;
      apply (f_equal snd) in E; simpl in E; exists m0; exact E. }
    destruct Main as [m0 Main].
    apply rbind_ok in Main. destruct Main as (p & P1 & Main).
    apply rbind_ok in Main. destruct Main as (q & P2 & Main).
    destruct (Nat.eqb_spec (length q) h) as [LQ|]; [|discriminate].
    inversion Main; subst. split; [|split; discriminate].
    assert (PL : length p = h).
    { revert P1. unfold fc_pad. destruct (Nat.eqb_spec (length m0) h) as [E0|].
      - intros E1; inversion E1; subst. exact E0.
      - destruct (Nat.ltb h (length m0)) eqn:LT; [discriminate|]. apply Nat.ltb_ge in LT.
        destruct (Nat.ltb _ _) eqn:LT2; [discriminate|]. intros E1; inversion E1; subst.
        rewrite (ok_fcols t OK), (ok_fill t OK). fold lo hi h c.
        rewrite <- mid_length, reshape_repeat
          by (rewrite mid_length; apply (ok_cols t OK)).
        rewrite py_last_repeat by lia. rewrite app_length, repeat_length. lia. }
    exact (fc_clip_ok p m PL P2).
Qed.

Lemma future_ok cur : Forall (row_in lo hi) (ts_future t cur) /\ (length (ts_future t cur) <= h)%nat.
Proof.
  split.
  - apply Forall_forall. intros r I. apply py_slice_In in I.
    pose proof (ok_rows t OK) as R. rewrite Forall_forall in R. apply R. assumption.
  - apply py_slice_length.
Qed.

(** Forecasting changes nothing but the noise stream and returns a forecast of
    the right shape within the bounds. *)
Lemma ts_forecast_ok cur t' r : ts_forecast cur t = (t', r) ->
  ts_same t t' /\ ts_cur_fc t' = ts_cur_fc t
  /\ match r with
     | Ok None => fc_kind (ts_fc t) = FcNone
     | Ok (Some f) => fc_fits t f
     | Err _ => exists vec f, fc_kind (ts_fc t) = FcUser vec f
     end.
Proof.
  unfold ts_forecast. destruct (ts_row t cur) as [vc|] eqn:RW.
  - destruct (future_ok cur) as [F L].
    destruct (fc_call (ts_fc t) vc (ts_future t cur) (ts_horizon t)) as [k x] eqn:E.
    destruct (fc_call_ok _ _ _ _ F L E) as [K P].
    assert (SM : ts_same t (ts_set_fc t (fc_with_kind (ts_fc t) k))).
    { constructor; auto. exists k. split; [exact K|reflexivity]. }
    destruct x as [[[m v]|]|e]; intros X; apply pair_equal_spec in X; destruct X as [<- <-].
    + destruct P as (P1 & P2 & P3 & P4). destruct v.
      * rewrite (P4 eq_refl). unfold ts_future. cbn [ts_rows ts_set_fc]. unfold write_back.
        rewrite write_back_slice.
        split; [|split; [reflexivity|rewrite (P4 eq_refl) in P2; exact P2]].
        constructor; auto. exists k. split; [exact K|reflexivity].
      * split; [exact SM|]. split; [reflexivity|exact P2].
    + split; [exact SM|]. split; [reflexivity|exact P].
    + split; [exact SM|]. split; [reflexivity|exact P].
  - unfold fc_full_pad. fold c h. rewrite fc_pad_ok by (simpl; lia).
    intros E. apply pair_equal_spec in E. destruct E as [<- <-]. split; [apply ts_same_refl|]. split; [reflexivity|].
    split; [simpl; rewrite repeat_length; fold h; lia|].
    apply Forall_forall. intros r0 I. simpl in I. apply repeat_spec in I. subst.
    apply midrow_in. apply (ok_ord t OK).
Qed.

Lemma ts_refresh_ok cur t' r : ts_refresh cur t = (t', r) ->
  ts_same t t'
  /\ match r with
     | Ok _ => cur_ok t'
     | Err _ => (exists vec f, fc_kind (ts_fc t) = FcUser vec f) /\ ts_cur_fc t' = ts_cur_fc t
     end.
Proof.
  unfold ts_refresh, mbind, mmodify.
  destruct (ts_forecast cur t) as [t1 x] eqn:E.
  destruct (ts_forecast_ok _ _ _ E) as (SM & CF & P).
  destruct x as [f|e]; intros X; inversion X; subst; clear X.
  - split.
    + destruct SM. constructor; auto.
    + unfold cur_ok. simpl. destruct f as [f|].
      * assert (Hf := ts_same_fits _ _ _ SM P). exact Hf.
      * pose proof (ok_shape t OK) as S. rewrite P in S. rewrite (same_horizon _ _ SM). exact S.
  - split; [exact SM|]. split; [exact P|exact CF].
Qed.

Lemma cur_row_ok cur : exists r, ts_current_obs t cur = Ok r /\ row_in lo hi r
  /\ (forall d, ts_row t cur = Some d -> r = d).
Proof.
  unfold ts_current_obs. destruct (ts_row t cur) as [r|] eqn:E.
  - exists r. split; [reflexivity|]. split; [|intros d X; inversion X; reflexivity].
    apply py_nth_In in E. pose proof (ok_rows t OK) as R. rewrite Forall_forall in R. auto.
  - unfold fc_full_pad. fold c. rewrite fc_pad_ok by (simpl; lia). simpl.
    exists (midrow lo hi). rewrite app_nil_r. split; [reflexivity|].
    split; [apply midrow_in; apply (ok_ord t OK)|discriminate].
Qed.

End WithOk.

(** ** Keys of the state dictionary *)
Lemma to_uint_nonnil n : Nat.to_uint n <> Decimal.Nil.
Proof.
  intros E. pose proof (Unsigned.of_to n) as O. rewrite E in O. simpl in O.
  subst n. discriminate E.
Qed.

Lemma str_of_nat_inj a b : str_of_nat a = str_of_nat b -> a = b.
Proof.
  unfold str_of_nat. intros E.
  apply (f_equal NilZero.uint_of_string) in E.
  rewrite !NilZero.usu in E by apply to_uint_nonnil.
  inversion E. apply Unsigned.to_uint_inj. assumption.
Qed.

Lemma append_inj_l (p a b : string) : (p ++ a)%string = (p ++ b)%string -> a = b.
Proof. induction p; simpl; intros E; [assumption|]. inversion E. auto. Qed.

Lemma NoDup_concat_map {A B} (f : A -> list B) l :
  NoDup l -> (forall x, In x l -> NoDup (f x)) ->
  (forall x y b, In x l -> In y l -> In b (f x) -> In b (f y) -> x = y) ->
  NoDup (concat (map f l)).
Proof.
  induction 1 as [|x l N ND IH]; simpl; intros F D; [constructor|].
  assert (app : forall (l1 l2 : list B), NoDup l1 -> NoDup l2 -> (forall b, In b l1 -> ~ In b l2) ->
          NoDup (l1 ++ l2)).
  { clear. induction 1; simpl; intros ND2 D; [assumption|]. constructor.
    - rewrite in_app_iff. intros [I|I]; [auto|]. apply (D x); [left; reflexivity|assumption].
    - apply IHNoDup; auto. }
  apply app.
  - apply F. auto.
  - apply IH; intros; eauto.
  - intros b I J. apply in_concat in J. destruct J as (y & Iy & Ib).
    apply in_map_iff in Iy. destruct Iy as (z & <- & Iz).
    assert (x = z) by (eapply D; eauto). subst. contradiction.
Qed.

Definition known_comps (comps : list string) : Prop :=
  comps = ["load"]%string \/ comps = ["renewable"]%string \/ comps = grid_comps.

Ltac str_discr :=
  repeat match goal with
         | E : String _ _ = String _ _ |- _ => first [discriminate E | injection E as E]
         end; try discriminate.

Lemma keys_nodup comps h : known_comps comps ->
  NoDup (keys_current comps ++ keys_forecast comps h).
Proof.
  intros K.
  assert (FC : NoDup (keys_forecast comps h)).
  { unfold keys_forecast. apply NoDup_concat_map; [apply seq_NoDup| |].
    - intros j _. destruct K as [->|[->| ->]]; simpl;
        repeat constructor; simpl; try tauto; intros I; decompose [or] I; try tauto; str_discr.
    - intros i j b _ _ Ii Ij.
      destruct K as [->|[->| ->]]; simpl in Ii, Ij;
        decompose [or] Ii; decompose [or] Ij; try contradiction; subst;
        try (apply str_of_nat_inj; match goal with
             | E : String _ _ = String _ _ |- _ => injection E as E; congruence end);
        str_discr. }
  assert (app : forall (l1 l2 : list string), NoDup l1 -> NoDup l2 -> (forall b, In b l1 -> ~ In b l2) ->
          NoDup (l1 ++ l2)).
  { clear. induction 1; simpl; intros ND2 D; [assumption|]. constructor.
    - rewrite in_app_iff. intros [I|I]; [auto|]. apply (D x); [left; reflexivity|assumption].
    - apply IHNoDup; auto. }
  apply app; [|exact FC|].
  - destruct K as [->|[->| ->]]; simpl; repeat constructor; simpl; try tauto;
      intros I; decompose [or] I; try tauto; str_discr.
  - intros b I J. unfold keys_forecast in J. apply in_concat in J. destruct J as (l & Il & Ib).
    apply in_map_iff in Il. destruct Il as (j & <- & _).
    destruct K as [->|[->| ->]]; simpl in I, Ib;
      decompose [or] I; decompose [or] Ib; try contradiction; subst; str_discr.
Qed.

Lemma keys_lengths comps h :
  length (keys_current comps) = length comps
  /\ length (keys_forecast comps h) = (h * length comps)%nat.
Proof.
  split; [apply map_length|]. unfold keys_forecast.
  assert (G : forall s, length (concat (map (fun j : nat => map (fun c => c ++ "_forecast_" ++ str_of_nat j)%string comps)
     (seq s h))) = (h * length comps)%nat); [|apply G].
  induction h as [|h IH]; intros s; simpl; [reflexivity|].
  rewrite app_length, map_length, IH. reflexivity.
Qed.

Lemma concat_length_rows {A} (f : list (list A)) c :
  Forall (fun r => length r = c) f -> length (concat f) = (length f * c)%nat.
Proof. induction 1; simpl; [reflexivity|]. rewrite app_length. lia. Qed.

Lemma map_snd_combine {A B} (l : list A) (m : list B) :
  length l = length m -> map snd (combine l m) = m.
Proof. revert m. induction l; destruct m; simpl; intros; try discriminate; f_equal; auto. Qed.
Lemma map_fst_combine {A B} (l : list A) (m : list B) :
  length l = length m -> map fst (combine l m) = l.
Proof. revert m. induction l; destruct m; simpl; intros; try discriminate; f_equal; auto. Qed.
Lemma combine_app {A B} (l1 l2 : list A) (m1 m2 : list B) :
  length l1 = length m1 -> combine (l1 ++ l2) (m1 ++ m2) = combine l1 m1 ++ combine l2 m2.
Proof. revert m1. induction l1; destruct m1; simpl; intros; try discriminate; f_equal; auto. Qed.

(** The stored forecast as rows. *)
Definition fc_view (t : tsdata Q) : list (list Q) :=
  match ts_cur_fc t with Some f => f | None => [] end.

Lemma ts_state_dict_ok t cur : ts_ok t -> cur_ok t -> known_comps (ts_comps t) ->
  exists r, ts_current_obs t cur = Ok r
  /\ row_in (ts_minobs t) (ts_maxobs t) r
  /\ (forall d, ts_row t cur = Some d -> r = d)
  /\ fc_fits t (fc_view t)
  /\ ts_state_dict t cur
     = Ok (combine (keys_current (ts_comps t) ++ keys_forecast (ts_comps t) (ts_horizon t))
                   (r ++ concat (fc_view t)))
  /\ length (r ++ concat (fc_view t)) = (S (ts_horizon t) * length (ts_comps t))%nat.
Proof.
  intros OK CU K. destruct (cur_row_ok t OK cur) as (r & E & RI & D).
  exists r. split; [exact E|]. split; [exact RI|]. split; [exact D|].
  assert (FF : fc_fits t (fc_view t)).
  { revert CU. unfold cur_ok, fc_view. destruct (ts_cur_fc t) as [f|]; [auto|].
    intros Z. split; [simpl; congruence|constructor]. }
  split; [exact FF|].
  assert (LR : length r = length (ts_comps t)).
  { destruct (row_in_length _ _ _ RI) as [L _]. rewrite L. apply (ok_min t OK). }
  assert (LF : length (concat (fc_view t)) = (ts_horizon t * length (ts_comps t))%nat).
  { destruct FF as [L F]. rewrite <- L. apply concat_length_rows. apply Forall_forall.
    intros x I. rewrite Forall_forall in F. destruct (row_in_length _ _ _ (F _ I)) as [X _].
    rewrite X. apply (ok_min t OK). }
  destruct (keys_lengths (ts_comps t) (ts_horizon t)) as [KC KF].
  split.
  - unfold ts_state_dict. rewrite E. cbn [rbind].
    destruct (ok_keys t OK) as [-> ->].
    pose proof (keys_nodup (ts_comps t) (ts_horizon t) K) as ND.
    rewrite combine_app by congruence.
    assert (ND2 : NoDup (map fst (combine (keys_current (ts_comps t)) r
                   ++ combine (keys_forecast (ts_comps t) (ts_horizon t)) (concat (fc_view t))))).
    { rewrite map_app, !map_fst_combine by congruence. exact ND. }
    rewrite (dict_of_NoDup (combine (keys_current (ts_comps t)) r)).
    2:{ rewrite map_app in ND2. rewrite map_fst_combine by congruence.
        clear - ND. revert ND. generalize (keys_current (ts_comps t)) as l.
        induction l; simpl; intros N; [constructor|]. inversion N; subst. constructor; auto.
        intros I. apply H1. apply in_or_app. auto. }
    f_equal. unfold fc_view in *. destruct (ts_cur_fc t) as [f|] eqn:CF.
    + apply dupdate_fresh. exact ND2.
    + destruct (combine (keys_forecast (ts_comps t) (ts_horizon t)) (concat [])) eqn:X.
      * rewrite app_nil_r. reflexivity.
      * destruct (keys_forecast (ts_comps t) (ts_horizon t)); discriminate.
  - rewrite app_length, LR, LF. reflexivity.
Qed.

Lemma obs_length t : ts_ok t ->
  length (sp_low (ts_obs_space t)) = (S (ts_horizon t) * length (ts_comps t))%nat
  /\ length (sp_high (ts_obs_space t)) = (S (ts_horizon t) * length (ts_comps t))%nat.
Proof.
  intros OK. unfold ts_obs_space. cbn [sp_low sp_high]. rewrite !repeat_concat_length.
  rewrite (ok_min t OK). pose proof (ok_max t OK) as M. rewrite M. auto.
Qed.

(** The state lies in the declared observation box. *)
Lemma Forall2_concat_repeat (R : Q -> Q -> Prop) lo f :
  Forall (fun r => Forall2 R lo r) f -> Forall2 R (concat (repeat lo (length f))) (concat f).
Proof. induction 1; simpl; [constructor|]. apply Forall2_app; assumption. Qed.
Lemma Forall2_concat_repeat' (R : Q -> Q -> Prop) hi f :
  Forall (fun r => Forall2 R r hi) f -> Forall2 R (concat f) (concat (repeat hi (length f))).
Proof. induction 1; simpl; [constructor|]. apply Forall2_app; assumption. Qed.

Lemma state_in_box t r f : row_in (ts_minobs t) (ts_maxobs t) r -> fc_fits t f ->
  Forall2 Qle (sp_low (ts_obs_space t)) (r ++ concat f)
  /\ Forall2 Qle (r ++ concat f) (sp_high (ts_obs_space t)).
Proof.
  intros [A B] [L F]. unfold ts_obs_space. simpl. rewrite <- L.
  split; apply Forall2_app; try assumption.
  - apply Forall2_concat_repeat. eapply Forall_impl; [|exact F]. intros x []; assumption.
  - apply Forall2_concat_repeat'. eapply Forall_impl; [|exact F]. intros x []; assumption.
Qed.

(** ** Constructors *)
Lemma rectangular_widths (rows : list (list Q)) : rectangular rows = true ->
  forall r, In r rows -> forall r', In r' rows -> length r = length r'.
Proof.
  destruct rows as [|r0 rows]; [intros _ r []|]. unfold rectangular.
  rewrite forallb_forall. intros F r I r' I'.
  apply F in I. apply F in I'. apply Nat.eqb_eq in I, I'. congruence.
Qed.

Lemma set_time_series_rows src snk (rows ts : list (list Q)) :
  set_time_series src snk rows = Ok ts ->
  rectangular rows = true
  /\ ((src = true /\ snk = true /\ ts = rows)
      \/ ((src = false \/ snk = false)
          /\ (forallb (forallb (fun x => nleb x n0)) rows = true
              \/ forallb (forallb (fun x => nleb n0 x)) rows = true)
          /\ ts = if src then map (map nabs) rows
                  else map (map (fun x => nopp (nabs x))) rows)).
Proof.
  unfold set_time_series, sign_check. destruct (rectangular rows) eqn:R; [|discriminate].
  intros E. split; [reflexivity|].
  destruct src, snk; simpl in E; try (inversion E; auto; fail);
    right; (split; [auto|]);
    (destruct (negb _) eqn:N; [discriminate|]);
    apply negb_false_iff in N; apply orb_true_iff in N;
    inversion E; auto.
Qed.

(** Bounds of a one-column series. *)
Lemma bounds1_ok (ts : list (list Q)) bds :
  Forall (fun r => length r = 1%nat) ts -> bounds1 ts = Ok bds ->
  length (fst bds) = 1%nat /\ Forall2 Qle (fst bds) (snd bds)
  /\ Forall (row_in (fst bds) (snd bds)) ts.
Proof.
  intros W E. unfold bounds1 in E. apply rmap_ok in E. destruct E as ([lo hi] & E & ->).
  unfold get_bounds1 in E. apply rbind_ok in E. destruct E as (mn & E1 & E).
  apply rbind_ok in E. destruct E as (mx & E2 & E). unum.
  apply list_min_spec in E1. apply list_max_spec in E2.
  destruct E1 as [I1 M1], E2 as [I2 M2].
  assert (B : forall y, In y (concat ts) -> lo <= y /\ y <= hi).
  { intros y I. pose proof (M1 y I). pose proof (M2 y I).
    destruct (Qltb 0 mn) eqn:Z1; [|destruct (Qltb mx 0) eqn:Z2]; inversion E; subst; qprop;
      split; lra. }
  assert (LH : lo <= hi) by (destruct (B mn I1); lra).
  simpl. split; [reflexivity|]. split; [repeat constructor; assumption|].
  apply Forall_forall. intros r I. rewrite Forall_forall in W. pose proof (W _ I) as L.
  destruct r as [|x [|]]; try discriminate.
  assert (In x (concat ts)) as IX by (apply in_concat; exists [x]; split; [assumption|left; reflexivity]).
  apply B in IX. destruct IX. split; repeat constructor; assumption.
Qed.

Lemma ts_column_In j (rows : list (list Q)) x :
  In x (ts_column j rows) <-> exists r, In r rows /\ nth_error r j = Some x.
Proof.
  unfold ts_column. rewrite in_concat. split.
  - intros (l & I & X). apply in_map_iff in I. destruct I as (r & <- & I).
    exists r. split; [assumption|]. destruct (nth_error r j); [|destruct X].
    destruct X as [->|[]]. reflexivity.
  - intros (r & I & E). exists [x]. split; [|left; reflexivity].
    apply in_map_iff. exists r. rewrite E. auto.
Qed.

Lemma Forall2_nth {A B} (R : A -> B -> Prop) l m :
  length l = length m ->
  (forall j x y, nth_error l j = Some x -> nth_error m j = Some y -> R x y) -> Forall2 R l m.
Proof.
  revert m. induction l as [|a l IH]; destruct m as [|b m]; simpl; intros L F; try discriminate.
  - constructor.
  - constructor; [apply (F 0%nat); reflexivity|]. apply IH; [congruence|].
    intros j x y X Y. apply (F (S j)); assumption.
Qed.

Lemma Forall2_seq_nth {B} (P : nat -> B -> Prop) n : forall s l,
  Forall2 P (seq s n) l -> length l = n /\ forall j y, nth_error l j = Some y -> P (s + j)%nat y.
Proof.
  induction n as [|n IH]; simpl; intros s l F; inversion F; subst.
  - split; [reflexivity|]. intros [|j] y E; discriminate.
  - destruct (IH _ _ H3) as [L N]. split; [simpl; congruence|].
    intros [|j] y' E; simpl in E.
    + inversion E; subst. rewrite Nat.add_0_r. assumption.
    + rewrite Nat.add_succ_r. apply N. assumption.
Qed.

Lemma grid_bounds_ok n (ts : list (list Q)) bds :
  (0 < n)%nat -> Forall (fun r => length r = n) ts -> grid_bounds n ts = Ok bds ->
  length (fst bds) = n /\ Forall2 Qle (fst bds) (snd bds)
  /\ Forall (row_in (fst bds) (snd bds)) ts.
Proof.
  intros P W E. unfold grid_bounds in E. apply rbind_ok in E. destruct E as (lo & E1 & E).
  apply rbind_ok in E. destruct E as (hi & E2 & E). inversion E; subst; clear E. simpl.
  apply rmapM_ok in E1. apply rmapM_ok in E2.
  apply Forall2_seq_nth in E1. apply Forall2_seq_nth in E2.
  destruct E1 as [L1 N1], E2 as [L2 N2]. simpl in N1, N2.
  split; [exact L1|].
  assert (R : Forall (row_in lo hi) ts).
  { apply Forall_forall. intros r I. rewrite Forall_forall in W. pose proof (W _ I) as L.
    split; apply Forall2_nth; try congruence; intros j x y X Y.
    - apply N1 in X. apply list_min_spec in X. apply X. apply ts_column_In. eauto.
    - apply N2 in Y. apply list_max_spec in Y. apply Y. apply ts_column_In. eauto. }
  split; [|exact R].
  destruct ts as [|r ts].
  - exfalso. destruct lo as [|x lo]; [simpl in L1; lia|].
    specialize (N1 0%nat x eq_refl). discriminate N1.
  - inversion R as [|? ? [A B]]; subst. clear - A B. revert hi B.
    induction A; intros hi B; inversion B; subst; constructor; auto. lra.
Qed.

(** What a constructed time-series module looks like. *)
(** The forecaster a parameter asks for. *)
Definition fc_for (fp : fparam Q) (k : fkind Q) : Prop :=
  match fp with
  | FPNone => k = FcNone
  | FPOracle => k = FcOracle
  | FPNoise _ => exists s d c, k = FcGauss s d c
  | FPUser f => exists vec, k = FcUser vec f
  end.
Lemma fc_for_same fp k k' : same_fk k k' -> fc_for fp k -> fc_for fp k'.
Proof.
  intros S F. destruct fp; simpl in *.
  - subst k. exact S.
  - subst k. exact S.
  - destruct F as (s & d & c & ->). simpl in S. destruct S as [c' ->]. eauto.
  - destruct F as (vec & ->). simpl in S. subst. eauto.
Qed.

Lemma new_ts_ok mk src snk comps bounds act rows fp horizon inc initial final re prov abs rnd (m : module Q) :
  (0 < length comps)%nat ->
  (forall ts bds, set_time_series src snk rows = Ok ts -> bounds ts = Ok bds ->
     length (fst bds) = length comps /\ Forall2 Qle (fst bds) (snd bds)
     /\ Forall (row_in (fst bds) (snd bds)) ts) ->
  new_ts mk src snk comps bounds act rows fp horizon inc initial final re prov abs rnd = Ok m ->
  exists t ts bds,
    set_time_series src snk rows = Ok ts /\ bounds ts = Ok bds
    /\ m = mkModule (mk t) re initial initial (Some (act bds)) (ts_obs_space t) prov abs
             logger_empty (None, None)
    /\ ts_ok t /\ cur_ok t /\ ts_rows t = ts /\ ts_comps t = comps
    /\ ts_minobs t = fst bds /\ ts_maxobs t = snd bds
    /\ ts_final t = (if (final <=? 0)%Z then Z.of_nat (length rows) else final)
    /\ ts_horizon t = (if fparam_given fp then horizon else 0%nat)
    /\ fc_for fp (fc_kind (ts_fc t)).
Proof.
  intros CP HB E. unfold new_ts in E. apply rbind_ok in E. destruct E as (ts & E1 & E).
  apply rbind_ok in E. destruct E as (bds & E2 & E).
  apply rbind_ok in E. destruct E as (fc & E3 & E).
  destruct (HB _ _ E1 E2) as (L & O & R).
  set (h := if fparam_given fp then horizon else 0%nat) in *.
  match type of E with context [ts_refresh initial ?t0] => set (t := t0) in * end.
  assert (LH : length (snd bds) = length (fst bds)) by (symmetry; exact (Forall2_length _ _ _ O)).
  assert (FC : forall k, fc_kind fc = k -> fc_rows fc = h /\ fc_cols fc = length comps
     /\ fc_low fc = repeat (fst bds) h /\ fc_high fc = repeat (snd bds) h
     /\ fc_fill fc = concat (repeat (midrow (fst bds) (snd bds)) (S h))).
  { intros k _.
    assert (G : forall k, mk_forecaster k
        (mkSpace (concat (repeat (fst bds) (S h))) (concat (repeat (snd bds) (S h)))) h (length comps)
        = Ok fc -> fc_rows fc = h /\ fc_cols fc = length comps
     /\ fc_low fc = repeat (fst bds) h /\ fc_high fc = repeat (snd bds) h
     /\ fc_fill fc = concat (repeat (midrow (fst bds) (snd bds)) (S h))).
    { intros k0 G. unfold mk_forecaster in G. cbn [sp_low sp_high] in G.
      rewrite <- L in G. rewrite shaped_bounds_repeat in G by lia. cbn [rbind] in G.
      rewrite <- LH in G. rewrite shaped_bounds_repeat in G by lia. cbn [rbind] in G.
      apply (f_equal (fun x => match x with Ok y => y | Err _ => fc end)) in G. rewrite <- G.
      cbn [fc_rows fc_cols fc_low fc_high fc_fill]. repeat split; try congruence.
      unfold fill_arr. cbn [sp_low sp_high]. apply map2_concat_repeat. congruence. }
    unfold get_forecaster in E3. destruct fp; try (exact (G _ E3)).
    apply rbind_ok in E3. destruct E3 as (vec & _ & E3). exact (G _ E3). }
  destruct (FC _ eq_refl) as (F1 & F2 & F3 & F4 & F5).
  assert (KD : match fc_kind fc with
             | FcGauss (Some (r, c)) _ _ => r = h /\ c = length comps
             | FcNone => h = 0%nat
             | _ => True
             end).
  { unfold get_forecaster in E3. destruct fp; simpl in h.
    - unfold mk_forecaster in E3. apply rbind_ok in E3. destruct E3 as (x & _ & E3).
      apply rbind_ok in E3. destruct E3 as (y & _ & E3). inversion E3; subst. reflexivity.
    - unfold mk_forecaster in E3. apply rbind_ok in E3. destruct E3 as (x & _ & E3).
      apply rbind_ok in E3. destruct E3 as (y & _ & E3). inversion E3; subst. exact I.
    - unfold mk_forecaster in E3. apply rbind_ok in E3. destruct E3 as (x & _ & E3).
      apply rbind_ok in E3. destruct E3 as (y & _ & E3). inversion E3; subst. simpl.
      destruct inc; auto.
    - apply rbind_ok in E3. destruct E3 as (vec & _ & E3).
      unfold mk_forecaster in E3. apply rbind_ok in E3. destruct E3 as (x & _ & E3).
      apply rbind_ok in E3. destruct E3 as (y & _ & E3). inversion E3; subst. exact I. }
  assert (FF : fc_for fp (fc_kind fc)).
  { assert (G : forall k sp h c, mk_forecaster k sp h c = Ok fc -> fc_kind fc = k).
    { intros k sp h0 c G. unfold mk_forecaster in G. apply rbind_ok in G. destruct G as (x & _ & G).
      apply rbind_ok in G. destruct G as (y & _ & G). inversion G; reflexivity. }
    unfold get_forecaster in E3. destruct fp; simpl.
    - exact (G _ _ _ _ E3).
    - exact (G _ _ _ _ E3).
    - rewrite (G _ _ _ _ E3). eauto.
    - apply rbind_ok in E3. destruct E3 as (vec & _ & E3). rewrite (G _ _ _ _ E3). eauto. }
  assert (OK : ts_ok t) by (constructor; simpl; auto).
  destruct (ts_refresh initial t) as [t' r] eqn:RF.
  destruct (ts_refresh_ok t OK _ _ _ RF) as (SM & P).
  destruct r as [u|]; [|discriminate]. inversion E; subst; clear E.
  exists t', ts, bds. split; [exact E1|]. split; [exact E2|]. split.
  - unfold set_kind, base_init. cbn. f_equal. unfold ts_obs_space.
    rewrite (same_min _ _ SM), (same_max _ _ SM), (same_horizon _ _ SM). reflexivity.
  - split; [exact (ts_same_ok _ _ SM OK)|]. split; [exact P|].
    rewrite (same_rows _ _ SM), (same_comps _ _ SM), (same_min _ _ SM), (same_max _ _ SM),
      (same_final _ _ SM), (same_horizon _ _ SM).
    assert (LL : length ts = length rows).
    { apply set_time_series_rows in E1. destruct E1 as [_ [(_ & _ & ->)|(_ & _ & ->)]]; [reflexivity|].
      destruct src; apply map_length. }
    simpl. rewrite LL. repeat split; try reflexivity.
    destruct (same_fc _ _ SM) as (k & SK & ->). exact (fc_for_same _ _ _ SK FF).
Qed.
