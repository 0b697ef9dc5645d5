(** * Proofs about the program of the model predictive control *)

From Coq Require Import ZArith QArith Bool String List Lia Lqa.
From Verif Require Import Num Py MPC Spec_MPC Proofs_Num Proofs_Any.
Import ListNotations.
Local Open Scope list_scope.
Local Open Scope Q_scope.

(** ** Vectors *)

Lemma dot_nil_r (a : list Q) : dot a [] = 0. Proof. destruct a; reflexivity. Qed.
Lemma dot_cons (x y : Q) a b : dot (x :: a) (y :: b) = x * y + dot a b. Proof. reflexivity. Qed.
Lemma dot_app (a b c d : list Q) : length a = length c -> dot (a ++ b) (c ++ d) == dot a c + dot b d.
Proof.
  revert c. induction a as [|x a IH]; intros [|y c] L; try discriminate.
  - cbn [app]. cbn [dot]. change (@n0 Q Q_ops) with 0. ring.
  - cbn [app]. rewrite !dot_cons, IH; [ring|]. simpl in L. congruence.
Qed.
Lemma zeros_app (a b : nat) : @zeros Q Q_ops (a + b) = zeros a ++ zeros b.
Proof. apply repeat_app. Qed.
Lemma zeros_length (n : nat) : length (@zeros Q Q_ops n) = n. Proof. apply repeat_length. Qed.
Lemma dot_zeros (n : nat) (v : list Q) : dot (zeros n) v == 0.
Proof.
  revert v. induction n as [|n IH]; intros v; [reflexivity|]. destruct v as [|y v]; [reflexivity|].
  change (zeros (S n)) with (0 :: @zeros Q Q_ops n). rewrite dot_cons, IH. ring.
Qed.
Lemma dot_split (a b v : list Q) : dot (a ++ b) v == dot a (firstn (length a) v) + dot b (skipn (length a) v).
Proof.
  revert v. induction a as [|x a IH]; intros v; [cbn [app length firstn skipn dot]; change (@n0 Q Q_ops) with 0; ring|].
  destruct v as [|y v]; [cbn [app length firstn skipn]; rewrite !dot_nil_r; ring|].
  cbn [app length firstn skipn]. rewrite !dot_cons, IH. ring.
Qed.
Lemma dot_firstn (a v : list Q) (n : nat) : length a = n -> dot a (firstn n v) = dot a v.
Proof.
  intros <-. revert v. induction a as [|x a IH]; intros v; [destruct v; reflexivity|].
  destruct v as [|y v]; [reflexivity|]. cbn [length firstn]. rewrite !dot_cons, IH. reflexivity.
Qed.
Lemma firstn_zeros (i n : nat) : (i <= n)%nat -> firstn i (@zeros Q Q_ops n) = zeros i.
Proof.
  intros L. replace n with (i + (n - i))%nat by lia. rewrite zeros_app, firstn_app, zeros_length, Nat.sub_diag, firstn_O, app_nil_r.
  apply firstn_all2. rewrite zeros_length. lia.
Qed.
Lemma skipn_zeros (i n : nat) : skipn i (@zeros Q Q_ops n) = zeros (n - i).
Proof. revert n. induction i as [|i IH]; intros [|n]; try reflexivity. cbn [Nat.sub]. rewrite <- (IH n). reflexivity. Qed.
Lemma dot_slice (i n : nat) (w v : list Q) : (i + length w <= n)%nat -> dot (slice_set i w (zeros n)) v == dot w (skipn i v).
Proof.
  intros L. unfold slice_set. rewrite firstn_zeros, skipn_zeros by lia. rewrite dot_split, zeros_length, dot_zeros, dot_split, dot_zeros.
  rewrite (dot_firstn w) by reflexivity. ring.
Qed.

(** ** Blocks *)

Lemma skipn_nth {A} (l : list A) j b : nth_error l j = Some b -> skipn j l = b :: skipn (S j) l.
Proof.
  revert l. induction j as [|j IH]; intros [|x l] E; try discriminate; [cbn in E; injection E as ->; reflexivity|].
  cbn [nth_error] in E. cbn [skipn]. rewrite (IH _ E). reflexivity.
Qed.
Lemma app_same_length {A} (a b c d : list A) : length a = length c -> a ++ b = c ++ d -> a = c /\ b = d.
Proof.
  revert c. induction a as [|x a IH]; intros [|y c] L E; try discriminate; [auto|]. cbn in E. injection E as -> E.
  destruct (IH c) as (-> & ->); auto.
Qed.

Definition blocks (w : nat) (bs : list (list Q)) : Prop := Forall (fun b => length b = w) bs.
Lemma skip_blocks w bs j : blocks w bs -> skipn (j * w) (concat bs) = concat (skipn j bs).
Proof.
  revert bs. induction j as [|j IH]; intros bs B; [reflexivity|]. destruct bs as [|b bs]; [rewrite !skipn_nil; reflexivity|].
  inversion B as [|? ? B1 B2]; subst. cbn [concat skipn Nat.mul]. rewrite skipn_app, (skipn_all2 b) by lia.
  replace (length b + j * length b - length b)%nat with (j * length b)%nat by lia. cbn [app]. apply IH. exact B2.
Qed.
Lemma concat_length w bs : blocks w bs -> length (concat bs) = (length bs * w)%nat.
Proof. induction 1 as [|b bs E B IH]; [reflexivity|]. cbn [concat length]. rewrite app_length, IH, E. lia. Qed.
Lemma cut w h (p : list Q) : length p = (h * w)%nat -> exists bs, p = concat bs /\ length bs = h /\ blocks w bs.
Proof.
  revert p. induction h as [|h IH]; intros p L.
  - exists []. destruct p; [|discriminate]. conj; auto. constructor.
  - destruct (IH (skipn w p)) as (bs & E & LB & B); [rewrite skipn_length, L; simpl; lia|].
    exists (firstn w p :: bs). conj; [cbn [concat]; rewrite <- E, firstn_skipn; reflexivity|simpl; lia|].
    constructor; [|exact B]. rewrite firstn_length, L. simpl. lia.
Qed.
Lemma dot_block w bs j (b v : list Q) : blocks w bs -> nth_error bs j = Some b -> length v = w -> dot v (skipn (j * w) (concat bs)) = dot v b.
Proof.
  intros B E L. rewrite skip_blocks by exact B. rewrite (skipn_nth _ _ _ E). cbn [concat].
  assert (LB : length b = w) by (eapply (proj1 (Forall_forall _ _)) in B; [exact B|eapply nth_error_In; exact E]).
  rewrite <- (dot_firstn v (b ++ _) w L), firstn_app, <- LB, firstn_all, Nat.sub_diag, firstn_O, app_nil_r. reflexivity.
Qed.
Lemma dot_two w bs j (b b' v : list Q) : blocks w bs -> nth_error bs j = Some b -> nth_error bs (S j) = Some b' -> length v = (w + w)%nat ->
  dot v (skipn (j * w) (concat bs)) = dot v (b ++ b').
Proof.
  intros B E E' L. rewrite skip_blocks by exact B. rewrite (skipn_nth _ _ _ E), (skipn_nth _ _ _ E'). cbn [concat].
  assert (LB : length b = w) by (eapply (proj1 (Forall_forall _ _)) in B; [exact B|eapply nth_error_In; exact E]).
  assert (LB' : length b' = w) by (eapply (proj1 (Forall_forall _ _)) in B; [exact B|eapply nth_error_In; exact E']).
  rewrite <- (dot_firstn v (b ++ b' ++ _) (w + w) L), app_assoc.
  replace (w + w)%nat with (length (b ++ b')) by (rewrite app_length; lia).
  rewrite firstn_app, firstn_all, Nat.sub_diag, firstn_O, app_nil_r. reflexivity.
Qed.
Lemma dot_diagonal w (r : list Q) j : length r = w -> forall bs s, blocks w bs ->
  dot (concat (map (fun i => if Nat.eqb i j then r else zeros w) (seq s (length bs)))) (concat bs)
  == match nth_error bs (j - s) with Some b => if Nat.leb s j then dot r b else 0 | None => 0 end.
Proof.
  intros L. induction bs as [|b bs IH]; intros s B; [destruct (j - s)%nat; reflexivity|].
  inversion B as [|? ? B1 B2]; subst w. cbn [length seq map concat].
  rewrite dot_app by (destruct (Nat.eqb s j); [congruence|rewrite zeros_length; congruence]). rewrite (IH (S s) B2).
  destruct (Nat.eqb_spec s j) as [->|N].
  - rewrite Nat.sub_diag. cbn [nth_error]. rewrite Nat.leb_refl. destruct (nth_error bs (j - S j)); [|ring].
    replace (Nat.leb (S j) j) with false by (symmetry; apply Nat.leb_gt; lia). ring.
  - rewrite dot_zeros. destruct (Nat.leb_spec s j) as [G|G].
    + replace (j - s)%nat with (S (j - S s)) by lia. cbn [nth_error]. destruct (nth_error bs (j - S s)); [|ring].
      replace (Nat.leb (S s) j) with true by (symmetry; apply Nat.leb_le; lia). ring.
    + replace (j - S s)%nat with 0%nat by lia. replace (j - s)%nat with 0%nat by lia. cbn [nth_error].
      replace (Nat.leb (S s) j) with false by (symmetry; apply Nat.leb_gt; lia). destruct bs; cbn [nth_error]; ring.
Qed.

(** ** Comparing vectors *)

Lemma forall2_len {A B} (R : A -> B -> Prop) a b : Forall2 R a b -> length a = length b.
Proof. induction 1; simpl; congruence. Qed.

Lemma all2_iff (f : Q -> Q -> bool) a b : all2 f a b = true <-> Forall2 (fun x y => f x y = true) a b.
Proof.
  unfold all2. rewrite andb_true_iff, Nat.eqb_eq. split.
  - intros (L & F). revert b L F. induction a as [|x a IH]; intros [|y b] L F; try discriminate; constructor.
    + cbn in F. apply andb_true_iff in F. apply F.
    + cbn in F. apply andb_true_iff in F. apply IH; [simpl in L; congruence|apply F].
  - induction 1 as [|x y a b E F (L & G)]; [auto|]. split; [simpl; congruence|]. cbn. rewrite E. exact G.
Qed.
Lemma forall2_seq {A} (R : A -> A -> Prop) (f g : nat -> A) s n :
  Forall2 R (map f (seq s n)) (map g (seq s n)) <-> forall k, (s <= k < s + n)%nat -> R (f k) (g k).
Proof.
  revert s. induction n as [|n IH]; intros s; cbn [seq map].
  - split; [intros _ k L; lia|constructor].
  - split.
    + intros F k L. inversion F as [|? ? ? ? E F']; subst. destruct (Nat.eq_dec k s) as [->|N]; [exact E|]. apply (proj1 (IH (S s)) F'). lia.
    + intros F. constructor; [apply F; lia|]. apply IH. intros k L. apply F. lia.
Qed.
Lemma forall2_concat {A} (R : A -> A -> Prop) (f g : nat -> list A) s n : (forall k, length (f k) = length (g k)) ->
  Forall2 R (concat (map f (seq s n))) (concat (map g (seq s n))) <-> forall k, (s <= k < s + n)%nat -> Forall2 R (f k) (g k).
Proof.
  intros L. revert s. induction n as [|n IH]; intros s; cbn [seq map concat].
  - split; [intros _ k G; lia|constructor].
  - split.
    + intros F. apply Forall2_app_inv_l in F. destruct F as (u & v & F1 & F2 & E).
      assert (LU : length u = length (g s)) by (rewrite <- L; symmetry; eapply forall2_len; exact F1).
      apply app_same_length in E; [|congruence]. destruct E as (E1 & E2). subst u v. intros k G. destruct (Nat.eq_dec k s) as [->|N]; [exact F1|].
      apply (proj1 (IH (S s)) F2). lia.
    + intros F. apply Forall2_app; [apply F; lia|]. apply IH. intros k G. apply F. lia.
Qed.
Lemma nth_map_seq {A} (l : list A) d : l = map (fun k => nth k l d) (seq 0 (length l)).
Proof.
  induction l as [|x l IH]; [reflexivity|]. cbn [length seq map nth]. f_equal. rewrite <- seq_shift, map_map. exact IH.
Qed.

Lemma forall2_app_len {A B} (R : A -> B -> Prop) a b c d : length a = length c ->
  Forall2 R (a ++ b) (c ++ d) <-> Forall2 R a c /\ Forall2 R b d.
Proof.
  intros L. split; [|intros (F & G); apply Forall2_app; auto]. intros F. apply Forall2_app_inv_l in F. destruct F as (u & v & F1 & F2 & E).
  apply app_same_length in E; [|rewrite <- L; apply (forall2_len _ _ _ F1)]. destruct E as (E1 & E2). subst u v. auto.
Qed.

(** ** The problem that is posed *)

Lemma broadcast_same n (v : list Q) : length v = n -> broadcast n v = Ok v.
Proof. intros <-. unfold broadcast. rewrite Nat.eqb_refl. reflexivity. Qed.
Lemma nth_zip (f : Q -> Q -> Q) (a b : list Q) k d : length a = length b -> (k < length a)%nat ->
  nth k (map (fun p => f (fst p) (snd p)) (combine a b)) d = f (nth k a 0) (nth k b 0).
Proof.
  revert b k. induction a as [|x a IH]; intros [|y b] k L G; try discriminate; [simpl in G; lia|].
  destruct k as [|k]; [reflexivity|]. cbn [combine map nth]. apply IH; simpl in *; lia.
Qed.
Lemma nth_map' (f : Q -> Q) (a : list Q) k d : (k < length a)%nat -> nth k (map f a) d = f (nth k a 0).
Proof. revert k. induction a as [|x a IH]; intros [|k] L; simpl in *; try lia; [reflexivity|]. apply IH. lia. Qed.
Lemma zip_length (f : Q -> Q -> Q) (a b : list Q) : length a = length b -> length (map (fun p => f (fst p) (snd p)) (combine a b)) = length a.
Proof. intros L. rewrite map_length, combine_length. lia. Qed.

Lemma nth_error_seq s n k : (k < n)%nat -> nth_error (seq s n) k = Some (s + k)%nat.
Proof. revert s k. induction n as [|n IH]; intros s [|k] L; try lia; cbn [seq nth_error]; [f_equal; lia|]. rewrite IH by lia. f_equal. lia. Qed.

(** Cutting the variables into steps *)
Lemma plan_of gen n : forall p, length p = (n * width gen)%nat ->
  exists plan, length plan = n /\ p = concat (map (variables gen) plan) /\ (gen = false -> Forall (fun s => pl_genset s = 0 /\ pl_on s = 0) plan).
Proof.
  induction n as [|n IH]; intros p L.
  - destruct p; [|discriminate]. exists []. auto.
  - destruct gen; cbn [width Nat.mul Nat.add] in L.
    + destruct p as [|a [|b [|c [|dd [|f [|g [|i [|j p]]]]]]]]; try (cbn in L; lia). injection L as L. destruct (IH p) as (plan & L' & E & NG); [exact L|].
      exists (mkPlanned a b c dd f g i j 0 :: plan). conj; [cbn; lia|cbn; rewrite <- E; reflexivity|discriminate].
    + destruct p as [|b [|c [|dd [|f [|g [|i [|j p]]]]]]]; try (cbn in L; lia). injection L as L. destruct (IH p) as (plan & L' & E & NG); [exact L|].
      exists (mkPlanned 0 b c dd f g i j 0 :: plan). conj; [cbn; lia|cbn; rewrite <- E; reflexivity|intros _; constructor; auto].
Qed.
Definition set_on (s : planned) (x : Q) : planned :=
  mkPlanned (pl_genset s) (pl_import s) (pl_export s) (pl_charge s) (pl_discharge s) (pl_curtail s) (pl_loss s) (pl_soc s) x.
Fixpoint with_on (plan : list planned) (u : list Q) : list planned :=
  match plan, u with s :: plan', x :: u' => set_on s x :: with_on plan' u' | _, _ => [] end.
Lemma with_on_ok plan : forall u, length plan = length u -> length (with_on plan u) = length plan /\ concat (map (variables true) plan) = concat (map (variables true) (with_on plan u)) /\ u = map pl_on (with_on plan u).
Proof. induction plan as [|s plan IH]; intros [|x u] L; try discriminate; [auto|]. destruct (IH u) as (A & B & C); [cbn in L; lia|]. cbn. rewrite A, B, <- C. auto. Qed.

Section Posed.
Variables (c : mpc Q) (d : mpc_data Q) (pr : problem Q).
Hypothesis WS : vectors_fit c d.
Hypothesis MP : make_problem c d = Ok pr.
Let h := mp_horizon c.
Let gen := has_gen c.
Let e := equipment_of c d.
Let xs := expected_of d h.

Lemma shapes : length (da_load d) = h /\ length (da_pv d) = h /\ length (da_grid d) = h /\ length (da_import d) = h
  /\ length (da_export d) = h /\ length (da_gridco2 d) = h.
Proof. destruct WS as (F & _). repeat match goal with F : Forall _ (_ :: _) |- _ => inversion F; clear F; subst end. unfold h. auto 10. Qed.
Lemma posed : exists co2, da_co2 d = Some co2 /\
  pr = mkProblem gen (matrix_A gen (mp_params c) h)
    (map (fun k => nth k (da_load d) 0 - nth k (da_pv d) 0) (seq 0 h)
     ++ map (fun k => match k with O => da_soc d | S _ => 0 end) (seq 0 h))
    (matrix_C gen h)
    (concat (map (fun k => (if gen then [pa_gmax (mp_params c)] else [])
       ++ [da_emax d; - da_emin d; da_pcharge d; da_pdischarge d; da_pimport d * nth k (da_grid d) 0; da_pexport d * nth k (da_grid d) 0;
           nth k (da_pv d) 0; nth k (da_load d) 0]) (seq 0 h)))
    (pa_gmin (mp_params c)) (pa_gmax (mp_params c))
    (concat (map (fun k => (if gen then [pa_fuel (mp_params c) + pa_co2 (mp_params c) * pa_gco2 (mp_params c)] else [])
       ++ [nth k (da_import d) 0 + nth k (da_gridco2 d) 0 * co2; nth k (da_export d) 0; pa_cycle (mp_params c); pa_cycle (mp_params c); 0;
           pa_loss (mp_params c); 0]) (seq 0 h))).
Proof.
  destruct shapes as (L1 & L2 & L3 & L4 & L5 & L6). pose proof MP as E. unfold make_problem in E. fold h gen in E.
  unfold equality_rhs, np_sub in E.
  assert (N : (if Nat.eqb (length (da_load d)) 1 then length (da_pv d) else length (da_load d)) = h) by (destruct (Nat.eqb _ _); congruence).
  rewrite N in E. rewrite (broadcast_same h (da_load d)), (broadcast_same h (da_pv d)) in E by assumption. cbn [rbind] in E.
  rewrite broadcast_same in E by (rewrite zip_length by congruence; assumption). cbn [rbind] in E.
  unfold inequality_rhs in E. rewrite !broadcast_same in E by (rewrite ?map_length; assumption). cbn [rbind] in E.
  unfold costs_of in E. destruct (da_co2 d) as [co2|] eqn:CO; [|discriminate]. rewrite L4, L6, Nat.eqb_refl in E.
  rewrite (broadcast_same h (map _ (combine _ _))) in E.
  2:{ rewrite map_length, combine_length. lia. }
  cbn [rbind] in E. rewrite broadcast_same in E by assumption. cbn [rbind] in E. injection E as <-. exists co2. split; [reflexivity|].
  f_equal.
  - f_equal.
    + etransitivity; [apply (nth_map_seq _ 0)|]. rewrite zip_length, L1 by congruence. apply map_ext_in. intros k I. apply in_seq in I.
      apply (nth_zip Qminus); lia.
    + destruct h as [|h']; [reflexivity|]. cbn [seq map]. f_equal. rewrite <- seq_shift, map_map. clear. induction h' as [|n IH] using nat_ind; [reflexivity|].
      rewrite seq_S, map_app, <- IH. cbn [map]. replace (S n) with (n + 1)%nat by lia. apply zeros_app.
  - f_equal. apply map_ext_in. intros k I. apply in_seq in I. rewrite (proj2 WS). rewrite !nth_map' by lia. reflexivity.
  - f_equal. apply map_ext_in. intros k I. apply in_seq in I. f_equal. f_equal.
    apply (nth_zip (fun a b => a + b * co2)); lia.
Qed.

Lemma vars_length s : length (variables gen s) = width gen.
Proof. unfold variables. destruct gen; reflexivity. Qed.
Lemma vars_blocks plan : blocks (width gen) (map (variables gen) plan).
Proof. apply Forall_forall. intros b I. apply in_map_iff in I. destruct I as (s & <- & _). apply vars_length. Qed.
Lemma seq_plan (P : nat -> planned -> Prop) (R : nat -> Prop) plan : length plan = h ->
  (forall k s, nth_error plan k = Some s -> (R k <-> P k s)) ->
  (forall k, (0 <= k < 0 + h)%nat -> R k) <-> (forall k s, nth_error plan k = Some s -> P k s).
Proof.
  intros L F. split.
  - intros G k s E. apply (F k s E), G. assert (k < length plan)%nat by (apply nth_error_Some; congruence). lia.
  - intros G k I. destruct (nth_error plan k) as [s|] eqn:E; [apply (F k s E), (G k s E)|]. apply nth_error_None in E. lia.
Qed.
Lemma alpha_length : length (@alpha Q Q_ops gen) = width gen. Proof. destruct gen; reflexivity. Qed.
Lemma gamma_length p : length (@gamma Q Q_ops gen p) = (width gen + width gen)%nat. Proof. destruct gen; reflexivity. Qed.
Lemma balance_rows plan : length plan = h ->
  Forall2 (fun x y => neqb x y = true) (map (fun r => dot r (concat (map (variables gen) plan))) (matrix_X gen h))
    (map (fun k => nth k (da_load d) 0 - nth k (da_pv d) 0) (seq 0 h))
  <-> (forall k s, nth_error plan k = Some s ->
        pl_genset s * (if gen then 1 else 0) + pl_import s + pl_discharge s + (nth k (da_pv d) 0 - pl_curtail s) + pl_loss s
        == nth k (da_load d) 0 + pl_export s + pl_charge s).
Proof.
  intros L. unfold matrix_X. rewrite map_map, forall2_seq. apply seq_plan; [exact L|]. intros k s E.
  assert (K : (k < h)%nat) by (rewrite <- L; apply nth_error_Some; congruence).
  unfold neqb; cbn [Q_ops]. rewrite Qeq_bool_iff. rewrite dot_slice by (rewrite alpha_length; nia).
  rewrite (dot_block (width gen) _ k (variables gen s)) by (try apply vars_blocks; try apply alpha_length; apply map_nth_error; exact E).
  unfold variables, alpha. destruct gen; cbn -[Qplus Qmult Qeq nth Qminus]; split; intros H; lra.
Qed.
Lemma q_inv a b : 1 / (a * b) == (1 / a) / b.
Proof. unfold Qdiv. rewrite Qinv_mult_distr. ring. Qed.
Definition y_block (p : mpc_params Q) : list Q :=
  (if gen then [0] else []) ++ [0; 0; charge_coef p; discharge_coef p; 0; 0; 1].
Lemma y_first_app p n : y_first gen p (S n) = y_block p ++ zeros (n * width gen).
Proof. unfold y_first, y_block. destruct gen; reflexivity. Qed.
Lemma soc_rows plan : length plan = h ->
  Forall2 (fun x y => neqb x y = true) (map (fun r => dot r (concat (map (variables gen) plan))) (matrix_Y gen (mp_params c) h))
    (map (fun k => match k with O => da_soc d | S _ => 0 end) (seq 0 h))
  <-> (forall k s, nth_error plan k = Some s ->
        pl_soc s == soc_before (da_soc d) plan k + (eq_eta e * pl_charge s - pl_discharge s / eq_eta e) / eq_capacity e).
Proof.
  intros L. unfold matrix_Y. rewrite map_map, forall2_seq. apply seq_plan; [exact L|]. intros k s E.
  assert (K : (k < h)%nat) by (rewrite <- L; apply nth_error_Some; congruence).
  unfold neqb; cbn [Q_ops]. rewrite Qeq_bool_iff. destruct k as [|j].
  - destruct plan as [|s0 plan]; [discriminate|]. cbn in E. injection E as ->. cbn [soc_before map concat].
    assert (HH : exists h', h = S h') by (destruct h as [|h']; [lia|eauto]). destruct HH as (h' & HH). rewrite HH.
    rewrite y_first_app. rewrite (dot_app (y_block (mp_params c)) (zeros (h' * width gen)) (variables gen s)) by (rewrite vars_length; unfold y_block; destruct gen; reflexivity). rewrite dot_zeros.
    unfold y_block, variables, charge_coef, discharge_coef. change (eq_eta e) with (pa_eta (mp_params c)) in *. change (eq_capacity e) with (pa_capacity (mp_params c)) in *.
    generalize (pa_eta (mp_params c)) (pa_capacity (mp_params c)). intros eta cap.
    destruct gen; cbn -[Qplus Qmult Qeq nth Qminus Qdiv]; rewrite (q_inv eta cap); unfold Qdiv; split; intros H;
      match goal with |- ?x == ?y => setoid_replace x with (y + (x - y)) by ring; match type of H with ?u == ?v => setoid_replace (x - y) with (u - v) by ring end; rewrite H; ring end.
  - destruct (nth_error plan j) as [s'|] eqn:E'.
    2:{ apply nth_error_None in E'. assert (S j < length plan)%nat by (apply nth_error_Some; congruence). lia. }
    cbn [soc_before]. rewrite E'. rewrite dot_slice by (rewrite gamma_length; nia).
    rewrite (dot_two (width gen) _ j (variables gen s') (variables gen s)) by (try apply vars_blocks; try apply gamma_length; apply map_nth_error; assumption).
    unfold gamma, variables, charge_coef, discharge_coef. change (eq_eta e) with (pa_eta (mp_params c)) in *. change (eq_capacity e) with (pa_capacity (mp_params c)) in *.
    generalize (pa_eta (mp_params c)) (pa_capacity (mp_params c)). intros eta cap.
    destruct gen; cbn -[Qplus Qmult Qeq nth Qminus Qdiv]; rewrite (q_inv eta cap); unfold Qdiv; split; intros H;
      match goal with |- ?x == ?y => setoid_replace x with (y + (x - y)) by ring; match type of H with ?u == ?v => setoid_replace (x - y) with (u - v) by ring end; rewrite H; ring end.
Qed.
Lemma limit_rows plan : length plan = h ->
  Forall2 (fun x y => nleb x y = true) (map (fun r => dot r (concat (map (variables gen) plan))) (matrix_C gen h))
    (concat (map (fun k => (if gen then [pa_gmax (mp_params c)] else [])
       ++ [da_emax d; - da_emin d; da_pcharge d; da_pdischarge d; da_pimport d * nth k (da_grid d) 0; da_pexport d * nth k (da_grid d) 0;
           nth k (da_pv d) 0; nth k (da_load d) 0]) (seq 0 h)))
  <-> (forall k s, nth_error plan k = Some s ->
        (if gen then pl_genset s <= pa_gmax (mp_params c) else True)
        /\ pl_soc s <= da_emax d /\ da_emin d <= pl_soc s /\ pl_charge s <= da_pcharge d /\ pl_discharge s <= da_pdischarge d
        /\ pl_import s <= da_pimport d * nth k (da_grid d) 0 /\ pl_export s <= da_pexport d * nth k (da_grid d) 0
        /\ pl_curtail s <= nth k (da_pv d) 0 /\ pl_loss s <= nth k (da_load d) 0).
Proof.
  intros L. unfold matrix_C. rewrite concat_map, map_map.
  rewrite forall2_concat by (intros k; rewrite !map_length; unfold C_block; destruct gen; reflexivity).
  apply seq_plan; [exact L|]. intros k s E. rewrite map_map.
  assert (D : forall r, length r = width gen -> dot (concat (map (fun i => if Nat.eqb i k then r else zeros (width gen)) (seq 0 h))) (concat (map (variables gen) plan)) == dot r (variables gen s)).
  { intros r LR. rewrite <- L, <- (map_length (variables gen) plan). rewrite (dot_diagonal (width gen) r k LR (map (variables gen) plan) 0 (vars_blocks plan)).
    rewrite Nat.sub_0_r, (map_nth_error _ _ _ E). reflexivity. }
  assert (LE : forall r y, length r = width gen -> (nleb (dot (concat (map (fun i => if Nat.eqb i k then r else zeros (width gen)) (seq 0 h))) (concat (map (variables gen) plan))) y = true <-> dot r (variables gen s) <= y)).
  { intros r y LR. unfold nleb; cbn [Q_ops]. rewrite Qle_bool_iff, (D r LR). reflexivity. }
  unfold C_block. destruct gen; cbn [map tl app vec_set zeros repeat].
  - split.
    + intros F. repeat match goal with F : Forall2 _ (_ :: _) _ |- _ => inversion F; clear F; subst end.
      repeat match goal with H : nleb _ _ = true |- _ => apply LE in H; [|reflexivity] end.
      cbn -[Qplus Qmult Qle nth Qminus] in *. conj; lra.
    + intros H. decompose [and] H. repeat (constructor; [apply LE; [reflexivity|]; cbn -[Qplus Qmult Qle nth Qminus]; lra|]). constructor.
  - split.
    + intros F. repeat match goal with F : Forall2 _ (_ :: _) _ |- _ => inversion F; clear F; subst end.
      repeat match goal with H : nleb _ _ = true |- _ => apply LE in H; [|reflexivity] end.
      cbn -[Qplus Qmult Qle nth Qminus] in *. conj; try exact I; lra.
    + intros H. decompose [and] H. repeat (constructor; [apply LE; [reflexivity|]; cbn -[Qplus Qmult Qle nth Qminus]; lra|]). constructor.
Qed.
Lemma nonneg_vars plan : forallb (nleb 0) (concat (map (variables gen) plan)) = true
  <-> (forall k s, nth_error plan k = Some s -> (if gen then 0 <= pl_genset s else True) /\ 0 <= pl_import s /\ 0 <= pl_export s /\ 0 <= pl_charge s
        /\ 0 <= pl_discharge s /\ 0 <= pl_curtail s /\ 0 <= pl_loss s /\ 0 <= pl_soc s).
Proof.
  rewrite forallb_forall. split.
  - intros F k s E. assert (G : forall x, In x (variables gen s) -> 0 <= x).
    { intros x I. apply Qle_bool_iff. apply (F x). apply in_concat. exists (variables gen s). split; [apply in_map; eapply nth_error_In; exact E|exact I]. }
    unfold variables in G. destruct gen; cbn [app In] in G; conj; auto 20.
  - intros F x I. apply in_concat in I. destruct I as (b & I & J). apply in_map_iff in I. destruct I as (s & <- & I). apply In_nth_error in I. destruct I as (k & I).
    specialize (F k s I). apply Qle_bool_iff. unfold variables in J. destruct gen; cbn [app In] in J; intuition (subst; assumption).
Qed.
Lemma every8_vars plan : gen = true -> every8 (concat (map (variables gen) plan)) = map pl_genset plan.
Proof. intros ->. induction plan as [|s plan IH]; [reflexivity|]. cbn [map concat variables app every8]. rewrite IH. reflexivity. Qed.
Lemma all2_map (f : Q -> Q -> bool) (F G : planned -> Q) plan : all2 f (map F plan) (map G plan) = true <-> (forall k s, nth_error plan k = Some s -> f (F s) (G s) = true).
Proof.
  rewrite all2_iff. split.
  - intros H k s E. revert k E. induction plan as [|a plan IH]; intros [|k] E; try discriminate; cbn in *; inversion H; subst; [congruence|eauto].
  - intros H. induction plan as [|a plan IH]; constructor; [apply (H 0%nat); reflexivity|]. apply IH. intros k s E. exact (H (S k) s E).
Qed.
Lemma plan_ok plan u : length plan = h -> (gen = true -> u = map pl_on plan) -> (gen = false -> Forall (fun s => pl_genset s = 0 /\ pl_on s = 0) plan) ->
  satisfies pr (concat (map (variables gen) plan)) u = true <-> good_plan e (da_soc d) xs plan.
Proof.
  intros L U NG. destruct posed as (co2 & CO & ->). unfold satisfies. cbn [pr_gen pr_A pr_b pr_C pr_d pr_gmin pr_gmax pr_costs].
  rewrite !andb_true_iff, Nat.eqb_eq, !all2_iff. unfold matrix_A. rewrite map_app, forall2_app_len.
  2:{ unfold matrix_X. rewrite !map_length. reflexivity. }
  rewrite (balance_rows plan L), (soc_rows plan L), (limit_rows plan L). change (@n0 Q Q_ops) with 0. rewrite (nonneg_vars plan).
  assert (XS : forall k x s, nth_error plan k = Some s -> nth_error xs k = Some x ->
    ex_load x = nth k (da_load d) 0 /\ ex_pv x = nth k (da_pv d) 0 /\ ex_grid x = nth k (da_grid d) 0).
  { intros k x s E X. unfold xs, expected_of in X. assert (K : (k < h)%nat) by (rewrite <- L; apply nth_error_Some; congruence).
    rewrite (map_nth_error _ _ _ (nth_error_seq 0 h k K)) in X. injection X as <-. auto. }
  assert (XE : forall k s, nth_error plan k = Some s -> exists x, nth_error xs k = Some x).
  { intros k s E. assert (K : (k < h)%nat) by (rewrite <- L; apply nth_error_Some; congruence). destruct (nth_error xs k) eqn:X; [eauto|].
    apply nth_error_None in X. unfold xs, expected_of in X. rewrite map_length, seq_length in X. lia. }
  assert (GEN : (if gen then forallb (fun x => neqb x n0 || neqb x n1) u
           && all2 nleb (map (nmul (pa_gmin (mp_params c))) u) (every8 (concat (map (variables gen) plan)))
           && all2 nleb (every8 (concat (map (variables gen) plan))) (map (nmul (pa_gmax (mp_params c))) u) else true) = true
     <-> forall k s, nth_error plan k = Some s -> if gen then (pl_on s == 0 \/ pl_on s == 1) /\ pa_gmin (mp_params c) * pl_on s <= pl_genset s <= pa_gmax (mp_params c) * pl_on s else True).
  { pose proof (every8_vars plan) as E8. destruct gen; [|split; auto]. rewrite (E8 eq_refl), (U eq_refl), !map_map, !andb_true_iff, !all2_map, forallb_forall.
    unfold nleb, neqb, nmul; cbn [Q_ops]. split.
    - intros ((F1 & F2) & F3) k s E. specialize (F2 k s E). specialize (F3 k s E). rewrite Qle_bool_iff in F2, F3. split; [|auto].
      specialize (F1 (pl_on s) (in_map _ _ _ (nth_error_In _ _ E))). apply orb_true_iff in F1. rewrite !Qeq_bool_iff in F1. exact F1.
    - intros F. split; [split|].
      + intros x I. apply in_map_iff in I. destruct I as (s & <- & I). apply In_nth_error in I. destruct I as (k & I). apply orb_true_iff. rewrite !Qeq_bool_iff. apply (F k s I).
      + intros k s E. apply Qle_bool_iff. apply (F k s E).
      + intros k s E. apply Qle_bool_iff. apply (F k s E). }
  rewrite GEN. clear GEN. unfold good_plan. split.
  - intros ((((_ & F0) & F1 & F2) & F3) & F4). split; [unfold xs, expected_of; rewrite map_length, seq_length; exact L|]. intros k x s X E.
    destruct (XS k x s E X) as (X1 & X2 & X3). specialize (F0 k s E). specialize (F1 k s E). specialize (F2 k s E). specialize (F3 k s E). specialize (F4 k s E).
    constructor; rewrite ?X1, ?X2, ?X3; change (eq_gen e) with gen; change (eq_soc_min e) with (da_emin d); change (eq_soc_max e) with (da_emax d); change (eq_charge e) with (da_pcharge d); change (eq_discharge e) with (da_pdischarge d);
      change (eq_import e) with (da_pimport d); change (eq_export e) with (da_pexport d); change (eq_gen_min e) with (pa_gmin (mp_params c)); change (eq_gen_max e) with (pa_gmax (mp_params c)); try tauto.
    + destruct gen; [lra|]. specialize (NG eq_refl). rewrite Forall_forall in NG. destruct (NG s (nth_error_In _ _ E)) as (Z & _). rewrite Z in *. lra.
    + destruct gen.
      * destruct F4 as (F4 & F5 & F6). destruct F4 as [Z|Z]; rewrite Z in F5, F6; [left|right]; conj; auto; try lra; destruct F0 as (F0 & _), F3 as (F3 & _); lra.
      * specialize (NG eq_refl). rewrite Forall_forall in NG. exact (NG s (nth_error_In _ _ E)).
  - intros (_ & F). assert (A : forall k s, nth_error plan k = Some s -> exists x, ex_load x = nth k (da_load d) 0 /\ ex_pv x = nth k (da_pv d) 0 /\ ex_grid x = nth k (da_grid d) 0 /\ allowed e (soc_before (da_soc d) plan k) x s).
    { intros k s E. destruct (XE k s E) as (x & X). exists x. destruct (XS k x s E X) as (X1 & X2 & X3). auto. }
    clear F. split; [split; [split; [split|split]|]|].
    + assert (LC : forall f : nat -> list Q, (forall k, length (f k) = width gen) -> length (concat (map f (seq 0 h))) = (h * width gen)%nat).
      { intros f LF. rewrite (concat_length (width gen)); [rewrite map_length, seq_length; reflexivity|]. apply Forall_forall. intros b I. apply in_map_iff in I. destruct I as (k & <- & _). apply LF. }
      rewrite LC by (intros k; destruct gen; reflexivity). rewrite (concat_length (width gen) _ (vars_blocks plan)), map_length, L. reflexivity.
    + intros k s E. destruct (A k s E) as (x & X1 & X2 & X3 & [B1 B2 B3 B4 B5 B6 B7 B8 B9 B10]). conj; try tauto. change (eq_gen e) with gen in B10. destruct gen; [|exact I].
      destruct B10 as [(_ & B & _)|(_ & B & _)]; lra.
    + intros k s E. destruct (A k s E) as (x & X1 & X2 & X3 & [B1 B2 B3 B4 B5 B6 B7 B8 B9 B10]). rewrite X1, X2 in B1. change (eq_gen e) with gen in B10. destruct gen; [lra|]. destruct B10 as (B10 & _). rewrite B10 in *. lra.
    + intros k s E. destruct (A k s E) as (x & X1 & X2 & X3 & [B1 B2 B3 B4 B5 B6 B7 B8 B9 B10]). exact B2.
    + intros k s E. destruct (A k s E) as (x & X1 & X2 & X3 & [B1 B2 B3 B4 B5 B6 B7 B8 B9 B10]). rewrite X1, X2, X3 in *.
      change (eq_soc_min e) with (da_emin d) in *; change (eq_soc_max e) with (da_emax d) in *; change (eq_charge e) with (da_pcharge d) in *; change (eq_discharge e) with (da_pdischarge d) in *;
      change (eq_import e) with (da_pimport d) in *; change (eq_export e) with (da_pexport d) in *. conj; try tauto.
      change (eq_gen e) with gen in B10. change (eq_gen_max e) with (pa_gmax (mp_params c)) in *. destruct gen; [|exact I]. destruct B10 as [(_ & B & B')|(_ & B & B')]; lra.
    + intros k s E. destruct (A k s E) as (x & X1 & X2 & X3 & [B1 B2 B3 B4 B5 B6 B7 B8 B9 B10]). change (eq_gen e) with gen in B10. change (eq_gen_max e) with (pa_gmax (mp_params c)) in *. change (eq_gen_min e) with (pa_gmin (mp_params c)) in *.
      destruct gen; [|exact I]. destruct B10 as [(Z & B & B')|(Z & B & B')]; rewrite Z; conj; try lra; auto.
Qed.
Lemma costs_length : length (pr_costs pr) = (h * width gen)%nat.
Proof.
  destruct posed as (co2 & CO & ->). cbn [pr_costs]. rewrite (concat_length (width gen)); [rewrite map_length, seq_length; reflexivity|].
  apply Forall_forall. intros b I. apply in_map_iff in I. destruct I as (k & <- & _). destruct gen; reflexivity.
Qed.
Lemma program p u : satisfies pr p u = true <-> exists plan, is_plan gen p u plan /\ good_plan e (da_soc d) xs plan.
Proof.
  split.
  - intros S. assert (LP : length p = (h * width gen)%nat).
    { pose proof S as S'. unfold satisfies in S'. rewrite !andb_true_iff, Nat.eqb_eq, costs_length in S'. tauto. }
    destruct (plan_of gen h p LP) as (plan & LPL & EP & NG).
    assert (X : exists plan', length plan' = h /\ p = concat (map (variables gen) plan') /\ (gen = true -> u = map pl_on plan') /\ (gen = false -> Forall (fun s => pl_genset s = 0 /\ pl_on s = 0) plan')).
    { destruct gen eqn:G.
      - assert (LU : length u = length plan).
        { pose proof S as S'. unfold satisfies in S'. rewrite !andb_true_iff in S'. destruct S' as (_ & S'). destruct posed as (co2 & _ & PR). rewrite PR in S'. cbn [pr_gen] in S'. rewrite G in S'.
          rewrite !andb_true_iff in S'. destruct S' as ((_ & S') & _). rewrite all2_iff in S'. apply forall2_len in S'. rewrite map_length in S'.
          rewrite S', EP, <- G, (every8_vars plan G), map_length. reflexivity. }
        exists (with_on plan u). destruct (with_on_ok plan u (eq_sym LU)) as (W1 & W2 & W3). conj; try congruence.
      - exists plan. conj; auto. discriminate. }
    destruct X as (plan' & L' & E' & U' & NG'). exists plan'. split; [split; assumption|]. rewrite E' in S. apply (plan_ok plan' u L' U' NG'). exact S.
  - intros (plan & (-> & U) & GP). assert (L : length plan = h).
    { destruct GP as (L & _). unfold xs, expected_of in L. rewrite map_length, seq_length in L. exact L. }
    apply (plan_ok plan u L U); [|exact GP]. intros G. apply Forall_forall. intros s I. apply In_nth_error in I. destruct I as (k & I).
    destruct GP as (LL & GP). destruct (nth_error xs k) eqn:X.
    + pose proof (al_genset _ _ _ _ (GP k e0 s X I)) as A. change (eq_gen e) with gen in A. rewrite G in A. exact A.
    + apply nth_error_None in X. rewrite <- LL in X. apply nth_error_None in X. congruence.
Qed.
Lemma objective_cost p u plan : is_plan gen p u plan -> good_plan e (da_soc d) xs plan -> objective pr p == plan_cost e xs plan.
Proof.
  intros (-> & _) GP. assert (L : length plan = h).
  { destruct GP as (L & _). unfold xs, expected_of in L. rewrite map_length, seq_length in L. exact L. }
  assert (NG : gen = false -> Forall (fun s => pl_genset s = 0) plan).
  { intros G. apply Forall_forall. intros s I. apply In_nth_error in I. destruct I as (k & I).
    destruct GP as (LL & GP). destruct (nth_error xs k) eqn:X.
    + pose proof (al_genset _ _ _ _ (GP k e0 s X I)) as A. change (eq_gen e) with gen in A. rewrite G in A. apply A.
    + apply nth_error_None in X. rewrite <- LL in X. apply nth_error_None in X. congruence. }
  destruct posed as (co2 & CO & ->). unfold objective. cbn [pr_costs]. unfold xs, expected_of. rewrite CO.
  revert NG. rewrite <- L. generalize 0%nat. clear L GP. induction plan as [|s plan IH]; intros a NG; [reflexivity|].
  cbn [length seq map concat plan_cost]. etransitivity; [apply dot_app; destruct gen; reflexivity|].
  apply Qplus_comp; [|apply IH; intros G; specialize (NG G); inversion NG; assumption]. unfold step_cost. cbn [ex_import ex_export].
  change (eq_gen_cost e) with (pa_fuel (mp_params c) + pa_co2 (mp_params c) * pa_gco2 (mp_params c)). change (eq_cycle_cost e) with (pa_cycle (mp_params c)). change (eq_loss_cost e) with (pa_loss (mp_params c)).
  destruct gen eqn:G.
  - cbn -[Qplus Qmult nth]. ring.
  - specialize (NG eq_refl). inversion NG as [|? ? Z _]; subst. cbn -[Qplus Qmult nth]. rewrite Z. ring.
Qed.
End Posed.
