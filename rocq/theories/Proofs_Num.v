(** * Lemmas on the rational instance and on the exception monad *)

From Coq Require Import ZArith QArith Qabs Bool String List Lia Lqa Setoid.
From Verif Require Import Num Py Space.
Import ListNotations.
Local Open Scope Q_scope.

Lemma Qltb_lt x y : Qltb x y = true <-> x < y.
Proof.
  unfold Qltb. rewrite negb_true_iff. split; intros E.
  - apply Qnot_le_lt. intros C. apply Qle_bool_iff in C. congruence.
  - destruct (Qle_bool y x) eqn:D; [|reflexivity].
    apply Qle_bool_iff in D. exfalso. apply (Qlt_not_le _ _ E D).
Qed.

Lemma Qltb_ge x y : Qltb x y = false <-> y <= x.
Proof.
  unfold Qltb. rewrite negb_false_iff. apply Qle_bool_iff.
Qed.

Lemma Qleb_le x y : Qle_bool x y = true <-> x <= y.
Proof. apply Qle_bool_iff. Qed.

Lemma Qleb_gt x y : Qle_bool x y = false <-> y < x.
Proof.
  split; intros E.
  - apply Qnot_le_lt. intros C. apply Qle_bool_iff in C. congruence.
  - destruct (Qle_bool x y) eqn:D; [|reflexivity].
    apply Qle_bool_iff in D. exfalso. apply (Qlt_not_le _ _ E D).
Qed.

Lemma Qeqb_eq x y : Qeq_bool x y = true <-> x == y.
Proof. apply Qeq_bool_iff. Qed.

Lemma Qeqb_neq x y : Qeq_bool x y = false <-> ~ x == y.
Proof.
  split; intros E.
  - apply Qeq_bool_neq; exact E.
  - destruct (Qeq_bool x y) eqn:D; [|reflexivity]. apply Qeqb_eq in D. tauto.
Qed.

(** Unfold the operations of the rational instance. *)
Ltac unum :=
  unfold ngtb, ngeb in *;
  change (@n0 Q Q_ops) with 0 in *; change (@n1 Q Q_ops) with 1 in *;
  change (@nadd Q Q_ops) with Qplus in *; change (@nsub Q Q_ops) with Qminus in *;
  change (@nmul Q Q_ops) with Qmult in *; change (@ndiv Q Q_ops) with Qdiv in *;
  change (@nopp Q Q_ops) with Qopp in *; change (@nabs Q Q_ops) with Qabs in *;
  change (@nltb Q Q_ops) with Qltb in *; change (@nleb Q Q_ops) with Qle_bool in *;
  change (@neqb Q Q_ops) with Qeq_bool in *; change (@nofZ Q Q_ops) with inject_Z in *;
  cbv beta zeta in *.

(** Turn boolean comparisons into propositions. *)
Ltac qprop :=
  repeat match goal with
  | E : Qltb _ _ = true |- _ => apply Qltb_lt in E
  | E : Qltb _ _ = false |- _ => apply Qltb_ge in E
  | E : Qle_bool _ _ = true |- _ => apply Qleb_le in E
  | E : Qle_bool _ _ = false |- _ => apply Qleb_gt in E
  | E : Qeq_bool _ _ = true |- _ => apply Qeqb_eq in E
  | E : Qeq_bool _ _ = false |- _ => apply Qeqb_neq in E
  | E : _ && _ = true |- _ => apply andb_true_iff in E; destruct E
  | E : _ && _ = false |- _ => apply andb_false_iff in E
  | E : _ || _ = false |- _ => apply orb_false_iff in E; destruct E
  | E : _ || _ = true |- _ => apply orb_true_iff in E
  | E : negb _ = true |- _ => apply negb_true_iff in E
  | E : negb _ = false |- _ => apply negb_false_iff in E
  end.

Lemma Qmin_spec a b : nmin a b <= a /\ nmin a b <= b /\ (nmin a b = a \/ nmin a b = b).
Proof.
  unfold nmin. unum. destruct (Qltb b a) eqn:E; qprop; repeat split; try lra; auto.
Qed.

Lemma Qdiv_mult_cancel x y : ~ y == 0 -> x / y * y == x.
Proof. intros. field. assumption. Qed.

Lemma Qdiv_pos x y : 0 <= x -> 0 < y -> 0 <= x / y.
Proof. intros. apply Qle_shift_div_l; lra. Qed.

Lemma Qabs_nonneg x : 0 <= x -> Qabs x == x.
Proof. apply Qabs_pos. Qed.
Lemma Qabs_nonpos x : x <= 0 -> Qabs x == - x.
Proof. apply Qabs_neg. Qed.

(** ** Monad *)
Lemma mbind_ok {S A B} (x : M S A) (f : A -> M S B) s s' b :
  mbind x f s = (s', Ok b) ->
  exists s1 a, x s = (s1, Ok a) /\ f a s1 = (s', Ok b).
Proof.
  unfold mbind. destruct (x s) as [s1 [a|e]] eqn:E; intros H.
  - eauto.
  - discriminate.
Qed.

Lemma mbind_inv {S A B} (x : M S A) (f : A -> M S B) s s' r :
  mbind x f s = (s', r) ->
  (exists s1 a, x s = (s1, Ok a) /\ f a s1 = (s', r))
  \/ (exists e, x s = (s', Err e) /\ r = Err e).
Proof.
  unfold mbind. destruct (x s) as [s1 [a|e]] eqn:E; intros H.
  - left; eauto.
  - right. inversion H; subst. eauto.
Qed.

Lemma rbind_ok {A B} (x : res A) (f : A -> res B) b :
  rbind x f = Ok b -> exists a, x = Ok a /\ f a = Ok b.
Proof. destruct x; simpl; intros; [eauto|discriminate]. Qed.

Lemma rmap_ok {A B} (f : A -> B) (x : res A) b :
  rmap f x = Ok b -> exists a, x = Ok a /\ b = f a.
Proof. destruct x; simpl; intros H; inversion H; eauto. Qed.

Lemma rmapM_ok {A B} (f : A -> res B) l bs :
  rmapM f l = Ok bs -> Forall2 (fun a b => f a = Ok b) l bs.
Proof.
  revert bs. induction l as [|a l IH]; simpl; intros bs H.
  - inversion H. constructor.
  - apply rbind_ok in H. destruct H as (b & E1 & E2).
    apply rmap_ok in E2. destruct E2 as (bs' & E2 & ->). constructor; auto.
Qed.

Lemma rmapM_ok_iff {A B} (f : A -> res B) l bs :
  rmapM f l = Ok bs <-> Forall2 (fun a b => f a = Ok b) l bs.
Proof.
  split; [apply rmapM_ok|].
  induction 1; simpl; auto. rewrite H, IHForall2. reflexivity.
Qed.

(** Invert hypotheses of the form [computation s = (s', Ok v)]. *)
Ltac minv :=
  repeat match goal with
  | H : mbind _ _ _ = (_, Ok _) |- _ =>
      apply mbind_ok in H; destruct H as (? & ? & ? & H)
  | H : mret _ _ = (_, _) |- _ => unfold mret in H; inversion H; subst; clear H
  | H : mraise _ _ _ = (_, Ok _) |- _ => unfold mraise, raise in H; discriminate H
  | H : mget _ = (_, _) |- _ => unfold mget in H; inversion H; subst; clear H
  | H : mput _ _ = (_, _) |- _ => unfold mput in H; inversion H; subst; clear H
  | H : mmodify _ _ = (_, _) |- _ => unfold mmodify in H; inversion H; subst; clear H
  | H : mlift _ _ = (_, Ok _) |- _ => unfold mlift in H; inversion H; subst; clear H
  | H : massert ?b _ _ = (_, Ok _) |- _ =>
      unfold massert in H; destruct b eqn:?; [inversion H; subst; clear H | discriminate H]
  | H : raise _ _ = Ok _ |- _ => discriminate H
  | H : Err _ = Ok _ |- _ => discriminate H
  | H : rbind _ _ = Ok _ |- _ => apply rbind_ok in H; destruct H as (? & ? & H)
  | H : rmap _ _ = Ok _ |- _ => apply rmap_ok in H; destruct H as (? & ? & ?)
  end.

(** As [minv], also splitting conditionals in head position. *)
Ltac mcrush :=
  repeat (minv;
    match goal with
    | H : (match ?b with _ => _ end) _ = (_, Ok _) |- _ => destruct b eqn:?; try discriminate H
    | H : (match ?b with _ => _ end) = (_, Ok _) |- _ => destruct b eqn:?; try discriminate H
    | H : (match ?b with _ => _ end) = Ok _ |- _ => destruct b eqn:?; try discriminate H
    end); minv.

(** ** Sums *)
Lemma fold_Qplus l : forall a, fold_left Qplus l a == a + fold_left Qplus l 0.
Proof.
  induction l as [|x l IH]; simpl; intros a; [lra|].
  rewrite IH, (IH (0 + x)). lra.
Qed.

Lemma nsum_cons x (l : list Q) : nsum (x :: l) == x + nsum l.
Proof. unfold nsum. unum. simpl. rewrite fold_Qplus. lra. Qed.

Lemma nsum_app (l m : list Q) : nsum (l ++ m) == nsum l + nsum m.
Proof.
  induction l as [|x l IH]; [unfold nsum; unum; simpl; lra|].
  rewrite <- app_comm_cons, !nsum_cons, IH. lra.
Qed.

Lemma nsum_nil : nsum (@nil Q) = 0.
Proof. reflexivity. Qed.

(** ** Dictionaries *)
Lemma dget_dset_same {A} k (v : A) d : dget k (dset k v d) = Some v.
Proof.
  induction d as [|[k' v'] d IH]; simpl.
  - rewrite String.eqb_refl. reflexivity.
  - destruct (String.eqb k k') eqn:E; simpl; rewrite E; auto.
Qed.

Lemma dget_dset_other {A} k k' (v : A) d : k <> k' -> dget k (dset k' v d) = dget k d.
Proof.
  intros N. induction d as [|[k2 v2] d IH]; simpl.
  - apply String.eqb_neq in N. rewrite N. reflexivity.
  - destruct (String.eqb k' k2) eqn:E; simpl.
    + apply String.eqb_eq in E; subst. apply String.eqb_neq in N. rewrite N. reflexivity.
    + destruct (String.eqb k k2); auto.
Qed.

Lemma dget_In {A} k (v : A) d : dget k d = Some v -> In (k, v) d.
Proof.
  induction d as [|[k' v'] d IH]; simpl; [discriminate|].
  destruct (String.eqb k k') eqn:E; intros H.
  - apply String.eqb_eq in E. inversion H; subst. auto.
  - auto.
Qed.

Lemma In_dget {A} k (v : A) d : NoDup (map fst d) -> In (k, v) d -> dget k d = Some v.
Proof.
  induction d as [|[k' v'] d IH]; simpl; [tauto|].
  intros N [E|E].
  - inversion E; subst. rewrite String.eqb_refl. reflexivity.
  - inversion N; subst. destruct (String.eqb k k') eqn:D.
    + apply String.eqb_eq in D; subst. exfalso. apply H1.
      change k' with (fst (k', v)). apply in_map. assumption.
    + auto.
Qed.

Lemma dget_None {A} k (d : dict A) : dget k d = None <-> ~ In k (map fst d).
Proof.
  induction d as [|[k' v'] d IH]; simpl; [tauto|].
  destruct (String.eqb k k') eqn:E.
  - apply String.eqb_eq in E; subst. split; [discriminate|]. tauto.
  - apply String.eqb_neq in E. rewrite IH. intuition congruence.
Qed.

Lemma dset_new {A} k (v : A) d : ~ In k (map fst d) -> dset k v d = d ++ [(k, v)].
Proof.
  induction d as [|[k' v'] d IH]; simpl; intros N; [reflexivity|].
  destruct (String.eqb k k') eqn:E.
  - apply String.eqb_eq in E; subst. tauto.
  - rewrite IH; tauto.
Qed.

Lemma map_fst_dset {A} k (v : A) d :
  map fst (dset k v d) = if str_in k (map fst d) then map fst d else map fst d ++ [k].
Proof.
  induction d as [|[k' v'] d IH]; simpl; [reflexivity|].
  destruct (String.eqb k k') eqn:E; simpl.
  - reflexivity.
  - rewrite IH. unfold str_in. destruct (existsb (String.eqb k) (map fst d)); reflexivity.
Qed.

Lemma str_in_iff k l : str_in k l = true <-> In k l.
Proof.
  unfold str_in. rewrite existsb_exists. split.
  - intros (x & I & E). apply String.eqb_eq in E. subst. assumption.
  - intros I. exists k. split; [assumption|apply String.eqb_refl].
Qed.

Lemma NoDup_dset {A} k (v : A) d : NoDup (map fst d) -> NoDup (map fst (dset k v d)).
Proof.
  intros N. rewrite map_fst_dset. destruct (str_in k (map fst d)) eqn:E; [assumption|].
  apply NoDup_rev in N. rewrite <- (rev_involutive (map fst d ++ [k])).
  apply NoDup_rev. rewrite rev_app_distr. simpl. constructor; [|assumption].
  rewrite <- in_rev. intros I. apply str_in_iff in I. congruence.
Qed.

Lemma NoDup_dupdate {A} (kvs : list (string * A)) : forall d,
  NoDup (map fst d) -> NoDup (map fst (dupdate d kvs)).
Proof.
  induction kvs as [|[k v] kvs IH]; simpl; intros d N; [assumption|].
  apply IH. simpl. apply NoDup_dset. assumption.
Qed.

Lemma dupdate_fresh {A} (kvs : list (string * A)) : forall d,
  NoDup (map fst (d ++ kvs)) -> dupdate d kvs = d ++ kvs.
Proof.
  unfold dupdate.
  induction kvs as [|[k v] kvs IH]; simpl; intros d N; [rewrite app_nil_r; reflexivity|].
  rewrite dset_new.
  - rewrite IH; rewrite <- app_assoc; [reflexivity|assumption].
  - rewrite map_app in N. simpl in N. apply NoDup_remove_2 in N.
    intros I. apply N. apply in_or_app. left. assumption.
Qed.

Lemma dict_of_NoDup {A} (kvs : list (string * A)) :
  NoDup (map fst kvs) -> dict_of kvs = kvs.
Proof. intros N. unfold dict_of. rewrite dupdate_fresh; auto. Qed.

Lemma set_nth_length {A} (l : list A) i v : length (set_nth l i v) = length l.
Proof. revert i. induction l; destruct i; simpl; auto. Qed.

Lemma nth_error_set_nth_eq {A} (l : list A) i v :
  (i < length l)%nat -> nth_error (set_nth l i v) i = Some v.
Proof. revert i. induction l; destruct i; simpl; intros; try lia; auto. apply IHl. lia. Qed.

Lemma nth_error_set_nth_neq {A} (l : list A) i j v :
  i <> j -> nth_error (set_nth l i v) j = nth_error l j.
Proof. revert i j. induction l; destruct i, j; simpl; intros; try congruence; auto. Qed.

Lemma map2_length {A B C} (f : A -> B -> C) l m :
  length l = length m -> length (map2 f l m) = length l.
Proof. revert m. induction l; destruct m; simpl; intros; try discriminate; auto. Qed.
