(** * Permutations, first occurrences, sorting *)

From Coq Require Import ZArith QArith Bool String List Lia Permutation.
From Verif Require Import Num Py Space Logger Forecast Module Container Microgrid PriorityList
  Proofs_Num.
Import ListNotations.
Local Open Scope list_scope.

(** ** itertools.permutations *)
Lemma picks_iff {A} (l : list A) : forall x r,
  In (x, r) (picks l) <-> exists l1 l2, l = l1 ++ x :: l2 /\ r = l1 ++ l2.
Proof.
  induction l as [|y l IH]; intros x r; simpl.
  - split; [intros []|]. intros (l1 & l2 & E & _). destruct l1; discriminate.
  - split.
    + intros [E|I].
      * inversion E; subst. exists [], r. auto.
      * apply in_map_iff in I. destruct I as ([x' r'] & E & I). simpl in E. inversion E; subst.
        apply IH in I. destruct I as (l1 & l2 & -> & ->). exists (y :: l1), l2. auto.
    + intros (l1 & l2 & E & ->). destruct l1 as [|z l1]; simpl in E; inversion E; subst.
      * left. reflexivity.
      * right. apply in_map_iff. exists (x, l1 ++ l2). split; [reflexivity|]. apply IH. eauto.
Qed.
Lemma perms_iff {A} n : forall (l p : list A), length l = n -> (In p (perms n l) <-> Permutation l p).
Proof.
  induction n as [|n IH]; intros l p L; simpl.
  - destruct l; [|discriminate]. split.
    + intros [<-|[]]. constructor.
    + intros P. apply Permutation_nil in P. auto.
  - split.
    + intros I. apply in_concat in I. destruct I as (b & I & J). apply in_map_iff in I.
      destruct I as ([x r] & <- & I). simpl in J. apply in_map_iff in J. destruct J as (q & <- & J).
      apply picks_iff in I. destruct I as (l1 & l2 & -> & ->).
      assert (LN : length (l1 ++ l2) = n) by (rewrite app_length in *; simpl in L; lia).
      apply IH in J; [|exact LN]. symmetry. apply Permutation_cons_app. symmetry. exact J.
    + intros P. destruct p as [|x q]; [apply Permutation_length in P; simpl in P; lia|].
      assert (I : In x l) by (eapply Permutation_in; [symmetry; exact P|left; reflexivity]).
      apply in_split in I. destruct I as (l1 & l2 & ->). apply in_concat.
      exists (map (cons x) (perms n (l1 ++ l2))). split.
      * apply in_map_iff. exists (x, l1 ++ l2). split; [reflexivity|]. apply picks_iff. eauto.
      * apply in_map. apply IH; [rewrite app_length in *; simpl in L; lia|].
        symmetry in P. apply Permutation_cons_app_inv in P. symmetry. exact P.
Qed.
Lemma permutations_iff {A} (l p : list A) : In p (permutations l) <-> Permutation l p.
Proof. apply perms_iff. reflexivity. Qed.

(** ** First occurrences of equal values *)
Lemma uniq_vals_incl {A} (eqb : A -> A -> bool) l : incl (uniq_vals eqb l) l.
Proof.
  induction l as [|a l IH]; simpl; intros x I; [exact I|]. destruct I as [->|I]; [left; reflexivity|].
  apply filter_In in I. right. apply IH. apply I.
Qed.
Lemma uniq_vals_NoDup {A} (eqb : A -> A -> bool) l : (forall a, In a l -> eqb a a = true) -> NoDup (uniq_vals eqb l).
Proof.
  induction l as [|a l IH]; simpl; intros R; constructor.
  - intros I. apply filter_In in I. destruct I as [_ E]. rewrite R in E by auto. discriminate.
  - apply NoDup_filter. auto.
Qed.
Lemma uniq_vals_in {A} (eqb : A -> A -> bool) l : (forall a b, In a l -> In b l -> eqb a b = true -> a = b) ->
  forall x, In x l -> In x (uniq_vals eqb l).
Proof.
  induction l as [|a l IH]; simpl; intros H x I; [exact I|]. destruct I as [->|I]; [left; reflexivity|].
  destruct (eqb a x) eqn:E; [left; apply H; auto|]. right. apply filter_In. split; [|rewrite E; reflexivity].
  apply IH; [intros; apply H; auto|exact I].
Qed.

(** ** Elements *)
Lemma ref_eqb_eq a b : ref_eqb a b = true <-> a = b.
Proof.
  unfold ref_eqb. rewrite andb_true_iff, String.eqb_eq, Nat.eqb_eq. destruct a, b; simpl. split.
  - intros [-> ->]. reflexivity.
  - intros E. inversion E. auto.
Qed.
Lemma el_eqb_refl (e : element Q) : el_eqb e e = true.
Proof.
  unfold el_eqb. rewrite (proj2 (ref_eqb_eq _ _) eq_refl), !Nat.eqb_refl. simpl. apply Qeq_bool_iff. reflexivity.
Qed.
Lemma el_eqb_iff (a b : element Q) : el_eqb a b = true <->
  el_module a = el_module b /\ el_actions a = el_actions b /\ el_action a = el_action b /\ el_cost a == el_cost b.
Proof.
  unfold el_eqb. rewrite !andb_true_iff, ref_eqb_eq, !Nat.eqb_eq. change (neqb (el_cost a) (el_cost b)) with (Qeq_bool (el_cost a) (el_cost b)).
  rewrite Qeq_bool_iff. tauto.
Qed.
Lemma pl_eqb_refl (l : list (element Q)) : pl_eqb l l = true.
Proof. induction l; simpl; [reflexivity|]. rewrite el_eqb_refl. exact IHl. Qed.
Lemma pl_eqb_forall2 (a : list (element Q)) : forall b, pl_eqb a b = true <-> Forall2 (fun x y => el_eqb x y = true) a b.
Proof.
  induction a as [|x a IH]; intros [|y b]; simpl.
  - split; constructor.
  - split; [discriminate|]. intros F. inversion F.
  - split; [discriminate|]. intros F. inversion F.
  - rewrite andb_true_iff, IH. split; [intros [A B]; constructor; auto|]. intros F. inversion F; subst. auto.
Qed.

(** Elements of a list in which the module and the action number determine the
    element. *)
Definition identified (es : list (element Q)) : Prop :=
  forall a b, In a es -> In b es -> el_module a = el_module b -> el_action a = el_action b -> a = b.
Lemma pl_eqb_eq es a b : identified es -> incl a es -> incl b es -> pl_eqb a b = true -> a = b.
Proof.
  intros ID Ia Ib E. apply pl_eqb_forall2 in E. induction E as [|x y a b XY F IH]; [reflexivity|].
  apply el_eqb_iff in XY. f_equal.
  - apply ID; [apply Ia; left; reflexivity|apply Ib; left; reflexivity|tauto|tauto].
  - apply IH; intros z I; [apply Ia|apply Ib]; right; exact I.
Qed.

(** ** The first element of every module *)
Definition seen_in (seen : list (string * nat)) (r : string * nat) : bool := existsb (ref_eqb r) seen.
Lemma seen_in_iff seen r : seen_in seen r = true <-> In r seen.
Proof.
  unfold seen_in. rewrite existsb_exists. split.
  - intros (x & I & E). apply ref_eqb_eq in E. subst. exact I.
  - intros I. exists r. split; [exact I|]. apply ref_eqb_eq. reflexivity.
Qed.
Lemma keep_first_cons seen (e : element Q) pl : keep_first seen (e :: pl)
  = if seen_in seen (el_module e) then keep_first seen pl else e :: keep_first (el_module e :: seen) pl.
Proof. reflexivity. Qed.
Lemma keep_first_incl (pl : list (element Q)) : forall seen, incl (keep_first seen pl) pl.
Proof.
  induction pl as [|e pl IH]; intros seen x I; [exact I|]. rewrite keep_first_cons in I.
  destruct (seen_in seen (el_module e)); [right; eapply IH; exact I|].
  destruct I as [->|I]; [left; reflexivity|right; eapply IH; exact I].
Qed.
Lemma keep_first_refs (pl : list (element Q)) : forall seen,
  NoDup (map el_module (keep_first seen pl))
  /\ forall r, In r (map el_module (keep_first seen pl)) <-> In r (map el_module pl) /\ ~ In r seen.
Proof.
  induction pl as [|e pl IH]; intros seen.
  - split; [constructor|]. intros r. simpl. tauto.
  - rewrite keep_first_cons. destruct (seen_in seen (el_module e)) eqn:S.
    + apply seen_in_iff in S. destruct (IH seen) as [N I]. split; [exact N|]. intros r. rewrite I. simpl.
      split; [tauto|]. intros [[<-|J] K]; [contradiction|auto].
    + assert (NS : ~ In (el_module e) seen) by (intros J; apply seen_in_iff in J; congruence).
      destruct (IH (el_module e :: seen)) as [N I]. simpl. split.
      * constructor; [|exact N]. intros J. apply I in J. simpl in J. tauto.
      * intros r. rewrite I. simpl. split.
        -- intros [<-|(J & K)]; [auto|]. tauto.
        -- intros [[<-|J] K]; [auto|]. destruct (seen_in [el_module e] r) eqn:Q.
           ++ apply seen_in_iff in Q. destruct Q as [<-|[]]. auto.
           ++ right. split; [exact J|]. intros [<-|L]; [|contradiction].
              assert (seen_in [el_module e] (el_module e) = true) by (apply seen_in_iff; simpl; auto). congruence.
Qed.
(** Elements of modules seen already are dropped; new ones, each of another
    module, are kept. *)
Lemma keep_first_app (pl rest : list (element Q)) : forall seen,
  NoDup (map el_module pl) -> (forall r, In r (map el_module pl) -> ~ In r seen) ->
  (forall e, In e rest -> In (el_module e) seen \/ In (el_module e) (map el_module pl)) ->
  keep_first seen (pl ++ rest) = pl.
Proof.
  induction pl as [|e pl IH]; intros seen N NS R.
  - simpl app. clear N NS. induction rest as [|e rest IH]; [reflexivity|]. rewrite keep_first_cons.
    destruct (R e (or_introl eq_refl)) as [S|[]]. apply seen_in_iff in S. rewrite S. apply IH.
    intros e' I. apply R. right. exact I.
  - simpl app. rewrite keep_first_cons. inversion N; subst. destruct (seen_in seen (el_module e)) eqn:S.
    { apply seen_in_iff in S. exfalso. apply (NS (el_module e)); [left; reflexivity|exact S]. }
    f_equal. apply IH; [assumption| |].
    + intros r I [<-|J]; [contradiction|]. apply (NS r); [right; exact I|exact J].
    + intros e' I. destruct (R e' I) as [J|[<-|J]]; simpl; auto.
Qed.

(** A list without repetition that has the members of another is part of it. *)
Lemma nodup_incl_split {A} (pl : list A) : forall es, NoDup pl -> incl pl es ->
  exists rest, Permutation es (pl ++ rest).
Proof.
  induction pl as [|x pl IH]; intros es N I; [exists es; reflexivity|]. inversion N; subst.
  destruct (in_split x es (I x (or_introl eq_refl))) as (e1 & e2 & ->).
  destruct (IH (e1 ++ e2)) as (rest & P); [assumption| |].
  - intros y J. assert (Y : In y (e1 ++ x :: e2)) by (apply I; right; exact J).
    rewrite in_app_iff in *. simpl in Y. destruct Y as [Y|[<-|Y]]; auto. contradiction.
  - exists rest. simpl. rewrite <- Permutation_middle. constructor. exact P.
Qed.

(** The deployment orders: every order of the modules with every choice of one
    element for each. *)
Lemma orders_iff (es pl : list (element Q)) :
  (In pl (map (keep_first []) (permutations es))
   <-> NoDup (map el_module pl) /\ (forall r, In r (map el_module pl) <-> In r (map el_module es)) /\ incl pl es).
Proof.
  rewrite in_map_iff. split.
  - intros (p & <- & I). apply permutations_iff in I. destruct (keep_first_refs p []) as [N R]. split; [exact N|]. split.
    + intros r. rewrite R. split.
      * intros [J _]. eapply Permutation_in; [|exact J]. symmetry. apply Permutation_map. exact I.
      * intros J. split; [|intros []]. eapply Permutation_in; [|exact J]. apply Permutation_map. exact I.
    + intros x J. apply keep_first_incl in J. eapply Permutation_in; [symmetry; exact I|exact J].
  - intros (N & R & I). assert (NP : NoDup pl) by (eapply NoDup_map_inv; exact N).
    destruct (nodup_incl_split pl es NP I) as (rest & P). exists (pl ++ rest). split.
    + apply keep_first_app; [exact N|intros r _ []|]. intros e J. right. apply R. apply in_map.
      eapply Permutation_in; [symmetry; exact P|]. apply in_or_app. right. exact J.
    + apply permutations_iff. exact P.
Qed.

(** ** The first list *)
Section First.
Variable bad : element Q -> bool.
Definition good_list (pl : list (element Q)) : bool := forallb (fun e => negb (bad e)) pl.

Lemma hd_filter_uniq {A} (eqb : A -> A -> bool) (f : A -> bool) l :
  (forall a b, In a l -> In b l -> eqb a b = true -> f b = f a) ->
  hd_error (filter f (uniq_vals eqb l)) = hd_error (filter f l).
Proof.
  induction l as [|a l IH]; intros H; [reflexivity|]. simpl. destruct (f a) eqn:F; [reflexivity|].
  rewrite <- IH by (intros; apply H; simpl; auto).
  assert (E : forall u, incl u l -> filter f (filter (fun b => negb (eqb a b)) u) = filter f u).
  { induction u as [|b u IHu]; intros I; [reflexivity|]. simpl.
    assert (Iu : incl u l) by (intros x J; apply I; right; exact J). destruct (eqb a b) eqn:EB; simpl.
    - assert (FB : f b = f a) by (apply H; simpl; auto; right; apply I; left; reflexivity).
      rewrite FB, F. auto.
    - destruct (f b); [f_equal|]; auto. }
  rewrite E; [reflexivity|apply uniq_vals_incl].
Qed.
Lemma hd_filter_app {A} (f : A -> bool) l l' x : hd_error (filter f l) = Some x -> hd_error (filter f (l ++ l')) = Some x.
Proof. rewrite filter_app. destruct (filter f l); simpl; [discriminate|auto]. Qed.
Lemma hd_filter_map {A B} (h : A -> B) (f : B -> bool) l x :
  hd_error (filter (fun a => f (h a)) l) = Some x -> hd_error (filter f (map h l)) = Some (h x).
Proof.
  induction l as [|a l IH]; simpl; [discriminate|]. destruct (f (h a)); simpl; [|exact IH].
  intros E. inversion E. reflexivity.
Qed.

(** Unread elements [l], modules [seen] so far, and the list that comes first. *)
Inductive ready : list (string * nat) -> list (element Q) -> list (element Q) -> Prop :=
| ready_nil seen : ready seen [] []
| ready_seen seen e l f : In (el_module e) seen -> ready seen l f -> ready seen (e :: l) f
| ready_good seen e l f : ~ In (el_module e) seen -> bad e = false ->
    ready (el_module e :: seen) l f -> ready seen (e :: l) (e :: f)
| ready_bad seen e0 e1 l f : ~ In (el_module e0) seen -> el_module e1 = el_module e0 ->
    bad e0 = true -> bad e1 = false ->
    ready (el_module e0 :: seen) (e0 :: l) f -> ready seen (e0 :: e1 :: l) (e1 :: f).

Lemma ready_first seen l f : ready seen l f ->
  exists p, hd_error (filter (fun p => good_list (keep_first seen p)) (permutations l)) = Some p
    /\ keep_first seen p = f.
Proof.
  unfold permutations. induction 1 as [seen|seen e l f S R (p & H & K)|seen e l f S G R (p & H & K)|seen e0 e1 l f NI M B G R (p & H & K)].
  - exists []. split; reflexivity.
  - exists (e :: p). apply seen_in_iff in S. split; [|rewrite keep_first_cons, S; exact K].
    simpl length. cbn [perms picks map concat]. apply hd_filter_app. cbn [fst snd].
    apply (hd_filter_map (cons e) (fun p => good_list (keep_first seen p))).
    rewrite <- H. f_equal. apply filter_ext. intros q. rewrite keep_first_cons, S. reflexivity.
  - exists (e :: p). assert (NS : seen_in seen (el_module e) = false).
    { destruct (seen_in seen (el_module e)) eqn:X; [|reflexivity]. apply seen_in_iff in X. contradiction. }
    split; [|rewrite keep_first_cons, NS, K; reflexivity].
    simpl length. cbn [perms picks map concat]. apply hd_filter_app. cbn [fst snd].
    apply (hd_filter_map (cons e) (fun p => good_list (keep_first seen p))).
    rewrite <- H. f_equal. apply filter_ext. intros q. rewrite keep_first_cons, NS. simpl. rewrite G. reflexivity.
  - exists (e1 :: p). assert (NS : seen_in seen (el_module e0) = false).
    { destruct (seen_in seen (el_module e0)) eqn:X; [|reflexivity]. apply seen_in_iff in X. contradiction. }
    split; [|rewrite keep_first_cons, M, NS, K; reflexivity].
    change (length (e0 :: e1 :: l)) with (S (S (length l))). cbn [length] in H.
    change (perms (S (S (length l))) (e0 :: e1 :: l)) with
      (map (cons e0) (perms (S (length l)) (e1 :: l))
       ++ map (cons e1) (perms (S (length l)) (e0 :: l))
       ++ concat (map (fun p => map (cons (fst p)) (perms (S (length l)) (snd p)))
            (map (fun p => (fst p, e0 :: snd p)) (map (fun p => (fst p, e1 :: snd p)) (picks l))))).
    rewrite filter_app.
    assert (Z : filter (fun p => good_list (keep_first seen p)) (map (cons e0) (perms (S (length l)) (e1 :: l))) = []).
    { generalize (perms (S (length l)) (e1 :: l)). intros ps. induction ps as [|q ps IH]; [reflexivity|].
      cbn [map filter]. rewrite keep_first_cons, NS. simpl good_list. rewrite B. simpl. exact IH. }
    rewrite Z. simpl app. apply hd_filter_app.
    apply (hd_filter_map (cons e1) (fun p => good_list (keep_first seen p))).
    rewrite <- H. f_equal. apply filter_ext. intros q. rewrite keep_first_cons, M, NS. simpl. rewrite G. reflexivity.
Qed.

(** Modules in a row: one element, or a choice of two of which the second is good. *)
Inductive group : list (element Q) -> string * nat -> element Q -> Prop :=
| group_one e : bad e = false -> group [e] (el_module e) e
| group_two e0 e1 : el_module e1 = el_module e0 -> bad e1 = false ->
    group [e0; e1] (el_module e0) (if bad e0 then e1 else e0).
Lemma ready_groups gs rs fs :
  Forall2 (fun g rf => group g (fst rf) (snd rf)) gs (combine rs fs) -> length rs = length fs -> NoDup rs ->
  forall seen, (forall r, In r rs -> ~ In r seen) -> ready seen (concat gs) fs.
Proof.
  revert rs fs. induction gs as [|g gs IH]; intros [|r rs] [|f fs] F L N seen NS; simpl in L; try discriminate L; inversion F; subst.
  - constructor.
  - inversion N as [|? ? NIr ND]; subst. match goal with H : group _ _ _ |- _ => rename H into G end. simpl in G.
    match goal with H : Forall2 _ gs _ |- _ => rename H into F1 end.
    assert (NS1 : forall r', In r' rs -> ~ In r' (r :: seen)).
    { intros r' I [<-|J]; [contradiction|]. apply (NS r'); [right; exact I|exact J]. }
    pose proof (IH rs fs F1 (eq_add_S _ _ L) ND (r :: seen) NS1) as R.
    pose proof (NS r (or_introl eq_refl)) as NR.
    inversion G; subst; simpl.
    + apply ready_good; assumption.
    + destruct (bad e0) eqn:B.
      * apply ready_bad; auto. apply ready_seen; [left; reflexivity|]. exact R.
      * apply ready_good; auto. apply ready_seen; [left; congruence|]. exact R.
Qed.
End First.

(** ** sorted *)
From Coq Require Import Sorted Lqa Lia.
Definition el_le (a b : element Q) : Prop := el_ltb b a = false.
Lemma el_ltb_iff (a b : element Q) : el_ltb a b = true <->
  el_cost a < el_cost b \/ (el_cost a == el_cost b /\ (el_action b < el_action a)%nat).
Proof.
  unfold el_ltb. rewrite orb_true_iff, andb_true_iff, Nat.ltb_lt.
  change (neqb (el_cost a) (el_cost b)) with (Qeq_bool (el_cost a) (el_cost b)). rewrite Qeq_bool_iff.
  change (nltb (el_cost a) (el_cost b)) with (Qltb (el_cost a) (el_cost b)). rewrite Qltb_lt. tauto.
Qed.
Lemma el_le_iff (a b : element Q) : el_le a b <->
  el_cost a < el_cost b \/ (el_cost a == el_cost b /\ (el_action b <= el_action a)%nat).
Proof.
  unfold el_le. rewrite <- not_true_iff_false, el_ltb_iff. split.
  - intros H. destruct (Qlt_le_dec (el_cost a) (el_cost b)) as [L|L]; [left; exact L|right].
    destruct (Qlt_le_dec (el_cost b) (el_cost a)) as [L'|L']; [exfalso; apply H; left; exact L'|].
    split; [lra|]. destruct (Nat.le_gt_cases (el_action b) (el_action a)) as [N|N]; [exact N|].
    exfalso. apply H. right. split; [lra|exact N].
  - intros [L|[E N]] [L'|[E' N']]; try lra; lia.
Qed.
Lemma el_le_trans a b c : el_le a b -> el_le b c -> el_le a c.
Proof. rewrite !el_le_iff. intros [L|[E N]] [L'|[E' N']]; [left; lra|left; lra|left; lra|right; split; [lra|lia]]. Qed.
Lemma el_lt_le a b : el_ltb a b = true -> el_le a b.
Proof. rewrite el_ltb_iff, el_le_iff. intros [L|[E N]]; [left; exact L|right; split; [exact E|lia]]. Qed.

Lemma insert_el_perm (e : element Q) l : Permutation (insert_el e l) (e :: l).
Proof.
  induction l as [|x l IH]; simpl; [reflexivity|]. destruct (el_ltb e x); [reflexivity|].
  rewrite IH. apply perm_swap.
Qed.
Lemma insert_el_sorted (e : element Q) l : StronglySorted el_le l -> StronglySorted el_le (insert_el e l).
Proof.
  induction 1 as [|x l S IH F]; simpl; [repeat constructor|]. destruct (el_ltb e x) eqn:E.
  - apply el_lt_le in E. constructor; [constructor; assumption|]. constructor; [exact E|].
    eapply Forall_impl; [|exact F]. intros y. apply el_le_trans. exact E.
  - constructor; [exact IH|]. apply Forall_forall. intros y I.
    apply (Permutation_in _ (insert_el_perm e l)) in I as [<-|I]; [exact E|]. rewrite Forall_forall in F. auto.
Qed.
Definition same_key (k e : element Q) : bool := Qeq_bool (el_cost e) (el_cost k) && (el_action e =? el_action k)%nat.
Lemma insert_el_filter (k e : element Q) l : StronglySorted el_le l ->
  filter (same_key k) (insert_el e l) = filter (same_key k) l ++ (if same_key k e then [e] else []).
Proof.
  induction 1 as [|x l S IH F]; simpl; [destruct (same_key k e); reflexivity|]. destruct (el_ltb e x) eqn:E.
  - simpl. destruct (same_key k e) eqn:K; [|rewrite app_nil_r; reflexivity].
    assert (Z : forall y, el_le x y -> same_key k y = false).
    { intros y L. apply not_true_is_false. unfold same_key in *. intros H.
      apply andb_true_iff in H as [H1 H2]. apply andb_true_iff in K as [K1 K2].
      apply Qeq_bool_iff in H1, K1. apply Nat.eqb_eq in H2, K2.
      apply el_ltb_iff in E. apply el_le_iff in L. destruct E as [E|[E E']], L as [L|[L L']]; try lra; lia. }
    assert (Zx : same_key k x = false). { apply Z. apply el_le_iff. right. split; [reflexivity|lia]. }
    rewrite Zx. assert (Zl : filter (same_key k) l = []).
    { clear - Z F. induction F as [|y l L F IH]; [reflexivity|]. simpl. rewrite (Z y L). exact IH. }
    rewrite Zl. reflexivity.
  - simpl. rewrite IH. destruct (same_key k x); reflexivity.
Qed.
Lemma sort_els_all (l : list (element Q)) : Permutation (sort_els l) l /\ StronglySorted el_le (sort_els l)
  /\ (forall k, filter (same_key k) (sort_els l) = filter (same_key k) l).
Proof.
  unfold sort_els. assert (H : forall acc, StronglySorted el_le acc ->
    Permutation (fold_left (fun acc e => insert_el e acc) l acc) (acc ++ l)
    /\ StronglySorted el_le (fold_left (fun acc e => insert_el e acc) l acc)
    /\ (forall k, filter (same_key k) (fold_left (fun acc e => insert_el e acc) l acc)
          = filter (same_key k) acc ++ filter (same_key k) l)).
  { induction l as [|e l IH]; intros acc S; simpl.
    - rewrite app_nil_r. split; [reflexivity|]. split; [exact S|]. intros k. rewrite app_nil_r. reflexivity.
    - destruct (IH (insert_el e acc) (insert_el_sorted e acc S)) as (P & S' & F). split; [|split; [exact S'|]].
      + rewrite P. rewrite insert_el_perm. simpl. apply Permutation_middle.
      + intros k. rewrite F, (insert_el_filter k e acc S), <- app_assoc. destruct (same_key k e); reflexivity. }
  apply (H []). constructor.
Qed.
