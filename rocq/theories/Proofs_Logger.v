(** * Logs: list columns never fail; rectangular logs *)

From Coq Require Import ZArith QArith Bool String List Lia.
From Verif Require Import Num Py Logger Proofs_Num.
Import ListNotations.
Local Open Scope list_scope.

Section Logger.
Context {T : Type}.

(** Every column is a Python list. *)
Definition log_lists (lg : logger T) : Prop :=
  forall k c, dget k (lg_data lg) = Some c -> exists l, c = ColList l.

Lemma log_lists_empty : log_lists (@logger_empty T).
Proof. intros k c E. discriminate. Qed.

Lemma log_items_lists len kvs : forall (d : dict (column T)),
  (forall k c, dget k d = Some c -> exists l, c = ColList l) ->
  exists d', log_items len kvs d = (d', Ok tt)
             /\ (forall k c, dget k d' = Some c -> exists l, c = ColList l).
Proof.
  induction kvs as [|[k v] kvs IH]; simpl; intros d L; [eauto|].
  assert (S : forall c0 k0 c, dget k0 (dset k (ColList c0) d) = Some c -> exists l, c = ColList l).
  { intros c0 k0 c E. destruct (string_dec k0 k) as [->|N].
    - rewrite dget_dset_same in E. inversion E; eauto.
    - rewrite dget_dset_other in E by assumption. eauto. }
  destruct (dget k d) as [c|] eqn:G.
  - destruct (L _ _ G) as [l ->]. apply IH. apply S.
  - apply IH. apply S.
Qed.

Lemma logger_log_lists kvs (lg : logger T) : log_lists lg ->
  exists lg', logger_log kvs lg = (lg', Ok tt) /\ log_lists lg' /\ lg_len lg' = S (lg_len lg).
Proof.
  intros L. unfold logger_log.
  destruct (log_items_lists (lg_len lg) kvs (lg_data lg) L) as (d' & E & L').
  rewrite E. eexists. split; [reflexivity|]. split; [exact L'|reflexivity].
Qed.

(** A log row whose keys are pairwise distinct: existing columns named in it get
    one more cell, new ones are padded, the others are untouched. *)
Lemma log_items_get len kvs : forall (d d' : dict (column T)),
  log_items len kvs d = (d', Ok tt) -> NoDup (map fst kvs) ->
  forall k, dget k d' =
    match dget k kvs, dget k d with
    | Some v, Some c => Some (ColList (col_cells c ++ [Some v]))
    | Some v, None => Some (ColList (repeat None len ++ [Some v]))
    | None, x => x
    end.
Proof.
  induction kvs as [|[k0 v] kvs IH]; simpl; intros d d' E N k.
  - inversion E; subst. reflexivity.
  - inversion N as [|? ? NI N']; subst.
    assert (NG : dget k0 kvs = None) by (apply dget_None; assumption).
    destruct (dget k0 d) as [[l|l]|] eqn:G; try discriminate;
      rewrite (IH _ _ E N');
      (destruct (String.eqb k k0) eqn:K;
       [apply String.eqb_eq in K; subst; rewrite NG, dget_dset_same, G; reflexivity
       |apply String.eqb_neq in K; rewrite dget_dset_other by assumption; reflexivity]).
Qed.

Lemma log_items_keys len kvs : forall (d d' : dict (column T)),
  log_items len kvs d = (d', Ok tt) ->
  (NoDup (map fst d) -> NoDup (map fst d'))
  /\ forall k, In k (map fst d') <-> In k (map fst kvs) \/ In k (map fst d).
Proof.
  induction kvs as [|[k0 v] kvs IH]; simpl; intros d d' E.
  - inversion E; subst. tauto.
  - assert (K : forall c k, In k (map fst (dset k0 c d)) <-> k = k0 \/ In k (map fst d)).
    { intros c k. destruct (string_dec k k0) as [->|Ne].
      - split; [auto|]. intros _. destruct (dget_None k0 (dset k0 c d)) as [_ A].
        destruct (in_dec string_dec k0 (map fst (dset k0 c d))); [assumption|].
        specialize (A n). rewrite dget_dset_same in A. discriminate.
      - split.
        + intros I. right. destruct (in_dec string_dec k (map fst d)) as [J|J]; [assumption|].
          apply dget_None in J. exfalso.
          assert (dget k (dset k0 c d) = None) by (rewrite dget_dset_other by assumption; assumption).
          apply dget_None in H. tauto.
        + intros [C|I]; [congruence|].
          destruct (in_dec string_dec k (map fst (dset k0 c d))) as [J|J]; [assumption|].
          apply dget_None in J. rewrite dget_dset_other in J by assumption.
          apply dget_None in J. tauto. }
    destruct (dget k0 d) as [[l|l]|] eqn:G; try discriminate;
      (destruct (IH _ _ E) as [A B]; split;
       [intros N; apply A; apply NoDup_dset; assumption
       |intros k; rewrite B, K; intuition congruence]).
Qed.

(** Rectangular: list columns, distinct names, all of the log's length. *)
Definition log_rect (lg : logger T) : Prop :=
  NoDup (map fst (lg_data lg))
  /\ forall k c, dget k (lg_data lg) = Some c ->
       exists l, c = ColList l /\ length l = lg_len lg.

Lemma log_rect_empty : log_rect (@logger_empty T).
Proof. split; [constructor|]. intros k c E. discriminate. Qed.

Lemma log_rect_lists lg : log_rect lg -> log_lists lg.
Proof. intros [_ R] k c E. destruct (R _ _ E) as (l & -> & _). eauto. Qed.

(** A row naming every existing column keeps the log rectangular. *)
Lemma logger_log_rect kvs (lg : logger T) :
  log_rect lg -> NoDup (map fst kvs) ->
  (forall k, In k (map fst (lg_data lg)) -> In k (map fst kvs)) ->
  exists lg', logger_log kvs lg = (lg', Ok tt) /\ log_rect lg' /\ lg_len lg' = S (lg_len lg)
    /\ (forall k, In k (map fst (lg_data lg')) <-> In k (map fst kvs)).
Proof.
  intros R N Sub.
  destruct (logger_log_lists kvs lg (log_rect_lists _ R)) as (lg' & E & L' & LL).
  exists lg'. split; [exact E|].
  unfold logger_log in E.
  destruct (log_items (lg_len lg) kvs (lg_data lg)) as [d' [[]|e]] eqn:I; [|discriminate].
  inversion E; subst. clear E. simpl in *.
  destruct (log_items_keys _ _ _ _ I) as [A B].
  destruct R as [ND R].
  split; [|split; [reflexivity|]].
  - split; [apply A; assumption|]. simpl. intros k c G.
    rewrite (log_items_get _ _ _ _ I N k) in G.
    destruct (dget k kvs) as [v|] eqn:GK.
    + destruct (dget k (lg_data lg)) as [c0|] eqn:GD.
      * destruct (R _ _ GD) as (l & -> & LE). inversion G; subst.
        eexists; split; [reflexivity|]. simpl. rewrite app_length. simpl. lia.
      * inversion G; subst. eexists; split; [reflexivity|].
        rewrite app_length, repeat_length. simpl. lia.
    + exfalso. apply dget_None in GK. apply GK. apply Sub.
      apply dget_In in G. change k with (fst (k, c)). apply in_map. assumption.
  - intros k. rewrite B. specialize (Sub k). tauto.
Qed.

Lemma log_rect_frame lg : log_rect lg -> exists df, logger_to_frame lg = Ok df
  /\ map fst df = map fst (lg_data lg)
  /\ forall k cells, In (k, cells) df -> length cells = lg_len lg.
Proof.
  intros [N R]. unfold logger_to_frame.
  assert (all : forall k c, In (k, c) (lg_data lg) -> length (col_cells c) = lg_len lg).
  { intros k c I. destruct (R k c (In_dget _ _ _ N I)) as (l & -> & E). exact E. }
  destruct (lg_data lg) as [|[k0 c0] d] eqn:D.
  - exists []. repeat split; auto. intros k cells [].
  - assert (O : cols_len_ok (length (col_cells c0)) ((k0, c0) :: d) = true).
    { unfold cols_len_ok. apply forallb_forall. intros [k c] I. simpl.
      apply Nat.eqb_eq. rewrite (all k0 c0), (all k c); auto. left; reflexivity. }
    rewrite O. eexists. split; [reflexivity|]. split.
    + rewrite map_map. simpl. reflexivity.
    + intros k cells I. rewrite in_map_iff in I. destruct I as ([k' c] & E & I).
      inversion E; subst. apply (all _ _ I).
Qed.

End Logger.
