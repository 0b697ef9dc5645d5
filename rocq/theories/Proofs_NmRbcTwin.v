(** * The rule-based control and runs of its decisions *)

From Coq Require Import ZArith QArith Qabs Qminmax Bool String List Lia Lqa Permutation.
From Verif Require Import Num Py Spec_Module Proofs_Num Proofs_Run Proofs_Data NonModular Spec_NonModular Proofs_NonModular Proofs_NmRun
  Proofs_NmHistory Proofs_NmBattery Proofs_NmCost Proofs_NmClock Proofs_NmProgress Proofs_NmEpisode Proofs_NmTotal Proofs_NmReads Proofs_NmRecord
  NmRbc Spec_NmRbc Spec_NmRbcRun Proofs_NmRbc Proofs_NmRbcRun.
Import ListNotations.
Local Open Scope string_scope.
Local Open Scope list_scope.
Local Open Scope Q_scope.

(** ** The state except for the hour *)

Lemma same_but_get key (r r' : record Q) k : same_but key r r' -> k <> key -> dget k r' = dget k r.
Proof.
  intros H K. induction H as [|[a x] [b y] r r' (E & V) H IH]; [reflexivity|]. simpl in *. subst b.
  destruct (String.eqb_spec k a) as [->|]; [rewrite V; auto|exact IH].
Qed.
Lemma same_but_keys key (r r' : record Q) : same_but key r r' -> map fst r' = map fst r.
Proof. intros H. induction H as [|a b r r' (E & _) H IH]; [reflexivity|]. simpl. congruence. Qed.
Lemma same_but_refl key (r : record Q) : same_but key r r.
Proof. induction r; constructor; auto. Qed.

Lemma append_same key (row row' : dict (cell Q)) (st : record Q) : forall st' s u, same_but key st st' ->
  (forall k, k <> key -> dget k row' = dget k row) -> present key row' -> append_row row st = (s, Ok u) ->
  exists s', append_row row' st' = (s', Ok tt) /\ same_but key s s'.
Proof.
  induction st as [|[k l] st IH]; intros st' s u H R (z & P) A; inversion H as [|? [k' l'] ? st0 (E & V) H']; subst; cbn [append_row] in *.
  - injection A as <- _. exists []. split; [reflexivity|constructor].
  - simpl in E. subst k'. destruct (dget k row) as [x|] eqn:D; [|discriminate A].
    destruct (append_row row st) as [s1 r1] eqn:A1. injection A as <- ->.
    destruct (IH _ _ _ H' R (ex_intro _ z P) eq_refl) as (s' & A' & SB).
    destruct (string_dec k key) as [->|N].
    + rewrite P, A'. eexists. split; [reflexivity|]. constructor; [|exact SB]. split; [reflexivity|]. intros X. contradiction X. reflexivity.
    + rewrite (R k N), D, A'. eexists. split; [reflexivity|]. constructor; [|exact SB]. split; [reflexivity|]. intros _. simpl in *. rewrite V by exact N. reflexivity.
Qed.

Lemma last_same (r r' : record Q) k : same_but "hour" r r' -> k <> "hour" -> last_num r' k = last_num r k.
Proof. intros S K. unfold last_num, dfind. rewrite (same_but_get _ _ _ _ S K). reflexivity. Qed.

Lemma status_same par ar t t' src nx (st st' s : record Q) u : same_but "hour" st st' ->
  update_status par ar t src nx st = (s, Ok u) -> exists s', update_status par ar t' src nx st' = (s', Ok tt) /\ same_but "hour" s s'.
Proof.
  intros S H. unfold update_status in *. unfold mbind at 1, mget at 1 in H. unfold mbind at 1, mget at 1. cbv beta iota in *.
  rewrite (last_same _ _ "battery_soc" S) by discriminate. unfold mbind, mlift in *.
  match goal with |- context [match ?q with Ok _ => _ | Err _ => _ end] => destruct q as [b|e] end; [|discriminate H].
  eapply append_same; [exact S| |eexists; reflexivity|exact H].
  intros k K. cbn [app dget]. destruct (String.eqb k "load"), (String.eqb k "pv"); try reflexivity.
  destruct (String.eqb_spec k "hour"); [contradiction|reflexivity].
Qed.

Lemma production_same par ar c (st st' : record Q) p : same_but "hour" st st' ->
  record_production par ar c st' p = record_production par ar c st p.
Proof. intros S. unfold record_production. rewrite (last_same _ _ "battery_soc" S) by discriminate. reflexivity. Qed.

(** ** Step by step *)

Record twin (g : nonmod Q) (k : nat) (h : nonmod Q) (r : copies Q) : Prop := mkTwin {
  tw_par : nm_par h = nm_par g;
  tw_arch : nm_arch h = nm_arch g;
  tw_load : nm_load_ts h = nm_load_ts g;
  tw_pv : nm_pv_ts h = nm_pv_ts g;
  tw_status : nm_status_ts h = nm_status_ts g;
  tw_import : nm_import_ts h = nm_import_ts g;
  tw_export : nm_export_ts h = nm_export_ts g;
  tw_co2ts : nm_co2_ts h = nm_co2_ts g;
  tw_len : nm_len h = nm_len g;
  tw_horizon : nm_horizon h = nm_horizon g;
  tw_use : nm_use h = nm_use g;
  tw_t : nm_t h = Z.of_nat k;
  tw_actions : nm_actions h = cp_actions r;
  tw_production : nm_production h = cp_production r;
  tw_cost : nm_cost h = cp_cost r;
  tw_co2 : nm_co2 h = cp_co2 r;
  tw_state : same_but "hour" (cp_state r) (nm_state h);
  tw_now : reads_now h;
  tw_next : reads_next h;
  tw_grid : reads_next_grid h;
  tw_clock : clock_ok h;
  tw_equipped : equipped h;
  tw_aligned : aligned h
}.

Section Step.
  Variables (to_int : Q -> Z) (g : nonmod Q).
  Hypothesis U : nm_use g = All.
  Hypothesis HG : has_grid (nm_arch g) = true.

  Lemma twin_reads k h r n x : twin g k h r -> rows g k n x -> nm_now h = n /\ nm_next h = x.
  Proof.
    intros T R.
    assert (D0 : forall l y z, at_step h 0 l y -> nth_error l k = Some z -> y = z).
    { intros l y z (_ & Y) Z. unfold data in Y. rewrite (tw_use _ _ _ _ T), U, (tw_t _ _ _ _ T) in Y.
      replace (Z.to_nat (Z.of_nat k + 0)) with k in Y by lia. congruence. }
    assert (D1 : forall l y z, upcoming h l y -> nth_error l (S k) = Some z -> (S k < all_rows g)%nat \/ True -> y = CNum z \/ (nm_t h = nm_len h - 1)%Z).
    { intros l y z [(w & -> & (_ & Y))|(_ & _ & Y)] Z _; [left|right; exact Y]. unfold data in Y. rewrite (tw_use _ _ _ _ T), U, (tw_t _ _ _ _ T) in Y.
      replace (Z.to_nat (Z.of_nat k + 1)) with (S k) in Y by lia. congruence. }
    destruct R as [R1 R2 (y1 & Y1 & Y1') (y2 & Y2 & Y2') RG]. rewrite HG in RG.
    destruct RG as (R3 & R4 & R5 & R6 & (y3 & Y3 & Y3') & (y4 & Y4 & Y4') & (y5 & Y5 & Y5') & (y6 & Y6 & Y6')).
    assert (NE : (nm_t h <> nm_len h - 1)%Z).
    { pose proof (ck_len _ (tw_clock _ _ _ _ T)) as L. rewrite (tw_use _ _ _ _ T), U in L. rewrite data_length_all in L.
      unfold all_rows in L. rewrite (tw_load _ _ _ _ T), (tw_pv _ _ _ _ T) in L.
      assert (L1 : nth_error (nm_load_ts g) (S k) <> None) by congruence. apply nth_error_Some in L1.
      assert (L2 : nth_error (nm_pv_ts g) (S k) <> None) by congruence. apply nth_error_Some in L2.
      rewrite (tw_t _ _ _ _ T). lia. }
    assert (D2 : forall l y z, upcoming h l y -> nth_error l (S k) = Some z -> y = CNum z).
    { intros l y z X Z. destruct (D1 l y z X Z (or_intror I)) as [E|E]; [exact E|contradiction]. }
    clear D1. pose proof (tw_now _ _ _ _ T) as (N1 & N2 & N3). pose proof (tw_next _ _ _ _ T) as (X1 & X2).
    pose proof (tw_grid _ _ _ _ T) as X3. unfold reads_next_grid in X3. rewrite (tw_arch _ _ _ _ T) in N3, X3.
    destruct (N3 HG) as (N4 & N5 & N6 & N7). destruct (X3 HG) as (X4 & X5 & X6 & X7).
    rewrite (tw_load _ _ _ _ T) in *. rewrite (tw_pv _ _ _ _ T) in *. rewrite (tw_status _ _ _ _ T) in *.
    rewrite (tw_import _ _ _ _ T) in *. rewrite (tw_export _ _ _ _ T) in *. rewrite (tw_co2ts _ _ _ _ T) in *.
    split.
    - destruct n as [n1 n2 n3 n4 n5 n6]. destruct (nm_now h) as [m1 m2 m3 m4 m5 m6]. cbn in *. f_equal; eapply D0; eassumption.
    - destruct x as [x1 x2 x3 x4 x5 x6]. destruct (nm_next h) as [m1 m2 m3 m4 m5 m6]. cbn in *. subst. f_equal; eapply D2; eassumption.
  Qed.

  Lemma twin_step k h r r' n x c : twin g k h r -> rows g k n x -> (Z.of_nat k + 1 < nm_len g - nm_horizon g)%Z -> (0 <= nm_horizon g)%Z ->
    rb_control to_int g (Z.of_nat k) (cp_state r) = Ok c -> rb_step to_int g (Z.of_nat k) r = Ok r' ->
    exists h' v, nm_run c h = (h', Ok v) /\ twin g (S k) h' r'.
  Proof.
    intros T R L HZ C ST. destruct (twin_reads _ _ _ _ _ T R) as (EN & EX).
    apply (rb_step_iff _ _ _ _ _ _ _ _ R C) in ST. destruct ST as (p & co & o & s & prod & N & ->).
    pose proof (tw_par _ _ _ _ T) as EP. pose proof (tw_arch _ _ _ _ T) as EA. pose proof (tw_state _ _ _ _ T) as SS.
    assert (FC : full_control c h = full_control c (at_row g r n x)) by (unfold full_control; rewrite EN; reflexivity).
    assert (AC : actions_after c h = actions_after c (at_row g r n x)) by (unfold actions_after; rewrite EN, (tw_actions _ _ _ _ T); reflexivity).
    assert (GN : forall f, grid_now h f = grid_now (at_row g r n x) f) by (intros f; unfold grid_now; rewrite EA, EN; reflexivity).
    destruct N as [N1 N2 N3 N4 N5].
    change (record_production (nm_par g) (nm_arch g) (full_control c (at_row g r n x)) (cp_state r) (cp_production r) = (p, Ok tt)) in N1.
    change (record_co2 (nm_par g) (nm_arch g) prod (grid_now (at_row g r n x) now_co2) (cp_co2 r) = (o, Ok tt)) in N3.
    change (record_cost (nm_par g) (nm_arch g) prod o (grid_now (at_row g r n x) now_import) (grid_now (at_row g r n x) now_export) (cp_cost r)
      = (co, Ok tt)) in N4.
    change (update_status (nm_par g) (nm_arch g) (nm_t g) prod x (cp_state r) = (s, Ok tt)) in N5.
    destruct (status_same _ _ _ (nm_t h) _ _ _ _ _ _ SS N5) as (s' & US & SB).
    assert (RC : recorded c h p co o s' prod).
    { constructor.
      - exists tt. rewrite EP, EA, FC, (production_same _ _ _ _ _ _ SS), (tw_production _ _ _ _ T). exact N1.
      - exact N2.
      - exists tt. rewrite EP, EA, GN, (tw_co2 _ _ _ _ T). exact N3.
      - exists tt. rewrite EP, EA, !GN, (tw_cost _ _ _ _ T). exact N4.
      - exists tt. unfold status_source. rewrite EP, EA, HG, EX. exact US. }
    pose proof (run_go _ _ _ _ _ _ _ RC) as RG. cbv zeta in RG.
    assert (D : ended h = false).
    { unfold ended. rewrite (tw_t _ _ _ _ T), (tw_len _ _ _ _ T), (tw_horizon _ _ _ _ T). apply orb_false_iff. split; apply Z.eqb_neq; lia. }
    rewrite D in RG. set (h1 := set_clock (nm_t h + 1) (nm_len h) (nm_done h) (after_records c h p co o s')) in *.
    pose proof (update_status_grows _ _ _ _ _ _ _ _ US) as GS.
    assert (CK1 : clock_ok h1).
    { destruct (tw_clock _ _ _ _ T) as [K1 K2 K3 K4]. constructor; try assumption. cbn. rewrite (tw_t _ _ _ _ T), (tw_len _ _ _ _ T) in *. lia. }
    assert (F1 : forall k, In k (status_columns (nm_arch h1)) -> exists y l, dget k (nm_state h1) = Some (y :: l)).
    { intros k0 I. destruct (eq_first _ (tw_equipped _ _ _ _ T) k0 I) as (y & l & DG). destruct (proj2 GS _ _ DG) as (m & DG').
      exists y, (l ++ m). exact DG'. }
    destruct (shows_total h1 CK1 (tw_aligned _ _ _ _ T) F1) as (n' & x' & b' & SH).
    { left. cbn. rewrite (tw_use _ _ _ _ T). exact U. }
    rewrite (update_variables_total _ _ _ _ SH) in RG.
    assert (E' : equipped (fst (nm_run c h))).
    { change (fst (nm_run c h)) with (nm_after [HRun c] h). apply equipped_after. exact (tw_equipped _ _ _ _ T). }
    rewrite RG in E'. cbn [fst] in E'.
    assert (LR : exists v, last_row (nm_state (vars n' x' b' h1)) = Ok v).
    { apply last_row_total.
      - eapply Permutation_NoDup; [symmetry; exact (eq_state _ E')|apply status_columns_nodup].
      - intros k0 I. apply latest_some. apply (eq_first _ E'). eapply Permutation_in; [exact (eq_state _ E')|exact I]. }
    destruct LR as (v & LR). rewrite LR in RG. exists (vars n' x' b' h1), v. split; [exact RG|].
    pose proof (shows_reads _ _ _ _ CK1 SH) as (RD1 & RD2 & RD3). destruct T as [T1 T2 T3 T4 T5 T6 T7 T8 T9 T10 T11 T12 T13 T14 T15 T16 T17 T18 T19 T20 T21 T22 T23].
    constructor; try assumption; try reflexivity.
    - cbn. rewrite T12. lia.
    - destruct CK1 as [K1 K2 K3 K4]. constructor; assumption.
  Qed.

  Theorem runs_same length r : equipped g -> aligned g -> clock_ok g -> (0 <= nm_horizon g)%Z -> nm_t g = 0%Z ->
    reads_now g -> reads_next g -> reads_next_grid g -> run_rule_based to_int g length = Ok r ->
    exists controls h, nm_quiet g (map HRun controls) h /\ List.length controls = rb_count g length /\ twin g (rb_count g length) h r
      /\ forall k c, nth_error controls k = Some c -> exists r1, run_rule_based to_int g (Some (Z.of_nat k + nm_horizon g)%Z) = Ok r1
           /\ rb_control to_int g (Z.of_nat k) (cp_state r1) = Ok c.
  Proof.
    intros E A CK HZ T0 R1 R2 R3 H. destruct (run_trace to_int g E A length r CK HZ H) as (rs & RS0 & RM & RS & _).
    pose proof (run_prefix to_int g length rs RS0 (fun k K => proj1 (RS k K))) as UP.
    assert (X : forall m, (m <= rb_count g length)%nat -> exists controls h, nm_quiet g (map HRun controls) h /\ List.length controls = m
      /\ twin g m h (rs m) /\ forall k c, nth_error controls k = Some c -> rb_control to_int g (Z.of_nat k) (cp_state (rs k)) = Ok c).
    { induction m as [|m IH]; intros M.
      - exists [], g. split; [constructor|]. split; [reflexivity|]. split; [|intros [|k] c X; discriminate X].
        rewrite RS0. constructor; try reflexivity; try assumption. apply same_but_refl.
      - destruct (IH ltac:(lia)) as (cs & h & Qt & LN & T & CS). destruct (RS m ltac:(lia)) as (ST & n & x & c & o & R & C & _).
        destruct (twin_step m h (rs m) (rs (S m)) n x c T R) as (h' & v & RN & T'); try assumption.
        { unfold rb_count in M. destruct length; lia. }
        exists (cs ++ [c]), h'. rewrite map_app. split; [econstructor; [exact Qt|]; exists v; exact RN|]. split; [rewrite app_length; simpl; lia|].
        split; [exact T'|]. intros k c' K. destruct (Nat.eq_dec k m) as [->|NE].
        + rewrite nth_error_app2 in K by lia. rewrite LN, Nat.sub_diag in K. injection K as <-. exact C.
        + rewrite nth_error_app1 in K; [apply CS; exact K|]. assert (Y : nth_error (cs ++ [c]) k <> None) by congruence.
          apply nth_error_Some in Y. rewrite app_length in Y. simpl in Y. lia. }
    destruct (X _ (le_n _)) as (cs & h & Qt & LN & T & CS). exists cs, h. split; [exact Qt|]. split; [exact LN|].
    rewrite RM in T. split; [exact T|]. intros k c K. exists (rs k). split; [|apply CS; exact K]. apply UP.
    assert (Y : nth_error cs k <> None) by congruence. apply nth_error_Some in Y. lia.
  Qed.
End Step.
