(** * Proofs about the outputs of control algorithms and the benchmarks *)

From Coq Require Import ZArith QArith Qabs Bool String List Lia Lqa.
From Verif Require Import Num Py Spec_Module Proofs_Num NonModular Spec_NonModular NmRbc Spec_NmRbcRun MPC NmMpc Saa Benchmarks Spec_Benchmarks.
Import ListNotations.
Local Open Scope string_scope.
Local Open Scope list_scope.
Local Open Scope Q_scope.

(** ** Sums *)

Lemma sum_acc xs a : fold_left Qplus xs a == a + sum_of xs.
Proof.
  unfold sum_of. revert a. induction xs as [|x xs IH]; intros a; cbn [fold_left]; [ring|].
  rewrite IH, (IH (0 + x)). ring.
Qed.
Lemma sum_app xs ys : sum_of (xs ++ ys) == sum_of xs + sum_of ys.
Proof. unfold sum_of at 1. rewrite fold_left_app. exact (sum_acc ys _). Qed.

Definition cell_of (x : Q) : entry Q := ECell (CNum x).

Lemma amounts xs : rmapM amount (map cell_of xs) = Ok (map Some xs).
Proof. induction xs as [|x xs IH]; [reflexivity|]. cbn [map rmapM]. unfold amount at 1. cbn. now rewrite IH. Qed.
Lemma plus_sum xs a : fold_left plus (map Some xs) (Some a) = Some (fold_left Qplus xs a).
Proof. revert a. induction xs as [|x xs IH]; intros a; [reflexivity|]. cbn. apply IH. Qed.
Lemma plus_nan (xs : list (option Q)) : fold_left plus xs None = None.
Proof. induction xs as [|x xs IH]; [reflexivity|]. exact IH. Qed.
Lemma plus_some_nan xs n a : fold_left plus (map Some xs ++ repeat None (S n)) (Some a) = @None Q.
Proof. rewrite fold_left_app, plus_sum. cbn. apply plus_nan. Qed.

Section Lines.
  Variable ceil : Q -> Z.
  Variable rnd : nat -> Q -> Q.

  Lemma rounded_numbers xs : rounded_sum rnd (map cell_of xs) = Ok (Some (rnd 2%nat (sum_of xs))).
  Proof. unfold rounded_sum. rewrite amounts. cbn [rbind]. now rewrite plus_sum. Qed.

  Lemma amounts_nan xs n : rmapM amount (map cell_of xs ++ repeat ENan n) = Ok (map Some xs ++ repeat None n).
  Proof.
    induction xs as [|x xs IH]; cbn [map app].
    - induction n as [|n IH]; [reflexivity|]. cbn. now rewrite IH.
    - cbn [rmapM]. unfold amount at 1. cbn [rbind]. now rewrite IH.
  Qed.
  Lemma rounded_nan xs n : rounded_sum rnd (map cell_of xs ++ repeat ENan (S n)) = Ok None.
  Proof. unfold rounded_sum. rewrite amounts_nan. cbn [rbind]. now rewrite plus_some_nan. Qed.
End Lines.

(** ** Slices *)

Lemma slice_from {A} (l : list A) i : py_slice l i (Z.of_nat (length l)) = skipn (cut_at i (length l)) l.
Proof.
  unfold py_slice, py_clamp, cut_at. set (n := Z.of_nat (length l)).
  replace (Z.of_nat (length l)) with n by reflexivity.
  assert (Hn : (0 <= n)%Z) by apply Zle_0_nat.
  destruct (n <? 0)%Z eqn:E; [lia|]. rewrite Z.min_id. unfold n at 1. rewrite Nat2Z.id.
  destruct (i <? 0)%Z eqn:E1; apply Z.ltb_lt in E1 || apply Z.ltb_ge in E1.
  - replace (Z.to_nat (Z.max 0 (i + n))) with (Z.to_nat (n + i)) by lia.
    rewrite <- (skipn_length (Z.to_nat (n + i)) l) at 1. apply firstn_all.
  - destruct (Z.le_gt_cases i n).
    + rewrite Z.min_l by lia. rewrite <- (skipn_length (Z.to_nat i) l) at 1. apply firstn_all.
    + rewrite Z.min_r by lia. unfold n. rewrite Nat2Z.id, Nat.sub_diag. cbn. symmetry. apply skipn_all2. unfold n in *. lia.
Qed.
Lemma slice_before {A} (l : list A) i : py_slice l 0 i = firstn (cut_at i (length l)) l.
Proof.
  unfold py_slice, py_clamp, cut_at. set (n := Z.of_nat (length l)).
  assert (Hn : (0 <= n)%Z) by apply Zle_0_nat.
  destruct (0 <? 0)%Z eqn:E; [lia|]. rewrite (Z.min_l 0 n) by lia. cbn [Z.to_nat skipn]. rewrite Nat.sub_0_r.
  destruct (i <? 0)%Z eqn:E1; apply Z.ltb_lt in E1 || apply Z.ltb_ge in E1.
  - f_equal. lia.
  - destruct (Z.le_gt_cases i n).
    + rewrite Z.min_l by lia. reflexivity.
    + rewrite Z.min_r by lia. unfold n. rewrite Nat2Z.id, firstn_all. symmetry. apply firstn_all2. unfold n in *. lia.
Qed.

(** ** What is printed *)

Lemma str_in_In k l : str_in k l = true <-> In k l.
Proof.
  unfold str_in. rewrite existsb_exists. split.
  - intros [x [H E]]. apply String.eqb_eq in E. now subst.
  - intros H. exists k. split; [assumption|apply String.eqb_refl].
Qed.

Lemma ceil_zero c x : ceils c -> x == 0 -> c x = 0%Z.
Proof.
  intros C E. destruct (C x) as [C1 C2].
  assert (H1 : inject_Z 0 <= inject_Z (c x)) by (change (inject_Z 0) with 0; lra).
  assert (H2 : inject_Z (c x - 1) < inject_Z 0) by (change (inject_Z 0) with 0; lra).
  rewrite <- Zle_Qle in H1. rewrite <- Zlt_Qlt in H2. lia.
Qed.

Section Described.
  Variable ceil : Q -> Z.
  Variable rnd : nat -> Q -> Q.
  Hypothesis C : ceils ceil.

  Lemma records_costs (o : output Q) xs : records o xs -> total_costs o = Ok (map cell_of xs).
  Proof. intros [t [H1 H2]]. unfold total_costs, dfind. rewrite H1. cbn [rbind]. now rewrite H2. Qed.

  (** The numbers of steps *)
  Lemma steps_run (d : dict (output Q)) (costs : string -> option (list Q)) : NoDup (dkeys d) ->
    (forall name o, dget name d = Some o -> exists xs, costs name = Some xs /\ records o xs) ->
    rmapM (fun o : string * output Q => (let? l := total_costs (snd o) in Ok (length l))%py) d
    = Ok (map (fun name => match costs name with Some xs => length xs | None => O end) (dkeys d)).
  Proof.
    induction d as [|[k o] d IH]; intros ND H; [reflexivity|]. cbn [rmapM snd dkeys map fst] in *.
    inversion ND as [|? ? NI ND']; subst.
    destruct (H k o) as [xs [E R]]. { cbn. now rewrite String.eqb_refl. }
    rewrite (records_costs _ _ R). cbn [rbind]. rewrite E, map_length.
    unfold dkeys in *. rewrite IH; [reflexivity|assumption|].
    intros name o' D. apply H. cbn. destruct (String.eqb_spec name k); [|assumption]. subst.
    exfalso. apply NI. apply Proofs_Num.dget_In in D. now apply (in_map fst) in D.
  Qed.

  Lemma check_allowed test_split ratio index n : allowed_split test_split ratio index n <-> check_split test_split ratio index n = Ok tt.
  Proof.
    unfold allowed_split, check_split. destruct test_split; [|split; [reflexivity|intros _ D; discriminate]].
    destruct ratio as [r|], index as [i|]; cbn [nleb Q_ops n0 n1]; try (split; [intros H; now destruct (H eq_refl)|discriminate]).
    - split.
      + intros H. destruct (H eq_refl) as [H1 H2]. apply Qle_bool_iff in H1, H2. now rewrite H1, H2.
      + destruct (Qle_bool 0 r) eqn:E1, (Qle_bool r 1) eqn:E2; cbn; try discriminate. intros _ _.
        apply Qle_bool_iff in E1, E2. now split.
    - destruct (Z.of_nat n <? i)%Z eqn:E; split; try discriminate; try reflexivity.
      + intros H. specialize (H eq_refl). lia.
      + intros _ _. lia.
  Qed.
  Lemma check_refused test_split ratio index n : ~ allowed_split test_split ratio index n -> raises ValueError (check_split test_split ratio index n).
  Proof.
    rewrite check_allowed. unfold check_split. destruct test_split; [|now intros H].
    destruct ratio as [r|], index as [i|]; try (intros _; eexists; split; reflexivity).
    - destruct (_ && _); [now intros H|intros _; eexists; split; reflexivity].
    - destruct (_ <? _)%Z; [intros _; eexists; split; reflexivity|now intros H].
  Qed.

  Definition asked_for (algorithms : option (list string)) : list string :=
    match algorithms with Some l => l | None => possible_benchmarks end.
  Lemma asked_wanted algorithms name : In name ["mpc"; "rbc"; "saa"] -> str_in name (asked_for algorithms) = wanted algorithms name.
  Proof. destruct algorithms as [l|]; [reflexivity|]. cbn. intros [<-|[<-|[<-|[]]]]; reflexivity. Qed.

  Definition one_by_one (costs : string -> option (list Q)) algorithms (f : string -> list Q -> list (line Q)) : list (line Q) :=
    concat (map (fun name => match costs name with
                             | Some xs => if wanted algorithms name then f name xs else []
                             | None => []
                             end) ["mpc"; "rbc"; "saa"]).

  Lemma one_line (b : bench Q) costs algorithms name x (has : bool) f F : has_run b costs -> holds b name x has ->
    In name ["mpc"; "rbc"; "saa"] -> (forall xs, costs name = Some xs -> f name (map cell_of xs) = Ok (F name xs)) ->
    (if has && str_in name (asked_for algorithms) then (let? l := costs_of x in f name l)%py else Ok [])
    = Ok (match costs name with Some xs => if wanted algorithms name then F name xs else [] | None => [] end) :> res (list (line Q)).
  Proof.
    intros HR H I HF. specialize (HR name). unfold holds in H.
    rewrite (asked_wanted _ _ I). destruct (costs name) as [xs|].
    - destruct HR as [o [D R]]. rewrite D in H. destruct H as [-> [-> _]]. cbn [andb].
      destruct (wanted algorithms name); [|reflexivity]. unfold costs_of.
      rewrite (records_costs _ _ R). cbn [rbind]. now apply HF.
    - rewrite HR in H. destruct H as [-> ->]. reflexivity.
  Qed.
  Lemma lines_all (b : bench Q) costs algorithms f F : in_order b -> has_run b costs ->
    (forall name xs, costs name = Some xs -> f name (map cell_of xs) = Ok (F name xs)) ->
    lines_of b (asked_for algorithms) f = Ok (one_by_one costs algorithms F).
  Proof.
    intros [I1 I2 I3 _ _] HR HF. unfold lines_of.
    rewrite (one_line _ _ algorithms _ _ _ f F HR I1), (one_line _ _ algorithms _ _ _ f F HR I2), (one_line _ _ algorithms _ _ _ f F HR I3) by (cbn; auto).
    cbn [rbind]. unfold one_by_one. cbn [map concat]. now rewrite app_nil_r.
  Qed.

  Lemma known_ok algorithms : known algorithms ->
    match algorithms with
    | Some l => if existsb (fun name => negb (str_in name possible_benchmarks)) l
                then raise ValueError "Unable to recognize one or multiple of list_of_benchmarks" else Ok l
    | None => Ok possible_benchmarks
    end = Ok (asked_for algorithms).
  Proof.
    destruct algorithms as [l|]; [|reflexivity]. intros K. cbn.
    destruct (existsb _ l) eqn:E; [|reflexivity]. apply existsb_exists in E as [x [I E]].
    destruct (K x I) as [<-|[<-|[<-|[]]]]; discriminate.
  Qed.

  Lemma outputs_costs (b : bench Q) costs : has_run b costs ->
    forall name o, dget name (be_outputs b) = Some o -> exists xs, costs name = Some xs /\ records o xs.
  Proof.
    intros HR name o D. specialize (HR name). destruct (costs name) as [xs|]; [|congruence].
    destruct HR as [o' [D' R]]. rewrite D in D'. injection D' as <-. now exists xs.
  Qed.
  Lemma costs_keys (b : bench Q) costs name : has_run b costs -> (In name (dkeys (be_outputs b)) <-> exists xs, costs name = Some xs).
  Proof.
    intros HR. split.
    - intros I. destruct (dget name (be_outputs b)) as [o|] eqn:D.
      + destruct (outputs_costs _ _ HR _ _ D) as [xs [E _]]. now exists xs.
      + exfalso. now apply (proj1 (Proofs_Num.dget_None _ _) D).
    - intros [xs E]. specialize (HR name). rewrite E in HR. destruct HR as [o [D _]].
      apply Proofs_Num.dget_In in D. now apply (in_map fst) in D.
  Qed.

  Lemma described (b : bench Q) costs n algorithms test_split ratio index : in_order b -> has_run b costs ->
    (exists name xs, costs name = Some xs) -> (forall name xs, costs name = Some xs -> length xs = n) -> known algorithms ->
    describe_benchmarks ceil rnd test_split ratio index algorithms b
    = (let? _ := check_split test_split ratio index n in
       let? ls := match test_split, ratio, index with
                  | false, _, _ => lines_of b (asked_for algorithms) (tail_line ceil rnd n 1)
                  | true, Some r, _ => lines_of b (asked_for algorithms) (tail_line ceil rnd n r)
                  | true, None, Some i => lines_of b (asked_for algorithms) (split_lines rnd i)
                  | true, None, None => Ok []
                  end in
       Ok ((if Z.eqb (Z.of_nat n) 8736 then [] else [LLength n]) ++ ls))%py.
  Proof.
    intros IO HR [name [xs Hx]] Hn K. unfold describe_benchmarks. rewrite (known_ok _ K). cbn [rbind].
    rewrite (steps_run _ costs (io_once _ IO) (outputs_costs _ _ HR)). cbn [rbind].
    assert (A : forall k, In k (dkeys (be_outputs b)) -> match costs k with Some xs => length xs | None => O end = n).
    { intros k I. apply (costs_keys _ _ _ HR) in I as [ys E]. rewrite E. now apply (Hn k). }
    assert (NE : In name (dkeys (be_outputs b))) by (apply (costs_keys _ _ _ HR); now exists xs).
    destruct (dkeys (be_outputs b)) as [|k ks]; [easy|]. cbn [map].
    rewrite (A k (or_introl eq_refl)).
    assert (F : forallb (Nat.eqb n) (n :: map (fun name => match costs name with Some xs => length xs | None => O end) ks) = true).
    { apply forallb_forall. intros m [<-|I]; [apply Nat.eqb_refl|]. apply in_map_iff in I as [k' [<- I]].
      rewrite (A k' (or_intror I)). apply Nat.eqb_refl. }
    rewrite F. reflexivity.
  Qed.

  Lemma tail_all n name xs : length xs = n ->
    tail_line ceil rnd n 1 name (map cell_of xs) = Ok [LTail name (Z.of_nat n) (rnd 1%nat 100) (Some (rnd 2%nat (sum_of xs)))].
  Proof.
    intros L. unfold tail_line. cbn [nmul nsub n1 nofZ Q_ops].
    rewrite (ceil_zero ceil _ C) by ring. rewrite slice_from. cbn [cut_at Z.ltb Z.compare Z.to_nat skipn].
    rewrite (rounded_numbers rnd). cbn [rbind]. now rewrite Z.sub_0_r.
  Qed.
  (** The first steps of which the costs are left out *)
  Lemma ceil_steps n r : 0 <= r -> r <= 1 -> exists k : nat, (k <= n)%nat
    /\ inject_Z (Z.of_nat k) <= inject_Z (Z.of_nat n) * r /\ inject_Z (Z.of_nat n) * r < inject_Z (Z.of_nat k + 1)
    /\ ceil (inject_Z (Z.of_nat n) * (1 - r)) = (Z.of_nat n - Z.of_nat k)%Z.
  Proof.
    intros R0 R1. destruct (C (inject_Z (Z.of_nat n) * (1 - r))) as [C1 C2].
    set (c := ceil _) in *. set (N := inject_Z (Z.of_nat n)) in *.
    assert (HN : 0 <= N) by (unfold N; change 0 with (inject_Z 0); rewrite <- Zle_Qle; lia).
    assert (B1 : 0 <= N * r) by (apply Qmult_le_0_compat; assumption).
    assert (B2 : 0 <= N * (1 - r)) by (apply Qmult_le_0_compat; lra).
    assert (H0 : inject_Z (-1) < inject_Z c) by (change (inject_Z (-1)) with (-1 # 1); lra).
    rewrite <- Zlt_Qlt in H0.
    unfold Z.sub in C2. rewrite inject_Z_plus in C2. change (inject_Z (Z.opp 1)) with (-1 # 1) in C2.
    assert (H1 : inject_Z c < inject_Z (Z.of_nat n + 1)).
    { rewrite inject_Z_plus. change (inject_Z 1) with 1. fold N. lra. }
    rewrite <- Zlt_Qlt in H1. exists (Z.to_nat (Z.of_nat n - c)).
    rewrite Z2Nat.id by lia. repeat split; try lia.
    - unfold Z.sub. rewrite inject_Z_plus, inject_Z_opp. fold N. lra.
    - unfold Z.sub. rewrite !inject_Z_plus, inject_Z_opp. fold N. change (inject_Z 1) with 1. lra.
  Qed.
  Lemma tail_some n k r name xs : length xs = n -> (k <= n)%nat ->
    ceil (inject_Z (Z.of_nat n) * (1 - r)) = (Z.of_nat n - Z.of_nat k)%Z ->
    tail_line ceil rnd n r name (map cell_of xs) = Ok [LTail name (Z.of_nat k) (rnd 1%nat (r * 100)) (Some (rnd 2%nat (sum_of (last_steps k xs))))].
  Proof.
    intros L K E. unfold tail_line. cbn [nmul nsub n1 nofZ Q_ops]. rewrite E, slice_from.
    replace (cut_at (Z.of_nat n - Z.of_nat k) (length (map cell_of xs))) with (length xs - k)%nat.
    2:{ unfold cut_at. rewrite map_length. destruct (_ <? 0)%Z eqn:X; lia. }
    rewrite skipn_map, (rounded_numbers rnd). cbn [rbind]. fold (last_steps k xs). do 2 f_equal. f_equal. lia.
  Qed.
  Lemma split_some i name xs : split_lines rnd i name (map cell_of xs)
    = Ok [LTest name (Some (rnd 2%nat (sum_of (from i xs)))); LTrain name (Some (rnd 2%nat (sum_of (before i xs))))].
  Proof.
    unfold split_lines. rewrite slice_before, slice_from, map_length, firstn_map, skipn_map, !(rounded_numbers rnd). reflexivity.
  Qed.

  Lemma lengths_differ (b : bench Q) costs algorithms test_split ratio index name name' xs xs' : in_order b -> has_run b costs -> known algorithms ->
    costs name = Some xs -> costs name' = Some xs' -> length xs <> length xs' ->
    raises ValueError (describe_benchmarks ceil rnd test_split ratio index algorithms b).
  Proof.
    intros IO HR K Ex Ex' L. unfold describe_benchmarks. rewrite (known_ok _ K). cbn [rbind].
    rewrite (steps_run _ costs (io_once _ IO) (outputs_costs _ _ HR)). cbn [rbind].
    assert (I : In name (dkeys (be_outputs b))) by (apply (costs_keys _ _ _ HR); now exists xs).
    assert (I' : In name' (dkeys (be_outputs b))) by (apply (costs_keys _ _ _ HR); now exists xs').
    set (len := fun name => match costs name with Some xs => length xs | None => O end).
    apply (in_map len) in I, I'. change (map (fun name0 : string => match costs name0 with Some xs0 => length xs0 | None => O end) (dkeys (be_outputs b)))
      with (map len (dkeys (be_outputs b))).
    unfold len in I at 1, I' at 1. rewrite Ex in I. rewrite Ex' in I'.
    destruct (map len (dkeys (be_outputs b))) as [|m ms]; [easy|].
    destruct (forallb (Nat.eqb m) (m :: ms)) eqn:F; [|eexists; split; reflexivity].
    exfalso. rewrite forallb_forall in F. apply F, Nat.eqb_eq in I. apply F, Nat.eqb_eq in I'. congruence.
  Qed.
End Described.

(** ** Histories *)

Lemma dget_dset_same {A} k (v : A) d : dget k (dset k v d) = Some v.
Proof. induction d as [|[k' v'] d IH]; cbn; [now rewrite String.eqb_refl|]. destruct (String.eqb k k') eqn:E; cbn; now rewrite E. Qed.
Lemma dget_dset_other {A} k k' (v : A) d : k <> k' -> dget k (dset k' v d) = dget k d.
Proof.
  intros H. induction d as [|[j v'] d IH]; cbn.
  - now rewrite (proj2 (String.eqb_neq _ _) H).
  - destruct (String.eqb_spec k' j); cbn.
    + subst. now rewrite (proj2 (String.eqb_neq _ _) H).
    + destruct (String.eqb k j); [reflexivity|assumption].
Qed.
Lemma dkeys_dset {A} k (v : A) d : (In k (dkeys d) /\ dkeys (dset k v d) = dkeys d) \/ (~ In k (dkeys d) /\ dkeys (dset k v d) = dkeys d ++ [k]).
Proof.
  unfold dkeys. induction d as [|[j v'] d IH]; cbn; [right; split; [easy|reflexivity]|].
  destruct (String.eqb_spec k j); cbn.
  - subst. left. split; [now left|reflexivity].
  - destruct IH as [[I E]|[I E]]; rewrite E; [left|right]; split; auto. intros [->|H]; auto.
Qed.
Lemma NoDup_dset {A} k (v : A) d : NoDup (dkeys d) -> NoDup (dkeys (dset k v d)).
Proof.
  intros H. destruct (dkeys_dset k v d) as [[I E]|[I E]]; rewrite E; [assumption|].
  apply NoDup_rev in H. rewrite <- (rev_involutive (dkeys d ++ [k])), rev_app_distr. apply NoDup_rev. cbn.
  constructor; [now rewrite <- in_rev|assumption].
Qed.

Lemma dkeys_set_In {A} k (v : A) d name : In name (dkeys (dset k v d)) -> name = k \/ In name (dkeys d).
Proof.
  intros H. destruct (dkeys_dset k v d) as [[_ E]|[_ E]]; rewrite E in H; [now right|].
  apply in_app_or in H as [H|[H|[]]]; auto.
Qed.

Lemma in_order_new : in_order new_bench.
Proof. repeat split; try (intros name []). constructor. Qed.
Lemma in_order_mpc (b : bench Q) (o : output Q) b' r : in_order b -> ou_alg o = "mpc" -> store_mpc (Output o) b = (b', r) -> in_order b'.
Proof.
  intros [I1 I2 I3 I4 I5] E H. injection H as <- _. rewrite E. split; cbn [be_outputs be_mpc be_has_mpc be_rbc be_has_rbc be_saa be_has_saa]; unfold holds in *.
  - cbn [be_outputs]. rewrite dget_dset_same. now repeat split.
  - cbn [be_outputs]. now rewrite dget_dset_other by discriminate.
  - cbn [be_outputs]. now rewrite dget_dset_other by discriminate.
  - intros name H. apply dkeys_set_In in H as [->|H]; [cbn; auto|now apply I4].
  - now apply NoDup_dset.
Qed.
Lemma in_order_saa (b : bench Q) (o : output Q) b' r : in_order b -> ou_alg o = "saa" -> store_saa o b = (b', r) -> in_order b'.
Proof.
  intros [I1 I2 I3 I4 I5] E H. injection H as <- _. rewrite E. split; cbn [be_outputs be_mpc be_has_mpc be_rbc be_has_rbc be_saa be_has_saa]; unfold holds in *.
  - cbn [be_outputs]. now rewrite dget_dset_other by discriminate.
  - cbn [be_outputs]. now rewrite dget_dset_other by discriminate.
  - cbn [be_outputs]. rewrite dget_dset_same. now repeat split.
  - intros name H. apply dkeys_set_In in H as [->|H]; [cbn; auto|now apply I4].
  - now apply NoDup_dset.
Qed.
Lemma holds_frame (b : bench Q) d name o o' key x (has : bool) (y : option (returned Q)) :
  holds b key x has -> dget name (be_outputs b) = Some o -> ou_alg o' = ou_alg o ->
  y = match x with
      | Some (Output p) => Some (Output (if String.eqb (ou_alg p) name then o' else p))
      | _ => x
      end ->
  be_outputs d = dset name o' (be_outputs b) -> (forall k p, dget k (be_outputs b) = Some p -> ou_alg p = k) -> holds d key y has.
Proof.
  intros H D A -> E AL. unfold holds in *. rewrite E. destruct (String.eqb_spec key name).
  - subst. rewrite dget_dset_same. rewrite D in H. destruct H as [-> [-> H]]. rewrite H, String.eqb_refl.
    repeat split. now rewrite A.
  - rewrite dget_dset_other by assumption. destruct (dget key (be_outputs b)) as [p|] eqn:P.
    + destruct H as [-> [-> H]]. rewrite H. rewrite (proj2 (String.eqb_neq _ _) n). now repeat split.
    + destruct H as [-> ->]. now split.
Qed.
Lemma in_order_frame (b : bench Q) name b' r : in_order b -> frame_of name b = (b', r) -> in_order b'.
Proof.
  intros IO H. unfold frame_of in H. destruct (dget name (be_outputs b)) as [o|] eqn:D.
  2:{ now injection H as <- _. }
  cbn [to_frame] in H. injection H as <- _.
  assert (AL : forall k p, dget k (be_outputs b) = Some p -> ou_alg p = k).
  { intros k p P. assert (I : In k (dkeys (be_outputs b))) by (apply Proofs_Num.dget_In in P; now apply (in_map fst) in P).
    destruct IO as [I1 I2 I3 I4 _]. unfold holds in *.
    destruct (I4 k I) as [<-|[<-|[<-|[]]]]; [rewrite P in I1|rewrite P in I2|rewrite P in I3]; tauto. }
  pose proof (AL name o D) as A. destruct IO as [I1 I2 I3 I4 I5].
  split; cbn [be_mpc be_has_mpc be_rbc be_has_rbc be_saa be_has_saa be_outputs].
  - eapply holds_frame; [exact I1|exact D| |reflexivity|reflexivity|exact AL]. reflexivity.
  - eapply holds_frame; [exact I2|exact D| |reflexivity|reflexivity|exact AL]. reflexivity.
  - eapply holds_frame; [exact I3|exact D| |reflexivity|reflexivity|exact AL]. reflexivity.
  - intros k H. apply dkeys_set_In in H as [->|H]; [|now apply I4]. apply I4.
    apply Proofs_Num.dget_In in D. now apply (in_map fst) in D.
  - now apply NoDup_dset.
Qed.

Section History.
  Variable fl : Q -> Z.
  Variable part : list (horizon_output Q) -> nat -> list (horizon_output Q).

  (** Whatever a run of the predictive control does, the microgrid is left alone or reset. *)
  Lemma mpc_run_grid (c : mpc Q) solve steps (g : nonmod Q) g1 r : nm_mpc_run c solve steps g = (g1, r) -> g1 = fst (nm_reset false g).
  Proof.
    unfold nm_mpc_run, run_mpc_on_sample, mbind, mget, mlift. destruct (nm_reset false g) as [g2 [[]|e]]; cbn [fst].
    - destruct (nm_num_iter _ _ _); intros H; now injection H as <- _.
    - intros H. now injection H as <- _.
  Qed.
  Lemma mpc_benchmark_grid solve steps (g : nonmod Q) b g1 b1 r : run_mpc_benchmark solve steps (g, b) = ((g1, b1), r) ->
    (g1 = g /\ b1 = b /\ r <> Ok tt) \/ (g1 = fst (nm_reset false g) /\ (r <> Ok tt /\ b1 = b
      \/ r = Ok tt /\ exists c cp, nm_new_mpc g = Ok c /\ nm_mpc_run c solve steps g = (g1, Ok cp)
         /\ store_mpc (Output (output_of "mpc" cp)) b = (b1, Ok tt))).
  Proof.
    unfold run_mpc_benchmark, mbind, mget, mlift. cbn [fst]. destruct (nm_new_mpc g) as [c|e].
    2:{ intros H. injection H as <- <- <-. left. now repeat split. }
    unfold on_grid. cbn [fst]. destruct (nm_mpc_run c solve steps g) as [g2 [cp|e]] eqn:R; cbn [snd].
    - unfold on_bench. cbn [fst snd]. destruct (store_mpc (Output (output_of "mpc" cp)) b) as [b2 x] eqn:SB. intros H. injection H as <- <- <-.
      right. split; [exact (mpc_run_grid _ _ _ _ _ _ R)|]. right. cbn in SB. injection SB as <- <-. split; [reflexivity|].
      exists c, cp. now repeat split.
    - intros H. injection H as <- <- <-. right. split; [exact (mpc_run_grid _ _ _ _ _ _ R)|]. left. now split.
  Qed.
  Lemma saa_benchmark_grid solve drawn steps p (g : nonmod Q) b g1 b1 r : run_saa_benchmark fl part solve drawn steps p (g, b) = ((g1, b1), r) ->
    g1 = g /\ (r <> Ok tt /\ b1 = b
      \/ r = Ok tt /\ exists a ss ss' cp, new_saa g 8760 = Ok a /\ drawn = Ok ss
         /\ run_mpc_on_group fl part a solve g steps p ss = (ss', Ok cp) /\ store_saa (output_of "saa" cp) b = (b1, Ok tt)).
  Proof.
    unfold run_saa_benchmark, mbind, mget, mlift. cbn [fst]. destruct (new_saa g 8760) as [a|e].
    2:{ intros H. injection H as <- <- <-. split; [reflexivity|]. left. now split. }
    destruct drawn as [ss|e].
    2:{ intros H. injection H as <- <- <-. split; [reflexivity|]. left. now split. }
    destruct (run_mpc_on_group fl part a solve g steps p ss) as [ss' [cp|e]] eqn:R; cbn [snd].
    - unfold on_bench. cbn [fst snd]. destruct (store_saa (output_of "saa" cp) b) as [b2 x] eqn:SB. intros H. injection H as <- <- <-.
      split; [reflexivity|]. right. cbn in SB. injection SB as <- <-. split; [reflexivity|]. exists a, ss, ss', cp. now repeat split.
    - intros H. injection H as <- <- <-. split; [reflexivity|]. left. now split.
  Qed.

  Lemma in_order_do c (s : nonmod Q * bench Q) : in_order (snd s) -> in_order (snd (bench_do fl part c s))
    /\ exists cs, fst (bench_do fl part c s) = nm_after cs (fst s) /\ forall n, (forall c', c = BGrid c' -> proper n c') -> Forall (proper n) cs.
  Proof.
    destruct s as [g b]. cbn [fst snd]. intros IO. destruct c as [c|solve steps| |solve drawn steps p|name]; cbn [bench_do].
    - split; [assumption|]. exists [c]. split; [reflexivity|]. intros n H. constructor; [now apply H|constructor].
    - destruct (run_mpc_benchmark solve steps (g, b)) as [[g1 b1] r] eqn:R. cbn [fst snd].
      apply mpc_benchmark_grid in R as [[-> [-> _]]|[-> R]].
      + split; [assumption|]. exists []. split; [reflexivity|constructor].
      + split.
        * destruct R as [[_ ->]|[_ (c & cp & _ & _ & SB)]]; [assumption|]. exact (in_order_mpc _ (output_of "mpc" cp) _ _ IO eq_refl SB).
        * exists [HReset false]. split; [reflexivity|]. intros n _. constructor; [exact I|constructor].
    - split; [assumption|]. exists []. split; [reflexivity|constructor].
    - destruct (run_saa_benchmark fl part solve drawn steps p (g, b)) as [[g1 b1] r] eqn:R. cbn [fst snd].
      apply saa_benchmark_grid in R as [-> R]. split.
      + destruct R as [[_ ->]|[_ (a & ss & ss' & cp & _ & _ & _ & SB)]]; [assumption|]. exact (in_order_saa _ (output_of "saa" cp) _ _ IO eq_refl SB).
      + exists []. split; [reflexivity|constructor].
    - unfold on_bench. cbn [fst snd]. destruct (frame_of name b) as [b1 x] eqn:F. cbn [fst snd]. split.
      + exact (in_order_frame _ _ _ _ IO F).
      + exists []. split; [reflexivity|constructor].
  Qed.
  Lemma in_order_after cs (s : nonmod Q * bench Q) : in_order (snd s) -> in_order (snd (bench_after fl part cs s))
    /\ exists cs', fst (bench_after fl part cs s) = nm_after cs' (fst s) /\ forall n, (forall c', In (BGrid c') cs -> proper n c') -> Forall (proper n) cs'.
  Proof.
    revert s. induction cs as [|c cs IH]; intros s IO.
    - split; [assumption|]. exists []. split; [reflexivity|constructor].
    - cbn [bench_after fold_left]. destruct (in_order_do c s IO) as [IO1 [cs1 [E1 P1]]].
      destruct (IH _ IO1) as [IO2 [cs2 [E2 P2]]]. unfold bench_after in *. split; [assumption|].
      exists (cs1 ++ cs2). split.
      + rewrite E2, E1. unfold nm_after. now rewrite fold_left_app.
      + intros n H. apply Forall_app. split; [apply P1; intros c' ->; apply H; now left|apply P2; intros c' I'; apply H; now right].
  Qed.
End History.

(** ** Columns *)

Lemma dget_table_of (r : record Q) key : dget key (table_of r) = option_map (map ECell) (dget key r).
Proof. induction r as [|[k l] r IH]; [reflexivity|]. cbn. destruct (String.eqb key k); [reflexivity|exact IH]. Qed.
Lemma output_records alg (r : copies Q) xs : dget "total_cost" (cp_cost r) = Some (map CNum xs) -> records (output_of alg r) xs.
Proof.
  intros H. exists (table_of (cp_cost r)). split; [reflexivity|]. rewrite dget_table_of, H. cbn. now rewrite map_map.
Qed.
