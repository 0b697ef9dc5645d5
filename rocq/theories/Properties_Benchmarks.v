(** * The outputs of control algorithms and the benchmarks *)

From Coq Require Import ZArith QArith Qround Qabs Qminmax Bool String List Lia Lqa Permutation.
From Coq.Floats Require Import SpecFloat.
From Verif Require Import Num Py Spec_Module Proofs_Num NonModular Spec_NonModular Proofs_NonModular Proofs_NmRun
  Proofs_NmHistory Proofs_NmBattery Proofs_NmProgress Proofs_NmEpisode Proofs_NmTotal Proofs_NmRecord Properties_NonModular
  Conversion Spec_Conversion Properties_Conversion
  Proofs_NmReads NmRbc Spec_NmRbc Spec_NmRbcRun Proofs_NmRbc Proofs_NmRbcRun Properties_NmRbc Properties_NmRbcRun
  MPC NmMpc Spec_MPC Spec_NmMpc Proofs_NmMpc Proofs_NmMpcPlan Proofs_NmMpcRun Properties_NmMpc
  Saa Spec_Saa Proofs_Saa Proofs_SaaRun Properties_Saa Benchmarks Spec_Benchmarks Proofs_Benchmarks.
Import ListNotations.
Local Open Scope string_scope.
Local Open Scope list_scope.
Local Open Scope Q_scope.

(** ** C77: what the benchmarks print *)

Section C77.
  Variable ceil : Q -> Z.
  Variable rnd : nat -> Q -> Q.
  Hypothesis C : ceils ceil.
  Variables (b : bench Q) (costs : string -> option (list Q)) (n : nat) (algorithms : option (list string)).
  Hypothesis IO : in_order b.
  Hypothesis HR : has_run b costs.
  Hypothesis K : known algorithms.

  Section Equal.
    Hypothesis ANY : exists name xs, costs name = Some xs.
    Hypothesis LEN : forall name xs, costs name = Some xs -> length xs = n.

    (** Without a split the whole cost of every algorithm is printed. *)
    Theorem C77_all ratio index : describe_benchmarks ceil rnd false ratio index algorithms b
      = Ok (printed costs n algorithms (fun name xs => [LTail name (Z.of_nat n) (rnd 1%nat 100) (Some (rnd 2%nat (sum_of xs)))])).
    Proof.
      rewrite (described ceil rnd b costs n) by assumption. cbn [check_split rbind].
      erewrite (lines_all b costs algorithms); [|eassumption|eassumption|].
      2:{ intros name xs E. apply (tail_all ceil rnd C). now apply (LEN name). }
      reflexivity.
    Qed.
    (** With a ratio, that of the last steps: as many as make up the ratio, rounded down *)
    Theorem C77_ratio r : 0 <= r <= 1 -> exists k : nat,
      inject_Z (Z.of_nat k) <= inject_Z (Z.of_nat n) * r < inject_Z (Z.of_nat k + 1)
      /\ describe_benchmarks ceil rnd true (Some r) None algorithms b
         = Ok (printed costs n algorithms
                 (fun name xs => [LTail name (Z.of_nat k) (rnd 1%nat (r * 100)) (Some (rnd 2%nat (sum_of (last_steps k xs))))])).
    Proof.
      intros [R0 R1]. destruct (ceil_steps ceil C n r R0 R1) as (k & KN & K1 & K2 & E). exists k. split; [now split|].
      rewrite (described ceil rnd b costs n) by assumption.
      rewrite (proj1 (check_allowed true (Some r) None n)) by now intros _. cbn [rbind].
      erewrite (lines_all b costs algorithms); [|eassumption|eassumption|].
      2:{ intros name xs Ex. apply (tail_some ceil rnd n k r); [now apply (LEN name)|assumption|assumption]. }
      reflexivity.
    Qed.
    (** With an index, those of the steps before it and of the others *)
    Theorem C77_index i : (i <= Z.of_nat n)%Z -> describe_benchmarks ceil rnd true None (Some i) algorithms b
      = Ok (printed costs n algorithms
              (fun name xs => [LTest name (Some (rnd 2%nat (sum_of (from i xs)))); LTrain name (Some (rnd 2%nat (sum_of (before i xs))))])).
    Proof.
      intros I. rewrite (described ceil rnd b costs n) by assumption.
      rewrite (proj1 (check_allowed true None (Some i) n)) by now intros _. cbn [rbind].
      erewrite (lines_all b costs algorithms); [|eassumption|eassumption|].
      2:{ intros name xs Ex. apply (split_some rnd). }
      reflexivity.
    Qed.
    (** Anything else is refused. *)
    Theorem C77_refused test_split ratio index : ~ allowed_split test_split ratio index n ->
      raises ValueError (describe_benchmarks ceil rnd test_split ratio index algorithms b).
    Proof.
      intros NA. rewrite (described ceil rnd b costs n) by assumption.
      destruct (check_refused _ _ _ _ NA) as [e [E1 E2]]. rewrite E1. cbn [rbind]. now exists e.
    Qed.
  End Equal.

  (** Algorithms that ran for different numbers of steps cannot be described, not even one of
      them. *)
  Theorem C77_lengths name name' xs xs' test_split ratio index :
    costs name = Some xs -> costs name' = Some xs' -> length xs <> length xs' ->
    raises ValueError (describe_benchmarks ceil rnd test_split ratio index algorithms b).
  Proof. intros E E1 L. exact (lengths_differ ceil rnd b costs algorithms test_split ratio index name name' xs xs' IO HR K E E1 L). Qed.
  (** Before anything is run there is nothing to describe. *)
  Theorem C77_nothing test_split ratio index : (forall name, costs name = None) ->
    raises IndexError (describe_benchmarks ceil rnd test_split ratio index algorithms b).
  Proof.
    intros NO. unfold describe_benchmarks. rewrite (known_ok _ K). cbn [rbind].
    destruct (be_outputs b) as [|[k o] d] eqn:D; [eexists; split; reflexivity|].
    exfalso. specialize (HR k). rewrite (NO k), D in HR. cbn in HR. now rewrite String.eqb_refl in HR.
  Qed.
End C77.
Print Assumptions C77_all.
Print Assumptions C77_ratio.
Print Assumptions C77_index.
Print Assumptions C77_refused.
Print Assumptions C77_lengths.
Print Assumptions C77_nothing.

(** Unknown algorithms cannot be asked for. *)
Theorem C77_unknown ceil rnd test_split ratio index l (b : bench Q) : ~ known (Some l) ->
  raises ValueError (describe_benchmarks ceil rnd test_split ratio index (Some l) b).
Proof.
  intros NK. unfold describe_benchmarks.
  destruct (existsb (fun name => negb (str_in name possible_benchmarks)) l) eqn:E; [eexists; split; reflexivity|].
  exfalso. apply NK. intros name I. destruct (in_dec string_dec name possible_benchmarks) as [H|H]; [cbn in *; tauto|].
  exfalso. assert (X : existsb (fun name => negb (str_in name possible_benchmarks)) l = true); [|congruence].
  apply existsb_exists. exists name. split; [assumption|]. apply negb_true_iff. destruct (str_in name possible_benchmarks) eqn:S'; [|reflexivity].
  now apply str_in_In in S'.
Qed.
Print Assumptions C77_unknown.

(** The training set and the test set make up all steps. *)
Theorem C77_adds_up i xs : before i xs ++ from i xs = xs /\ sum_of (before i xs) + sum_of (from i xs) == sum_of xs.
Proof.
  unfold before, from. split; [apply firstn_skipn|]. rewrite <- sum_app, firstn_skipn. reflexivity.
Qed.
Print Assumptions C77_adds_up.

(** After any calls the attributes hold the outputs that are described, and the microgrid is as
    if only its own calls, and resets, had been made. *)
Theorem C77_in_order fl part (g : nonmod Q) cs : let s := bench_after fl part cs (g, new_bench) in
  in_order (snd s) /\ exists cs', fst s = nm_after cs' g /\ forall n, (forall c, In (BGrid c) cs -> proper n c) -> Forall (proper n) cs'.
Proof. exact (in_order_after fl part cs (g, new_bench) in_order_new). Qed.
Print Assumptions C77_in_order.

(** *** Runs *)

Lemma numbers_gained (f : nat -> record Q) key m xs0 : dget key (f O) = Some (map CNum xs0) ->
  (forall k, (k < m)%nat -> exists x, gained (f k) (f (S k)) key (CNum x)) ->
  exists xs, length xs = m /\ dget key (f m) = Some (map CNum (xs0 ++ xs)).
Proof.
  intros D0. induction m as [|m IH]; intros G.
  - exists []. split; [reflexivity|]. now rewrite app_nil_r.
  - destruct IH as [xs [L D]]; [intros k Hk; apply G; lia|]. destruct (G m (Nat.lt_succ_diag_r m)) as (x & l & G1 & G2).
    rewrite D in G1. injection G1 as <-. exists (xs ++ [x]). rewrite app_length, L. cbn. split; [lia|].
    rewrite G2, app_assoc. now rewrite (map_app CNum (xs0 ++ xs)).
Qed.

Lemma has_run_set (b b' : bench Q) costs name o xs : has_run b costs -> be_outputs b' = dset name o (be_outputs b) -> records o xs ->
  has_run b' (fun k => if String.eqb k name then Some xs else costs k).
Proof.
  intros HR E R k. rewrite E. destruct (String.eqb_spec k name).
  - subst. exists o. split; [apply dget_dset_same|assumption].
  - rewrite dget_dset_other by assumption. apply HR.
Qed.

Lemma dget_cleared key (r : record Q) : In key (map fst r) -> dget key (cleared r) = Some [].
Proof.
  induction r as [|[k l] r IH]; [easy|]. cbn. destruct (String.eqb_spec key k); [reflexivity|]. intros [->|H]; [congruence|now apply IH].
Qed.

Section Runs.
  Variables (fl : Q -> Z) (part : list (horizon_output Q) -> nat -> list (horizon_output Q)) (solve : solver Q)
    (sp : nm_spec Q) (h : Z) (g0 : nonmod Q) (cs : list nm_call) (b : bench Q).
  Hypothesis FL : floors fl.
  Hypothesis PA : partitions part.
  Hypothesis W : wired sp.
  Hypothesis N : new_nonmodular sp h = Ok g0.
  Hypothesis A : aligned g0.
  Hypothesis P : Forall (proper (all_rows g0)) cs.
  Let g := nm_after cs g0.
  Hypothesis HB : has_battery (nm_arch g) = true.
  Hypothesis AA : assigns_all solve.

  (** The benchmark of the predictive control: the microgrid is reset, and the output has one
      cost for every step of the run.  If it raises, the benchmarks are as before. *)
  Theorem C77_mpc steps (g1 : nonmod Q) b1 r : run_mpc_benchmark solve steps (g, b) = ((g1, b1), r) ->
    (r <> Ok tt /\ b1 = b)
    \/ r = Ok tt /\ nm_reset false g = (g1, Ok tt)
       /\ exists c cp xs, nm_new_mpc g = Ok c /\ nm_mpc_run c solve steps g = (g1, Ok cp)
          /\ dget "total_cost" (cp_cost cp) = Some (map CNum xs) /\ length xs = mpc_count g steps
          /\ forall costs, has_run b costs -> has_run b1 (fun k => if String.eqb k "mpc" then Some xs else costs k).
  Proof.
    intros R. apply mpc_benchmark_grid in R as [(_ & -> & NR)|(-> & [[NR ->]|(-> & c & cp & NC & NM & SB)])]; [now left|now left|].
    right. split; [reflexivity|].
    assert (MF : made_for c g) by (exists g; now repeat split).
    destruct (C74_steps c solve sp h g0 cs W N A P HB MF AA steps _ _ NM) as [RS (rs & R0 & RM & _ & ST)].
    split; [exact RS|].
    pose proof (equipped_after cs _ (equipped_new _ _ _ W N)) as EQ.
    destruct (numbers_gained (fun k => cp_cost (rs k)) "total_cost" (mpc_count g steps) []) as [xs [L D]].
    - rewrite R0. cbn [copies_of cp_cost]. pose proof (reset_shape _ _ _ RS) as SH.
      destruct SH as (st & n & x & bb & _ & _ & _ & _ & _ & _ & _ & _ & _ & _ & _ & _ & _ & _ & _ & _ & EC & _).
      fold g in EC. rewrite EC.
      apply dget_cleared. apply (Permutation_in _ (Permutation_sym (eq_cost _ EQ))). cbn. auto 10.
    - intros k Hk. destruct (ST k Hk) as (_ & _ & n & x & e & xs & soc & pr & u & s & rest & o & _ & _ & CA & _).
      destruct (ca_bill _ _ _ _ _ _ _ CA) as (em & total & _ & G & _). now exists total.
    - cbv beta in D. fold g in RM. rewrite RM in D. exists c, cp, xs. repeat (split; [assumption|]). intros costs HR.
      injection SB as <-. eapply has_run_set; [exact HR|reflexivity|]. apply output_records. exact D.
  Qed.

  (** The benchmark of the sample average approximation: the output has the costs that the
      microgrid has recorded, and one more for every step of the run.  The microgrid is not
      reset. *)
  Theorem C77_saa drawn steps percentile (g1 : nonmod Q) b1 r xs0 :
    dget "total_cost" (nm_cost g) = Some (map CNum xs0) ->
    (forall ss, drawn = Ok ss -> Forall (fits g) ss /\ ss <> []) ->
    run_saa_benchmark fl part solve drawn steps percentile (g, b) = ((g1, b1), r) ->
    g1 = g /\ ((r <> Ok tt /\ b1 = b)
    \/ r = Ok tt /\ exists ss rows xs, drawn = Ok ss /\ shortest ss rows /\ length xs = saa_count g rows steps
          /\ forall costs, has_run b costs -> has_run b1 (fun k => if String.eqb k "saa" then Some (xs0 ++ xs) else costs k)).
  Proof.
    intros D0 FI R. apply saa_benchmark_grid in R as [-> [NR|(-> & a & ss & ss' & cp & NA & -> & RG & SB)]]; (split; [reflexivity|]); [now left|].
    right. split; [reflexivity|]. destruct (FI ss eq_refl) as [FS NE].
    assert (SH : exists rows, shortest ss rows).
    { clear -NE. induction ss as [|s ss IH]; [congruence|]. destruct ss as [|s' ss].
      - exists (length (sm_load s)). split; [exists s; split; [now left|reflexivity]|]. intros t [<-|[]]. apply le_n.
      - destruct IH as [m [[t [I E]] L]]; [discriminate|]. exists (Nat.min (length (sm_load s)) m). split.
        + destruct (Nat.min_spec (length (sm_load s)) m) as [[_ ->]|[_ ->]]; [exists s; split; [now left|reflexivity]|exists t; split; [now right|assumption]].
        + intros t' [<-|I']; [lia|]. specialize (L _ I'). lia. }
    destruct SH as [rows SH].
    assert (SF : saa_for a g) by (exists g, 8760%Z; now repeat split).
    destruct (C75_steps fl part a solve sp h g0 cs percentile ss rows FL PA W N A HB SF AA FS SH steps _ _ RG) as (rs & sss & R0 & RM & _ & _ & _ & ST).
    destruct (numbers_gained (fun k => cp_cost (rs k)) "total_cost" (saa_count g rows steps) xs0) as [xs [L D]].
    - rewrite R0. exact D0.
    - intros k Hk. destruct (ST k Hk) as (_ & _ & _ & plans & costs & m' & rank & st & rest & n & x & o & _ & _ & _ & _ & _ & _ & _ & CA & _).
      destruct (ca_bill _ _ _ _ _ _ _ CA) as (em & total & _ & G & _). now exists total.
    - cbv beta in D. fold g in RM. rewrite RM in D. exists ss, rows, xs. repeat (split; [reflexivity||assumption|]). intros costs HR.
      injection SB as <-. eapply has_run_set; [exact HR|reflexivity|]. apply output_records. exact D.
  Qed.
End Runs.
Print Assumptions C77_mpc.
Print Assumptions C77_saa.

(** The two can be compared if and only if the samples are as long as the data in use. *)
Section Compared.
  Variables (ceil : Q -> Z) (rnd : nat -> Q -> Q) (b : bench Q) (costs : string -> option (list Q)) (algorithms : option (list string)).
  Variables (g : nonmod Q) (rows : nat) (xs ys : list Q).
  Hypothesis C : ceils ceil.
  Hypothesis IO : in_order b.
  Hypothesis HR : has_run b costs.
  Hypothesis K : known algorithms.
  Hypothesis M : costs "mpc" = Some xs /\ length xs = mpc_count g None.
  Hypothesis S' : costs "saa" = Some ys /\ length ys = saa_count g rows None.
  Hypothesis R : costs "rbc" = None.
  Hypothesis H : (nm_horizon g <= nm_len g)%Z /\ (nm_horizon g <= Z.of_nat rows)%Z.
  Theorem C77_comparable : (exists ls, describe_benchmarks ceil rnd false None None algorithms b = Ok ls) <-> Z.of_nat rows = nm_len g.
  Proof.
    destruct M as [M1 M2], S' as [S1 S2], H as [H1 H2]. unfold mpc_count in M2. unfold saa_count in S2. split.
    - intros [ls E]. destruct (Z.eq_dec (Z.of_nat rows) (nm_len g)) as [|NE]; [assumption|]. exfalso.
      destruct (C77_lengths ceil rnd b costs algorithms IO HR K "mpc" "saa" xs ys false None None M1 S1) as [e [X _]]; [lia|congruence].
    - intros E. eexists. apply (C77_all ceil rnd C b costs (length xs)); try assumption.
      + now exists "mpc", xs.
      + intros name zs Z. assert (I : In name ["mpc"; "rbc"; "saa"]).
        { apply (io_names _ IO). apply (costs_keys _ _ _ HR). now exists zs. }
        destruct I as [<-|[<-|[<-|[]]]]; [congruence|congruence|]. rewrite S1 in Z. injection Z as <-. lia.
  Qed.
End Compared.
Print Assumptions C77_comparable.

(** *** Runs that cannot succeed *)

(** The rule-based benchmark never succeeds, so neither does running all of them, which is what
    any other name does. *)
Theorem C77_rbc_never_refuted (s : nonmod Q * bench Q) new (b : bench Q) :
  run_rule_based_benchmark s = (s, raise AttributeError "modules")
  /\ fst (run_rule_based_benchmark_modular new b) = b /\ snd (run_rule_based_benchmark_modular new b) <> Ok tt
  /\ (new = Ok tt -> raises AttributeError (snd (run_rule_based_benchmark_modular new b))).
Proof.
  split; [reflexivity|]. destruct new as [[]|e]; cbn; repeat split; try discriminate. intros _. eexists. split; reflexivity.
Qed.
Print Assumptions C77_rbc_never_refuted.
Theorem C77_all_never_refuted fl part ceil rnd algo verbose solve max_steps drawn forecast_steps percentile (s : nonmod Q * bench Q) ls :
  algo <> Some "mpc" -> algo <> Some "saa" ->
  snd (run_benchmarks fl part ceil rnd algo verbose solve max_steps drawn forecast_steps percentile s) <> Ok ls.
Proof.
  intros NM NS. unfold run_benchmarks.
  destruct algo as [a|].
  - destruct (String.eqb_spec a "mpc"); [now subst|]. destruct (String.eqb_spec a "rbc"); [discriminate|].
    destruct (String.eqb_spec a "saa"); [now subst|]. unfold mbind at 1 2. destruct (run_mpc_benchmark solve max_steps s) as [s' [u|e]]; discriminate.
  - unfold mbind at 1 2. destruct (run_mpc_benchmark solve max_steps s) as [s' [u|e]]; discriminate.
Qed.
Print Assumptions C77_all_never_refuted.
(** The benchmark of a modular microgrid is run and kept, but then an exception is raised; it is
    not among the outputs. *)
Theorem C77_modular_refuted (b : bench Q) : raises AttributeError (snd (run_mpc_benchmark_modular (Ok tt) b))
  /\ be_has_mpc (fst (run_mpc_benchmark_modular (Ok tt) b)) = true
  /\ be_outputs (fst (run_mpc_benchmark_modular (Ok tt) b)) = be_outputs b.
Proof. repeat split. eexists. split; reflexivity. Qed.
Print Assumptions C77_modular_refuted.
(** [print_benchmark_cost] never prints a cost. *)
Theorem C77_print_refuted ceil rnd (g : nonmod Q) : raises IndexError (print_benchmark_cost ceil rnd g).
Proof. unfold print_benchmark_cost. destruct (nm_split g); eexists; split; reflexivity. Qed.
Print Assumptions C77_print_refuted.

(** ** C78: outputs *)

(** An output has the table that was given under each name; the name of the algorithm and the
    five tables are required. *)
Theorem C78_new names dfs alg (o : output Q) : new_output names dfs alg = Ok o ->
  exists ns ts, names = Some ns /\ dfs = Some ts /\ alg = Some (ou_alg o) /\ incl ["action"; "status"; "production"; "cost"; "co2"] ns
    /\ forall i name t, nth_error ns i = Some name -> nth_error ts i = Some t ->
         (forall j, (i < j)%nat -> nth_error ns j <> Some name) -> dget name (ou_tables o) = Some t.
Proof.
  unfold new_output. destruct names as [ns|]; [|discriminate]. destruct dfs as [ts|]; [|discriminate]. destruct alg as [a|]; [|discriminate].
  destruct (existsb _ names_needed) eqn:E; [discriminate|]. intros H. injection H as <-. exists ns, ts. repeat (split; [reflexivity|]). split.
  - intros name I. apply str_in_In. destruct (str_in name ns) eqn:S'; [reflexivity|]. exfalso.
    assert (X : existsb (fun needed => negb (str_in needed ns)) names_needed = true); [|congruence].
    apply existsb_exists. exists name. split; [exact I|]. now rewrite S'.
  - cbn [ou_tables]. unfold dict_of, dupdate. generalize (@nil (string * @table Q)). clear E.
    revert ts. induction ns as [|n ns IH]; intros ts d i name t Hn Ht L; [destruct i; discriminate|].
    destruct ts as [|t0 ts]; [destruct i; discriminate|]. cbn [combine fold_left fst snd].
    destruct i as [|i].
    + injection Hn as ->. injection Ht as ->.
      assert (NI : forall j, nth_error ns j <> Some name) by (intros j; apply (L (S j)); lia).
      clear -NI. assert (G : forall (d1 : dict (dict (list (entry Q)))), dget name d1 = Some t ->
        dget name (fold_left (fun acc kv => dset (fst kv) (snd kv) acc) (combine ns ts) d1) = Some t).
      { revert ts. induction ns as [|n ns IH]; intros ts d1 D; [exact D|]. destruct ts as [|t' ts]; [exact D|]. cbn.
        apply IH; [intros j; apply (NI (S j))|]. rewrite dget_dset_other; [exact D|]. intros ->. now apply (NI 0%nat). }
      apply G. apply dget_dset_same.
    + apply (IH ts _ i); try assumption. intros j J. apply (L (S j)). lia.
Qed.
Print Assumptions C78_new.
Theorem C78_new_refused names dfs alg :
  (names = None \/ dfs = None \/ alg = None -> raises TypeError (@new_output Q names dfs alg))
  /\ (forall ns ts a, names = Some ns -> dfs = Some ts -> alg = Some a -> ~ incl ["action"; "status"; "production"; "cost"; "co2"] ns ->
      raises ValueError (@new_output Q names dfs alg)).
Proof.
  split.
  - intros H. unfold new_output. destruct names; [|eexists; split; reflexivity]. destruct dfs; [|eexists; split; reflexivity].
    destruct alg; [|eexists; split; reflexivity]. destruct H as [H|[H|H]]; discriminate.
  - intros ns ts a -> -> -> NI. unfold new_output. destruct (existsb _ names_needed) eqn:E; [eexists; split; reflexivity|].
    exfalso. apply NI. intros name I. apply str_in_In. destruct (str_in name ns) eqn:S'; [reflexivity|]. exfalso.
    assert (X : existsb (fun needed => negb (str_in needed ns)) names_needed = true); [|congruence].
    apply existsb_exists. exists name. split; [exact I|]. now rewrite S'.
Qed.
Print Assumptions C78_new_refused.
(** What runs return is made that way. *)
Theorem C78_made alg (r : copies Q) :
  new_output (Some ["action"; "status"; "production"; "cost"; "co2"])
    (Some [table_of (cp_actions r); table_of (cp_state r); table_of (cp_production r); table_of (cp_cost r); table_of (cp_co2 r)]) (Some alg)
  = Ok (output_of alg r).
Proof. reflexivity. Qed.
Print Assumptions C78_made.

(** Two outputs are equal if and only if their tables of costs are the same. *)
Lemma entry_same x y : entry_eqb x y = true <-> same_entry x y.
Proof.
  destruct x as [[a| |a]|], y as [[b| |b]|]; cbn; try (split; [discriminate|easy]); try (split; reflexivity).
  - apply Qeq_bool_iff.
  - apply String.eqb_eq.
Qed.
Lemma column_same (l : list (entry Q)) : forall l', column_eqb l l' = true <-> Forall2 same_entry l l'.
Proof.
  induction l as [|x l IH]; intros [|y l']; cbn; try (split; [discriminate|intros H; inversion H]).
  - split; [constructor|reflexivity].
  - rewrite andb_true_iff, entry_same, IH. split; [intros [H1 H2]; now constructor|intros H; inversion H; now split].
Qed.
Lemma dget_key {A} (d : dict A) k : (exists v, dget k d = Some v) <-> In k (dkeys d).
Proof.
  split.
  - intros [v D]. apply Proofs_Num.dget_In in D. now apply (in_map fst) in D.
  - intros I. destruct (dget k d) eqn:D; [now eexists|]. now apply Proofs_Num.dget_None in D.
Qed.
Theorem C78_equal (o o' : output Q) t t' : dget "cost" (ou_tables o) = Some t -> dget "cost" (ou_tables o') = Some t' ->
  NoDup (dkeys t) -> NoDup (dkeys t') ->
  exists x, output_eq o o' = Ok x /\ (x = true <-> same_table t t').
Proof.
  intros D D' ND ND'. unfold output_eq, dfind. rewrite D, D'. cbn [rbind]. eexists. split; [reflexivity|].
  unfold table_eqb. rewrite andb_true_iff, Nat.eqb_eq, forallb_forall. split.
  - intros [L F] key. destruct (dget key t) as [l|] eqn:G.
    + specialize (F (key, l) (Proofs_Num.dget_In _ _ _ G)). cbn in F. destruct (dget key t') as [l'|]; [|discriminate]. now apply column_same.
    + destruct (dget key t') as [l'|] eqn:G'; [|exact I].
      assert (I1 : incl (dkeys t) (dkeys t')).
      { intros k Ik. apply dget_key in Ik as [v V]. specialize (F (k, v) (Proofs_Num.dget_In _ _ _ V)). cbn in F. apply dget_key.
        destruct (dget k t'); [now eexists|discriminate]. }
      assert (I2 : incl (dkeys t') (dkeys t)).
      { apply NoDup_length_incl; [assumption| |assumption]. unfold dkeys. rewrite !map_length. lia. }
      exfalso. assert (X : In key (dkeys t)) by (apply I2, dget_key; now exists l'). apply dget_key in X as [v V]. congruence.
  - intros S'. split.
    + assert (I1 : incl (dkeys t) (dkeys t')).
      { intros k Ik. apply dget_key in Ik as [v V]. specialize (S' k). rewrite V in S'. apply dget_key. destruct (dget k t'); [now eexists|easy]. }
      assert (I2 : incl (dkeys t') (dkeys t)).
      { intros k Ik. apply dget_key in Ik as [v V]. specialize (S' k). rewrite V in S'. apply dget_key. destruct (dget k t); [now eexists|easy]. }
      apply NoDup_incl_length in I1, I2; try assumption. unfold dkeys in *. rewrite !map_length in *. lia.
    + intros [k l] I. cbn. assert (G : dget k t = Some l).
      { clear -I ND. induction t as [|[k' l'] t IH]; [easy|]. cbn in *. inversion ND as [|? ? N1 N2]; subst.
        destruct (String.eqb_spec k k').
        - subst. destruct I as [I|I]; [now injection I as ->|]. exfalso. apply N1. now apply (in_map fst) in I.
        - destruct I as [I|I]; [injection I as -> ->; congruence|now apply IH]. }
      specialize (S' k). rewrite G in S'. destruct (dget k t'); [now apply column_same|easy].
Qed.
Print Assumptions C78_equal.
(** They cannot be ordered by their costs. *)
Theorem C78_order_refuted (o o' : output Q) x : output_lt o o' <> Ok x.
Proof. unfold output_lt, dfind. destruct (dget _ _); [|discriminate]. cbn. destruct (dget _ _); discriminate. Qed.
Print Assumptions C78_order_refuted.
(** Nor does equality compare the sums of the costs. *)
Definition with_cost (xs : list Q) : output Q := mkOutput "mpc" [("cost", [("total_cost", map cell_of xs)])].
Theorem C78_equal_refuted : ~ (forall (o o' : output Q) xs xs', records o xs -> records o' xs' -> output_eq o o' = Ok true <-> sum_of xs == sum_of xs').
Proof.
  intros H. specialize (H (with_cost [1; 2]) (with_cost [2; 1]) [1; 2] [2; 1]).
  assert (X : output_eq (with_cost [1; 2]) (with_cost [2; 1]) = Ok true); [|discriminate X].
  apply H; [eexists; split; reflexivity|eexists; split; reflexivity|reflexivity].
Qed.
Print Assumptions C78_equal_refuted.
(** Outputs cannot be appended to each other. *)
Theorem C78_append_refuted (o other : output Q) : ou_tables o <> [] -> append_output o other <> Ok tt.
Proof. unfold append_output. destruct (ou_tables o) as [|[k t] ts]; [congruence|]. intros _. destruct (din _ _); discriminate. Qed.
Print Assumptions C78_append_refuted.

(** A frame of an output has its columns, all of the length of the longest, filled up with NaN.
    The same is done to the output. *)
Lemma max_acc l a : (a <= fold_left Nat.max l a)%nat /\ forall x, In x l -> (x <= fold_left Nat.max l a)%nat.
Proof.
  revert a. induction l as [|y l IH]; intros a; cbn; [split; [lia|easy]|].
  destruct (IH (Nat.max a y)) as [H1 H2]. split; [lia|]. intros x [<-|I]; [lia|now apply H2].
Qed.
Lemma max_attained l a : fold_left Nat.max l a = a \/ In (fold_left Nat.max l a) l.
Proof.
  revert a. induction l as [|y l IH]; intros a; cbn; [now left|].
  destruct (IH (Nat.max a y)) as [H|H]; [|right; now right]. rewrite H. destruct (Nat.max_spec a y) as [[_ ->]|[_ ->]]; [right; now left|now left].
Qed.
Theorem C78_frame (o o' : output Q) f : to_frame o = (o', Ok f) -> exists n : nat,
  (forall t l k c, In (t, l) (ou_tables o) -> In (k, c) l -> (length c <= n)%nat)
  /\ (n = O \/ exists t l k c, In (t, l) (ou_tables o) /\ In (k, c) l /\ length c = n)
  /\ (forall t k c', In ((t, k), c') f <-> exists l c, In (t, l) (ou_tables o) /\ In (k, c) l /\ c' = c ++ repeat ENan (n - length c))
  /\ (forall t k c', In ((t, k), c') f -> length c' = n)
  /\ ou_alg o' = ou_alg o /\ map fst (ou_tables o') = map fst (ou_tables o)
  /\ (forall t l', In (t, l') (ou_tables o') <-> exists l, In (t, l) (ou_tables o) /\ l' = map (fun c => (fst c, snd c ++ repeat ENan (n - length (snd c)))) l).
Proof.
  intros H. injection H as <- <-. set (n := max_len (ou_tables o)). exists n.
  assert (LE : forall t l k c, In (t, l) (ou_tables o) -> In (k, c) l -> (length c <= n)%nat).
  { intros t l k c I1 I2. unfold n, max_len. apply max_acc. apply in_map_iff. exists (k, c). split; [reflexivity|].
    apply in_concat. exists l. split; [|assumption]. apply in_map_iff. now exists (t, l). }
  split; [exact LE|]. split.
  { unfold n, max_len. destruct (max_attained (map (fun c : string * list (entry Q) => length (snd c)) (concat (map snd (ou_tables o)))) 0) as [E|I]; [now left|].
    right. apply in_map_iff in I as [[k c] [E I]]. apply in_concat in I as [l [I1 I2]]. apply in_map_iff in I1 as [[t l'] [E1 I1]]. cbn in E1. subst l'.
    exists t, l, k, c. split; [assumption|]. split; [assumption|]. exact E. }
  cbn [ou_tables ou_alg].
  assert (F : forall t k c', In ((t, k), c') (concat (map (fun t0 : string * table (T := Q) => map (fun c => ((fst t0, fst c), snd c)) (snd t0))
      (map (fun t0 : string * table (T := Q) => (fst t0, map (fun c => (fst c, fill_up n (snd c))) (snd t0))) (ou_tables o))))
    <-> exists l c, In (t, l) (ou_tables o) /\ In (k, c) l /\ c' = c ++ repeat ENan (n - length c)).
  { intros t k c'. rewrite in_concat. split.
    - intros [x [I1 I2]]. apply in_map_iff in I1 as [[t1 l1] [<- I1]]. apply in_map_iff in I1 as [[t2 l2] [E I1]]. injection E as <- <-.
      cbn in I2. apply in_map_iff in I2 as [[k1 c1] [E I2]]. cbn in E. injection E as -> -> ->. apply in_map_iff in I2 as [[k2 c2] [E I2]].
      injection E as <- <-. exists l2, c2. now repeat split.
    - intros (l & c & I1 & I2 & ->). eexists. split.
      + apply in_map_iff. exists (t, map (fun c => (fst c, fill_up n (snd c))) l). split; [reflexivity|]. apply in_map_iff. now exists (t, l).
      + cbn. apply in_map_iff. exists (k, fill_up n c). split; [reflexivity|]. apply in_map_iff. now exists (k, c). }
  split; [exact F|]. split.
  { intros t k c' I. apply F in I as (l & c & I1 & I2 & ->). rewrite app_length, repeat_length. specialize (LE _ _ _ _ I1 I2). lia. }
  split; [reflexivity|]. split; [rewrite map_map; now apply map_ext|].
  intros t l'. rewrite in_map_iff. split.
  - intros [[t1 l1] [E I]]. injection E as <- <-. now exists l1.
  - intros (l & I & ->). now exists (t, l).
Qed.
Print Assumptions C78_frame.

(** Benchmarks in which only one algorithm was run *)
Definition only_mpc {T} (o : output T) : bench T := mkBench [("mpc", o)] (Some (Output o)) true None false None false.
Lemma only_mpc_run xs (o : output Q) : records o xs -> has_run (only_mpc o) (fun name => if String.eqb name "mpc" then Some xs else None).
Proof. intros R name. cbn. destruct (String.eqb name "mpc"); [now exists o|reflexivity]. Qed.

(** After a frame was made of an output in which another column is longer than the one of the
    costs, the costs are not known any more. *)
Lemma dget_filled (l : dict (list (entry Q))) key n :
  dget key (map (fun c => (fst c, fill_up n (snd c))) l) = option_map (fill_up n) (dget key l).
Proof. induction l as [|[k c] l IH]; [reflexivity|]. cbn. destruct (String.eqb key k); [reflexivity|exact IH]. Qed.
Lemma dget_tables (ts : dict (table (T := Q))) key n :
  dget key (map (fun t : string * table (T := Q) => (fst t, map (fun c => (fst c, fill_up n (snd c))) (snd t))) ts)
  = option_map (fun t : table (T := Q) => map (fun c => (fst c, fill_up n (snd c))) t) (dget key ts).
Proof. induction ts as [|[k c] ts IH]; [reflexivity|]. cbn. destruct (String.eqb key k); [reflexivity|exact IH]. Qed.
Theorem C78_frame_refuted ceil rnd (o : output Q) xs t l k c b' f : ceils ceil -> ou_alg o = "mpc" -> records o xs ->
  In (t, l) (ou_tables o) -> In (k, c) l -> (length xs < length c)%nat ->
  frame_of "mpc" (only_mpc o) = (b', Ok f) ->
  exists n, (length xs < n)%nat
    /\ describe_benchmarks ceil rnd false None None None b'
       = Ok ((if Z.eqb (Z.of_nat n) 8736 then [] else [LLength n]) ++ [LTail "mpc" (Z.of_nat n) (rnd 1%nat 100) None]).
Proof.
  intros CE AL [t0 [D1 D2]] I1 I2 L H.
  assert (B : b' = only_mpc (fst (to_frame o))).
  { unfold frame_of in H. cbn in H. rewrite AL in H. injection H as <- _. unfold only_mpc, to_frame. cbn [fst]. rewrite AL. reflexivity. }
  subst b'. clear H. set (n := max_len (ou_tables o)). exists n.
  assert (LN : (length c <= n)%nat).
  { unfold n, max_len. apply max_acc. apply in_map_iff. exists (k, c). split; [reflexivity|].
    apply in_concat. exists l. split; [|assumption]. apply in_map_iff. now exists (t, l). }
  split; [lia|].
  assert (TC : total_costs (fst (to_frame o)) = Ok (map cell_of xs ++ repeat ENan (S (n - length xs - 1)))).
  { unfold total_costs, dfind. cbn [to_frame fst ou_tables]. fold n. rewrite dget_tables, D1. cbn [option_map rbind]. rewrite dget_filled, D2. cbn [option_map]. unfold fill_up.
    rewrite map_length. do 3 f_equal. lia. }
  generalize dependent (fst (to_frame o)). intros o' TC.
  assert (LL : length (map cell_of xs ++ repeat ENan (S (n - length xs - 1))) = n) by (rewrite app_length, map_length, repeat_length; lia).
  unfold describe_benchmarks, only_mpc. cbn [rbind be_outputs rmapM snd]. rewrite TC. cbn [rbind rmap].
  rewrite LL. cbn [forallb]. rewrite Nat.eqb_refl. cbn [andb negb check_split rbind].
  unfold lines_of. cbn [be_has_mpc be_mpc be_has_rbc be_rbc be_has_saa be_saa andb str_in existsb possible_benchmarks String.eqb Ascii.eqb Bool.eqb orb costs_of].
  rewrite TC. cbn [rbind]. unfold tail_line. cbn [nmul nsub n1 nofZ Q_ops]. rewrite (ceil_zero ceil _ CE) by ring. rewrite slice_from. cbn [cut_at Z.ltb Z.compare Z.to_nat skipn].
  rewrite (rounded_nan rnd). cbn [rbind app]. now rewrite Z.sub_0_r.
Qed.
Print Assumptions C78_frame_refuted.

(** In binary64 the number of steps may be one less than the ratio makes up. *)
Theorem C77_ratio_binary64_refuted : exists r : b64, 11 <= 25 * value r <= 25 /\
  exists p c, describe_benchmarks (T := b64) (fun x => Qceiling (value x)) (fun _ x => x) true (Some r) None None
    (only_mpc (mkOutput "mpc" [("cost", [("total_cost", repeat (ECell (CNum n1)) 25)])]))
  = Ok [LLength 25; LTail "mpc" 10 p c].
Proof. exists (nfrac 11 25). split; [split; vm_compute; discriminate|]. do 2 eexists. vm_compute. reflexivity. Qed.
Print Assumptions C77_ratio_binary64_refuted.

(** *** Examples *)

Lemma ceils_Qceiling : ceils Qceiling.
Proof. intros x. split; [apply Qle_ceiling|apply Qceiling_lt]. Qed.
(** To the nearest hundredth, and so on *)
Definition nearest (digits : nat) (x : Q) : Q :=
  let k := inject_Z (Z.pow 10 (Z.of_nat digits)) in Qred (inject_Z (Qfloor (x * k + (1 # 2))) / k).

(** A run of the predictive control and one of the sample average approximation, with one
    sample that predicts everything *)
Definition one_sample : list (sample Q) := [mkSample nm_load nm_pv [1; 1; 0; 1; 1]].
Definition both_calls (ss : list (sample Q)) : list bench_call :=
  [BMpc (any_answers mp_plans) None; BSaa (any_answers mp_plans) (Ok ss) None 0].
Definition both_run (cs : list bench_call) : nonmod Q * bench Q := bench_after Qfloor by_sorting cs (full_grid, new_bench).
Example C77_example :
  floors Qfloor /\ partitions by_sorting /\ ceils Qceiling /\ assigns_all (any_answers mp_plans)
  /\ (let s := both_run (both_calls one_sample) in
      in_order (snd s) /\ fst s = full_reset
      /\ describe_benchmarks Qceiling nearest false None None None (snd s)
         = Ok [LLength 3; LTail "mpc" 3 100 (Some (2413 # 100)); LTail "saa" 3 100 (Some (2413 # 100))]
      /\ describe_benchmarks Qceiling nearest true (Some (2 # 3)) None (Some ["mpc"]) (snd s)
         = Ok [LLength 3; LTail "mpc" 2 (667 # 10) (Some (1119 # 50))]
      /\ describe_benchmarks Qceiling nearest true None (Some (-1)%Z) (Some ["saa"; "mpc"]) (snd s)
         = Ok [LLength 3; LTest "mpc" (Some (1109 # 50)); LTrain "mpc" (Some (39 # 20)); LTest "saa" (Some (1109 # 50)); LTrain "saa" (Some (39 # 20))]
      /\ raises ValueError (describe_benchmarks Qceiling nearest true None (Some 4%Z) None (snd s)))
  /\ (* samples of four of the five rows *)
     raises ValueError (describe_benchmarks Qceiling nearest false None None None (snd (both_run (both_calls [mkSample [10; 20; 30; 40] [5; 50; 0; 10] [1; 1; 0; 1]]))))
  /\ (* after a split *)
     raises ValueError (describe_benchmarks Qceiling nearest false None None (Some ["mpc"])
       (snd (both_run (BGrid (HSplit 4 false) :: both_calls one_sample))))
  /\ (* after a frame was made *)
     describe_benchmarks Qceiling nearest false None None None (snd (both_run [BMpc (any_answers mp_plans) None; BFrame "mpc"]))
     = Ok [LLength 4; LTail "mpc" 4 100 None].
Proof.
  split; [exact floors_Qfloor|]. split; [exact partitions_sorting|]. split; [exact ceils_Qceiling|]. split; [apply any_assigns|].
  split.
  { cbv zeta. split; [exact (proj1 (C77_in_order Qfloor by_sorting full_grid (both_calls one_sample)))|].
    do 4 (split; [vm_compute; reflexivity|]). vm_compute. eexists. split; reflexivity. }
  split; [vm_compute; eexists; split; reflexivity|]. split; [vm_compute; eexists; split; reflexivity|]. vm_compute. reflexivity.
Qed.

Example C78_example :
  let t x : table (T := Q) := [("a", [cell_of x])] in
  (exists o, new_output (Some ["cost"; "action"; "status"; "production"; "co2"; "extra"]) (Some [t 1; t 2; t 3; t 4; t 5; t 6]) (Some "mpc") = Ok o
     /\ dget "status" (ou_tables o) = Some (t 3) /\ dget "extra" (ou_tables o) = Some (t 6) /\ ou_alg o = "mpc")
  /\ output_eq (mkOutput "mpc" [("cost", [("a", [cell_of 1]); ("b", [ECell CNone; ENan])])])
               (mkOutput "saa" [("cost", [("b", [ECell CNone; ENan]); ("a", [cell_of (2 # 2)])]); ("co2", [])]) = Ok true
  /\ output_eq (with_cost [1; 2]) (with_cost [1; 2; 3]) = Ok false
  /\ to_frame (mkOutput "mpc" [("status", [("pv", [cell_of 1; cell_of 2])]); ("cost", [("total_cost", [cell_of 3])])])
     = (mkOutput "mpc" [("status", [("pv", [cell_of 1; cell_of 2])]); ("cost", [("total_cost", [cell_of 3; ENan])])],
        Ok [(("status", "pv"), [cell_of 1; cell_of 2]); (("cost", "total_cost"), [cell_of 3; ENan])]).
Proof. cbv zeta. split; [eexists; split; [reflexivity|repeat split]|]. repeat split. Qed.
