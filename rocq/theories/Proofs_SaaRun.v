(** * Whole runs of the sample average approximation *)

From Coq Require Import ZArith QArith Qabs Qminmax Bool String List Lia Lqa Permutation.
From Verif Require Import Num Py Spec_Module Proofs_Num Proofs_Run Proofs_Data NonModular Spec_NonModular Proofs_NonModular Proofs_NmRun
  Proofs_NmHistory Proofs_NmEpisode Proofs_NmTotal Proofs_NmRecord Proofs_NmProgress
  NmRbc Spec_NmRbc Spec_NmRbcRun Proofs_NmRbcRun Proofs_NmRbcServe
  MPC NmMpc Spec_MPC Proofs_Mpc Spec_NmMpc Proofs_NmMpc Proofs_NmMpcRun Saa Spec_Saa Proofs_Saa.
Import ListNotations.
Local Open Scope string_scope.
Local Open Scope list_scope.
Local Open Scope Q_scope.

(** ** Monadic shapes *)

Lemma outputs_ok (a : saa Q) solve g st j : forall ss k ss1 os, sample_outputs a solve g st j k ss = (ss1, Ok os) ->
  length os = length ss /\ length ss1 = length ss
  /\ forall m s, nth_error ss m = Some s -> exists s1 o, overwrite (sa_data a) j s = Ok s1 /\ nth_error ss1 m = Some s1 /\ nth_error os m = Some o
       /\ mpc_single_step (sa_mpc a) solve (k + m) g s1 st j = Ok o.
Proof.
  induction ss as [|s ss IH]; intros k ss1 os H; cbn in H.
  - injection H as <- <-. split; [reflexivity|]. split; [reflexivity|]. intros [|m] s H; discriminate.
  - destruct (overwrite (sa_data a) j s) as [s1|e] eqn:OW; [|discriminate].
    destruct (mpc_single_step (sa_mpc a) solve k g s1 st j) as [o|e] eqn:SI; [|discriminate].
    destruct (sample_outputs a solve g st j (S k) ss) as [ss2 r] eqn:R. destruct r as [os2|e]; [|discriminate].
    cbn in H. injection H as <- <-. destruct (IH _ _ _ R) as (L1 & L2 & IN). cbn. split; [congruence|]. split; [congruence|].
    intros [|m] s' NS; cbn in NS.
    + injection NS as ->. exists s1, o. rewrite Nat.add_0_r. auto.
    + destruct (IN m s' NS) as (s1' & o' & X1 & X2 & X3 & X4). exists s1', o'. replace (k + S m)%nat with (S k + m)%nat by lia. auto.
Qed.
Lemma outputs_total (a : saa Q) solve g st j (P : nat -> horizon_output Q -> Prop) : forall ss k,
  (forall m s, nth_error ss m = Some s -> exists s1 o, overwrite (sa_data a) j s = Ok s1 /\ mpc_single_step (sa_mpc a) solve (k + m) g s1 st j = Ok o /\ P m o) ->
  exists ss1 os, sample_outputs a solve g st j k ss = (ss1, Ok os) /\ forall m o, nth_error os m = Some o -> P m o.
Proof.
  intros ss. revert P. induction ss as [|s ss IH]; intros P k H; cbn.
  - do 2 eexists. split; [reflexivity|]. intros [|m] o NO; discriminate.
  - destruct (H O s eq_refl) as (s1 & o & -> & SI & PO). rewrite Nat.add_0_r in SI. rewrite SI.
    destruct (IH (fun m => P (S m)) (S k)) as (ss1 & os & -> & PS).
    { intros m s' NS. destruct (H (S m) s' NS) as (s1' & o' & X1 & X2 & X3). exists s1', o'. replace (S k + m)%nat with (k + S m)%nat by lia. auto. }
    cbn. do 2 eexists. split; [reflexivity|]. intros [|m] o' NO; cbn in NO; [injection NO as <-; exact PO|exact (PS m o' NO)].
Qed.

Section Steps.
  Variables (fl : Q -> Z) (part : list (horizon_output Q) -> nat -> list (horizon_output Q)) (a : saa Q) (solve : solver Q) (g : nonmod Q) (p : Q).

  Lemma saa_trace m : forall i r ss ss' r', saa_steps fl part a solve g p i m r ss = (ss', Ok r') ->
    exists (rs : nat -> copies Q) (sss : nat -> list (sample Q)), rs O = r /\ rs m = r' /\ sss O = ss /\ sss m = ss'
      /\ forall k, (k < m)%nat -> saa_step fl part a solve g p (i + k) (rs k) (sss k) = (sss (S k), Ok (rs (S k))).
  Proof.
    induction m as [|m IH]; intros i r ss ss' r' H; cbn in H.
    - injection H as <- <-. exists (fun _ => r), (fun _ => ss). do 4 (split; [reflexivity|]). intros k K. lia.
    - unfold mbind in H. destruct (saa_step fl part a solve g p i r ss) as [ss1 [r1|e]] eqn:ST; [|discriminate].
      destruct (IH _ _ _ _ _ H) as (rs & sss & R0 & RM & S0 & SM & RS).
      exists (fun k => match k with O => r | S k' => rs k' end), (fun k => match k with O => ss | S k' => sss k' end).
      split; [reflexivity|]. split; [exact RM|]. split; [reflexivity|]. split; [exact SM|]. intros [|k] K.
      + rewrite Nat.add_0_r, R0, S0. exact ST.
      + replace (i + S k)%nat with (S i + k)%nat by lia. apply RS. lia.
  Qed.
  Lemma saa_snoc m : forall i r ss, saa_steps fl part a solve g p i (S m) r ss
    = mbind (saa_steps fl part a solve g p i m r) (saa_step fl part a solve g p (i + m)) ss.
  Proof.
    induction m as [|m IH]; intros i r ss.
    - cbn. unfold mbind, mret. rewrite Nat.add_0_r. destruct (saa_step fl part a solve g p i r ss) as [ss1 [r1|e]]; reflexivity.
    - change (saa_steps fl part a solve g p i (S (S m)) r ss)
        with (mbind (saa_step fl part a solve g p i r) (saa_steps fl part a solve g p (S i) (S m)) ss).
      change (saa_steps fl part a solve g p i (S m) r)
        with (mbind (saa_step fl part a solve g p i r) (saa_steps fl part a solve g p (S i) m)).
      unfold mbind at 1 2 3. destruct (saa_step fl part a solve g p i r ss) as [ss1 [r1|e]]; [|reflexivity].
      rewrite IH. unfold mbind. replace (S i + m)%nat with (i + S m)%nat by lia. reflexivity.
  Qed.
  Lemma saa_prefix (rs : nat -> copies Q) (sss : nat -> list (sample Q)) m :
    (forall k, (k < m)%nat -> saa_step fl part a solve g p k (rs k) (sss k) = (sss (S k), Ok (rs (S k)))) ->
    forall k, (k <= m)%nat -> saa_steps fl part a solve g p 0 k (rs O) (sss O) = (sss k, Ok (rs k)).
  Proof.
    intros RS. induction k as [|k IH]; intros K; [reflexivity|]. rewrite saa_snoc. unfold mbind. rewrite IH by lia. apply RS. lia.
  Qed.
End Steps.

(** ** The number of steps *)

Lemma fold_min (l : list nat) : forall x, (fold_left Nat.min l x <= x)%nat /\ (forall y, In y l -> (fold_left Nat.min l x <= y)%nat)
  /\ (fold_left Nat.min l x = x \/ In (fold_left Nat.min l x) l).
Proof.
  induction l as [|y l IH]; intros x; cbn; [split; [lia|split; [intros ? []|auto]]|]. destruct (IH (Nat.min x y)) as (A & B & C). split; [lia|]. split.
  - intros z [->|I]; [lia|]. exact (B z I).
  - destruct C as [C|C]; [|auto]. destruct (Nat.min_spec x y) as [(_ & E)|(_ & E)]; rewrite E in *; auto.
Qed.
Lemma num_iter_ok (g : nonmod Q) ss steps : ss <> [] -> exists rows, shortest ss rows
  /\ saa_num_iter g ss steps = match steps with
       | None => Ok (Z.to_nat (Z.of_nat rows - nm_horizon g))
       | Some n => if (Z.of_nat rows - nm_horizon g <? n)%Z then raise ValueError "forecast steps must be less than length of samples minus horizon"
                   else Ok (Z.to_nat n)
       end.
Proof.
  destruct ss as [|s ss]; [congruence|]. intros _. cbn.
  destruct (fold_min (map (fun s => length (sm_load s)) ss) (length (sm_load s))) as (A & B & C).
  set (rows := fold_left Nat.min (map (fun s => length (sm_load s)) ss) (length (sm_load s))) in *.
  exists rows. split; [|reflexivity]. split.
  - destruct C as [C|C]; [exists s; cbn; auto|]. apply in_map_iff in C. destruct C as (s' & E & I). exists s'. cbn. auto.
  - intros s' [<-|I]; [exact A|]. apply B. apply in_map_iff. eauto.
Qed.
Lemma shortest_unique ss n m : shortest ss n -> shortest ss m -> n = m.
Proof.
  intros ((s & I & E) & A) ((s' & I' & E') & A'). pose proof (A _ I'). pose proof (A' _ I). lia.
Qed.

(** ** Runs *)

Section Run.
  Variables (fl : Q -> Z) (part : list (horizon_output Q) -> nat -> list (horizon_output Q)) (a : saa Q) (solve : solver Q) (g : nonmod Q) (p : Q)
    (ss : list (sample Q)) (rows : nat).
  Hypothesis FL : floors fl.
  Hypothesis PA : partitions part.
  Hypothesis E : equipped g.
  Hypothesis AL : aligned g.
  Hypothesis HB : has_battery (nm_arch g) = true.
  Hypothesis SF : saa_for a g.
  Hypothesis FS : Forall (fits g) ss.
  Hypothesis SH : shortest ss rows.

  Let c := sa_mpc a.
  Lemma sr_made : made_for c g.
  Proof. apply saa_shape. exact SF. Qed.
  Lemma sr_data : sa_data a = underlying_data g.
  Proof. apply saa_shape. exact SF. Qed.
  Lemma sr_horizon : (0 < nm_horizon g)%Z.
  Proof. destruct (made_shape _ _ sr_made) as (q & _ & _ & H). exact H. Qed.
  Lemma sr_nonempty : ss <> [].
  Proof. destruct SH as ((s & I & _) & _). intros ->. exact I. Qed.
  Lemma sr_all_rows : (rows <= all_rows g)%nat.
  Proof. destruct SH as ((s & I & <-) & _). rewrite Forall_forall in FS. apply FS. exact I. Qed.
  Lemma sr_late k : (S k < all_rows g)%nat -> exists n x, rows_late g k n x.
  Proof.
    intros K. destruct (rows_exist g k AL K) as (n & x & R).
    exists n, (mkNext (CNum (now_load n)) (CNum (now_pv n)) (CNum (now_status n)) (nx_import x) (nx_export x) (nx_co2 x)).
    destruct R as [R1 R2 R3 R4 R5]. constructor; cbn; try assumption; try reflexivity.
    destruct (has_grid (nm_arch g)).
    - destruct R5 as (A1 & A2 & A3 & A4 & _ & A5 & A6 & A7). auto 10.
    - destruct R5 as (A1 & A2 & A3 & A4 & A5 & A6 & A7 & A8). rewrite A1. auto 10.
  Qed.
  Lemma late_prices k n x : rows_late g k n x -> prices_at g k n x.
  Proof.
    intros [R1 R2 R3 R4 R5]. unfold prices_at. destruct (has_grid (nm_arch g)); [|apply R5].
    destruct R5 as (A1 & A2 & A3 & A4 & _ & A5 & A6 & A7). auto 10.
  Qed.

  (** The samples after [k] steps *)
  Definition samples_at (k : nat) (ss' : list (sample Q)) : Prop := Forall2 (known_upto g k) ss ss'.
  Lemma samples_nth k ss' m s' : samples_at k ss' -> nth_error ss' m = Some s' -> exists s, nth_error ss m = Some s /\ known_upto g k s s'.
  Proof.
    unfold samples_at. clear FS SH. intros F. revert m. induction F as [|x y l l' K F IH]; intros [|m] M; cbn in *; try discriminate; [injection M as <-; eauto|exact (IH m M)].
  Qed.
  Lemma forall2_nth {A B} (R : A -> B -> Prop) (l : list A) : forall (l' : list B), length l = length l' ->
    (forall m x y, nth_error l m = Some x -> nth_error l' m = Some y -> R x y) -> Forall2 R l l'.
  Proof.
    induction l as [|x l IH]; intros [|y l'] L H; cbn in L; try discriminate; constructor.
    - exact (H O x y eq_refl eq_refl).
    - apply IH; [congruence|]. intros m a' b X Y. exact (H (S m) a' b X Y).
  Qed.
  Lemma sample_long s : In s ss -> fits g s /\ (rows <= length (sm_load s))%nat.
  Proof. intros I. destruct SH as (_ & A). rewrite Forall_forall in FS. split; [apply FS|apply A]; exact I. Qed.

  (** Row [k] of the samples is the actual one when the programs of row [k] are posed. *)
  Lemma known_row k s s' n x : known_upto g (S k) s s' -> rows_late g k n x ->
    nth_error (sm_load s') k = Some (now_load n) /\ nth_error (sm_pv s') k = Some (now_pv n).
  Proof. intros [_ KP _] [R1 R2 _ _ _]. destruct (KP k ltac:(lia)) as (-> & -> & _). auto. Qed.

  Lemma saa_step_votes k r r' ssk ssk' : assigns_all solve -> (forall n x, equipped (at_row g r n x)) -> samples_at k ssk ->
    (Z.of_nat k < Z.of_nat rows - nm_horizon g)%Z -> saa_step fl part a solve g p k r ssk = (ssk', Ok r') ->
    samples_at (S k) ssk' /\ votes solve g p k ssk' r r' /\ forall n x, equipped (at_row g r' n x).
  Proof.
    intros AA EK SK K H. pose proof sr_horizon as HH. pose proof sr_all_rows as RR. destruct (sr_late k ltac:(lia)) as (n & x & RL).
    unfold saa_step in H. destruct (sample_outputs a solve g (cp_state r) k (k * length ssk) ssk) as [ss1 os] eqn:SO.
    injection H as <- H. apply rbind_ok in H. destruct H as (os' & -> & H). apply rbind_ok in H. destruct H as (o & CH & H).
    destruct (outputs_ok _ _ _ _ _ _ _ _ _ SO) as (L1 & L2 & IN). rewrite sr_data in *.
    assert (L3 : length ss = length ssk) by (clear -SK; unfold samples_at in SK; induction SK; cbn; congruence).
    assert (KN : forall m s, nth_error ss m = Some s -> exists sk s1 o', nth_error ssk m = Some sk /\ nth_error ss1 m = Some s1 /\ nth_error os' m = Some o'
       /\ known_upto g (S k) s s1 /\ fits g s1 /\ (rows <= length (sm_load s1))%nat
       /\ mpc_single_step c solve (k * length ssk + m) g s1 (cp_state r) k = Ok o').
    { intros m s M. assert (LM : (m < length ss)%nat) by (apply nth_error_Some; congruence).
      destruct (nth_some ssk m ltac:(lia)) as (sk & MK). destruct (samples_nth _ _ _ _ SK MK) as (s2 & M2 & KU). assert (s2 = s) by congruence. subst s2.
      destruct (sample_long s (nth_error_In _ _ M)) as (F1 & F2).
      destruct (IN m sk MK) as (s1 & o' & OW & N1 & N2 & SI).
      destruct (overwrite_known g k sk s AL F1 KU ltac:(lia)) as (s1' & OW' & KU'). rewrite OW in OW'. injection OW' as <-.
      exists sk, s1, o'. split; [exact MK|]. split; [exact N1|]. split; [exact N2|]. split; [exact KU'|]. split; [exact (fits_known _ _ _ _ F1 KU')|].
      split; [destruct (kn_size _ _ _ _ KU') as (-> & _); exact F2|exact SI]. }
    assert (SA : samples_at (S k) ss1).
    { apply forall2_nth; [congruence|]. intros m s s1 M M1. destruct (KN m s M) as (_ & s1' & _ & _ & M1' & _ & KU & _). congruence. }
    split; [exact SA|].
    assert (PR : forall m s1 o', nth_error ss1 m = Some s1 -> nth_error os' m = Some o' -> exists st rest,
       ho_step o' = Z.of_nat k /\ ho_first o' = decided_by (has_genset (nm_arch g)) n st
       /\ proposes solve g k (k * length ss1 + m) r s1 (st :: rest) (ho_cost o')).
    { intros m s1 o' M1 MO. destruct (samples_nth _ _ _ _ SA M1) as (s & M & _).
      destruct (KN m s M) as (sk & s1' & o2 & MK & M1' & MO' & KU & F1 & F2 & SI). assert (s1' = s1) by congruence. assert (o2 = o') by congruence. subst.
      destruct (known_row k s s1 n x KU RL) as (D1 & D2). rewrite L2.
      exact (single_step c solve g s1 HB AL sr_made F1 k _ r n x o' AA (EK n x) ltac:(lia) D1 D2 SI). }
    destruct (choice_ok fl part FL PA os' p o CH) as (rank & PO & IO & RK).
    apply In_nth_error in IO. destruct IO as (m & MO). assert (LM : (m < length os')%nat) by (apply nth_error_Some; congruence).
    destruct (nth_some ss1 m ltac:(lia)) as (s1 & M1). destruct (PR m s1 o M1 MO) as (st & rest & O1 & O2 & O3).
    rewrite O1, O2 in H.
    destruct (data_row g k AL ltac:(lia)) as (l & v & y & D1 & D2 & D3 & D4 & D5 & D6).
    unfold row_at in H. rewrite D4, D5, D6 in H. cbn [rbind] in H.
    assert (NL : nx_load x = CNum l) by (rewrite (rl_next_load _ _ _ _ RL); rewrite (rl_load _ _ _ _ RL) in D1; congruence).
    assert (NV : nx_pv x = CNum v) by (rewrite (rl_next_pv _ _ _ _ RL); rewrite (rl_pv _ _ _ _ RL) in D2; congruence).
    assert (NS : has_grid (nm_arch g) = true -> exists y', Ok y = Ok y' /\ nx_status x = CNum y').
    { intros HG. exists y. split; [reflexivity|]. pose proof (rl_grid _ _ _ _ RL) as G. unfold status_at in D3. rewrite HG in *.
      destruct G as (G1 & _ & _ & _ & G2 & _). congruence. }
    apply (record_step_iff g k r r' _ n x _ _ _ (late_prices _ _ _ RL) NL NV NS (decided_set _ _ _)) in H.
    destruct H as (pp & co & oo & sta & prod & NO & ->).
    assert (PN : forall key, In key (control_names (nm_arch g)) -> present key (decided_by (has_genset (nm_arch g)) n st)) by (intros key I; exact (decided_names g HB n st key I)).
    destruct (noted_carried g r _ n x pp co oo sta prod (EK n x) PN NO) as (out & CA).
    destruct (noted_kept g r _ n x pp co oo sta prod (EK n x) PN NO) as (E' & LO).
    split; [|intros n' x'; eapply equipped_row; exact E'].
    (* the plans, one for each output *)
    assert (PL : exists plans, length plans = length ss1 /\ nth_error plans m = Some (st :: rest)
       /\ forall i s plan cost, nth_error ss1 i = Some s -> nth_error plans i = Some plan -> nth_error (map ho_cost os') i = Some cost ->
            proposes solve g k (k * length ss1 + i) r s plan cost).
    { assert (AC : forall l : list (horizon_output Q), forall b, (forall i o', nth_error l i = Some o' -> nth_error os' (b + i) = Some o') ->
        exists plans, length plans = length l /\ (forall i plan, nth_error plans i = Some plan -> (b + i)%nat = m -> plan = st :: rest)
          /\ forall i s plan o', nth_error ss1 (b + i) = Some s -> nth_error plans i = Some plan -> nth_error l i = Some o' ->
             proposes solve g k (k * length ss1 + (b + i)) r s plan (ho_cost o')).
      { induction l0 as [|o' l0 IH]; intros b B.
        - exists []. split; [reflexivity|]. split; [intros [|i] ? X; discriminate|]. intros [|i] ? ? ? _ X; discriminate.
        - destruct (IH (S b)) as (plans & LP & PM & PP).
          { intros i o2 NO2. replace (S b + i)%nat with (b + S i)%nat by lia. apply B. exact NO2. }
          pose proof (B O o' eq_refl) as B0. rewrite Nat.add_0_r in B0.
          assert (LB : (b < length os')%nat) by (apply nth_error_Some; congruence).
          destruct (nth_some ss1 b ltac:(lia)) as (sb & SB).
          assert (X : exists plan, proposes solve g k (k * length ss1 + b) r sb plan (ho_cost o') /\ (b = m -> plan = st :: rest)).
          { destruct (Nat.eq_dec b m) as [->|NE].
            - exists (st :: rest). split; [|reflexivity]. assert (sb = s1) by congruence. assert (o' = o) by congruence. subst. exact O3.
            - destruct (PR b sb o' SB B0) as (st' & rest' & _ & _ & X). exists (st' :: rest'). split; [exact X|contradiction]. }
          destruct X as (plan & X1 & X2). exists (plan :: plans). cbn. split; [congruence|]. split.
          + intros [|i] pl X BM; cbn in X; [injection X as <-; apply X2; lia|]. apply (PM i pl X). lia.
          + intros [|i] s pl o2 NS2 NP NO2; cbn in NP, NO2.
            * injection NP as <-. injection NO2 as <-. rewrite Nat.add_0_r in NS2 |- *. assert (s = sb) by congruence. subst. exact X1.
            * replace (b + S i)%nat with (S b + i)%nat in * by lia. exact (PP i s pl o2 NS2 NP NO2). }
      destruct (AC os' O ltac:(auto)) as (plans & LP & PM & PP). cbn [Nat.add] in *. exists plans. split; [congruence|]. split.
      - destruct (nth_some plans m ltac:(lia)) as (pl & PL). rewrite PL. rewrite (PM m pl PL eq_refl). reflexivity.
      - intros i s plan cost NS2 NP C. rewrite nth_error_map in C. destruct (nth_error os' i) as [oi|] eqn:OI; [|discriminate]. injection C as <-.
        exact (PP i s plan oi NS2 NP OI). }
    destruct PL as (plans & LP & PM & PP).
    exists plans, (map ho_cost os'), m, rank, st, rest, n, x, out. split; [exact LP|]. split; [rewrite map_length; congruence|]. split; [exact PP|].
    split; [exact PM|]. split; [rewrite L2, <- L1; exact PO|]. split; [exists (ho_cost o); split; [rewrite nth_error_map, MO; reflexivity|exact RK]|].
    split; [exact RL|]. split; [exact CA|exact LO].
  Qed.

  Lemma samples_start : samples_at 0 ss.
  Proof. unfold samples_at. clear. induction ss; constructor; [apply known_refl|assumption]. Qed.

  Lemma group_eq steps : run_mpc_on_group fl part a solve g steps p ss
    = match steps with
      | None => saa_steps fl part a solve g p 0 (Z.to_nat (Z.of_nat rows - nm_horizon g)) (copies_of g) ss
      | Some n => if (Z.of_nat rows - nm_horizon g <? n)%Z then (ss, raise ValueError "forecast steps must be less than length of samples minus horizon")
                  else saa_steps fl part a solve g p 0 (Z.to_nat n) (copies_of g) ss
      end.
  Proof.
    unfold run_mpc_on_group, mbind, mget, mlift. destruct (num_iter_ok g ss steps sr_nonempty) as (rows' & SH' & ->).
    rewrite (shortest_unique _ _ _ SH' SH). destruct steps as [n|]; [|reflexivity]. destruct (_ <? n)%Z; reflexivity.
  Qed.
  Lemma group_upto k : (Z.of_nat k <= Z.of_nat rows - nm_horizon g)%Z ->
    run_mpc_on_group fl part a solve g (Some (Z.of_nat k)) p ss = saa_steps fl part a solve g p 0 k (copies_of g) ss.
  Proof. intros K. rewrite group_eq. destruct (Z.ltb_spec (Z.of_nat rows - nm_horizon g) (Z.of_nat k)); [lia|]. rewrite Nat2Z.id. reflexivity. Qed.

  Lemma group_trace steps ss' r : assigns_all solve -> run_mpc_on_group fl part a solve g steps p ss = (ss', Ok r) ->
    (Z.of_nat (saa_count g rows steps) <= Z.max 0 (Z.of_nat rows - nm_horizon g))%Z
    /\ exists (rs : nat -> copies Q) (sss : nat -> list (sample Q)), rs O = copies_of g /\ rs (saa_count g rows steps) = r
      /\ sss O = ss /\ sss (saa_count g rows steps) = ss'
      /\ (forall k, (k < saa_count g rows steps)%nat -> saa_step fl part a solve g p k (rs k) (sss k) = (sss (S k), Ok (rs (S k))))
      /\ (forall k, (k < saa_count g rows steps)%nat -> votes solve g p k (sss (S k)) (rs k) (rs (S k)))
      /\ forall k, (k <= saa_count g rows steps)%nat -> (forall n x, equipped (at_row g (rs k) n x)) /\ samples_at k (sss k)
           /\ all_longer k (copies_of g) (rs k).
  Proof.
    intros AA H. set (m := saa_count g rows steps).
    assert (X : saa_steps fl part a solve g p 0 m (copies_of g) ss = (ss', Ok r) /\ (Z.of_nat m <= Z.max 0 (Z.of_nat rows - nm_horizon g))%Z).
    { rewrite group_eq in H. unfold m, saa_count. destruct steps as [n|].
      - destruct (Z.ltb_spec (Z.of_nat rows - nm_horizon g) n); [discriminate|]. split; [exact H|lia].
      - split; [exact H|lia]. }
    clear H. destruct X as (H & LM). split; [exact LM|].
    destruct (saa_trace _ _ _ _ _ _ _ _ _ _ _ _ H) as (rs & sss & R0 & RM & S0 & SM & ST). exists rs, sss.
    split; [exact R0|]. split; [exact RM|]. split; [exact S0|]. split; [exact SM|]. split; [exact ST|].
    assert (KEPT : forall k, (k <= m)%nat -> (forall n x, equipped (at_row g (rs k) n x)) /\ samples_at k (sss k) /\ all_longer k (copies_of g) (rs k)).
    { induction k as [|k IH]; intros K.
      - rewrite R0, S0. split; [apply equipped_start; exact E|]. split; [exact samples_start|]. unfold all_longer. do 4 (split; [apply longer_refl|]). apply longer_refl.
      - destruct (IH ltac:(lia)) as (EK & SK & LK).
        destruct (saa_step_votes k _ _ _ _ AA EK SK ltac:(lia) (ST k ltac:(lia))) as (SK' & VO & EK'). split; [exact EK'|]. split; [exact SK'|].
        destruct VO as (plans & costs & m' & rank & st & rest & n & x & o & _ & _ & _ & _ & _ & _ & _ & _ & LO).
        destruct LK as (M1 & M2 & M3 & M4 & M5). destruct LO as (L1 & L2 & L3 & L4 & L5).
        assert (T := fun r1 r2 r3 A B => eq_ind _ (fun z => longer z r1 r3) (longer_trans k 1 r1 r2 r3 A B) _ (Nat.add_1_r k)).
        split; [|split; [|split; [|split]]]; eapply T; eassumption. }
    split; [|exact KEPT]. intros k K. destruct (KEPT k ltac:(lia)) as (EK & SK & _).
    exact (proj1 (proj2 (saa_step_votes k _ _ _ _ AA EK SK ltac:(lia) (ST k K)))).
  Qed.
End Run.
