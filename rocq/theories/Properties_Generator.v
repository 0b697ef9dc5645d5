(** * Randomly generated microgrids *)

From Coq Require Import ZArith QArith Qminmax Lqa Lia Bool String List Permutation.
From Verif Require Import Num Py Spec_Module Module Microgrid NonModular Conversion Generator Proofs_Num Proofs_Ts Spec_NonModular Spec_Generator
  Proofs_NonModular Proofs_NmEpisode Proofs_NmTotal Spec_Conversion NmRbc Spec_NmRbc Spec_NmRbcRun Proofs_NmRbc Proofs_NmRbcRun Proofs_NmRbcServe
  Properties_Conversion Properties_NmRbc Properties_NmRbcRun Proofs_Generator Proofs_Generator2 Proofs_Generator3 Proofs_Generator4 Proofs_Generator5 Proofs_Generator6.
Import ListNotations.
Local Open Scope string_scope.
Local Open Scope list_scope.
Local Open Scope Q_scope.
Opaque hours_per_year.

(** ** C83: every microgrid is created, sized by its load and ready to be run *)

Section C83.
  Variables (ceil trunc : Q -> Z) (around : Z -> Q -> Q) (fs : folders Q) (d : draws Q).
  Hypothesis CE : ceils ceil.
  Hypothesis TR : truncates trunc.
  Hypothesis US : usable fs.
  Hypothesis DR : drawn fs d.

  (** Whatever is drawn, there is a microgrid, and it has the promised sizes. *)
  Theorem C83_created : exists g, create_microgrid ceil trunc around fs d = Ok g.
  Proof.
    destruct (created ceil trunc around CE TR fs d US DR) as (sp & g & ES & _ & NG & _). exists g.
    unfold create_microgrid. rewrite ES. exact NG.
  Qed.
  Theorem C83_sized g : create_microgrid ceil trunc around fs d = Ok g -> sized fs d g.
  Proof.
    destruct (created ceil trunc around CE TR fs d US DR) as (sp & g' & ES & _ & NG & SZ & _). intros E.
    unfold create_microgrid in E. rewrite ES in E. cbn [rbind] in E. rewrite NG in E. injection E as <-. exact SZ.
  Qed.
  (** It has everything that the theorems about non-modular microgrids ask for: the parameters
      and columns of its components, and grid data for all its rows. *)
  Theorem C83_ready g : create_microgrid ceil trunc around fs d = Ok g ->
    (exists sp h, wired sp /\ new_nonmodular sp h = Ok g) /\ aligned g /\ sensible_parameters g.
  Proof.
    destruct (created ceil trunc around CE TR fs d US DR) as (sp & g' & ES & W & NG & SZ & _ & AL & _). intros E.
    unfold create_microgrid in E. rewrite ES in E. cbn [rbind] in E. rewrite NG in E. injection E as <-.
    split; [exists sp, 24%Z; auto|]. split; [exact AL|]. exact (generated_sensible fs d g' US DR SZ).
  Qed.
  (** Its table of states starts with the first hour. *)
  Theorem C83_starts g : create_microgrid ceil trunc around fs d = Ok g -> starts around g.
  Proof. exact (created_starts ceil trunc around fs d g). Qed.
  (** *** C84: the grid of a generated microgrid *)
  Theorem C84_grid g : create_microgrid ceil trunc around fs d = Ok g -> has_grid (nm_arch g) = true -> connected fs d g.
  Proof.
    destruct (created ceil trunc around CE TR fs d US DR) as (sp & g' & ES & W & NG & SZ & CN & _). intros E.
    unfold create_microgrid in E. rewrite ES in E. cbn [rbind] in E. rewrite NG in E. injection E as <-. exact CN.
  Qed.
  (** A weak grid may never fail: the rate of outages is normally distributed and negative
      more than a third of the time. *)
  Theorem C84_no_outages g : create_microgrid ceil trunc around fs d = Ok g -> has_grid (nm_arch g) = true ->
    dr_outage d <= - (1 # 3) -> Forall (fun s => s = 1) (nm_status_ts g).
  Proof.
    intros E HG N. destruct (C84_grid g E HG) as [_ ST _ _ _]. apply Forall_forall. intros s I. apply In_nth_error in I. destruct I as (i & I).
    destruct (ST i s I) as ([S0|S1] & O); [|exact S1]. exfalso. apply O in S0. destruct S0 as (_ & X).
    assert (NS : forall k, ~ struck (dr_outage d * (3 # 4) + (1 # 4)) (dr_uniform d) k).
    { intros k (u & U & LT). destruct (wn_uniform _ _ DR) as (_ & F). rewrite Forall_forall in F. destruct (F u (nth_error_In _ _ U)) as (U0 & _).
      assert (dr_outage d * (3 # 4) + (1 # 4) <= 0) by lra.
      assert ((dr_outage d * (3 # 4) + (1 # 4)) / 24 <= 0) by (apply Qle_shift_div_r; [reflexivity|lra]). lra. }
    destruct X as [X|(_ & j & _ & X)]; exact (NS _ X).
  Qed.
  (** An hour that is struck ends an outage of [duration] hours, unless the year has just begun or
      another one follows. *)
  Theorem C84_lasts g i : create_microgrid ceil trunc around fs d = Ok g -> has_grid (nm_arch g) = true -> dr_weak d = 1%Z ->
    struck (dr_outage d * (3 # 4) + (1 # 4)) (dr_uniform d) i ->
    forall k, (0 < k <= i)%nat -> (i < k + Z.to_nat (dr_duration d))%nat -> (i < 24 * 365)%nat -> nth_error (nm_status_ts g) k = Some 0.
  Proof.
    intros E HG W S k K1 K2 I. destruct (C84_grid g E HG) as [LE ST _ _ _]. rewrite Forall_forall in LE.
    destruct (nth_error (nm_status_ts g) k) as [s|] eqn:N; [|apply nth_error_None in N; rewrite (LE (nm_status_ts g)) in N by (cbn; tauto); lia].
    destruct (ST k s N) as (_ & O). f_equal. apply O. split; [exact W|]. pose proof (wn_duration _ _ DR).
    destruct (Nat.eq_dec k i) as [-> | NE]; [left; exact S|]. right. split; [lia|]. exists (i - k)%nat.
    replace (k + (i - k))%nat with i by lia. split; [lia|exact S].
  Qed.

  (** *** C86: the rule-based control on a generated microgrid *)
  (** It returns if the load is never zero. *)
  Theorem C86_runs to_int g length : converts to_int -> Forall (Forall (Qlt 0)) (fo_load fs) ->
    create_microgrid ceil trunc around fs d = Ok g -> exists r, run_rule_based to_int g length = Ok r.
  Proof.
    intros CO FP E. destruct (C83_ready g E) as ((sp & h & W & NG) & AL & SP). pose proof (C83_sized g E) as SZ.
    destruct (zd_arch _ _ _ SZ) as (HP & HB & _).
    assert (H24 : nm_horizon (nm_after [] g) = 24%Z) by exact (zd_horizon _ _ _ SZ).
    refine (C71_total to_int sp h g [] CO W NG AL (Forall_nil _) _ length HP HB SP _); [rewrite H24; lia|].
    intros i I. split; [|split].
    - intros l N. destruct (zd_load _ _ _ SZ) as (f & NF & SF & _). rewrite Forall_forall in FP. specialize (FP f (nth_error_In _ _ NF)).
      pose proof (shaped_positive _ _ SF FP) as P. rewrite Forall_forall in P. exact (P l (nth_error_In _ _ N)).
    - intros p N. pose proof (pv_signs fs d g US SZ) as P. rewrite Forall_forall in P. exact (P p (nth_error_In _ _ N)).
    - intros HG s N. destruct (C84_grid g E HG) as [_ ST _ _ _]. destruct (ST i s N) as ([-> | ->] & _); [left|right]; reflexivity.
  Qed.
  (** In every step all of the load is met and nothing is produced in vain, except when the grid
      fails or there is none and what PV and battery leave is not more than the smallest power
      of the genset. *)
  Theorem C86_served to_int g length r : converts to_int -> create_microgrid ceil trunc around fs d = Ok g ->
    run_rule_based to_int g length = Ok r ->
    let upto k := run_rule_based to_int g (Some (Z.of_nat k + nm_horizon g)%Z) in
    upto (rb_count g length) = Ok r
    /\ forall k, (k < rb_count g length)%nat -> exists r1 r2 n x c o soc room,
      upto k = Ok r1 /\ upto (S k) = Ok r2 /\ all_longer 1 r1 r2 /\ rows g k n x
      /\ rb_control to_int g (Z.of_nat k) (cp_state r1) = Ok c /\ carried g c n x r1 r2 o
      /\ latest (cp_state r1) "battery_soc" (CNum soc) /\ discharge_limit g soc room
      /\ (oc_loss o == 0 /\ oc_over o == 0
          \/ has_genset (nm_arch g) = true /\ (has_grid (nm_arch g) = true -> now_status n = 0)
             /\ exists least, least_power g least /\ 0 < now_load n - now_pv n - room /\ now_load n - now_pv n - room <= least).
  Proof.
    intros CO E H upto. destruct (C83_ready g E) as ((sp & h & W & NG) & AL & SP). pose proof (C83_sized g E) as SZ.
    destruct (zd_arch _ _ _ SZ) as (HP & HB & _). pose proof (zd_horizon _ _ _ SZ) as H24.
    assert (EQ : equipped g) by exact (equipped_new _ _ _ W NG).
    assert (CK : clock_ok g) by (apply (clock_new _ _ _ NG); exact (proj1 AL)).
    destruct (run_trace to_int g EQ AL length r CK ltac:(lia) H) as (rs & R0 & RM & RS & RK).
    pose proof (run_prefix to_int g length rs R0 (fun k K => proj1 (RS k K))) as UP.
    split; [rewrite <- RM; apply UP; lia|]. intros k K. destruct (RS k K) as (ST & n & x & c & o & R & C & CA).
    destruct (RK k ltac:(lia)) as (EK & _).
    assert (LD : 0 <= now_load n).
    { destruct (load_signs fs d g US DR SZ) as (P & _). rewrite Forall_forall in P. exact (P _ (nth_error_In _ _ (ro_load _ _ _ _ R))). }
    assert (PV : 0 <= now_pv n).
    { pose proof (pv_signs fs d g US SZ) as P. rewrite Forall_forall in P. exact (P _ (nth_error_In _ _ (ro_pv _ _ _ _ R))). }
    assert (S01 : has_grid (nm_arch g) = true -> now_status n = 0 \/ now_status n = 1).
    { intros HG. destruct (C84_grid g E HG) as [_ X _ _ _]. pose proof (ro_grid _ _ _ _ R) as G. rewrite HG in G. destruct G as (G & _). exact (proj1 (X _ _ G)). }
    destruct (row_situation g k (rs k) n x HP HB R (EK n x) SP LD PV) as (soc & room & SU).
    { intros HG. destruct (S01 HG) as [-> | ->]; [left|right]; reflexivity. }
    exists (rs k), (rs (S k)), n, x, c, o, soc, room. split; [apply UP; lia|]. split; [apply UP; lia|].
    split; [exact (proj2 (step_kept _ _ _ _ _ _ _ _ R (EK n x) C ST))|]. split; [exact R|]. split; [exact C|]. split; [exact CA|].
    split; [exact (su_soc _ _ _ _ _ _ _ _ SU)|]. split; [exact (su_room _ _ _ _ _ _ _ _ SU)|].
    destruct (row_served fs d g US DR SZ (C84_grid g E) to_int k n x (rs k) (rs (S k)) c o soc room CO R (row_furnished _ _ _ _ HB (EK n x)) SU C CA)
      as [X|(WO & HS & X)]; [left; exact X|]. right. split; [exact HS|]. split; [|exact X].
    intros HG. destruct (S01 HG) as [S0|S1]; [exact S0|]. unfold works in WO. rewrite HG, S1 in WO. discriminate WO.
  Qed.

  (** *** C85: with data of a year it can be converted *)
  Theorem C85_plausible g : yearly fs -> create_microgrid ceil trunc around fs d = Ok g -> plausible g.
  Proof.
    intros (_ & Y) E. pose proof (C83_sized g E) as SZ. rewrite Forall_forall in Y.
    apply (generated_plausible fs d g US DR SZ (C84_grid g E)).
    - destruct (zd_load _ _ _ SZ) as (f & NF & SF & _). rewrite (shaped_length _ _ SF). apply Y. apply in_or_app. left. exact (nth_error_In _ _ NF).
    - destruct (zd_pv _ _ _ SZ) as (f & NF & SF & _). rewrite (shaped_length _ _ SF). apply Y. apply in_or_app. right. apply in_or_app. left. exact (nth_error_In _ _ NF).
    - intros HG. destruct (C84_grid g E HG) as [_ _ _ _ NC]. apply Y. apply in_or_app. right. apply in_or_app. right. exact (nth_error_In _ _ NC).
  Qed.
  Theorem C85_converted g re : yearly fs -> create_microgrid ceil trunc around fs d = Ok g ->
    exists mg, to_modular re g = Ok mg /\ modular_copy re g mg.
  Proof.
    intros Y E. destruct (C62_accepted re g (C85_plausible g Y E)) as (mg & T). exists mg. split; [exact T|]. exact (C62_copy re g mg T).
  Qed.
End C83.
Print Assumptions C83_created.
Print Assumptions C83_sized.
Print Assumptions C83_ready.
Print Assumptions C83_starts.
Print Assumptions C84_grid.
Print Assumptions C84_no_outages.
Print Assumptions C84_lasts.
Print Assumptions C86_runs.
Print Assumptions C86_served.
Print Assumptions C85_plausible.
Print Assumptions C85_converted.

(** ** C85: the list of microgrids *)

Section C85.
  Variables (ceil trunc : Q -> Z) (around : Z -> Q -> Q) (fs : folders Q) (ds : nat -> draws Q).
  (** What the draws make *)
  Definition makes (modular : bool) (d : draws Q) (m : made Q) : Prop :=
    exists g, create_microgrid ceil trunc around fs d = Ok g
      /\ if modular then exists mg, to_modular false g = Ok mg /\ m = MadeModular mg else m = MadeNonmodular g.
  Let makes_iff modular d m :
    rbind (create_microgrid ceil trunc around fs d) (fun g => convert_made modular g) = Ok m <-> makes modular d m.
  Proof.
    unfold makes, convert_made. split.
    - intros E. apply rbind_ok in E. destruct E as (g & C & E). exists g. split; [exact C|]. destruct modular.
      + apply rbind_ok in E. destruct E as (mg & T & E). injection E as <-. eauto.
      + injection E as <-. reflexivity.
    - intros (g & C & E). rewrite C. cbn [rbind]. destruct modular; [destruct E as (mg & T & ->); rewrite T; reflexivity|rewrite E; reflexivity].
  Qed.
  Let generate_spec modular k : forall i s s' r, generate_from ceil trunc around fs modular ds i k s = (s', r) ->
    ge_nb s' = ge_nb s /\ ge_timestep s' = ge_timestep s
    /\ exists new, ge_microgrids s' = ge_microgrids s ++ new
      /\ (forall j m, nth_error new j = Some m -> makes modular (ds (i + j)%nat) m)
      /\ match r with
         | Ok _ => length new = k
         | Err _ => (length new < k)%nat /\ forall m, ~ makes modular (ds (i + length new)%nat) m
         end.
  Proof.
    induction k as [|k IH]; intros i s s' r H.
    - cbn in H. injection H as <- <-. split; [reflexivity|]. split; [reflexivity|]. exists []. split; [symmetry; apply app_nil_r|].
      split; [intros [|j] m N; discriminate N|reflexivity].
    - cbn [generate_from] in H. unfold mbind, mlift in H.
      destruct (rbind (create_microgrid ceil trunc around fs (ds i)) (fun g => convert_made modular g)) as [m|e] eqn:E; cbn in H.
      + unfold mbind, mmodify in H. cbn in H. apply IH in H. destruct H as (N & TS & new & A & B & C). cbn in N, TS, A.
        split; [exact N|]. split; [exact TS|]. exists (m :: new). split; [rewrite A, <- app_assoc; reflexivity|]. split.
        * intros [|j] m' X; cbn [nth_error] in X; [injection X as <-; rewrite Nat.add_0_r; apply makes_iff; exact E|].
          rewrite Nat.add_succ_r. exact (B j m' X).
        * destruct r; cbn [length]; [rewrite C; reflexivity|]. destruct C as (C1 & C2). split; [lia|]. rewrite Nat.add_succ_r. exact C2.
      + injection H as <- <-. split; [reflexivity|]. split; [reflexivity|]. exists []. split; [symmetry; apply app_nil_r|].
        split; [intros [|j] m N; discriminate N|]. cbn [length]. split; [lia|]. rewrite Nat.add_0_r. intros m M. apply makes_iff in M. congruence.
  Qed.

  (** A call appends what its draws make, in their order, and keeps what was there; it stops at
      the first microgrid that cannot be made or converted, and then keeps those before it. *)
  Theorem C85_appends modular s s' r : generate_microgrid ceil trunc around fs modular ds s = (s', r) ->
    ge_nb s' = ge_nb s /\ ge_timestep s' = ge_timestep s
    /\ exists new, ge_microgrids s' = ge_microgrids s ++ new
      /\ (forall j m, nth_error new j = Some m -> makes modular (ds j) m)
      /\ match r with
         | Ok _ => length new = Z.to_nat (ge_nb s)
         | Err _ => (length new < Z.to_nat (ge_nb s))%nat /\ forall m, ~ makes modular (ds (length new)) m
         end.
  Proof. unfold generate_microgrid, mbind, mget. intros H. apply generate_spec in H. exact H. Qed.

  (** With data of a year a call always makes the whole number, of either kind. *)
  Theorem C85_all modular s : ceils ceil -> truncates trunc -> yearly fs -> (forall j, drawn fs (ds j)) ->
    exists s' new, generate_microgrid ceil trunc around fs modular ds s = (s', Ok tt)
      /\ ge_microgrids s' = ge_microgrids s ++ new /\ length new = Z.to_nat (ge_nb s)
      /\ forall j, (j < Z.to_nat (ge_nb s))%nat -> exists m g, nth_error new j = Some m /\ makes modular (ds j) m
           /\ create_microgrid ceil trunc around fs (ds j) = Ok g /\ sized fs (ds j) g.
  Proof.
    intros CE TR Y D. pose proof (proj1 Y) as US. destruct (generate_microgrid ceil trunc around fs modular ds s) as (s', r) eqn:G.
    pose proof (C85_appends _ _ _ _ G) as (_ & _ & new & A & B & C). destruct r as [u|e].
    - destruct u. exists s', new. split; [reflexivity|]. split; [exact A|]. split; [exact C|]. intros j J.
      destruct (nth_error new j) as [m|] eqn:N; [|apply nth_error_None in N; lia].
      destruct (C83_created ceil trunc around fs (ds j) CE TR US (D j)) as (g & E). exists m, g. split; [reflexivity|]. split; [exact (B j m N)|].
      split; [exact E|]. exact (C83_sized ceil trunc around fs (ds j) CE TR US (D j) g E).
    - exfalso. destruct C as (_ & C). destruct (C83_created ceil trunc around fs (ds (length new)) CE TR US (D _)) as (g & E).
      destruct (C85_converted ceil trunc around fs (ds (length new)) CE TR US (D _) g false Y E) as (mg & T & _).
      destruct modular.
      + apply (C (MadeModular mg)). exists g. split; [exact E|]. exists mg. auto.
      + apply (C (MadeNonmodular g)). exists g. auto.
  Qed.

  (** Without files there are no microgrids. *)
  Theorem C85_no_files modular s : fo_load fs = [] -> (0 < ge_nb s)%Z ->
    exists r, generate_microgrid ceil trunc around fs modular ds s = (s, r) /\ raises NameError r.
  Proof.
    intros E P. unfold generate_microgrid, mbind, mget. destruct (Z.to_nat (ge_nb s)) as [|k] eqn:K; [lia|].
    cbn [generate_from]. unfold mbind, mlift, create_microgrid, microgrid_spec. rewrite E.
    destruct (bin_genset_grid (dr_arch (ds 0%nat))) as (bg, br). cbn. eexists. split; [reflexivity|]. eexists. split; reflexivity.
  Qed.
End C85.
Print Assumptions C85_appends.
Print Assumptions C85_all.
Print Assumptions C85_no_files.

(** *** Examples: a folder of one file each, and draws for a weak grid without a genset of its own *)

Definition gen_ceil (x : Q) : Z := (- ((- Qnum x) / Zpos (Qden x)))%Z.
Definition gen_trunc (x : Q) : Z := Z.quot (Qnum x) (Zpos (Qden x)).
Lemma gen_ceils : ceils gen_ceil.
Proof.
  intros [a b]. unfold gen_ceil, Qle, Qlt, Qplus, inject_Z. cbn [Qnum Qden].
  pose proof (Z.div_mod (- a) (Zpos b) ltac:(lia)) as E. pose proof (Z.mod_pos_bound (- a) (Zpos b) ltac:(lia)) as M.
  split; nia.
Qed.
Lemma gen_truncates : truncates gen_trunc.
Proof.
  intros [a b]. unfold gen_trunc, Qle, Qlt, Qplus, inject_Z. cbn [Qnum Qden]. intros P. rewrite Z.quot_div_nonneg by lia.
  pose proof (Z.div_mod a (Zpos b) ltac:(lia)) as E. pose proof (Z.mod_pos_bound a (Zpos b) ltac:(lia)) as M.
  split; nia.
Qed.
Definition gen_file (low : Z) : list Q := map (fun i => inject_Z (low + Z.of_nat (Nat.modulo i 24))) (seq 0 hours_per_year).
Definition gen_folders : folders Q := mkFolders [gen_file 7] [gen_file 0] [gen_file 1].
(** The hours 1 and 100 of the year are struck. *)
Definition gen_uniform : list Q := [1 # 2] ++ [0] ++ repeat (1 # 2) 98 ++ [0] ++ repeat (1 # 2) (hours_per_year - 100).
Definition gen_draws : draws Q :=
  mkDraws (1 # 2) 1000 0 80 4 0 (1 # 2) 1 2 1 3 gen_uniform 0 (0, 0, 0).

Lemma gen_file_rows low : (length (gen_file low) = 24 * 365)%nat.
Proof. unfold gen_file. rewrite map_length, seq_length. reflexivity. Qed.
Lemma gen_file_sign low : (0 <= low)%Z -> Forall (Qle 0) (gen_file low).
Proof.
  intros L. apply Forall_forall. intros x I. apply in_map_iff in I. destruct I as (i & <- & _). change 0 with (inject_Z 0). rewrite <- Zle_Qle. lia.
Qed.
Lemma gen_file_positive low : (0 < low)%Z -> Forall (Qlt 0) (gen_file low).
Proof.
  intros L. apply Forall_forall. intros x I. apply in_map_iff in I. destruct I as (i & <- & _). change 0 with (inject_Z 0). rewrite <- Zlt_Qlt. lia.
Qed.
Lemma gen_file_some low : (0 <= low)%Z -> exists x, In x (gen_file low) /\ 0 < x.
Proof.
  intros L. exists (inject_Z (low + Z.of_nat (Nat.modulo 1 24))). split.
  - apply (in_map (fun i => inject_Z (low + Z.of_nat (Nat.modulo i 24)))). apply in_seq. rewrite year_rows. lia.
  - change 0 with (inject_Z 0). rewrite <- Zlt_Qlt. change (Z.of_nat (Nat.modulo 1 24)) with 1%Z. lia.
Qed.
Example gen_yearly : yearly gen_folders.
Proof.
  assert (S : forall low, (0 <= low)%Z -> a_series (gen_file low)).
  { intros low L. split; [rewrite gen_file_rows; lia|]. split; [exact (gen_file_sign low L)|exact (gen_file_some low L)]. }
  split.
  - split; [apply Forall_cons; [apply S; lia|apply Forall_nil]|]. split; [apply Forall_cons; [apply S; lia|apply Forall_nil]|].
    apply Forall_cons; [|apply Forall_nil]. split; [rewrite gen_file_rows; lia|apply gen_file_sign; lia].
  - cbn [gen_folders fo_load fo_pv fo_co2 app]. repeat (apply Forall_cons; [apply gen_file_rows|]). apply Forall_nil.
Qed.
Example gen_usable : usable gen_folders.
Proof. exact (proj1 gen_yearly). Qed.
Example gen_drawn : drawn gen_folders gen_draws.
Proof.
  constructor; cbn [gen_draws gen_folders fo_load fo_pv fo_co2 length dr_arch dr_load dr_load_file dr_pv dr_hours dr_pv_file dr_weak dr_tariff dr_duration dr_uniform dr_co2_file]; try lia.
  - split; [discriminate|reflexivity].
  - split.
    + unfold gen_uniform. rewrite !app_length, !repeat_length, year_rows. cbn [length]. lia.
    + apply Forall_forall. intros x I. unfold gen_uniform in I. rewrite !in_app_iff in I.
      assert (C : x = 1 # 2 \/ x = 0).
      { destruct I as [[X|[]]|[[X|[]]|[X|[[X|[]]|X]]]]; auto; left; exact (repeat_spec _ _ _ X). }
      destruct C as [-> | ->]; split; lra.
Qed.
(** The hours without a grid around hour 100 are 98, 99 and 100; at the start of the year only
    hour 1, as hour 0 is spared. *)
Lemma gen_struck i : (i <= 200)%nat -> struck (1 * (3 # 4) + (1 # 4)) gen_uniform i <-> i = 1%nat \/ i = 100%nat.
Proof.
  intros L. unfold struck. assert (N : nth_error gen_uniform i = Some (if Nat.eqb i 1 || Nat.eqb i 100 then 0 else 1 # 2)).
  { unfold gen_uniform. destruct i as [|[|i]]; [reflexivity|reflexivity|]. cbn [app nth_error].
    destruct (lt_dec i 98) as [A|A].
    - rewrite nth_error_app1 by (rewrite repeat_length; lia). rewrite nth_error_repeat by lia.
      replace (Nat.eqb (S (S i)) 100) with false by (symmetry; apply Nat.eqb_neq; lia). reflexivity.
    - rewrite nth_error_app2 by (rewrite repeat_length; lia). rewrite repeat_length. destruct (Nat.eq_dec i 98) as [-> | B]; [reflexivity|].
      replace (i - 98)%nat with (S (i - 99)) by lia. cbn [nth_error]. rewrite nth_error_repeat by (rewrite year_rows; lia).
      replace (Nat.eqb (S (S i)) 100) with false by (symmetry; apply Nat.eqb_neq; lia). reflexivity. }
  rewrite N. destruct (Nat.eqb i 1 || Nat.eqb i 100) eqn:B.
  - apply orb_true_iff in B. rewrite !Nat.eqb_eq in B. split; [auto|]. intros _. exists 0. split; [reflexivity|]. reflexivity.
  - apply orb_false_iff in B. rewrite !Nat.eqb_neq in B. split; [|tauto]. intros (u & U & X). injection U as <-. exfalso. revert X. vm_compute. discriminate.
Qed.
Example gen_outages : exists g, create_microgrid gen_ceil gen_trunc (fun _ x => x) gen_folders gen_draws = Ok g
  /\ has_genset (nm_arch g) = true /\ has_grid (nm_arch g) = true
  /\ map (nth_error (nm_status_ts g)) [0; 1; 2; 97; 98; 99; 100; 101]%nat
     = map Some [1; 0; 1; 1; 0; 0; 0; 1].
Proof.
  destruct (C83_created gen_ceil gen_trunc (fun _ x => x) _ _ gen_ceils gen_truncates gen_usable gen_drawn) as (g & E). exists g. split; [exact E|].
  destruct (zd_arch _ _ _ (C83_sized _ _ _ _ _ gen_ceils gen_truncates gen_usable gen_drawn g E)) as (_ & _ & _ & W & _).
  destruct W as (HG & HW); [discriminate|reflexivity|]. assert (HS : has_genset (nm_arch g) = true) by (apply HW; reflexivity).
  split; [exact HS|]. split; [exact HG|].
  destruct (C84_grid _ _ _ _ _ gen_ceils gen_truncates gen_usable gen_drawn g E HG) as [R ST _ _ _]. rewrite Forall_forall in R.
  specialize (R (nm_status_ts g) (or_introl eq_refl)).
  assert (O : forall i, (i <= 101)%nat -> outage gen_draws i <-> (i = 1 \/ 98 <= i <= 100)%nat).
  { intros i L. unfold outage. cbn [gen_draws dr_outage dr_uniform dr_weak dr_duration]. rewrite gen_struck by lia. split.
    - intros (_ & [X|(P & j & J & X)]); [lia|]. apply gen_struck in X; lia.
    - intros [-> | X]; (split; [reflexivity|]); [left; left; reflexivity|]. destruct (Nat.eq_dec i 100) as [-> | NE]; [left; right; reflexivity|].
      right. split; [lia|]. exists (100 - i)%nat. split; [lia|]. apply gen_struck; lia. }
  assert (V : forall i, (i <= 101)%nat -> nth_error (nm_status_ts g) i = Some (if Nat.eqb i 1 || (Nat.leb 98 i && Nat.leb i 100) then 0 else 1)).
  { intros i L. destruct (nth_error (nm_status_ts g) i) as [s|] eqn:N; [|apply nth_error_None in N; lia].
    destruct (ST i s N) as (S01 & S0). rewrite (O i L) in S0. f_equal.
    destruct (Nat.eqb i 1 || (Nat.leb 98 i && Nat.leb i 100)) eqn:B.
    - apply S0. apply orb_true_iff in B. rewrite andb_true_iff, Nat.eqb_eq, !Nat.leb_le in B. lia.
    - apply orb_false_iff in B. rewrite andb_false_iff, Nat.eqb_neq, !Nat.leb_gt in B. destruct S01 as [X|X]; [|exact X]. apply S0 in X. lia. }
  cbn [map]. rewrite !V by lia. reflexivity.
Qed.
(** The control serves the load of such a microgrid for the whole year but a day. *)
Example gen_runs : exists g r, create_microgrid gen_ceil gen_trunc (fun _ x => x) gen_folders gen_draws = Ok g
  /\ run_rule_based whole g None = Ok r /\ rb_count g None = (24 * 364 - 1)%nat.
Proof.
  destruct (C83_created gen_ceil gen_trunc (fun _ x => x) _ _ gen_ceils gen_truncates gen_usable gen_drawn) as (g & E). exists g.
  destruct (C86_runs _ _ (fun _ x => x) _ _ gen_ceils gen_truncates gen_usable gen_drawn whole g None whole_converts) as (r & R); [|exact E|].
  { apply Forall_cons; [apply gen_file_positive; lia|apply Forall_nil]. }
  exists r. split; [exact E|]. split; [exact R|]. unfold rb_count.
  pose proof (C83_sized _ _ _ _ _ gen_ceils gen_truncates gen_usable gen_drawn g E) as SZ. rewrite (zd_horizon _ _ _ SZ).
  destruct (C83_ready _ _ _ _ _ gen_ceils gen_truncates gen_usable gen_drawn g E) as ((sp & h & _ & NG) & _).
  pose proof (new_nonmodular_ok _ _ _ NG) as OK. destruct OK as (_ & _ & _ & _ & _ & _ & _ & _ & _ & _ & _ & _ & _ & _ & _ & _ & LN & _). rewrite LN.
  destruct (zd_load _ _ _ SZ) as (f & NF & SF & _). destruct (zd_pv _ _ _ SZ) as (f' & NF' & SF' & _). cbn in NF, NF'. injection NF as <-. injection NF' as <-.
  rewrite data_length_all. unfold all_rows. rewrite (shaped_length _ _ SF), (shaped_length _ _ SF'), !gen_file_rows. lia.
Qed.
(** Ten microgrids, then ten more *)
Example gen_twenty : exists s s' : generator Q,
  generate_microgrid gen_ceil gen_trunc (fun _ x => x) gen_folders true (fun _ => gen_draws) (new_generator 10 1) = (s, Ok tt)
  /\ generate_microgrid gen_ceil gen_trunc (fun _ x => x) gen_folders false (fun _ => gen_draws) s = (s', Ok tt)
  /\ length (ge_microgrids s) = 10%nat /\ length (ge_microgrids s') = 20%nat.
Proof.
  destruct (C85_all gen_ceil gen_trunc (fun _ x => x) gen_folders (fun _ => gen_draws) true (new_generator 10 1) gen_ceils gen_truncates gen_yearly (fun _ => gen_drawn))
    as (s & new & E & A & L & _).
  destruct (C85_all gen_ceil gen_trunc (fun _ x => x) gen_folders (fun _ => gen_draws) false s gen_ceils gen_truncates gen_yearly (fun _ => gen_drawn))
    as (s' & new' & E' & A' & L' & _).
  assert (NB : ge_nb s = 10%Z) by exact (proj1 (C85_appends _ _ _ _ _ _ _ _ _ E)).
  exists s, s'. split; [exact E|]. split; [exact E'|]. rewrite A', A, !app_length, L, L', NB. split; reflexivity.
Qed.
