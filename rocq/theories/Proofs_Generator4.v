(** * Proofs about MicrogridGenerator.py: every microgrid *)

From Coq Require Import ZArith QArith Qminmax Lqa Lia Bool String List Permutation.
From Verif Require Import Num Py Module Microgrid NonModular Conversion Generator Proofs_Num Proofs_Ts Spec_NonModular Spec_Generator
  Proofs_NonModular Proofs_NmEpisode Proofs_NmTotal Spec_Conversion Spec_NmRbc Spec_NmRbcRun
  Proofs_Generator Proofs_Generator2 Proofs_Generator3.
Import ListNotations.
Local Open Scope string_scope.
Local Open Scope list_scope.
Local Open Scope Q_scope.
Opaque hours_per_year.
Lemma year_rows : hours_per_year = (24 * 365)%nat.
Proof. reflexivity. Qed.

Lemma random_file_ok (fs : list (list Q)) i P : (i < length fs)%nat -> Forall P fs ->
  exists l, random_file fs i = Ok l /\ nth_error fs i = Some l /\ P l.
Proof.
  intros L F. destruct (nth_error fs i) as [l|] eqn:E; [|apply nth_error_None in E; lia]. exists l.
  split; [|split; [reflexivity|]].
  - unfold random_file. rewrite E. destruct fs; [simpl in L; lia|reflexivity].
  - rewrite Forall_forall in F. apply F. exact (nth_error_In _ _ E).
Qed.
Lemma struck_same r r' us i : r == r' -> struck r us i -> struck r' us i.
Proof. intros E (u & U & L). exists u. split; [exact U|]. rewrite <- E. exact L. Qed.
Lemma nth_error_first {A} n (l : list A) i x : nth_error (firstn n l) i = Some x -> nth_error l i = Some x.
Proof.
  revert l i. induction n; intros l i E; [destruct i; discriminate E|]. destruct l; [destruct i; discriminate E|].
  destruct i; [exact E|]. simpl in *. auto.
Qed.

Lemma grid_ok (fs : folders Q) (d : draws Q) (sz : sizes Q) : usable fs -> drawn fs d ->
  exists gp, grid_addition_of fs sz d = Ok gp /\ grid_entries (Some gp)
    /\ dget "grid_weak" (gp_parameters gp) = Some (inject_Z (dr_weak d))
    /\ dget "grid_power_import" (gp_parameters gp) = Some (inject_Z (sz_grid sz))
    /\ dget "grid_power_export" (gp_parameters gp) = Some (inject_Z (sz_grid sz))
    /\ Forall (fun l => length l = (24 * 365)%nat) [gi_ts (gp_info gp); gi_import (gp_info gp); gi_export (gp_info gp)]
    /\ (forall i s, nth_error (gi_ts (gp_info gp)) i = Some s -> (s = 0 \/ s = 1) /\ (s = 0 <-> outage d i))
    /\ (forall i p, nth_error (gi_import (gp_info gp)) i = Some p -> tariff (dr_tariff d) (Nat.modulo i 24) p /\ 0 <= p)
    /\ Forall (fun p => p = 0) (gi_export (gp_info gp))
    /\ nth_error (fo_co2 fs) (dr_co2_file d) = Some (gp_co2 gp).
Proof.
  intros (_ & _ & UC) D. destruct (random_file_ok _ _ _ (wn_co2_file _ _ D) UC) as (co2 & RC & NC & LC & _).
  set (g := get_grid (sz_grid sz) (dr_weak d) (dr_tariff d) d).
  destruct (tariff_spec _ (wn_tariff _ _ D)) as (LI & EE & TI).
  assert (IM : gi_import g = fst (electricity_tariff (dr_tariff d))) by reflexivity.
  assert (EX : gi_export g = repeat 0 hours_per_year) by (rewrite <- EE; reflexivity).
  assert (ST : length (gi_ts g) = hours_per_year
    /\ forall i s, nth_error (gi_ts g) i = Some s -> (s = 0 \/ s = 1) /\ (s = 0 <-> outage d i)).
  { unfold g, get_grid. cbn [gi_ts]. destruct (wn_weak _ _ D) as [W|W]; rewrite W; cbn [Z.eqb Pos.eqb].
    - rewrite firstn_all2 by (rewrite repeat_length; lia). split; [apply repeat_length|]. intros i s E.
      apply nth_error_In in E. apply repeat_spec in E. subst s. split; [right; reflexivity|]. split; [discriminate|].
      intros (X & _). rewrite W in X. discriminate X.
    - destruct (wn_uniform _ _ D) as (LU & _).
      set (rate := @nadd Q Q_ops _ _).
      assert (ER : rate == dr_outage d * (3 # 4) + (1 # 4)).
      { unfold rate. change (@nadd Q Q_ops) with Qplus. change (@ndiv Q Q_ops) with Qdiv. change (@nmul Q Q_ops) with Qmult.
        change (@nofZ Q Q_ops 3) with 3. change (@nofZ Q Q_ops 4) with 4. assert (X : @nfrac Q Q_ops 1 4 == 1 # 4) by reflexivity. rewrite X. field. }
      clearbody rate. destruct (weak_profile_spec rate (dr_duration d) (dr_uniform d)) as (LW & SW). split.
      + rewrite firstn_length, LW, LU, year_rows. lia.
      + intros i s E. apply nth_error_first in E. destruct (SW i s E) as (S01 & S0). split; [exact S01|]. rewrite S0.
        assert (SE : forall k, struck rate (dr_uniform d) k <-> struck (dr_outage d * (3 # 4) + (1 # 4)) (dr_uniform d) k).
        { intros k. split; apply struck_same; [exact ER|symmetry; exact ER]. }
        unfold outage. rewrite SE. split.
        * intros [X|(P & j & J & X)]; (split; [exact W|]); [left; exact X|]. right. split; [exact P|]. exists j. split; [exact J|]. apply SE. exact X.
        * intros (_ & [X|(P & j & J & X)]); [left; exact X|]. right. split; [exact P|]. exists j. split; [exact J|]. apply SE. exact X. }
  destruct ST as (LS & SS). unfold grid_addition_of. fold g.
  assert (PO : forall l : list Q, (1 <= length l)%nat -> exists x, iloc l 0 = Ok x).
  { intros l LL. destruct (iloc_at l 0 LL) as (x & X & _). exists x. exact X. }
  assert (H1 : (1 <= hours_per_year)%nat) by (rewrite year_rows; lia).
  destruct (PO (gi_ts g)) as (s0 & ->); [lia|]. cbn [rbind]. rewrite RC. cbn [rbind].
  destruct (PO co2) as (c0 & ->); [lia|]. cbn [rbind].
  destruct (PO (gi_import g)) as (i0 & ->); [rewrite IM; lia|]. cbn [rbind].
  destruct (PO (gi_export g)) as (e0 & ->); [rewrite EX, repeat_length; lia|]. cbn [rbind].
  eexists. split; [reflexivity|]. cbn [gp_info gp_co2 gp_parameters gp_status].
  split; [do 7 eexists; split; reflexivity|]. split; [reflexivity|]. split; [reflexivity|]. split; [reflexivity|].
  split; [|split; [exact SS|split; [rewrite IM; exact TI|split; [|exact NC]]]].
  - rewrite <- year_rows. apply Forall_cons; [exact LS|]. apply Forall_cons; [rewrite IM; exact LI|]. apply Forall_cons; [rewrite EX; apply repeat_length|]. apply Forall_nil.
  - rewrite EX. apply Forall_forall. intros x I. apply repeat_spec in I. exact I.
Qed.

Lemma bins_wanted (d : draws Q) bg br : bin_genset_grid (dr_arch d) = (bg, br) ->
  dr_weak d = 0%Z \/ dr_weak d = 1%Z -> wanted d (bg || (br && Z.eqb (dr_weak d) 1)) br /\ (bg || br = true).
Proof.
  unfold bin_genset_grid, ngeb, wanted. assert (E1 : @nfrac Q Q_ops 33 100 == 33 # 100) by reflexivity. assert (E2 : @nfrac Q Q_ops 66 100 == 66 # 100) by reflexivity.
  set (a := @nfrac Q Q_ops 33 100) in *. set (b := @nfrac Q Q_ops 66 100) in *. clearbody a b. unum. intros H W.
  destruct (Qltb (dr_arch d) a) eqn:C1; [|destruct (Qle_bool a (dr_arch d) && Qltb (dr_arch d) b) eqn:C2]; injection H as <- <-; cbn [orb andb].
  - qprop. split; [|reflexivity]. repeat split; intros; try reflexivity; lra.
  - apply andb_true_iff in C2. destruct C2 as (C2 & C3). qprop. split; [|reflexivity]. split; [intros; lra|]. split; [intros _ _|intros; lra].
    split; [reflexivity|]. apply Z.eqb_eq.
  - split; [|reflexivity]. apply Qltb_ge in C1. split; [intros; lra|]. split; [|intros; split; reflexivity]. intros X Y. exfalso.
    apply andb_false_iff in C2. destruct C2 as [C2|C2].
    + assert (Z : Qle_bool a (dr_arch d) = true) by (apply Qle_bool_iff; lra). congruence.
    + apply Qltb_ge in C2. lra.
Qed.

Section Created.
Variables (ceil trunc : Q -> Z) (around : Z -> Q -> Q).
Hypothesis CE : ceils ceil.
Hypothesis TR : truncates trunc.
Variables (fs : folders Q) (d : draws Q).
Hypothesis US : usable fs.
Hypothesis DR : drawn fs d.

Theorem created : exists sp g, microgrid_spec ceil trunc around fs d = Ok sp /\ wired sp
  /\ new_nonmodular sp 24 = Ok g /\ sized fs d g /\ (has_grid (nm_arch g) = true -> connected fs d g)
  /\ aligned g /\ bv_soc (nm_battery g) = match dget "battery_soc_0" (nm_par g) with Some x => CNum x | None => CNone end.
Proof.
  destruct US as (UL & UP & UC).
  destruct (random_file_ok _ _ _ (wn_load_file _ _ DR) UL) as (lf & RL & NL & (LL & PL & XL)).
  destruct (random_file_ok _ _ _ (wn_pv_file _ _ DR) UP) as (pf & RP & NP & (LP & PP & XP)).
  pose proof (wn_load _ _ DR) as WL. pose proof (wn_pv _ _ DR) as WP.
  assert (L0 : 0 < inject_Z (dr_load d)) by (change 0 with (inject_Z 0); rewrite <- Zlt_Qlt; lia).
  destruct (scale_spec lf (inject_Z (dr_load d)) L0 XL) as (SL & KL & NLL). set (load := scale_ts lf (inject_Z (dr_load d))) in *.
  destruct (size_mg_ok ceil trunc load (dr_load d) (dr_pv d) (dr_hours d) CE TR ltac:(lia) KL) as (sz & m & SZ & AV & S1 & S2 & S3 & S4 & S5 & S6).
  assert (P0 : 0 < sz_pv sz).
  { rewrite S1. assert (0 < inject_Z (dr_pv d)) by (change 0 with (inject_Z 0); rewrite <- Zlt_Qlt; lia).
    apply Qlt_shift_div_l; [reflexivity|]. setoid_replace (0 * 100) with 0 by reflexivity. apply Qmult_lt_0_compat; assumption. }
  destruct (scale_spec pf (sz_pv sz) P0 XP) as (SP & KP & NPP). set (pv := scale_ts pf (sz_pv sz)) in *.
  assert (KP' : peak pv (inject_Z (dr_load d) * inject_Z (dr_pv d) / 100)).
  { destruct KP as ((x & I & E) & F). split; [exists x; split; [exact I|rewrite E; exact S1]|].
    apply Forall_forall. intros y Y. rewrite Forall_forall in F. rewrite <- S1. exact (F y Y). }
  destruct (iloc_at load 0 ltac:(lia)) as (load0 & IL & _). change (Z.of_nat 0) with 0%Z in IL.
  destruct (iloc_at pv 0 ltac:(lia)) as (pv0 & IP & _). change (Z.of_nat 0) with 0%Z in IP.
  destruct (bin_genset_grid (dr_arch d)) as (bg, br) eqn:BI.
  destruct (bins_wanted d bg br BI (wn_weak _ _ DR)) as (WA & ANY).
  assert (GR : exists grid : option (grid_addition Q),
    (if br then (let? p := grid_addition_of fs sz d in Ok (Some p))%py else Ok None) = Ok grid
    /\ grid_entries grid /\ (match grid with Some _ => true | None => false end = br)
    /\ forall gp, grid = Some gp -> exists gp', Some gp = Some gp' /\ grid_addition_of fs sz d = Ok gp').
  { destruct br.
    - destruct (grid_ok fs d sz US DR) as (gp & E & GE & _). exists (Some gp). rewrite E. split; [reflexivity|]. split; [exact GE|].
      split; [reflexivity|]. intros gp' X. injection X as <-. exists gp. auto.
    - exists None. split; [reflexivity|]. split; [exact I|]. split; [reflexivity|discriminate]. }
  destruct GR as (grid & EG & GE & BR & SG).
  set (sp := assemble_spec ceil around d bg load pv load0 pv0 sz grid).
  assert (ES : microgrid_spec ceil trunc around fs d = Ok sp).
  { unfold microgrid_spec. rewrite BI, RL. cbn [rbind]. change (@nofZ Q Q_ops) with inject_Z. fold load. rewrite SZ. cbn [rbind].
    rewrite IL. cbn [rbind]. rewrite RP. cbn [rbind]. fold pv. rewrite IP. cbn [rbind]. rewrite EG. reflexivity. }
  assert (W : wired sp) by exact (assembled_wired ceil around d bg load pv load0 pv0 sz grid GE).
  assert (AR : sp_arch sp = mkArch true true (bg || (br && Z.eqb (dr_weak d) 1)) br) by (unfold sp, assemble_spec; cbn [sp_arch]; rewrite BR; reflexivity).
  assert (GD : has_grid (sp_arch sp) = true -> exists gp, grid = Some gp /\ grid_addition_of fs sz d = Ok gp
     /\ sp_grid_ts sp = Some (gi_ts (gp_info gp)) /\ sp_import sp = Some (gi_import (gp_info gp))
     /\ sp_export sp = Some (gi_export (gp_info gp)) /\ sp_co2 sp = Some (gp_co2 gp)).
  { rewrite AR. cbn [has_grid]. intros ->. destruct grid as [gp|]; [|discriminate BR]. exists gp.
    destruct (SG gp eq_refl) as (gp' & X & Y). injection X as <-. repeat split; exact Y. }
  destruct (new_total sp 24 load pv W eq_refl eq_refl ltac:(lia) ltac:(lia)) as (g & NG & SO).
  { intros HG. destruct (GD HG) as (gp & E & Y & E1 & E2 & E3 & E4). exists (gi_ts (gp_info gp)), (gi_import (gp_info gp)), (gi_export (gp_info gp)), (gp_co2 gp).
    split; [exact E1|]. split; [exact E2|]. split; [exact E3|]. split; [exact E4|].
    destruct (grid_ok fs d sz US DR) as (gp' & Y' & _ & _ & _ & _ & LS & _ & _ & _ & NC). rewrite Y in Y'. injection Y' as <-.
    rewrite Forall_forall in LS. apply nth_error_In in NC. rewrite Forall_forall in UC. destruct (UC _ NC) as (LC & _).
    apply Forall_cons; [rewrite (LS (gi_ts (gp_info gp))) by (cbn; tauto); lia|].
    apply Forall_cons; [rewrite (LS (gi_import (gp_info gp))) by (cbn; tauto); lia|].
    apply Forall_cons; [rewrite (LS (gi_export (gp_info gp))) by (cbn; tauto); lia|].
    apply Forall_cons; [lia|]. apply Forall_nil. }
  exists sp, g. split; [exact ES|]. split; [exact W|]. split; [exact NG|].
  pose proof (new_nonmodular_ok sp 24 g NG) as OK.
  destruct OK as (O1 & O2 & _ & _ & _ & O6 & _ & O8 & O9 & O10 & _ & _ & _ & _ & HO & _).
  assert (EL : nm_load_ts g = load) by (unfold sp in O8; cbn in O8; congruence).
  assert (EP : nm_pv_ts g = pv) by (unfold sp in O9; cbn in O9; congruence).
  assert (CN : has_grid (nm_arch g) = true -> connected fs d g
     /\ parameter g "grid_power_import" (inject_Z (2 * dr_load d)) /\ parameter g "grid_power_export" (inject_Z (2 * dr_load d))
     /\ parameter g "grid_weak" (inject_Z (dr_weak d))).
  { rewrite O2. intros HG. destruct (GD HG) as (gp & E & Y & E1 & E2 & E3 & E4). destruct (O10 HG) as (Q1 & Q2 & Q3 & Q4 & _).
    destruct (grid_ok fs d sz US DR) as (gp' & Y' & _ & PW & PI & PE & LS & SS & TS & XS & NC). rewrite Y in Y'. injection Y' as <-.
    assert (T1 : nm_status_ts g = gi_ts (gp_info gp)) by congruence. assert (T2 : nm_import_ts g = gi_import (gp_info gp)) by congruence.
    assert (T3 : nm_export_ts g = gi_export (gp_info gp)) by congruence. assert (T4 : nm_co2_ts g = gp_co2 gp) by congruence.
    split.
    - constructor; rewrite ?T1, ?T2, ?T3, ?T4.
      + exact LS.
      + exact SS.
      + intros i p X. exact (proj1 (TS i p X)).
      + eapply Forall_impl; [|exact XS]. intros x ->. reflexivity.
      + exact NC.
    - unfold parameter. rewrite O1. rewrite S6 in PI, PE.
      split; [|split]; apply (assembled_grid ceil around d bg load pv load0 pv0 sz grid GE gp _ _ E); try assumption; cbn; tauto. }
  destruct (assembled_parameters ceil around d bg load pv load0 pv0 sz grid) as (A1 & A2 & A3 & A4 & A5 & A6 & A7 & A8 & A9 & A10 & A11).
  fold sp in A1, A2, A3, A4, A5, A6, A7, A8, A9, A10, A11. rewrite <- O1 in A1, A2, A3, A4, A5, A6, A7, A8, A9, A10, A11.
  destruct (battery_powers ceil (sz_battery sz) (dr_soc d) CE) as (pw & B1 & B2 & B3 & B4 & B5).
  destruct (battery_soc ceil (sz_battery sz) (dr_soc d)) as (C1 & C2 & C3 & C4 & C5 & C6 & C7 & C8 & C9).
  pose proof (assembled_soc ceil around d bg load pv load0 pv0 sz grid) as AS. fold sp in AS. rewrite <- O6 in AS.
  assert (BV : bv_soc (nm_battery g) = CNum (bi_soc_0 (get_battery ceil (sz_battery sz) (dr_soc d)))).
  { destruct SO as (soc & X & Y); [rewrite AR; reflexivity|]. rewrite <- O1, A4 in X. injection X as <-. exact Y. }
  set (b := get_battery ceil (sz_battery sz) (dr_soc d)) in *. clearbody b.
  split; [|split; [|split]].
  - constructor.
    + rewrite O2, AR. cbn. auto.
    + exists lf. rewrite EL. auto.
    + exists pf. rewrite EP. auto.
    + exists (sz_battery sz), m. unfold parameter. rewrite A7, A5, A6, B1, B2, B3, EL. split; [reflexivity|]. split; [exact AV|].
      split; [exact S2|]. split; [exact S3|]. exists pw. auto.
    + exists (bi_soc_0 b), (bi_soc_min b), (bi_soc_max b), (bi_efficiency b), (bi_cost_cycle b). unfold parameter.
      split; [exact A4|]. split; [exact A9|]. split; [exact A10|]. split; [exact A8|]. split; [exact A11|].
      split; [exists []; exact AS|]. split; [exact BV|]. auto 20.
    + rewrite O2. intros HG. destruct (assembled_genset ceil around d bg load pv load0 pv0 sz grid GE HG) as (G1 & G2 & G3 & G4 & G5).
      fold sp in G1, G2, G3, G4, G5. rewrite <- O1 in G1, G2, G3, G4, G5.
      exists (sz_genset sz), (nfrac 5 100), (nfrac 9 10), (nfrac 4 10), (inject_Z 2). unfold parameter.
      split; [exact G1|]. split; [exact G2|]. split; [exact G3|]. split; [exact G4|]. split; [exact G5|].
      split; [reflexivity|]. split; [reflexivity|]. split; [reflexivity|]. split; [reflexivity|].
      assert (X : @nfrac Q Q_ops 9 10 == 9 # 10) by reflexivity. rewrite X. auto.
    + intros HG. exact (proj2 (CN HG)).
    + exists (inject_Z 10), 1, (nfrac 1 10). unfold parameter. split; [exact A1|]. split; [exact A2|]. split; [exact A3|].
      split; [reflexivity|]. split; reflexivity.
    + exact HO.
  - intros HG. exact (proj1 (CN HG)).
  - split.
    + unfold all_rows. rewrite EL, EP. lia.
    + intros HG. destruct (CN HG) as ([R1 _ _ _ R5] & _). apply nth_error_In in R5. rewrite Forall_forall in UC. destruct (UC _ R5) as (LC & _).
      assert (LA : (all_rows g <= 24 * 365)%nat) by (unfold all_rows; rewrite EL; lia).
      rewrite Forall_forall in R1.
      apply Forall_cons; [rewrite (R1 (nm_status_ts g)) by (cbn; tauto); lia|].
      apply Forall_cons; [rewrite (R1 (nm_import_ts g)) by (cbn; tauto); lia|].
      apply Forall_cons; [rewrite (R1 (nm_export_ts g)) by (cbn; tauto); lia|].
      apply Forall_cons; [lia|]. apply Forall_nil.
  - rewrite A4. exact BV.
Qed.
End Created.
