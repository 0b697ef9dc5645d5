(** * What the rule-based control of non-modular microgrids decides *)

From Coq Require Import ZArith QArith Qabs Qminmax Bool String List Lia Lqa Permutation.
From Verif Require Import Num Py Proofs_Num Proofs_Run Proofs_Data NonModular Spec_NonModular Proofs_NonModular Proofs_NmRun
  NmRbc Spec_NmRbc.
Import ListNotations.
Local Open Scope string_scope.
Local Open Scope list_scope.
Local Open Scope Q_scope.

Lemma iloc_nat (l : list Q) i x : nth_error l i = Some x -> iloc l (Z.of_nat i) = Ok x.
Proof. intros E. unfold iloc. rewrite py_nth_nat, E. reflexivity. Qed.
Lemma last_num_latest (r : record Q) k x : latest r k (CNum x) -> last_num r k = Ok x.
Proof.
  intros (l & E). unfold last_num, dfind. rewrite E. cbn [rbind]. unfold last_of. rewrite rev_app_distr. reflexivity.
Qed.
Lemma dfind_some {A} (d : dict A) k x : dget k d = Some x -> dfind d k = Ok x.
Proof. intros E. unfold dfind. rewrite E. reflexivity. Qed.

(** ** One turn at a time *)

Lemma turn_skip par st pv nm z (d : dispatch Q) : (z <= 0)%Z -> turn par st pv (nm, z) d = Ok d.
Proof. intros H. unfold turn. simpl. destruct (Z.ltb_spec 0 z); [lia|reflexivity]. Qed.

Lemma turn_PV par st pv z (d : dispatch Q) : (0 < z)%Z -> 0 <= di_load d ->
  exists d' s, turn par st pv ("PV", z) d = Ok d'
    /\ (s == di_load d /\ di_load d <= pv \/ s == pv /\ pv <= di_load d)
    /\ di_load d' == di_load d - s /\ di_excess d' == pv - s /\ di_pv d' == di_pv d + s
    /\ di_charge d' == di_charge d /\ di_discharge d' == di_discharge d /\ di_import d' == di_import d
    /\ di_export d' == di_export d /\ di_genset d' == di_genset d /\ di_min d' == di_min d.
Proof.
  intros Z L. unfold turn. cbn [snd fst]. destruct (Z.ltb_spec 0 z); [|lia]. cbn [negb String.eqb].
  change (String.eqb "PV" "PV") with true. cbn iota. eexists _, (nmin (di_load d) pv). split; [reflexivity|]. cbn.
  unfold nmin, nmax. unum.
  destruct (Qltb pv (di_load d)) eqn:A; qprop.
  - split; [right; split; [reflexivity|lra]|].
    destruct (Qltb 0 (di_load d - pv)) eqn:B; qprop; repeat split; lra.
  - split; [left; split; [reflexivity|lra]|].
    destruct (Qltb 0 (di_load d - di_load d)) eqn:B; qprop; repeat split; lra.
Qed.

Lemma clip0 a p : nmax 0 (nmin (nmax a 0) p) == Qmax 0 (Qmin (Qmax 0 a) p).
Proof.
  assert (A : nmax a 0 == Qmax 0 a) by (rewrite nmax_Q; apply Q.max_comm).
  assert (B : nmin (nmax a 0) p == Qmin (Qmax 0 a) p).
  { unfold nmin. unum. destruct (Qltb p (nmax a 0)) eqn:E; qprop; rewrite A in E; [rewrite Q.min_r; lra|].
    rewrite A. rewrite Q.min_l; [reflexivity|exact E]. }
  rewrite nmax_Q, B. reflexivity.
Qed.
Lemma clip a p : 0 <= p -> nmax 0 (nmin (nmax a 0) p) == Qmin (Qmax 0 a) p.
Proof.
  intros P. rewrite clip0. apply Q.max_r. apply Q.min_glb; [apply Q.le_max_l|exact P].
Qed.

Lemma pick a l t : nmax 0 a == t -> 0 < l ->
  nmax 0 (nmin a l) == l /\ l <= t \/ nmax 0 (nmin a l) == t /\ t <= l.
Proof.
  unfold nmax, nmin. unum. intros H L. destruct (Qltb l a) eqn:A, (Qltb 0 a) eqn:B; qprop;
    repeat match goal with |- context [if Qltb ?p ?q then _ else _] => destruct (Qltb p q) eqn:?; qprop end;
    first [left; split; lra|right; split; lra|exfalso; lra].
Qed.

Lemma turn_battery g st soc room take pv z (d : dispatch Q) : (0 < z)%Z -> latest st "battery_soc" (CNum soc) ->
  discharge_limit g soc room -> (exists pd, parameter g "battery_power_discharge" pd /\ 0 <= pd) -> takes g soc take ->
  exists d' x y, turn (nm_par g) st pv ("battery", z) d = Ok d'
    /\ (0 < di_load d /\ (x == di_load d /\ di_load d <= room \/ x == room /\ room <= di_load d) /\ y == 0
          /\ di_discharge d' == x /\ di_charge d' == di_charge d
        \/ di_load d <= 0 /\ x == 0 /\ 0 < di_excess d
           /\ (y == di_excess d /\ di_excess d <= take \/ y == take /\ take <= di_excess d)
           /\ di_discharge d' == di_discharge d /\ di_charge d' == y
        \/ di_load d <= 0 /\ x == 0 /\ di_excess d <= 0 /\ y == 0
           /\ di_discharge d' == di_discharge d /\ di_charge d' == di_charge d)
    /\ di_load d' == di_load d - x /\ di_excess d' == di_excess d - y /\ di_pv d' == di_pv d + y
    /\ di_import d' == di_import d /\ di_export d' == di_export d /\ di_genset d' == di_genset d /\ di_min d' == di_min d.
Proof.
  intros Z L (smin & cap & eff & pd & P1 & P2 & P3 & P4 & R) (pd' & P4' & PD)
    (smax & cap' & eff' & pc & P5 & P2' & P3' & P6 & TK).
  unfold parameter in *. rewrite P4 in P4'. injection P4' as <-. rewrite P2 in P2'. injection P2' as <-. rewrite P3 in P3'. injection P3' as <-.
  unfold turn. cbn [snd fst]. destruct (Z.ltb_spec 0 z); [|lia]. cbn [negb].
  change (String.eqb "battery" "PV") with false. change (String.eqb "battery" "battery") with true. cbn iota.
  unfold rb_room. rewrite (last_num_latest _ _ _ L). rewrite !(dfind_some _ _ _ P5), !(dfind_some _ _ _ P2), !(dfind_some _ _ _ P3),
    !(dfind_some _ _ _ P1), !(dfind_some _ _ _ P4), !(dfind_some _ _ _ P6). cbn [rbind]. unum.
  assert (R' : nmax 0 (nmin (nmax ((soc * cap - smin * cap) * eff) 0) pd) == room).
  { rewrite R. setoid_replace ((soc - smin) * cap * eff) with ((soc * cap - smin * cap) * eff) by ring.
    apply clip. exact PD. }
  assert (T' : nmax 0 (nmin (nmax ((smax * cap - soc * cap) / eff) 0) pc) == take).
  { rewrite TK. setoid_replace ((smax - soc) * cap / eff) with ((smax * cap - soc * cap) / eff) by (unfold Qdiv; ring).
    apply clip0. }
  assert (R0 : 0 <= room).
  { rewrite <- R'. unfold nmax at 1. unum. match goal with |- context [if Qltb ?p ?q then _ else _] => destruct (Qltb p q) eqn:?; qprop end; lra. }
  assert (T0 : 0 <= take).
  { rewrite <- T'. unfold nmax at 1. unum. match goal with |- context [if Qltb ?p ?q then _ else _] => destruct (Qltb p q) eqn:?; qprop end; lra. }
  set (a := nmin (nmax ((soc * cap - smin * cap) * eff) 0) pd) in *.
  set (b := nmin (nmax ((smax * cap - soc * cap) / eff) 0) pc) in *.
  destruct (Qltb 0 (di_load d)) eqn:C; qprop.
  - eexists _, (nmax 0 (nmin a (di_load d))), 0. split; [reflexivity|]. cbn. unum. split; [|repeat split; try reflexivity; lra].
    left. split; [lra|]. split; [|repeat split; reflexivity].
    exact (pick a (di_load d) room R' C).
  - destruct (Qltb 0 (di_excess d)) eqn:D; qprop.
    + eexists _, 0, (nmax 0 (nmin b (di_excess d))). split; [reflexivity|]. cbn. unum. split; [|repeat split; try reflexivity; lra].
      right. left. split; [lra|]. split; [lra|]. split; [lra|]. split; [|repeat split; reflexivity].
      exact (pick b (di_excess d) take T' D).
    + eexists d, 0, 0. split; [reflexivity|]. split; [|repeat split; try reflexivity; lra].
      right. right. repeat split; try reflexivity; lra.
Qed.

Lemma turn_grid par st pv z (d : dispatch Q) : (0 < z)%Z ->
  exists d', turn par st pv ("grid", z) d = Ok d'
    /\ (0 < di_load d /\ di_import d' == di_load d /\ di_load d' == 0 /\ di_export d' == di_export d
          /\ di_excess d' == di_excess d /\ di_pv d' == di_pv d
        \/ di_load d <= 0 /\ 0 < di_excess d /\ di_import d' == di_import d /\ di_load d' == di_load d
          /\ di_export d' == di_excess d /\ di_excess d' == 0 /\ di_pv d' == di_pv d + di_excess d
        \/ di_load d <= 0 /\ di_excess d <= 0 /\ d' = d)
    /\ di_charge d' == di_charge d /\ di_discharge d' == di_discharge d /\ di_genset d' == di_genset d /\ di_min d' == di_min d.
Proof.
  intros Z. unfold turn. cbn [snd fst]. destruct (Z.ltb_spec 0 z); [|lia]. cbn [negb].
  change (String.eqb "grid" "PV") with false. change (String.eqb "grid" "battery") with false. change (String.eqb "grid" "grid") with true.
  cbn iota. unum. destruct (Qltb 0 (di_load d)) eqn:C; qprop; [|destruct (Qltb 0 (di_excess d)) eqn:D; qprop].
  - eexists. split; [reflexivity|]. cbn. unum. split; [left; repeat split; try reflexivity; lra|repeat split; reflexivity].
  - eexists. split; [reflexivity|]. cbn. unum. split; [right; left; repeat split; try reflexivity; lra|repeat split; reflexivity].
  - eexists. split; [reflexivity|]. split; [right; right; repeat split; try reflexivity; lra|repeat split; reflexivity].
Qed.

Lemma turn_genset par st pv z (d : dispatch Q) : (0 < z)%Z ->
  exists d', turn par st pv ("genset", z) d = Ok d'
    /\ (0 < di_load d /\ di_genset d' == di_load d + di_min d /\ di_load d' == 0
        \/ di_load d <= 0 /\ di_genset d' == di_genset d /\ di_load d' == di_load d)
    /\ di_charge d' == di_charge d /\ di_discharge d' == di_discharge d /\ di_import d' == di_import d /\ di_export d' == di_export d
    /\ di_excess d' == di_excess d /\ di_pv d' == di_pv d.
Proof.
  intros Z. unfold turn. cbn [snd fst]. destruct (Z.ltb_spec 0 z); [|lia]. cbn [negb].
  change (String.eqb "genset" "PV") with false. change (String.eqb "genset" "battery") with false. change (String.eqb "genset" "grid") with false.
  cbn iota. unum. destruct (Qltb 0 (di_load d)) eqn:C; qprop.
  - eexists. split; [reflexivity|]. cbn. unum. split; [left; repeat split; try reflexivity; lra|repeat split; reflexivity].
  - eexists. split; [reflexivity|]. split; [right; repeat split; try reflexivity; lra|repeat split; reflexivity].
Qed.

(** ** All turns *)

Definition fresh (temp least : Q) : dispatch Q := mkDispatch temp 0 0 0 0 0 0 0 least.

Lemma turns_cons par st pv e l (d d' : dispatch Q) : turn par st pv e d = Ok d' ->
  turns par st pv (e :: l) d = turns par st pv l d'.
Proof. intros E. simpl. rewrite E. reflexivity. Qed.

(** What is left of the load, and what is decided, when [temp] is to be met. *)
Record met (temp least pv room take : Q) (gen on first : bool) (d : dispatch Q) : Prop := mkMet {
  me_charge : 0 <= di_charge d <= take;
  me_discharge : 0 <= di_discharge d <= room;
  me_import : 0 <= di_import d;
  me_export : 0 <= di_export d;
  me_pv : di_charge d + di_export d <= di_pv d <= pv;
  me_battery : di_charge d == 0 \/ di_discharge d == 0;
  me_grid : di_import d == 0 \/ di_export d == 0;
  me_either : di_charge d + di_export d == 0 \/ di_discharge d + di_import d + di_genset d == 0;
  me_off : on = false -> di_import d == 0 /\ di_export d == 0;
  me_first : on = true -> first = false -> di_charge d == 0 /\ di_discharge d == 0;
  me_import_last : on = true -> first = true -> 0 < di_import d -> di_discharge d == room;
  me_export_last : on = true -> first = true -> 0 < di_export d -> di_charge d == take;
  me_load : 0 <= di_load d;
  me_all : pv + room < temp -> on = false -> di_pv d == pv /\ di_discharge d == room;
  me_genset : gen = true -> on = false -> pv + room < temp -> di_genset d == temp - pv - room + least /\ di_load d == 0;
  me_no_genset : gen = false \/ on = true \/ temp <= pv + room -> di_genset d == 0;
  me_left : gen = false -> on = false -> pv + room < temp -> di_load d == temp - pv - room;
  me_none : on = true \/ temp <= pv + room -> di_load d == 0;
  me_surplus : temp <= pv -> di_discharge d + di_import d == 0;
  me_whole : pv <= temp -> di_pv d == pv /\ di_charge d + di_export d == 0;
  me_stored : temp <= pv -> on = false \/ first = true ->
    di_charge d == pv - temp /\ pv - temp <= take \/ di_charge d == take /\ take <= pv - temp;
  me_on : on = true -> di_pv d == pv;
  me_sum : on = true \/ temp <= pv + room -> temp + di_charge d + di_export d == di_pv d + di_discharge d + di_import d
}.

Ltac settle := constructor; intros; repeat match goal with H : _ \/ _ |- _ => destruct H end; repeat match goal with H : _ /\ _ |- _ => destruct H end;
  try discriminate; try congruence;
  repeat split; try lra; try (left; lra); try (right; lra); try (exfalso; lra);
  try (left; split; lra); try (right; split; lra).

Section Turns.
  Variables (g : nonmod Q) (st : record Q) (soc room take pv temp least : Q).
  Hypothesis L : latest st "battery_soc" (CNum soc).
  Hypothesis R : discharge_limit g soc room.
  Hypothesis PD : exists pd, parameter g "battery_power_discharge" pd /\ 0 <= pd.
  Hypothesis T : takes g soc take.
  Hypothesis R0 : 0 <= room.
  Hypothesis T0 : 0 <= take.
  Hypothesis PV0 : 0 <= pv.
  Hypothesis TE0 : 0 <= temp.

  Lemma turns_off zp zb zg : (0 < zp)%Z -> (0 < zb)%Z -> (0 <= zg)%Z ->
    exists d, turns (nm_par g) st pv [("PV", zp); ("battery", zb); ("genset", zg)] (fresh temp least) = Ok d
      /\ forall first, met temp least pv room take (0 <? zg)%Z false first d.
  Proof.
    intros ZP ZB ZG.
    destruct (turn_PV (nm_par g) st pv zp (fresh temp least) ZP TE0) as (d1 & s & E1 & S1 & A1 & A2 & A3 & A4 & A5 & A6 & A7 & A8 & A9).
    destruct (turn_battery g st soc room take pv zb d1 ZB L R PD T) as (d2 & x & y & E2 & S2 & B1 & B2 & B3 & B4 & B5 & B6 & B7).
    rewrite (turns_cons _ _ _ _ _ _ _ E1), (turns_cons _ _ _ _ _ _ _ E2).
    cbn [di_load di_excess di_charge di_discharge di_import di_export di_genset di_pv di_min fresh] in *.
    destruct (Z.ltb_spec 0 zg) as [G|G].
    - destruct (turn_genset (nm_par g) st pv zg d2 G) as (d3 & E3 & S3 & C1 & C2 & C3 & C4 & C5 & C6).
      rewrite (turns_cons _ _ _ _ _ _ _ E3). exists d3. split; [reflexivity|]. intros first.
      destruct S1 as [(S1 & S1')|(S1 & S1')]; destruct S2 as [(S2 & S2' & S4 & S5 & S6)|[(S2 & S2' & S4 & S5 & S6 & S7)|(S2 & S2' & S4 & S5 & S6 & S7)]];
      destruct S3 as [(S8 & S9 & S10)|(S8 & S9 & S10)]; settle.
    - rewrite (turns_cons _ _ _ _ _ _ _ (turn_skip _ _ _ _ _ d2 G)). exists d2. split; [reflexivity|]. intros first.
      destruct S1 as [(S1 & S1')|(S1 & S1')]; destruct S2 as [(S2 & S2' & S4 & S5 & S6)|[(S2 & S2' & S4 & S5 & S6 & S7)|(S2 & S2' & S4 & S5 & S6 & S7)]];
      settle.
  Qed.

  Lemma turns_battery_first zp zb zr zg : (0 < zp)%Z -> (0 < zb)%Z -> (0 < zr)%Z -> (0 <= zg)%Z ->
    exists d, turns (nm_par g) st pv [("PV", zp); ("battery", zb); ("grid", zr); ("genset", zg)] (fresh temp least) = Ok d
      /\ met temp least pv room take (0 <? zg)%Z true true d.
  Proof.
    intros ZP ZB ZR ZG.
    destruct (turn_PV (nm_par g) st pv zp (fresh temp least) ZP TE0) as (d1 & s & E1 & S1 & A1 & A2 & A3 & A4 & A5 & A6 & A7 & A8 & A9).
    destruct (turn_battery g st soc room take pv zb d1 ZB L R PD T) as (d2 & x & y & E2 & S2 & B1 & B2 & B3 & B4 & B5 & B6 & B7).
    destruct (turn_grid (nm_par g) st pv zr d2 ZR) as (d3 & E3 & S3 & C1 & C2 & C3 & C4).
    rewrite (turns_cons _ _ _ _ _ _ _ E1), (turns_cons _ _ _ _ _ _ _ E2), (turns_cons _ _ _ _ _ _ _ E3).
    cbn [di_load di_excess di_charge di_discharge di_import di_export di_genset di_pv di_min fresh] in *.
    assert (Z3 : di_load d3 == 0).
    { destruct S1 as [(S1 & S1')|(S1 & S1')]; destruct S2 as [(S2 & S2' & S4 & S5 & S6)|[(S2 & S2' & S4 & S5 & S6 & S7)|(S2 & S2' & S4 & S5 & S6 & S7)]];
      destruct S3 as [(S8 & S9 & S10 & _)|[(S8 & S9 & S10 & S11 & _)|(S8 & S9 & S10)]]; subst; try destruct S2' as [(? & ?)|(? & ?)]; lra. }
    assert (K : exists d, turns (nm_par g) st pv [("genset", zg)] d3 = Ok d /\ di_load d == 0 /\ di_genset d == 0
      /\ di_charge d == di_charge d3 /\ di_discharge d == di_discharge d3 /\ di_import d == di_import d3 /\ di_export d == di_export d3
      /\ di_pv d == di_pv d3).
    { destruct (Z.leb_spec zg 0) as [G|G].
      - rewrite (turns_cons _ _ _ _ _ _ _ (turn_skip _ _ _ _ _ d3 G)). exists d3. split; [reflexivity|].
        rewrite C3, B6, A8. repeat split; try reflexivity. exact Z3.
      - destruct (turn_genset (nm_par g) st pv zg d3 G) as (d4 & E4 & S4 & D1 & D2 & D3 & D4 & D5 & D6).
        rewrite (turns_cons _ _ _ _ _ _ _ E4). exists d4. split; [reflexivity|].
        destruct S4 as [(S4 & _)|(S4 & S5 & S6)]; [lra|]. repeat split; try assumption; lra. }
    destruct K as (d4 & -> & D1 & D2 & D3 & D4 & D5 & D6 & D7). exists d4. split; [reflexivity|].
    clear E1 E2 E3 L R PD T.
    destruct S1 as [(S1 & S1')|(S1 & S1')]; destruct S2 as [(S2 & S2' & S4 & S5 & S6)|[(S2 & S2' & S4 & S5 & S6 & S7)|(S2 & S2' & S4 & S5 & S6 & S7)]];
    destruct S3 as [(S8 & S9 & S10 & S11 & S12 & S13)|[(S8 & S9 & S10 & S11 & S12 & S13 & S14)|(S8 & S9 & S10)]]; subst; settle.
  Qed.

  Lemma turns_grid_first zp zb zr zg : (0 < zp)%Z -> (0 < zb)%Z -> (0 < zr)%Z -> (0 <= zg)%Z ->
    exists d, turns (nm_par g) st pv [("PV", zp); ("grid", zr); ("battery", zb); ("genset", zg)] (fresh temp least) = Ok d
      /\ met temp least pv room take (0 <? zg)%Z true false d.
  Proof.
    intros ZP ZB ZR ZG.
    destruct (turn_PV (nm_par g) st pv zp (fresh temp least) ZP TE0) as (d1 & s & E1 & S1 & A1 & A2 & A3 & A4 & A5 & A6 & A7 & A8 & A9).
    destruct (turn_grid (nm_par g) st pv zr d1 ZR) as (d2 & E2 & S2 & B1 & B2 & B3 & B4).
    destruct (turn_battery g st soc room take pv zb d2 ZB L R PD T) as (d3 & x & y & E3 & S3 & C1 & C2 & C3 & C4 & C5 & C6 & C7).
    rewrite (turns_cons _ _ _ _ _ _ _ E1), (turns_cons _ _ _ _ _ _ _ E2), (turns_cons _ _ _ _ _ _ _ E3).
    cbn [di_load di_excess di_charge di_discharge di_import di_export di_genset di_pv di_min fresh] in *.
    assert (Z2 : di_load d2 == 0 /\ di_excess d2 == 0).
    { destruct S1 as [(S1 & S1')|(S1 & S1')];
      destruct S2 as [(S8 & S9 & S10 & S11 & S12 & _)|[(S8 & S9 & S10 & S11 & S12 & S13 & _)|(S8 & S9 & S10)]]; subst; split; lra. }
    destruct Z2 as (Z2 & Z2').
    assert (Z3 : di_load d3 == 0 /\ di_charge d3 == 0 /\ di_discharge d3 == 0 /\ di_pv d3 == di_pv d2).
    { destruct S3 as [(S2' & _)|[(_ & _ & S4 & _)|(S4 & S5 & S6 & S7 & S8 & S9)]]; [exfalso; lra|exfalso; lra|].
      repeat split; lra. }
    destruct Z3 as (Z3 & Z4 & Z5 & Z6).
    assert (K : exists d, turns (nm_par g) st pv [("genset", zg)] d3 = Ok d /\ di_load d == 0 /\ di_genset d == 0
      /\ di_charge d == di_charge d3 /\ di_discharge d == di_discharge d3 /\ di_import d == di_import d3 /\ di_export d == di_export d3
      /\ di_pv d == di_pv d3).
    { destruct (Z.leb_spec zg 0) as [G|G].
      - rewrite (turns_cons _ _ _ _ _ _ _ (turn_skip _ _ _ _ _ d3 G)). exists d3. split; [reflexivity|].
        rewrite C6, B3, A8. repeat split; try reflexivity. exact Z3.
      - destruct (turn_genset (nm_par g) st pv zg d3 G) as (d4 & E4 & S4 & D1 & D2 & D3 & D4 & D5 & D6).
        rewrite (turns_cons _ _ _ _ _ _ _ E4). exists d4. split; [reflexivity|].
        destruct S4 as [(S4 & _)|(S4 & S5 & S6)]; [lra|]. repeat split; try assumption; lra. }
    destruct K as (d4 & -> & D1 & D2 & D3 & D4 & D5 & D6 & D7). exists d4. split; [reflexivity|].
    clear E1 E2 E3 L R PD T S3.
    destruct S1 as [(S1 & S1')|(S1 & S1')];
    destruct S2 as [(S8 & S9 & S10 & S11 & S12 & S13)|[(S8 & S9 & S10 & S11 & S12 & S13 & S14)|(S8 & S9 & S10)]]; subst; settle.
  Qed.

  (** The genset alone *)
  Lemma turns_genset_only z1 z2 z3 : (z1 <= 0)%Z -> (z2 <= 0)%Z -> (z3 <= 0)%Z -> 0 < temp ->
    exists d, turns (nm_par g) st pv [("PV", z1); ("battery", z2); ("grid", z3); ("genset", 1%Z)] (fresh temp least) = Ok d
      /\ di_charge d == 0 /\ di_discharge d == 0 /\ di_import d == 0 /\ di_export d == 0 /\ di_pv d == 0
      /\ di_genset d == temp + least /\ di_load d == 0.
  Proof.
    intros H1 H2 H3 P.
    rewrite (turns_cons _ _ _ _ _ _ _ (turn_skip _ _ _ _ _ _ H1)), (turns_cons _ _ _ _ _ _ _ (turn_skip _ _ _ _ _ _ H2)),
      (turns_cons _ _ _ _ _ _ _ (turn_skip _ _ _ _ _ _ H3)).
    destruct (turn_genset (nm_par g) st pv 1 (fresh temp least) ltac:(lia)) as (d4 & E4 & S4 & D1 & D2 & D3 & D4 & D5 & D6).
    rewrite (turns_cons _ _ _ _ _ _ _ E4). exists d4. split; [reflexivity|].
    cbn [di_load di_excess di_charge di_discharge di_import di_export di_genset di_pv di_min fresh] in *.
    destruct S4 as [(S4 & S5 & S6)|(S4 & _)]; [|lra]. repeat split; lra.
  Qed.
End Turns.

(** ** The decision *)

Definition decision_of (load pv : Q) (d : dispatch Q) : dict Q :=
  [("battery_charge", di_charge d); ("battery_discharge", di_discharge d); ("genset", di_genset d);
   ("grid_import", di_import d); ("grid_export", di_export d);
   ("loss_load", if Qltb 0 (di_load d) then 1 else 0);
   ("pv_consummed", di_pv d); ("pv_curtailed", pv - di_pv d); ("load", load); ("pv", pv)].

Inductive decided (g : nonmod Q) (i : nat) (load pv room take : Q) (on : bool) (d : dispatch Q) : Prop :=
| D_usual first : ~ genset_needed g load pv room on -> battery_first g i first ->
    met load 0 pv room take (has_genset (nm_arch g)) on first d -> decided g i load pv room take on d
| D_aside least : genset_needed g load pv room on -> least_power g least -> least <= load ->
    met (load - least) least pv room take true false true d -> decided g i load pv room take on d
| D_alone least : genset_needed g load pv room on -> least_power g least -> load < least ->
    di_charge d == 0 -> di_discharge d == 0 -> di_import d == 0 -> di_export d == 0 -> di_pv d == 0 ->
    di_genset d == least + least -> di_load d == 0 -> decided g i load pv room take on d.

Lemma room_nonneg g soc room : discharge_limit g soc room -> (exists pd, parameter g "battery_power_discharge" pd /\ 0 <= pd) -> 0 <= room.
Proof.
  intros (smin & cap & eff & pd & P1 & P2 & P3 & P4 & ->) (pd' & P4' & PD). unfold parameter in *. rewrite P4 in P4'. injection P4' as <-.
  apply Q.min_glb; [apply Q.le_max_l|exact PD].
Qed.
Lemma takes_exists g soc room : discharge_limit g soc room -> furnished g -> exists take, takes g soc take /\ 0 <= take.
Proof.
  intros (smin & cap & eff & pd & P1 & P2 & P3 & P4 & _) F. destruct (fu_soc_max _ F) as (smax & P5). destruct (fu_charge _ F) as (pc & P6).
  eexists. split; [exists smax, cap, eff, pc; repeat split; try assumption; reflexivity|]. apply Q.le_max_l.
Qed.

Lemma rb_room_first g st soc room : latest st "battery_soc" (CNum soc) -> discharge_limit g soc room ->
  (exists pd, parameter g "battery_power_discharge" pd /\ 0 <= pd) ->
  exists r pd, rb_room (nm_par g) st = Ok r /\ dget "battery_power_discharge" (nm_par g) = Some pd /\ nmax (nmin r pd) 0 == room.
Proof.
  intros L (smin & cap & eff & pd & P1 & P2 & P3 & P4 & R) (pd' & P4' & PD). unfold parameter in *. rewrite P4 in P4'. injection P4' as <-.
  eexists _, pd. unfold rb_room. rewrite (last_num_latest _ _ _ L), (dfind_some _ _ _ P2), (dfind_some _ _ _ P1), (dfind_some _ _ _ P3). cbn [rbind].
  split; [reflexivity|]. split; [exact P4|]. unum. rewrite R.
  setoid_replace ((soc - smin) * cap * eff) with ((soc * cap - smin * cap) * eff) by ring.
  generalize ((soc * cap - smin * cap) * eff). intros a. rewrite nmax_Q.
  assert (A : nmin a pd == Qmin a pd).
  { unfold nmin. unum. destruct (Qltb pd a) eqn:E; qprop; [rewrite Q.min_r; lra|rewrite Q.min_l; lra]. }
  rewrite A. rewrite Q.max_comm.
  destruct (Qlt_le_dec a 0) as [N|N].
  - rewrite (Q.max_l 0 a) by lra. rewrite (Q.min_l a pd) by lra. rewrite (Q.max_l 0 a) by lra. rewrite Q.min_l by lra. reflexivity.
  - rewrite (Q.max_r 0 a) by lra. rewrite Q.max_r; [reflexivity|]. apply Q.min_glb; lra.
Qed.

Section Decision.
  Variables (to_int : Q -> Z) (g : nonmod Q) (i : nat) (st : record Q) (load pv soc room take : Q) (on : bool).
  Hypothesis CO : converts to_int.
  Hypothesis SU : situation g i st load pv soc room on.
  Hypothesis FU : furnished g.
  Hypothesis TK : takes g soc take.
  Hypothesis T0 : 0 <= take.
  Hypothesis R0 : 0 <= room.
  Let gen : bool := has_genset (nm_arch g).

  Definition rank (b : bool) : Z := (4 * flag b)%Z.

  (** The priorities, by the state of the grid *)
  Lemma priorities_of : exists (pr : dict Z) (first : bool), battery_first g i first
    /\ (if has_grid (nm_arch g) then
          (let? s := iloc (nm_status_ts g) (Z.of_nat i) in let? im := iloc (nm_import_ts g) (Z.of_nat i) in
           let? ex := iloc (nm_export_ts g) (Z.of_nat i) in priorities to_int (nm_arch g) (nm_par g) s im ex)%py
        else priorities to_int (nm_arch g) (nm_par g) 0 0 0) = Ok pr
    /\ pr = (if on then
               if first then [("PV", 1%Z); ("battery", 2%Z); ("grid", 3%Z); ("genset", rank gen)]
               else [("PV", 1%Z); ("battery", 3%Z); ("grid", 2%Z); ("genset", rank gen)]
             else [("PV", 1%Z); ("battery", if has_grid (nm_arch g) then if first then 2 else 3 else 2)%Z; ("grid", 0%Z); ("genset", rank gen)]).
  Proof.
    destruct SU as [S1 S2 S3 S4 S5 S6 S7 S8 S9 S10 S11].
    destruct S8 as (smin & cap & eff & pd & P1 & P2 & P3 & P4 & R). unfold parameter in *.
    unfold priorities. rewrite (dfind_some _ _ _ P3), S1, S2. cbn [rbind flag].
    destruct (has_grid (nm_arch g)) eqn:G.
    - destruct (S10 eq_refl) as (s & im & ex & N1 & N2 & N3 & S01).
      rewrite (iloc_nat _ _ _ N1), (iloc_nat _ _ _ N2), (iloc_nat _ _ _ N3). cbn [rbind]. unum.
      exists (if Qltb (ex / (eff * eff)) im
              then [("PV", 1%Z); ("battery", 2%Z); ("grid", to_int (inject_Z 3 * s)); ("genset", rank gen)]
              else [("PV", 1%Z); ("battery", 3%Z); ("grid", to_int (inject_Z 2 * s)); ("genset", rank gen)]), (Qltb (ex / (eff * eff)) im).
      split; [|split].
      + intros eff' im' ex' E1 E2 E3. unfold parameter in E1. rewrite P3 in E1. injection E1 as <-. rewrite N2 in E2. injection E2 as <-.
        rewrite N3 in E3. injection E3 as <-. apply Qltb_lt.
      + destruct (Qltb (ex / (eff * eff)) im); reflexivity.
      + assert (S : on = true -> s == 1).
        { intros O. apply S11 in O. destruct O as (_ & s' & E & S'). rewrite N1 in E. injection E as <-. exact S'. }
        destruct on eqn:O.
        * specialize (S eq_refl). rewrite (CO 3%Z), (CO 2%Z) by (rewrite S; reflexivity). destruct (Qltb (ex / (eff * eff)) im); reflexivity.
        * assert (S0 : s == 0).
          { destruct S01 as [S01|S01]; [exact S01|]. exfalso. assert (X : false = true); [|discriminate X]. apply S11. split; [reflexivity|]. eauto. }
          rewrite (CO 0%Z (inject_Z 3 * s)), (CO 0%Z (inject_Z 2 * s)) by (rewrite S0; reflexivity). destruct (Qltb (ex / (eff * eff)) im); reflexivity.
    - exists [("PV", 1%Z); ("battery", 2%Z); ("grid", 0%Z); ("genset", rank gen)].
      assert (O : on = false). { destruct on; [|reflexivity]. destruct (proj1 S11 eq_refl) as (X & _). discriminate X. }
      assert (DF : exists first, battery_first g i first).
      { destruct (nth_error (nm_import_ts g) i) as [im|] eqn:E1; [|exists true; intros ? ? ? _ X; rewrite E1 in X; discriminate].
        destruct (nth_error (nm_export_ts g) i) as [ex|] eqn:E2; [|exists true; intros ? ? ? _ _ X; rewrite E2 in X; discriminate].
        exists (Qltb (ex / (eff * eff)) im). intros eff' im' ex' X1 X2 X3. unfold parameter in X1. rewrite P3 in X1. injection X1 as <-.
        rewrite E1 in X2. injection X2 as <-. rewrite E2 in X3. injection X3 as <-. apply Qltb_lt. }
      destruct DF as (first & DF). exists first. split; [exact DF|]. split; [reflexivity|]. rewrite O. reflexivity.
  Qed.

  Lemma turns_skip_first nm z l (d : dispatch Q) : (z <= 0)%Z -> turns (nm_par g) st pv ((nm, z) :: l) d = turns (nm_par g) st pv l d.
  Proof. intros H. apply turns_cons. apply turn_skip. exact H. Qed.

  Lemma turns_skip_last nm z l : forall d : dispatch Q, (z <= 0)%Z ->
    turns (nm_par g) st pv (l ++ [(nm, z)]) d = turns (nm_par g) st pv l d.
  Proof.
    induction l as [|e l IH]; intros d H; [apply turns_skip_first; exact H|]. cbn [app turns].
    destruct (turn (nm_par g) st pv e d) as [d1|x]; [apply IH; exact H|reflexivity].
  Qed.

  Lemma turns_of temp least (first : bool) (pr : dict Z) : 0 <= temp ->
    pr = (if on then
            if first then [("PV", 1%Z); ("battery", 2%Z); ("grid", 3%Z); ("genset", rank gen)]
            else [("PV", 1%Z); ("battery", 3%Z); ("grid", 2%Z); ("genset", rank gen)]
          else [("PV", 1%Z); ("battery", if has_grid (nm_arch g) then if first then 2 else 3 else 2)%Z; ("grid", 0%Z); ("genset", rank gen)]) ->
    exists d, turns (nm_par g) st pv (sort_prio pr) (fresh temp least) = Ok d /\ met temp least pv room take gen on first d.
  Proof.
    intros TE ->. destruct SU as [S1 S2 S3 S4 S5 S6 S7 S8 S9 S10 S11].
    destruct on eqn:O; [destruct first|].
    - unfold rank. destruct gen eqn:GE.
      + match goal with |- context [sort_prio ?l] => change (sort_prio l) with [("PV", 1%Z); ("battery", 2%Z); ("grid", 3%Z); ("genset", 4%Z)] end.
        apply (turns_battery_first g st soc room take pv temp least S7 S8 S9 TK R0 T0 S6 TE); lia.
      + match goal with |- context [sort_prio ?l] => change (sort_prio l) with [("genset", 0%Z); ("PV", 1%Z); ("battery", 2%Z); ("grid", 3%Z)] end.
        rewrite turns_skip_first by lia.
        destruct (turns_battery_first g st soc room take pv temp least S7 S8 S9 TK R0 T0 S6 TE 1 2 3 0) as (d & E & H); try lia.
        exists d. split; [|exact H]. rewrite <- E. symmetry. apply (turns_skip_last "genset" 0 [("PV", 1%Z); ("battery", 2%Z); ("grid", 3%Z)]). lia.
    - unfold rank. destruct gen eqn:GE.
      + match goal with |- context [sort_prio ?l] => change (sort_prio l) with [("PV", 1%Z); ("grid", 2%Z); ("battery", 3%Z); ("genset", 4%Z)] end.
        apply (turns_grid_first g st soc room take pv temp least S7 S8 S9 TK R0 T0 S6 TE); lia.
      + match goal with |- context [sort_prio ?l] => change (sort_prio l) with [("genset", 0%Z); ("PV", 1%Z); ("grid", 2%Z); ("battery", 3%Z)] end.
        rewrite turns_skip_first by lia.
        destruct (turns_grid_first g st soc room take pv temp least S7 S8 S9 TK R0 T0 S6 TE 1 3 2 0) as (d & E & H); try lia.
        exists d. split; [|exact H]. rewrite <- E. symmetry. apply (turns_skip_last "genset" 0 [("PV", 1%Z); ("grid", 2%Z); ("battery", 3%Z)]). lia.
    - set (z := if has_grid (nm_arch g) then if first then 2%Z else 3%Z else 2%Z).
      assert (ZB : z = 2%Z \/ z = 3%Z). { unfold z. destruct (has_grid (nm_arch g)), first; auto. }
      clearbody z. unfold rank. destruct gen eqn:GE.
      + assert (E : sort_prio [("PV", 1%Z); ("battery", z); ("grid", 0%Z); ("genset", (4 * flag true)%Z)]
                    = [("grid", 0%Z); ("PV", 1%Z); ("battery", z); ("genset", 4%Z)]) by (destruct ZB as [-> | ->]; reflexivity).
        rewrite E. rewrite turns_skip_first by lia.
        destruct (turns_off g st soc room take pv temp least S7 S8 S9 TK R0 T0 S6 TE 1 z 4) as (d & E' & H); try lia.
        exists d. split; [exact E'|apply H].
      + assert (E : sort_prio [("PV", 1%Z); ("battery", z); ("grid", 0%Z); ("genset", (4 * flag false)%Z)]
                    = [("grid", 0%Z); ("genset", 0%Z); ("PV", 1%Z); ("battery", z)]) by (destruct ZB as [-> | ->]; reflexivity).
        rewrite E. rewrite !turns_skip_first by lia.
        destruct (turns_off g st soc room take pv temp least S7 S8 S9 TK R0 T0 S6 TE 1 z 0) as (d & E' & H); try lia.
        exists d. split; [|apply H]. rewrite <- E'. symmetry. apply (turns_skip_last "genset" 0 [("PV", 1%Z); ("battery", z)]). lia.
  Qed.
End Decision.

Theorem rb_decides to_int g i st load pv soc room on : converts to_int -> situation g i st load pv soc room on -> furnished g ->
  exists d take, takes g soc take
    /\ rb_control to_int g (Z.of_nat i) st = Ok (decision_of load pv d) /\ decided g i load pv room take on d.
Proof.
  intros CO SU FU.
  pose proof (room_nonneg g soc room (su_room _ _ _ _ _ _ _ _ SU) (su_power _ _ _ _ _ _ _ _ SU)) as R0.
  destruct (takes_exists g soc room (su_room _ _ _ _ _ _ _ _ SU) FU) as (take & TK & T0).
  destruct (priorities_of to_int g i st load pv soc room on CO SU) as (pr & first & BF & E & PR).
  destruct (rb_room_first g st soc room (su_soc _ _ _ _ _ _ _ _ SU) (su_room _ _ _ _ _ _ _ _ SU) (su_power _ _ _ _ _ _ _ _ SU)) as (r & pd & RO & PD & RM).
  pose proof (turns_of g i st load pv soc room take on SU TK T0 R0) as TO.
  assert (U : forall pr', pr' = pr -> genset_needed g load pv room on \/ ~ genset_needed g load pv room on) by
    (intros; unfold genset_needed; destruct (has_genset (nm_arch g)), on; destruct (Qlt_le_dec (pv + room) load) as [Q|Q];
     first [left; repeat split; assumption|right; intros (X & Y & Z); try discriminate X; try discriminate Y; lra]).
  specialize (U pr eq_refl).
  assert (CT : rb_control to_int g (Z.of_nat i) st = run_priority_based (nm_par g) (nm_arch g) load pv st pr).
  { unfold rb_control. change (@n0 Q Q_ops) with 0. 
    match goal with |- rbind ?a _ = _ => replace a with (@Ok (dict Z) pr) by (symmetry; exact E) end.
    cbn [rbind]. rewrite (iloc_nat _ _ _ (su_load_row _ _ _ _ _ _ _ _ SU)), (iloc_nat _ _ _ (su_pv_row _ _ _ _ _ _ _ _ SU)). reflexivity. }
  rewrite CT. clear CT E. unfold run_priority_based.
  assert (GF : genset_first (nm_par g) (nm_arch g) load pv st pr
    = if has_genset (nm_arch g) && negb on && Qltb (pv + nmax (nmin r pd) 0) load
      then (let? rated := dfind (nm_par g) "genset_rated_power" in let? pmin := dfind (nm_par g) "genset_pmin" in
            if Qle_bool (rated * pmin) load then Ok (load - rated * pmin, rated * pmin, pr)
            else Ok (rated * pmin, rated * pmin, [("PV", 0%Z); ("battery", 0%Z); ("grid", 0%Z); ("genset", 1%Z)]))%py
      else Ok (load, 0, pr)).
  { unfold genset_first. destruct (has_genset (nm_arch g)) eqn:GE; [|reflexivity]. rewrite RO, (dfind_some _ _ _ PD). cbn [rbind]. unum.
    assert (GG : exists z, dfind pr "grid" = Ok z /\ dfind pr "genset" = Ok 4%Z
      /\ has_grid (nm_arch g) && (z <? 4)%Z && (0 <? z)%Z = on).
    { destruct on eqn:O.
      - assert (HG : has_grid (nm_arch g) = true) by (apply (su_on _ _ _ _ _ _ _ _ SU); reflexivity). rewrite HG.
        destruct first; rewrite PR; eexists; (split; [reflexivity|split; reflexivity]).
      - rewrite PR. exists 0%Z. split; [reflexivity|]. split; [reflexivity|]. destruct (has_grid (nm_arch g)); reflexivity. }
    destruct GG as (z & G1 & G2 & G3). rewrite G1, G2. cbn [rbind]. rewrite G3. cbn [andb]. rewrite andb_comm. reflexivity. }
  rewrite GF. clear GF.
  assert (FIN : forall temp least pr' d, turns (nm_par g) st pv (sort_prio pr') (fresh temp least) = Ok d ->
    (let '(temp, least, pr) := (temp, least, pr') in
     let? d := turns (nm_par g) st pv (sort_prio pr) (mkDispatch temp n0 n0 n0 n0 n0 n0 n0 least) in
     Ok [("battery_charge", di_charge d); ("battery_discharge", di_discharge d); ("genset", di_genset d);
      ("grid_import", di_import d); ("grid_export", di_export d);
      ("loss_load", if ngtb (di_load d) n0 then n1 else n0);
      ("pv_consummed", di_pv d); ("pv_curtailed", nsub pv (di_pv d)); ("load", load); ("pv", pv)])%py = Ok (decision_of load pv d)).
  { intros temp least pr' d H. unfold fresh in H. unum. rewrite H. reflexivity. }
  destruct U as [U|U].
  - pose proof U as (U1 & U2 & U3). clear BF. subst on. rewrite U1. cbn [andb negb].
    assert (X : Qltb (pv + nmax (nmin r pd) 0) load = true) by (apply Qltb_lt; rewrite RM; exact U3).
    rewrite X. destruct (fu_genset _ FU U1) as (rated & pmin & P1 & P2). rewrite (dfind_some _ _ _ P1), (dfind_some _ _ _ P2). cbn [rbind].
    assert (LP : least_power g (rated * pmin)) by (exists rated, pmin; repeat split; auto; reflexivity).
    destruct (Qle_bool (rated * pmin) load) eqn:LE; qprop; cbn [rbind].
    + destruct (TO (load - rated * pmin) (rated * pmin) first pr ltac:(lra) PR) as (d & T1 & T2). rewrite U1 in T2.
      exists d, take. split; [exact TK|]. split; [apply FIN; exact T1|].
      apply (D_aside g i load pv room take false d (rated * pmin) U LP LE).
      destruct T2. constructor; try assumption; intros; try discriminate; auto.
    + assert (0 < rated * pmin) by (pose proof (su_load0 _ _ _ _ _ _ _ _ SU); lra).
      destruct (turns_genset_only g st pv (rated * pmin) (rated * pmin) 0 0 0) as (d & T1 & T2 & T3 & T4 & T5 & T6 & T7 & T8);
        try lia; try assumption. exists d, take. split; [exact TK|]. split.
      * apply FIN. exact T1.
      * apply (D_alone g i load pv room take false d (rated * pmin)); assumption.
  - assert (X : has_genset (nm_arch g) && negb on && Qltb (pv + nmax (nmin r pd) 0) load = false).
    { apply not_true_is_false. intros X. apply andb_true_iff in X. destruct X as (X & X3). apply andb_true_iff in X. destruct X as (X1 & X2).
      apply U. split; [exact X1|]. split; [destruct on; [discriminate X2|reflexivity]|]. apply Qltb_lt in X3. rewrite RM in X3. exact X3. }
    rewrite X. cbn [rbind]. destruct (TO load 0 first pr (su_load0 _ _ _ _ _ _ _ _ SU) PR) as (d & T1 & T2).
    exists d, take. split; [exact TK|]. split; [apply FIN; exact T1|]. apply (D_usual g i load pv room take on d first); assumption.
Qed.
