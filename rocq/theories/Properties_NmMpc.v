(** * Predictive control of non-modular microgrids *)

From Coq Require Import ZArith QArith Qabs Qminmax Bool String List Lia Lqa Permutation.
From Verif Require Import Num Py Spec_Module Proofs_Num NonModular Spec_NonModular Proofs_NonModular Proofs_NmRun
  Proofs_NmHistory Proofs_NmBattery Proofs_NmProgress Proofs_NmEpisode Proofs_NmTotal Proofs_NmRecord Properties_NonModular
  Conversion Spec_Conversion Properties_Conversion
  Proofs_NmReads NmRbc Spec_NmRbc Spec_NmRbcRun Proofs_NmRbc Proofs_NmRbcRun Proofs_NmRbcServe Properties_NmRbc Properties_NmRbcRun
  MPC NmMpc Spec_MPC Spec_NmMpc Proofs_NmMpc Proofs_NmMpcPlan Proofs_NmMpcRun.
Import ListNotations.
Local Open Scope string_scope.
Local Open Scope list_scope.
Local Open Scope Q_scope.

(** ** C73: the programs *)

(** A controller can be made for a plausible microgrid with a battery. *)
Theorem C73_made (g : nonmod Q) co2 : plausible g -> has_battery (nm_arch g) = true -> (0 < nm_horizon g)%Z ->
  parameter g "cost_co2" co2 -> (forall x, parameter g "battery_cost_cycle" x -> 0 <= x) ->
  exists c, nm_new_mpc g = Ok c /\ made_for c g.
Proof.
  intros PL HB HZ CO CY. destruct (C62_accepted false g PL) as (mg & TM).
  assert (exists c, nm_new_mpc g = Ok c) as (c & H).
  { unfold nm_new_mpc. rewrite TM. destruct (Z.leb_spec (nm_horizon g) 0); [lia|].
    destruct (pl_battery _ PL HB) as (cap & smin & pc & pd & eff & cost & soc & P1 & _ & _ & _ & P2 & P3 & _).
    destruct (pl_costs _ PL) as (l & o & P4 & _ & L0 & _). pose proof (CY _ P3) as C0. unfold parameter in *.
    unfold parse_nonmodular, dfind. rewrite P1, P2, P3, P4, CO.
    destruct (has_genset (nm_arch g)) eqn:HG.
    - destruct (Spec_Conversion.pl_genset _ PL HG) as (rated & pmin & pmax & fuel & dirt & cost' & G1 & G2 & G3 & G4 & G5 & _). unfold parameter in *.
      rewrite G1, G2, G3, G4, G5. cbn. eauto.
    - cbn. replace (Qltb cost 0) with false by (symmetry; apply Qltb_ge; exact C0). replace (Qltb l 0) with false by (symmetry; apply Qltb_ge; exact L0).
      cbn. eauto. }
  exists c. split; [exact H|]. exists g. auto.
Qed.
Print Assumptions C73_made.
(** Without a horizon there is none. *)
Theorem C73_no_horizon (g : nonmod Q) : plausible g -> (nm_horizon g <= 0)%Z -> raises ValueError (nm_new_mpc g).
Proof.
  intros PL HZ. destruct (C62_accepted false g PL) as (mg & TM). unfold nm_new_mpc. rewrite TM.
  destruct (Z.leb_spec (nm_horizon g) 0); [|lia]. eexists. split; reflexivity.
Qed.
Print Assumptions C73_no_horizon.

Section C73.
  Variables (c : mpc Q) (solve : solver Q) (sp : nm_spec Q) (h : Z) (g0 : nonmod Q) (cs : list nm_call).
  Hypothesis W : wired sp.
  Hypothesis N : new_nonmodular sp h = Ok g0.
  Hypothesis A : aligned g0.
  Hypothesis P : Forall (proper (all_rows g0)) cs.
  Let g := nm_after cs g0.
  Hypothesis HB : has_battery (nm_arch g) = true.
  Hypothesis MF : made_for c g.
  Hypothesis AA : assigns_all solve.

  Let E : equipped g := equipped_after cs _ (equipped_new _ _ _ W N).
  Let AL : aligned g := aligned_after cs _ A.
  Let CK : clock_ok g.
  Proof. pose proof (new_rows _ _ _ N) as R. exact (clock_after _ _ (equipped_new _ _ _ W N) ltac:(lia) (clock_new _ _ _ N ltac:(lia)) P). Qed.

  (** After [k] steps the program is posed whose solutions are the plans for the rows [k],
      [k + 1], ..., starting with the last state of charge that the run recorded.  If the
      solver has no solution the run raises; it does not repeat earlier decisions. *)
  Theorem C73_posed k (g1 : nonmod Q) r : nm_mpc_run c solve (Some (Z.of_nat k)) g = (g1, Ok r) ->
    (Z.of_nat k < nm_len g - nm_horizon g)%Z ->
    exists e xs soc pr, posed_at g1 k e xs /\ latest (cp_state r) "battery_soc" (CNum soc) /\ program_of pr e soc xs
      /\ forall steps, (k < mpc_count g steps)%nat -> (Z.of_nat (mpc_count g steps) <= nm_len g - nm_horizon g)%Z ->
         (solve k pr = Ok None -> raises TypeError (snd (nm_mpc_run c solve steps g)))
         /\ (forall er, solve k pr = Err er -> nm_mpc_run c solve steps g = (g1, Err er)).
  Proof. intros H. exact (run_unsolved c solve g g1 E AL CK HB MF (run_reset _ _ _ _ _ _ H) k r AA H). Qed.

  (** On sensible data every program that is posed has solutions. *)
  Theorem C73_solvable k (g1 : nonmod Q) r e xs soc pr : sensible_for_mpc g -> nm_mpc_run c solve (Some (Z.of_nat k)) g = (g1, Ok r) ->
    posed_at g1 k e xs -> latest (cp_state r) "battery_soc" (CNum soc) -> program_of pr e soc xs -> exists p u, satisfies pr p u = true.
  Proof. intros SE H. exact (run_solvable c solve g g1 E AL CK HB MF (run_reset _ _ _ _ _ _ H) k r e xs soc pr AA SE H). Qed.

  (** ** C74: the records of a run *)

  (** A run that returns has reset the microgrid and consists of [mpc_count g steps] steps: each
      solves the program of its row, carries out the first step of the plan and adds one row to
      the records of the run that is one step shorter. *)
  Theorem C74_steps steps (g1 : nonmod Q) r : nm_mpc_run c solve steps g = (g1, Ok r) ->
    nm_reset false g = (g1, Ok tt)
    /\ exists rs : nat -> copies Q, rs O = copies_of g1 /\ rs (mpc_count g steps) = r
       /\ all_longer (mpc_count g steps) (copies_of g1) r
       /\ forall k, (k < mpc_count g steps)%nat ->
            nm_mpc_run c solve (Some (Z.of_nat k)) g = (g1, Ok (rs k))
            /\ nm_mpc_run c solve (Some (Z.of_nat (S k))) g = (g1, Ok (rs (S k)))
            /\ exists n x e xs soc pr u s rest o, rows g1 k n x /\ decides solve g1 k (rs k) e xs soc pr u s rest
               /\ carried g1 (decided_by (eq_gen e) n s) n x (rs k) (rs (S k)) o /\ all_longer 1 (rs k) (rs (S k)).
  Proof.
    intros H. pose proof (run_reset _ _ _ _ _ _ H) as RS. split; [exact RS|].
    destruct (mpc_trace c solve g g1 E AL CK HB MF RS steps g1 r AA H) as (_ & rs & R0 & RM & LM & ST & SS & KE).
    exists rs. split; [exact R0|]. split; [exact RM|]. split; [rewrite <- RM; apply KE; lia|].
    intros k K. pose proof (mpc_prefix c solve g g1 AL CK RS (mpc_count g steps) rs R0 ltac:(lia) ST) as UP.
    split; [apply UP; lia|]. split; [apply UP; lia|]. exact (SS k K).
  Qed.

  (** More steps than the rows allow are refused. *)
  Theorem C74_too_many n (g1 : nonmod Q) : nm_reset false g = (g1, Ok tt) -> (nm_len g - nm_horizon g < n)%Z ->
    raises AssertionError (snd (nm_mpc_run c solve (Some n) g)).
  Proof.
    intros RS H. rewrite (run_eq c solve g g1 RS). destruct (iter_many g g1 AL CK RS n H) as (er & I & CL). rewrite I. exists er. auto.
  Qed.

  (** The state of charge stays within its limits, whatever the solver answers. *)
  Theorem C74_soc steps (g1 : nonmod Q) r smin smax cap eff pc pd : nm_mpc_run c solve steps g = (g1, Ok r) ->
    parameter g "battery_soc_min" smin -> parameter g "battery_soc_max" smax ->
    parameter g "battery_capacity" cap -> parameter g "battery_efficiency" eff ->
    parameter g "battery_power_charge" pc -> parameter g "battery_power_discharge" pd ->
    0 < eff <= 1 -> 0 < cap -> 0 <= pc -> 0 <= pd ->
    (exists s l, dget "battery_soc" (nm_state g) = Some (CNum s :: l) /\ smin <= s <= smax) ->
    forall l, dget "battery_soc" (cp_state r) = Some l -> Forall (fun c => exists s, c = CNum s /\ smin <= s /\ s <= smax) l.
  Proof.
    intros H P1 P2 P3 P4 P5 P6 EF CP K1 K2 (s & l & D & SL). pose proof (run_reset _ _ _ _ _ _ H) as RS.
    destruct (mpc_trace c solve g g1 E AL CK HB MF RS steps g1 r AA H) as (_ & rs & R0 & RM & LM & ST & _). rewrite <- RM.
    exact (soc_kept c solve g g1 E AL CK HB MF RS _ rs AA R0 LM ST smin smax cap eff pc pd P1 P2 P3 P4 P5 P6 EF CP K1 K2
             (first_within g g1 RS smin smax s l D SL) _ (le_n _)).
  Qed.

  (** If the programs are solved the run returns, unless a plan balances the load without the
      PV though there is some. *)
  Theorem C74_total steps (g1 : nonmod Q) : nm_reset false g = (g1, Ok tt) ->
    (Z.of_nat (mpc_count g steps) <= nm_len g - nm_horizon g)%Z -> solves_run c solve g g1 (mpc_count g steps) ->
    (exists r, nm_mpc_run c solve steps g = (g1, Ok r))
    \/ (exists er, nm_mpc_run c solve steps g = (g1, Err er) /\ ex_class er = AssertionError)
       /\ exists k, (k < mpc_count g steps)%nat /\ balanced_without_pv c solve g g1 k.
  Proof. intros RS M SR. exact (run_verdict c solve g g1 E AL CK HB MF RS steps M SR). Qed.

  (** A solver that finds solutions solves them on sensible data. *)
  Theorem C74_finder steps (g1 : nonmod Q) : nm_reset false g = (g1, Ok tt) ->
    (Z.of_nat (mpc_count g steps) <= nm_len g - nm_horizon g)%Z -> finds_solutions solve -> sensible_for_mpc g ->
    solves_run c solve g g1 (mpc_count g steps).
  Proof. intros RS M FS SE. exact (finder_solves c solve g g1 E AL CK HB MF RS _ FS SE M). Qed.
End C73.
Print Assumptions C73_posed.
Print Assumptions C73_solvable.
Print Assumptions C74_steps.
Print Assumptions C74_too_many.
Print Assumptions C74_soc.
Print Assumptions C74_total.
Print Assumptions C74_finder.

(** What is recorded of the first step of a plan: the plan, except that the battery may take
    less; if it does not, the state of charge is the planned one, nothing is produced in vain,
    and the recorded cost is the planned one, less what the program counts of exported energy
    and of loss that need not be. *)
Theorem C74_as_planned (g : nonmod Q) solve k r r' n x e xs soc pr u s rest o :
  has_battery (nm_arch g) = true -> sensible_for_mpc g -> rows g k n x ->
  decides solve g k r e xs soc pr u s rest -> good_plan e soc xs (s :: rest) -> eq_soc_min e <= soc <= eq_soc_max e ->
  carried g (decided_by (eq_gen e) n s) n x r r' o -> one_way s ->
  kept_to e soc s o
  /\ (charge_fits e soc s -> oc_over o == 0 /\ evened_out s o
      /\ (exists soc', gained (cp_state r) (cp_state r') "battery_soc" (CNum soc') /\ soc' == pl_soc s)
      /\ exists x0 total, nth_error xs 0 = Some x0 /\ gained (cp_cost r) (cp_cost r') "total_cost" (CNum total)
         /\ total == step_cost e x0 s - 2 * ex_export x0 * pl_export s - eq_loss_cost e * (pl_loss s - oc_loss o)).
Proof.
  intros HB SE R (PO & LS & _) (GL & GP) SL CA OW. destruct xs as [|x0 xs]; [discriminate GL|].
  pose proof (GP O x0 s eq_refl eq_refl) as OK. pose proof (ca_follows _ _ _ _ _ _ _ CA) as FO.
  split; [exact (plan_kept g r k n x e _ x0 soc s o HB SE PO eq_refl LS SL OK FO OW)|]. intros CF.
  destruct (plan_even g r r' k n x e _ x0 soc s o HB SE PO eq_refl R LS SL OK FO CA OW CF) as (H1 & H2). split; [exact H1|]. split; [exact H2|].
  split; [exact (plan_soc g r r' k n x e _ x0 soc s o HB SE PO eq_refl LS SL OK FO CA OW CF)|].
  destruct (plan_cost_known g r r' k n x e _ x0 soc s o HB SE PO eq_refl R LS SL OK FO CA OW CF) as (total & H3 & H4).
  exists x0, total. auto.
Qed.
Print Assumptions C74_as_planned.

(** What a step costs, whatever was planned *)
Theorem C74_billed (g : nonmod Q) k r r' n x e xs s o x0 : has_battery (nm_arch g) = true -> rows g k n x -> posed_at g k e xs ->
  nth_error xs 0 = Some x0 -> carried g (decided_by (eq_gen e) n s) n x r r' o ->
  exists total over_cost, parameter g "cost_overgeneration" over_cost
    /\ gained (cp_cost r) (cp_cost r') "total_cost" (CNum total) /\ total == outcome_cost e over_cost x0 o.
Proof. intros HB R PO X0 CA. exact (plan_billed g r r' k n x e xs x0 s o HB PO X0 R (ca_follows _ _ _ _ _ _ _ CA) CA). Qed.
Print Assumptions C74_billed.

(** The plans that stop a run: those that need neither the PV nor a loss, where the battery
    takes all that is planned *)
Theorem C74_stopped (g : nonmod Q) solve k r n x e xs soc pr u s rest :
  has_battery (nm_arch g) = true -> sensible_for_mpc g -> rows g k n x ->
  decides solve g k r e xs soc pr u s rest -> good_plan e soc xs (s :: rest) -> eq_soc_min e <= soc <= eq_soc_max e ->
  one_way s -> charge_fits e soc s -> exactly_balanced (at_row g r n x) (decided_by (eq_gen e) n s) ->
  pl_loss s == 0 /\ pl_curtail s == now_pv n /\ 1 # 1000 <= now_pv n.
Proof.
  intros HB SE R (PO & LS & _) (GL & GP) SL OW CF (o & FO & B & PV). destruct xs as [|x0 xs]; [discriminate GL|].
  pose proof (GP O x0 s eq_refl eq_refl) as OK.
  destruct (proj1 (plan_without_pv g r k n x e _ x0 soc s o HB SE PO eq_refl R LS SL OK FO OW CF) B) as (H1 & H2). auto.
Qed.
Print Assumptions C74_stopped.

(** *** Examples *)

Lemma example_for_mpc (g : nonmod Q) x l : nm_par g = nm_parameters -> dget "battery_soc" (nm_state g) = Some (CNum x :: l) -> 1 # 5 <= x <= 1 ->
  Forall (Qle 0) (nm_load_ts g) -> Forall (Qle 0) (nm_pv_ts g) -> Forall (fun x => 0 <= x <= 1) (nm_status_ts g) -> sensible_for_mpc g.
Proof.
  intros E D X F1 F2 F3. constructor; unfold parameter; rewrite ?E.
  - exists (1 # 5), 1, 100, (9 # 10), 25, 25. repeat (split; [first [reflexivity|lra]|]). exists x, l. auto.
  - intros _. exists 40, (1 # 20), (9 # 10). repeat split; try reflexivity; lra.
  - intros _. exists 60, 60. repeat split; try reflexivity; lra.
  - auto.
Qed.

(** Three steps with a grid: import, charge, and discharge with the genset on and one unit of
    the load lost *)
Definition mp_plans : list (list planned) :=
  [[mkPlanned 0 5 0 0 0 0 0 (1 # 2) 0; mkPlanned 0 0 0 0 0 30 0 (1 # 2) 0];
   [mkPlanned 0 0 0 10 0 20 0 (59 # 100) 0; mkPlanned 30 0 0 0 0 0 0 (59 # 100) 1];
   [mkPlanned 20 0 0 0 9 0 1 (49 # 100) 1; mkPlanned 0 30 0 0 0 0 0 (49 # 100) 0]].
Definition mp_answers (plans : list (list planned)) : solver Q := fun k pr =>
  let p := concat (map (variables true) (nth k plans [])) in
  let u := map pl_on (nth k plans []) in
  if satisfies pr p u then Ok (Some (p, u)) else Ok None.
Lemma mp_true plans k pr p u : mp_answers plans k pr = Ok (Some (p, u)) -> satisfies pr p u = true.
Proof. unfold mp_answers. intros H. destruct (satisfies pr _ _) eqn:SA; [|discriminate H]. injection H as <- <-. exact SA. Qed.
Lemma true_assigns (solve : solver Q) : (forall k pr p u, solve k pr = Ok (Some (p, u)) -> satisfies pr p u = true) -> assigns_all solve.
Proof.
  intros TR k pr p u H. apply TR in H. unfold satisfies in H. rewrite !andb_true_iff in H. destruct H as ((((H & _) & _) & _) & _).
  apply Nat.eqb_eq. exact H.
Qed.
Lemma mp_assigns plans : assigns_all (mp_answers plans).
Proof. apply true_assigns. apply mp_true. Qed.
Definition mp_get (r : res (mpc Q)) : mpc Q := match r with Ok c => c | Err _ => mkMpc [] 0 (mkParams 0 0 0 0 0 0 0 0 0) end.
Definition full_mpc : mpc Q := mp_get (nm_new_mpc full_grid).
Lemma full_mpc_new : nm_new_mpc full_grid = Ok full_mpc.
Proof.
  destruct (C73_made full_grid (1 # 10) full_plausible eq_refl) as (c & H & _); [vm_compute; reflexivity|vm_compute; reflexivity| |].
  - intros x H. vm_compute in H. injection H as <-. lra.
  - unfold full_mpc. rewrite H. reflexivity.
Qed.
Definition copies_get (x : nonmod Q * res (copies Q)) : copies Q := match snd x with Ok r => r | Err _ => copies_of (fst x) end.
Definition full_reset : nonmod Q := fst (nm_reset false full_grid).

Example C74_example :
  wired (nm_example full_arch nm_load nm_pv) /\ aligned full_grid /\ made_for full_mpc full_grid /\ assigns_all (mp_answers mp_plans)
  /\ sensible_for_mpc full_grid /\ mpc_count full_grid None = 3%nat /\ nm_reset false full_grid = (full_reset, Ok tt)
  /\ exists r, nm_mpc_run full_mpc (mp_answers mp_plans) None full_grid = (full_reset, Ok r)
     /\ column "grid_import" (cp_production r) = [5; 0; 0] /\ column "genset" (cp_production r) = [0; 0; 20]
     /\ column "battery_charge" (cp_production r) = [0; 10; 0] /\ column "battery_discharge" (cp_production r) = [0; 0; 9]
     /\ column "pv_curtailed" (cp_production r) = [0; 20; 0] /\ column "loss_load" (cp_production r) = [0; 0; 1]
     /\ column "battery_soc" (cp_state r) = [1 # 2; 1 # 2; 59 # 100; 49 # 100]
     /\ column "total_cost" (cp_cost r) = [7 # 4; 1 # 5; 1109 # 50]
     /\ column "hour" (cp_state r) = [0; 0; 0; 0].
Proof.
  split; [apply example_wired; reflexivity|]. split; [split; [vm_compute; repeat constructor|intros _; vm_compute; repeat constructor]|].
  split; [exists full_grid; split; [exact full_mpc_new|auto]|]. split; [apply mp_assigns|].
  split; [eapply example_for_mpc; try (vm_compute; reflexivity); try lra; vm_compute; repeat constructor; discriminate|].
  split; [vm_compute; reflexivity|]. split; [vm_compute; reflexivity|].
  exists (copies_get (nm_mpc_run full_mpc (mp_answers mp_plans) None full_grid)). vm_compute. repeat split.
Qed.

(** What is posed after [k] steps of a microgrid with these parameters *)
Definition known_equipment (e : equipment) : Prop :=
  eq_gen e = true /\ eq_eta e = 9 # 10 /\ eq_capacity e = 100 /\ eq_soc_min e = 1 # 5 /\ eq_soc_max e = 1 /\ eq_charge e = 25 /\ eq_discharge e = 25
  /\ eq_cycle_cost e = 1 # 50 /\ eq_loss_cost e = 10 /\ eq_gen_min e == 2 /\ eq_gen_max e == 36 /\ eq_gen_cost e == 3 # 5
  /\ eq_import e = 60 /\ eq_export e = 60.
Lemma posed_equipment (g : nonmod Q) k e xs : nm_par g = nm_parameters -> has_genset (nm_arch g) = true -> has_grid (nm_arch g) = true ->
  posed_at g k e xs -> known_equipment e.
Proof.
  intros EP HG HR PO. unfold known_equipment. destruct PO as [(P1 & P2 & P3 & P4 & P5 & P6 & P7) PL (EG & PG) GR _ _]. rewrite HR in GR. rewrite HG in EG. specialize (PG HG).
  destruct PG as (rated & pmin & pmax & fuel & dirt & co2 & G1 & G2 & G3 & G4 & G5 & G6 & G7 & G8 & G9). destruct GR as (R1 & R2).
  unfold parameter in *. rewrite EP in *. cbn in *.
  injection P1 as <-. injection P2 as <-. injection P3 as <-. injection P4 as <-. injection P5 as <-. injection P6 as <-. injection P7 as <-. injection PL as <-.
  injection G1 as <-. injection G2 as <-. injection G3 as <-. injection G4 as <-. injection G5 as <-. injection G6 as <-. injection R1 as <-. injection R2 as <-.
  repeat (split; [first [reflexivity|assumption|rewrite ?G7, ?G8, ?G9; reflexivity]|]). reflexivity.
Qed.
Lemma two_rows (g : nonmod Q) k e xs : nm_horizon g = 2%Z -> posed_at g k e xs -> exists x y, xs = [x; y].
Proof.
  intros H PO. pose proof (pa_steps _ _ _ _ PO) as PS. rewrite H in PS. destruct xs as [|x [|y [|z xs]]]; cbn in PS; try lia. exists x, y. reflexivity.
Qed.
(** Two steps that are allowed make a plan. *)
Lemma two_steps e soc x y s t : allowed e soc x s -> allowed e (pl_soc s) y t -> good_plan e soc [x; y] [s; t].
Proof.
  intros H1 H2. split; [reflexivity|]. intros [|[|k]] a b XA XB; cbn in XA, XB.
  - injection XA as <-. injection XB as <-. exact H1.
  - injection XA as <-. injection XB as <-. exact H2.
  - destruct k; discriminate.
Qed.
Ltac known e K := destruct e; unfold known_equipment in K; cbn in K; destruct K as (? & ? & ? & ? & ? & ? & ? & ? & ? & ? & ? & ? & ? & ?); subst.
Lemma mp_answered plans k e soc xs pr : eq_gen e = true -> program_of pr e soc xs -> good_plan e soc xs (nth k plans []) ->
  exists p u, mp_answers plans k pr = Ok (Some (p, u)) /\ satisfies pr p u = true.
Proof.
  intros EG (PG & _) GP. set (plan := nth k plans []) in *.
  assert (SA : satisfies pr (concat (map (variables true) plan)) (map pl_on plan) = true) by (apply PG; exists plan; rewrite EG; split; [split; auto|exact GP]).
  exists (concat (map (variables true) plan)), (map pl_on plan). split; [|exact SA]. unfold mp_answers. fold plan. rewrite SA. reflexivity.
Qed.
Lemma upto_soc k (r : copies Q) g1 c sv g soc x : nm_mpc_run c sv (Some (Z.of_nat k)) g = (g1, Ok r) -> latest (cp_state r) "battery_soc" (CNum soc) ->
  (exists y, latest (cp_state (copies_get (nm_mpc_run c sv (Some (Z.of_nat k)) g))) "battery_soc" (CNum y) /\ y == x) -> soc == x.
Proof. intros UP LS (y & LY & Y). rewrite UP in LY. cbn in LY. pose proof (latest_unique _ _ _ _ LS LY) as X. injection X as ->. exact Y. Qed.
Ltac row RX := vm_compute in RX; destruct RX as (?RL & ?RV & ?RG & ?RE & ?im & ?dirt & ?co & ?I1 & ?I2 & ?I3 & _);
  repeat match goal with H : Some _ = Some _ |- _ => injection H as H; subst end.
Ltac step_allowed := constructor; cbn [pl_genset pl_import pl_export pl_charge pl_discharge pl_curtail pl_loss pl_soc pl_on ex_load ex_pv ex_grid
  eq_gen eq_eta eq_capacity eq_soc_min eq_soc_max eq_charge eq_discharge eq_import eq_export eq_gen_min eq_gen_max].
Ltac plan_allowed := match goal with
  | |- _ \/ _ => first [left; split; [reflexivity|split; [reflexivity|lra]] | right; split; [reflexivity|lra]]
  | |- _ == _ + _ / _ => repeat match goal with H : ?x == _ |- context [?x] => is_var x; rewrite H end; reflexivity
  | |- _ => lra
  end.

Example C74_solved_example : solves_run full_mpc (mp_answers mp_plans) full_grid full_reset 3.
Proof.
  intros k r e xs soc pr K UP PO LS PG.
  assert (KE : known_equipment e) by (apply (posed_equipment full_reset k e xs); try (vm_compute; reflexivity); exact PO).
  destruct (two_rows full_reset k e xs ltac:(vm_compute; reflexivity) PO) as (x & y & ->).
  pose proof (pa_rows _ _ _ _ PO 0%nat x eq_refl) as RX. pose proof (pa_rows _ _ _ _ PO 1%nat y eq_refl) as RY.
  apply (mp_answered mp_plans k e soc [x; y] pr (proj1 KE) PG). clear PG PO. known e KE. destruct x as [xl xp xg xi xe], y as [yl yp yg yi ye].
  destruct k as [|[|[|k]]]; [| | |lia]; row RX; row RY; cbn [nth mp_plans].
  - assert (SOC : soc == 1 # 2) by (apply (upto_soc _ _ _ _ _ _ _ _ UP LS); eexists; split; [exists []; vm_compute; reflexivity|reflexivity]).
    clear UP LS. apply two_steps; step_allowed; plan_allowed.
  - assert (SOC : soc == 1 # 2) by (apply (upto_soc _ _ _ _ _ _ _ _ UP LS); eexists; split; [eexists [_]; vm_compute; reflexivity|reflexivity]).
    clear UP LS. apply two_steps; step_allowed; plan_allowed.
  - assert (SOC : soc == 59 # 100) by (apply (upto_soc _ _ _ _ _ _ _ _ UP LS); eexists; split; [eexists [_; _]; vm_compute; reflexivity|reflexivity]).
    clear UP LS. apply two_steps; step_allowed; plan_allowed.
Qed.

(** The second step: the charge fits, and 20 of the PV are curtailed as planned. *)
Example C74_planned_example : exists r n x e xs soc pr u s rest,
  nm_mpc_run full_mpc (mp_answers mp_plans) (Some 1%Z) full_grid = (full_reset, Ok r) /\ rows full_reset 1 n x
  /\ decides (mp_answers mp_plans) full_reset 1 r e xs soc pr u s rest
  /\ eq_soc_min e <= soc <= eq_soc_max e /\ one_way s /\ charge_fits e soc s /\ pl_charge s = 10 /\ pl_curtail s = 20
  /\ sensible_for_mpc full_reset /\ has_battery (nm_arch full_reset) = true.
Proof.
  destruct C74_example as (W & A & MF & AA & SE & CN & RS & r & RN & _).
  assert (P : Forall (proper (all_rows full_grid)) []) by constructor.
  destruct (C74_steps full_mpc (mp_answers mp_plans) _ 2%Z full_grid [] W full_new A P eq_refl MF AA None full_reset r RN)
    as (_ & rs & _ & _ & _ & ST). change (nm_after [] full_grid) with full_grid in ST. rewrite CN in ST.
  destruct (ST 1%nat ltac:(lia)) as (UP & _ & n & x & e & xs & soc & pr & u & s & rest & o & R & D & _).
  exists (rs 1%nat), n, x, e, xs, soc, pr, u, s, rest. split; [exact UP|]. split; [exact R|]. split; [exact D|].
  destruct D as (PO & LS & PG & SO).
  assert (KE : known_equipment e) by (apply (posed_equipment full_reset 1%nat e xs); try (vm_compute; reflexivity); exact PO).
  assert (SOC : soc == 1 # 2) by (apply (upto_soc _ _ _ _ _ _ _ _ UP LS); eexists; split; [eexists [_]; vm_compute; reflexivity|reflexivity]).
  assert (SH : pl_charge s = 10 /\ pl_discharge s = 0 /\ pl_curtail s = 20).
  { unfold mp_answers in SO. destruct (satisfies pr _ _); [|discriminate SO]. injection SO as SO _. rewrite (proj1 KE) in SO. cbn in SO.
    injection SO as _ _ _ S1 S2 S3 _ _ _. auto. }
  destruct SH as (S1 & S2 & S3).
  destruct KE as (_ & K2 & K3 & K4 & K5 & _). rewrite K4, K5.
  split; [rewrite SOC; split; discriminate|]. split; [right; rewrite S2; reflexivity|].
  split; [unfold charge_fits; rewrite S1, K2, K3, K5, SOC; discriminate|]. split; [exact S1|]. split; [exact S3|]. split; [|reflexivity].
  eapply example_for_mpc; try (vm_compute; reflexivity); try lra; vm_compute; repeat constructor; discriminate.
Qed.

(** Plans need not be carried out: at 95 % of the charge a plan may charge with 5.5, which fills
    4.95 of the 5 that are left, but only 4.5 are charged.  What was imported for the rest is
    recorded as produced in vain. *)
Definition almost_full_spec : nm_spec Q :=
  let sp := nm_example full_arch [10; 10; 10; 10; 10] [0; 0; 0; 0; 0] in
  mkSpec (sp_parameters sp) (sp_arch sp) (sp_load sp) (sp_pv sp) (sp_grid_ts sp) (sp_import sp) (sp_export sp) (sp_co2 sp) (sp_actions sp)
    (dset "battery_soc" [CNum (19 # 20)] (sp_status sp)) (sp_generation sp) (sp_cost sp) (sp_df_co2 sp).
Lemma almost_full_wired : wired almost_full_spec.
Proof.
  destruct (example_wired full_arch [10; 10; 10; 10; 10] [0; 0; 0; 0; 0] eq_refl). constructor; try assumption.
  - repeat (constructor; [eexists; reflexivity|]). constructor.
  - intros _. exists (19 # 20). reflexivity.
Qed.
Definition almost_full : nonmod Q := nm_get (new_nonmodular almost_full_spec 2).
Definition almost_full_mpc : mpc Q := mp_get (nm_new_mpc almost_full).
Definition almost_full_plans : list (list planned) :=
  [[mkPlanned 0 (31 # 2) 0 (11 # 2) 0 0 0 (1999 # 2000) 0; mkPlanned 0 10 0 0 0 0 0 (1999 # 2000) 0]].
Theorem C74_as_planned_refuted : ~ (forall c (solve : solver Q) sp h (g g1 : nonmod Q) steps r,
  wired sp -> new_nonmodular sp h = Ok g -> aligned g -> has_battery (nm_arch g) = true -> made_for c g -> sensible_for_mpc g ->
  (forall k pr p u, solve k pr = Ok (Some (p, u)) -> satisfies pr p u = true) ->
  nm_mpc_run c solve steps g = (g1, Ok r) -> Forall (fun x => x = 0) (column "overgeneration" (cp_production r))).
Proof.
  intros H.
  assert (R : exists g1 r, nm_mpc_run almost_full_mpc (mp_answers almost_full_plans) (Some 1%Z) almost_full = (g1, Ok r)
                /\ column "overgeneration" (cp_production r) = [1]).
  { exists (fst (nm_reset false almost_full)), (copies_get (nm_mpc_run almost_full_mpc (mp_answers almost_full_plans) (Some 1%Z) almost_full)).
    vm_compute. split; reflexivity. }
  destruct R as (g1 & r & R & C).
  specialize (H almost_full_mpc (mp_answers almost_full_plans) almost_full_spec 2%Z almost_full g1 (Some 1%Z) r almost_full_wired).
  rewrite C in H.
  assert (X : Forall (fun x : Q => x = 0) [1]); [|inversion X; discriminate].
  apply H.
  - vm_compute. reflexivity.
  - split; [vm_compute; repeat constructor|intros _; vm_compute; repeat constructor].
  - vm_compute. reflexivity.
  - exists almost_full. split; [vm_compute; reflexivity|auto].
  - eapply example_for_mpc; try (vm_compute; reflexivity); try lra; vm_compute; repeat constructor; discriminate.
  - apply mp_true.
  - exact R.
Qed.
Print Assumptions C74_as_planned_refuted.

(** Runs need not return: with no load and much PV the cheapest plan is to do nothing, at no
    cost, and it raises. *)
Definition free_answers (plans : list (list planned)) : solver Q := fun k pr =>
  match mp_answers plans k pr with
  | Ok (Some (p, u)) => if forallb (Qle_bool 0) (pr_costs pr) && Qle_bool (objective pr p) 0 then Ok (Some (p, u)) else Ok None
  | x => x
  end.
Lemma dot_nonneg (l p : list Q) : forallb (Qle_bool 0) l = true -> forallb (Qle_bool 0) p = true -> 0 <= dot l p.
Proof.
  revert p. induction l as [|x l IH]; intros [|y p] H1 H2; try (cbn; lra). cbn [forallb] in H1, H2. apply andb_true_iff in H1, H2.
  destruct H1 as (X & H1), H2 as (Y & H2). apply Qle_bool_iff in X, Y. specialize (IH p H1 H2).
  assert (Z : 0 <= x * y) by (apply Qmult_le_0_compat; assumption). change (dot (x :: l) (y :: p)) with (x * y + dot l p). lra.
Qed.
Lemma free_cheapest plans k pr p u : free_answers plans k pr = Ok (Some (p, u)) ->
  satisfies pr p u = true /\ forall p' u', satisfies pr p' u' = true -> objective pr p <= objective pr p'.
Proof.
  unfold free_answers. destruct (mp_answers plans k pr) as [[(p0 & u0)|]|e] eqn:M; try discriminate.
  destruct (forallb (Qle_bool 0) (pr_costs pr)) eqn:F; [|discriminate]. destruct (Qle_bool (objective pr p0) 0) eqn:O; [|discriminate]. cbn [andb].
  intros H. injection H as <- <-. split; [exact (mp_true _ _ _ _ _ M)|]. intros p' u' SA. apply Qle_bool_iff in O.
  unfold satisfies in SA. rewrite !andb_true_iff in SA. destruct SA as ((((_ & SA) & _) & _) & _).
  pose proof (dot_nonneg _ _ F SA) as D. change (0 <= objective pr p') in D. lra.
Qed.
Definition idle_mpc : mpc Q := mp_get (nm_new_mpc idle_island).
Definition idle_plans : list (list planned) := repeat (repeat (mkPlanned 0 0 0 0 0 90 0 1 0) 2) 2.
Theorem C74_total_refuted : ~ (forall c (solve : solver Q) sp h (g : nonmod Q) steps,
  wired sp -> new_nonmodular sp h = Ok g -> aligned g -> has_battery (nm_arch g) = true -> made_for c g -> sensible_for_mpc g ->
  (forall k pr p u, solve k pr = Ok (Some (p, u)) ->
     satisfies pr p u = true /\ forall p' u', satisfies pr p' u' = true -> objective pr p <= objective pr p') ->
  ~ raises TypeError (snd (nm_mpc_run c solve steps g)) -> (Z.of_nat (mpc_count g steps) <= nm_len g - nm_horizon g)%Z ->
  exists g1 r, nm_mpc_run c solve steps g = (g1, Ok r)).
Proof.
  intros H.
  assert (R : raises AssertionError (snd (nm_mpc_run idle_mpc (free_answers idle_plans) None idle_island))) by (eexists; split; vm_compute; reflexivity).
  destruct (H idle_mpc (free_answers idle_plans) idle_spec 2%Z idle_island None idle_wired) as (g1 & r & E).
  - vm_compute. reflexivity.
  - split; [vm_compute; repeat constructor|intros X; vm_compute in X; discriminate X].
  - vm_compute. reflexivity.
  - exists idle_island. split; [vm_compute; reflexivity|auto].
  - eapply example_for_mpc; try (vm_compute; reflexivity); try lra; vm_compute; repeat constructor; discriminate.
  - intros k pr p u. apply free_cheapest.
  - intros (er & X & CL). destruct R as (er' & R & CL'). rewrite R in X. injection X as ->. congruence.
  - vm_compute. discriminate.
  - destruct R as (er & R & _). rewrite E in R. discriminate R.
Qed.
Print Assumptions C74_total_refuted.

(** Decisions are not repeated when a program has no solution (or none is found). *)
Example C73_unsolved_example : exists g1 r, nm_mpc_run full_mpc (mp_answers (firstn 2 mp_plans)) (Some 2%Z) full_grid = (g1, Ok r)
  /\ raises TypeError (snd (nm_mpc_run full_mpc (mp_answers (firstn 2 mp_plans)) (Some 3%Z) full_grid)).
Proof.
  exists full_reset, (copies_get (nm_mpc_run full_mpc (mp_answers (firstn 2 mp_plans)) (Some 2%Z) full_grid)). split; [vm_compute; reflexivity|].
  eexists. split; vm_compute; reflexivity.
Qed.
