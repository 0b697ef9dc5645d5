(** * What a plan of the model predictive control means *)

From Coq Require Import ZArith QArith Qminmax Bool String List.
From Verif Require Import Num Py Space Logger Forecast Module Container Microgrid NonModular Conversion MPC Spec_Module Spec_Reach Spec_Microgrid Spec_Conversion.
Import ListNotations.
Local Open Scope string_scope.
Local Open Scope list_scope.
Local Open Scope Q_scope.

(** What a plan says about one step: the energy from each part, whether the genset is
    on, and the state of charge afterwards *)
Record planned := mkPlanned {
  pl_genset : Q; pl_import : Q; pl_export : Q; pl_charge : Q; pl_discharge : Q;
  pl_curtail : Q; pl_loss : Q; pl_soc : Q; pl_on : Q
}.
(** What is expected of one step: the load, the renewable energy, whether the grid is
    up (1 or 0), and the costs per unit imported and exported *)
Record expected := mkExpected {
  ex_load : Q; ex_pv : Q; ex_grid : Q; ex_import : Q; ex_export : Q
}.
(** The limits and costs of the parts *)
Record equipment := mkEquipment {
  eq_gen : bool;
  eq_eta : Q; eq_capacity : Q; eq_soc_min : Q; eq_soc_max : Q; eq_charge : Q; eq_discharge : Q;
  eq_import : Q; eq_export : Q; eq_gen_min : Q; eq_gen_max : Q;
  eq_gen_cost : Q; eq_cycle_cost : Q; eq_loss_cost : Q
}.

(** What a plan may do in one step, from the state of charge [before]. *)
Record allowed (e : equipment) (before : Q) (x : expected) (s : planned) : Prop := mkAllowed {
  al_balance :
    pl_genset s + pl_import s + pl_discharge s + (ex_pv x - pl_curtail s) + pl_loss s
    == ex_load x + pl_export s + pl_charge s;
  al_soc : pl_soc s == before + (eq_eta e * pl_charge s - pl_discharge s / eq_eta e) / eq_capacity e;
  al_soc_limits : 0 <= pl_soc s /\ eq_soc_min e <= pl_soc s <= eq_soc_max e;
  al_charge : 0 <= pl_charge s <= eq_charge e;
  al_discharge : 0 <= pl_discharge s <= eq_discharge e;
  al_import : 0 <= pl_import s <= eq_import e * ex_grid x;
  al_export : 0 <= pl_export s <= eq_export e * ex_grid x;
  al_curtail : 0 <= pl_curtail s <= ex_pv x;
  al_loss : 0 <= pl_loss s <= ex_load x;
  al_genset : if eq_gen e
    then pl_on s == 0 /\ pl_genset s == 0 /\ 0 <= eq_gen_max e
         \/ pl_on s == 1 /\ 0 <= pl_genset s /\ eq_gen_min e <= pl_genset s <= eq_gen_max e
    else pl_genset s = 0 /\ pl_on s = 0
}.
(** The state of charge before step [k] *)
Definition soc_before (soc : Q) (plan : list planned) (k : nat) : Q :=
  match k with O => soc | S j => match nth_error plan j with Some s => pl_soc s | None => soc end end.
(** A plan for the expected steps [xs], starting at [soc] *)
Definition good_plan (e : equipment) (soc : Q) (xs : list expected) (plan : list planned) : Prop :=
  length plan = length xs
  /\ forall k x s, nth_error xs k = Some x -> nth_error plan k = Some s -> allowed e (soc_before soc plan k) x s.

(** What the program counts as the cost of a step.  Exported energy is counted as an
    expense. *)
Definition step_cost (e : equipment) (x : expected) (s : planned) : Q :=
  eq_gen_cost e * pl_genset s + ex_import x * pl_import s + ex_export x * pl_export s
  + eq_cycle_cost e * (pl_charge s + pl_discharge s) + eq_loss_cost e * pl_loss s.
Fixpoint plan_cost (e : equipment) (xs : list expected) (plan : list planned) : Q :=
  match xs, plan with
  | x :: xs', s :: plan' => step_cost e x s + plan_cost e xs' plan'
  | _, _ => 0
  end.

(** No plan for the same expectations costs less. *)
Definition cheapest (e : equipment) (soc : Q) (xs : list expected) (plan : list planned) : Prop :=
  good_plan e soc xs plan /\ forall plan', good_plan e soc xs plan' -> plan_cost e xs plan <= plan_cost e xs plan'.

(** The values of the program's variables *)
Definition variables (gen : bool) (s : planned) : list Q :=
  (if gen then [pl_genset s] else [])
  ++ [pl_import s; pl_export s; pl_charge s; pl_discharge s; pl_curtail s; pl_loss s; pl_soc s].
Definition is_plan (gen : bool) (p u : list Q) (plan : list planned) : Prop :=
  p = concat (map (variables gen) plan) /\ (gen = true -> u = map pl_on plan).

(** The equipment and the expectations that the program was given *)
Definition equipment_of (c : mpc Q) (d : mpc_data Q) : equipment :=
  let p := mp_params c in
  mkEquipment (has_gen c) (pa_eta p) (pa_capacity p) (da_emin d) (da_emax d) (da_pcharge d) (da_pdischarge d)
    (da_pimport d) (da_pexport d) (pa_gmin p) (pa_gmax p) (pa_fuel p + pa_co2 p * pa_gco2 p) (pa_cycle p) (pa_loss p).
Definition expected_of (d : mpc_data Q) (h : nat) : list expected :=
  map (fun k => mkExpected (nth k (da_load d) 0) (nth k (da_pv d) 0) (nth k (da_grid d) 0)
                  (nth k (da_import d) 0
                   + nth k (da_gridco2 d) 0 * match da_co2 d with Some x => x | None => 0 end)
                  (nth k (da_export d) 0)) (seq 0 h).
(** Vectors of the length of the horizon *)
Definition vectors_fit (c : mpc Q) (d : mpc_data Q) : Prop :=
  Forall (fun l => length l = mp_horizon c)
    [da_load d; da_pv d; da_grid d; da_import d; da_export d; da_gridco2 d]
  /\ da_gmax d = pa_gmax (mp_params c).

(** ** Modular microgrids *)

(** The controller can be made for a microgrid built from [D]: the microgrid can be
    converted (C64), has a battery called "battery" and a module for unbalanced energy
    and, without a genset, no negative costs. *)
Definition named_battery (D : list (mdef Q)) (mg : mgrid Q) (b : battery Q) : Prop :=
  exists i d m, nth_error D i = Some d /\ mdef_name d = "battery" /\ at_index mg i m /\ m_kind m = KBattery b.
Definition controllable (D : list (mdef Q)) (mg : mgrid Q) : Prop :=
  convertible D mg /\ sufficient mg
  /\ exists b i m u, named_battery D mg b /\ at_index mg i m /\ m_kind m = KUnbalanced u
     /\ (any_module mg is_a_genset \/ 0 <= b_cost_cycle b /\ 0 <= u_loss_load_cost u).

(** The equipment, the expectations and the state of charge are those of the modules. *)
Record posed_for (mg : mgrid Q) (e : equipment) (soc : Q) (xs : list expected) : Prop := mkPosedFor {
  pf_battery : forall i m b, at_index mg i m -> m_kind m = KBattery b ->
    eq_eta e = b_efficiency b /\ eq_capacity e = b_max_capacity b /\ eq_soc_min e = b_min_soc b /\ eq_soc_max e = 1
    /\ eq_charge e = b_max_charge b /\ eq_discharge e = b_max_discharge b /\ eq_cycle_cost e = b_cost_cycle b /\ soc = b_soc b;
  pf_unbalanced : forall i m u, at_index mg i m -> m_kind m = KUnbalanced u -> eq_loss_cost e = u_loss_load_cost u;
  pf_gen : eq_gen e = true <-> any_module mg is_a_genset;
  pf_genset : forall i m s c, at_index mg i m -> m_kind m = KGenset s -> g_cost s = FuelLin c ->
    eq_gen_min e = g_min_prod s /\ eq_gen_max e = g_max_prod s /\ eq_gen_cost e == c + g_cost_co2 s * g_co2_per_unit s;
  pf_load : forall i m s k x, at_index mg i m -> is_load m -> state m = Ok s -> nth_error xs k = Some x -> ex_load x == - nth k s 0;
  pf_pv : forall i m s k x, at_index mg i m -> is_renewable m -> state m = Ok s -> nth_error xs k = Some x -> ex_pv x = nth k s 0;
  (* the four columns of a grid's state are the import price, the export price, the CO2
     per unit and the status *)
  pf_grid : forall i m gr t s, at_index mg i m -> m_kind m = KGrid gr t -> state m = Ok s ->
    eq_import e = gr_max_import gr /\ eq_export e = gr_max_export gr
    /\ exists co2, (forall j m' g', at_index mg j m' -> m_kind m' = KGenset g' -> co2 == (gr_cost_co2 gr + g_cost_co2 g') / 2)
       /\ (~ any_module mg is_a_genset -> co2 == gr_cost_co2 gr)
       /\ forall k x, nth_error xs k = Some x ->
            ex_grid x = 1 /\ ex_import x == nth (4 * k) s 0 + nth (2 + 4 * k) s 0 * co2 /\ ex_export x = nth (1 + 4 * k) s 0;
  pf_no_grid : ~ any_module mg is_grid ->
    eq_import e = 0 /\ eq_export e = 0 /\ forall k x, nth_error xs k = Some x -> ex_grid x = 0 /\ ex_import x == 0 /\ ex_export x = 0;
  pf_steps : forall i m, at_index mg i m -> is_ts m -> length xs = S (horizon m)
}.

(** ** The first step of a plan *)

(** What the microgrid is told: one number for battery and grid, a status and an
    amount for the genset, nothing for the others *)
Definition told (D : list (mdef Q)) (s : planned) (ctl : control Q) : Prop :=
  (forall d, In d D -> dget (mdef_name d) ctl =
     match m_kind (snd d) with
     | KBattery _ => Some (COne (pl_discharge s - pl_charge s))
     | KGenset _ => Some (CList [VA [pl_on s; pl_genset s]])
     | KGrid _ _ => Some (COne (pl_import s - pl_export s))
     | _ => None
     end)
  /\ forall nm, dget nm ctl <> None -> exists d, In d D /\ mdef_name d = nm.

(** The modules can do what is planned: the battery is not charged and discharged at
    once and the grid not bought from and sold to, the battery loses no more than its
    power per step, the genset switches at once, and the grid can be controlled and
    is up or not used. *)
Record realistic (mg : mgrid Q) (s : planned) : Prop := mkRealistic {
  re_battery_way : pl_charge s == 0 \/ pl_discharge s == 0;
  re_grid_way : pl_import s == 0 \/ pl_export s == 0;
  re_battery : forall i m b, at_index mg i m -> m_kind m = KBattery b -> pl_discharge s <= b_max_discharge b * b_efficiency b;
  re_genset : forall i m g, at_index mg i m -> m_kind m = KGenset g -> g_start_up g = 0%Z /\ g_wind_down g = 0%Z;
  re_grid : forall i m gr t st, at_index mg i m -> m_kind m = KGrid gr t -> state m = Ok st ->
    module_type (m_kind m) = Controllable /\ (nth 3 st 0 == 1 \/ pl_import s == 0 /\ pl_export s == 0)
}.

(** What the modules did in the steps [es] between [mg] and [mg']: loss that the plan
    has beside curtailed energy is made up for with that energy. *)
Definition done_by (d : mdef Q) (es : list event) (taking giving : Q) : Prop :=
  taken (mdef_name d) es == taking /\ given (mdef_name d) es == giving.
Definition carried_out (D : list (mdef Q)) (es : list event) (mg' : mgrid Q) (x : expected) (s : planned) : Prop :=
  forall i d, nth_error D i = Some d ->
    match m_kind (snd d) with
    | KBattery _ => done_by d es (pl_charge s) (pl_discharge s)
        /\ forall m b, at_index mg' i m -> m_kind m = KBattery b -> b_soc b == pl_soc s
    | KGenset _ => done_by d es 0 (pl_genset s)
    | KGrid _ _ => done_by d es (pl_export s) (pl_import s)
    | KLoad _ => done_by d es (ex_load x) 0
    | KRenewable _ => done_by d es 0 (ex_pv x - (pl_curtail s - Qmin (pl_loss s) (pl_curtail s)))
    | KUnbalanced _ => done_by d es 0 (pl_loss s - Qmin (pl_loss s) (pl_curtail s))
    end.
(** What that costs, at the price [price] of imported energy with its CO2 *)
Definition actual_cost (e : equipment) (price : Q) (x : expected) (s : planned) : Q :=
  eq_gen_cost e * pl_genset s + price * pl_import s - ex_export x * pl_export s
  + eq_cycle_cost e * (eq_eta e * pl_charge s + pl_discharge s / eq_eta e)
  + eq_loss_cost e * (pl_loss s - Qmin (pl_loss s) (pl_curtail s)).
Definition import_price (mg : mgrid Q) (price : Q) : Prop :=
  forall i m gr t st, at_index mg i m -> m_kind m = KGrid gr t -> state m = Ok st ->
    price == nth 0 st 0 + gr_cost_co2 gr * nth 2 st 0.

(** ** Runs *)

(** A solver that finds a solution whenever there is one *)
Definition finds_solutions (solve : solver Q) : Prop :=
  forall k pr, (exists p u, satisfies pr p u = true) -> exists p u, solve k pr = Ok (Some (p, u)) /\ satisfies pr p u = true.
(** The program posed in state [g] is solved when it is the [j]-th. *)
Definition solved (c : mpc Q) (solve : solver Q) (j : nat) (g : mgrid Q) : Prop :=
  forall d pr, state_values c g = Ok d -> make_problem c d = Ok pr ->
    exists p u, solve j pr = Ok (Some (p, u)) /\ satisfies pr p u = true.
(** [k] steps of the controller, none but perhaps the last of which reported the end
    of the data *)
Inductive predicted (c : mpc Q) (solve : solver Q) (g : mgrid Q) : nat -> mgrid Q -> bool -> Prop :=
| pd_start : predicted c solve g 0 g false
| pd_step k g1 g2 obs rw d inf : predicted c solve g k g1 false -> mpc_step c solve k g1 = (g2, Ok (obs, rw, d, inf)) ->
    predicted c solve g (S k) g2 d.
