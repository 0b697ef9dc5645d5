(** * What the sample average approximation is expected to do

    Plans and programs are those of Spec_MPC.v and Spec_NmMpc.v, records and decisions that
    are carried out those of Spec_NmRbcRun.v. *)

From Coq Require Import ZArith QArith Bool String List Permutation.
From Verif Require Import Num Py NonModular Spec_NonModular NmRbc Spec_NmRbcRun MPC NmMpc Spec_MPC Spec_NmMpc Saa.
Import ListNotations.
Local Open Scope string_scope.
Local Open Scope list_scope.
Local Open Scope Q_scope.

(** ** The choice *)

(** What [np.floor] does *)
Definition floors (fl : Q -> Z) : Prop := forall x, inject_Z (fl x) <= x /\ x < inject_Z (fl x + 1).
(** What [np.partition] does: it rearranges the outputs, those before position [k] cost no more,
    and those after it no less, than the one there. *)
Definition partitions (part : list (horizon_output Q) -> nat -> list (horizon_output Q)) : Prop :=
  forall l k, (k < length l)%nat -> Permutation l (part l k)
    /\ forall i j x y, nth_error (part l k) i = Some x -> nth_error (part l k) j = Some y -> (i <= k <= j)%nat -> ho_cost x <= ho_cost y.

(** [x] is one of the costs, at most [k] are lower and at most all but [k + 1] are higher. *)
Definition ranked (k : nat) (costs : list Q) (x : Q) : Prop :=
  In x costs
  /\ (length (filter (fun y => negb (Qle_bool x y)) costs) <= k)%nat
  /\ (length (filter (fun y => negb (Qle_bool y x)) costs) + k < length costs)%nat.
(** The position that belongs to a percentile *)
Definition position (n : nat) (percentile : Q) (k : nat) : Prop :=
  inject_Z (Z.of_nat k) <= inject_Z (Z.of_nat n) * percentile /\ inject_Z (Z.of_nat n) * percentile < inject_Z (Z.of_nat k + 1).

(** ** Samples *)

(** Samples have columns of the same length, which is at most that of the data. *)
Definition fits (g : nonmod Q) (s : sample Q) : Prop :=
  length (sm_pv s) = length (sm_load s) /\ length (sm_grid s) = length (sm_load s)
  /\ (0 < length (sm_load s))%nat /\ (length (sm_load s) <= all_rows g)%nat.
(** The microgrid as a sample expects it to be *)
Definition expecting (g : nonmod Q) (s : sample Q) : nonmod Q :=
  mkNonmod (nm_par g) (nm_arch g) (sm_load s) (sm_pv s) (sm_grid s) (nm_import_ts g) (nm_export_ts g) (nm_co2_ts g)
    (nm_now g) (nm_next g) (nm_battery g) (nm_actions g) (nm_state g) (nm_production g) (nm_cost g) (nm_co2 g) (nm_per_epoch g)
    (nm_horizon g) (nm_t g) (nm_len g) (nm_done g) (nm_epoch g) (nm_limit g) (nm_split g) (nm_default g) (nm_use g).
(** The value of the grid's status in row [i] *)
Definition status_at (g : nonmod Q) (i : nat) : option Q :=
  if has_grid (nm_arch g) then nth_error (nm_status_ts g) i else Some 0.
(** [s'] is the sample [s], except that it has the actual data in the first [k] rows. *)
Record known_upto (g : nonmod Q) (k : nat) (s s' : sample Q) : Prop := mkKnown {
  kn_size : length (sm_load s') = length (sm_load s) /\ length (sm_pv s') = length (sm_pv s) /\ length (sm_grid s') = length (sm_grid s);
  kn_past : forall i, (i < k)%nat -> nth_error (sm_load s') i = nth_error (nm_load_ts g) i
    /\ nth_error (sm_pv s') i = nth_error (nm_pv_ts g) i /\ nth_error (sm_grid s') i = status_at g i;
  kn_future : forall i, (k <= i)%nat -> nth_error (sm_load s') i = nth_error (sm_load s) i
    /\ nth_error (sm_pv s') i = nth_error (sm_pv s) i /\ nth_error (sm_grid s') i = nth_error (sm_grid s) i
}.
(** The rows of the shortest sample *)
Definition shortest (ss : list (sample Q)) (n : nat) : Prop :=
  (exists s, In s ss /\ length (sm_load s) = n) /\ forall s, In s ss -> (n <= length (sm_load s))%nat.
(** The number of steps: those asked for, or all rows less the horizon *)
Definition saa_count (g : nonmod Q) (rows : nat) (steps : option Z) : nat :=
  Z.to_nat (match steps with Some n => n | None => Z.of_nat rows - nm_horizon g end).

(** ** Plans *)

(** The algorithm was made for the microgrid, perhaps in another state. *)
Definition saa_for (a : saa Q) (g : nonmod Q) : Prop :=
  exists g' duration, new_saa g' duration = Ok a /\ nm_par g' = nm_par g /\ nm_arch g' = nm_arch g /\ nm_horizon g' = nm_horizon g
    /\ nm_load_ts g' = nm_load_ts g /\ nm_pv_ts g' = nm_pv_ts g /\ nm_status_ts g' = nm_status_ts g.

(** What a plan for the rows [i], [i + 1], ... costs when plans are compared: the loss, the fuel
    and the grid, where exported energy is an income. *)
Fixpoint plan_bill (g : nonmod Q) (loss fuel : Q) (i : nat) (plan : list planned) : Q :=
  match plan with
  | [] => 0
  | s :: plan' =>
      loss * pl_loss s + (if has_genset (nm_arch g) then fuel * pl_genset s else 0)
      + (if has_grid (nm_arch g) then nth i (nm_import_ts g) 0 * pl_import s - nth i (nm_export_ts g) 0 * pl_export s else 0)
      + plan_bill g loss fuel (S i) plan'
  end.
Definition bills (g : nonmod Q) (i : nat) (plan : list planned) (cost : Q) : Prop :=
  exists loss fuel, parameter g "cost_loss_load" loss /\ (has_genset (nm_arch g) = true -> parameter g "fuel_cost" fuel)
    /\ cost == plan_bill g loss fuel i plan.

(** What the program counts as the cost of a plan but the comparison leaves out: the wear of the
    battery, the emissions, and exported energy, which is an expense there and an income here *)
Fixpoint left_out (g : nonmod Q) (wear dirt co2 : Q) (i : nat) (plan : list planned) : Q :=
  match plan with
  | [] => 0
  | s :: plan' =>
      wear * (pl_charge s + pl_discharge s) + (if has_genset (nm_arch g) then co2 * dirt * pl_genset s else 0)
      + (if has_grid (nm_arch g) then co2 * nth i (nm_co2_ts g) 0 * pl_import s + 2 * nth i (nm_export_ts g) 0 * pl_export s else 0)
      + left_out g wear dirt co2 (S i) plan'
  end.

(** What a sample leads to at row [k]: its program, the [q]-th that is solved, starts with the
    last recorded state of charge, and the solver's answer is the plan. *)
Definition proposes (solve : solver Q) (g : nonmod Q) (k q : nat) (r : copies Q) (s : sample Q) (plan : list planned) (cost : Q) : Prop :=
  exists e xs soc pr u, posed_at (expecting g s) k e xs /\ latest (cp_state r) "battery_soc" (CNum soc) /\ program_of pr e soc xs
    /\ solve q pr = Ok (Some (concat (map (variables (eq_gen e)) plan), u)) /\ length plan = length xs /\ bills g k plan cost.

(** The values [n] of row [i] of the data, and what is shown as those of the row after it: the
    prices are, the load, the PV and the status are those of row [i]. *)
Record rows_late (g : nonmod Q) (i : nat) (n : now Q) (x : next Q) : Prop := mkRowsLate {
  rl_load : nth_error (nm_load_ts g) i = Some (now_load n);
  rl_pv : nth_error (nm_pv_ts g) i = Some (now_pv n);
  rl_next_load : nx_load x = CNum (now_load n);
  rl_next_pv : nx_pv x = CNum (now_pv n);
  rl_grid : if has_grid (nm_arch g) then
      nth_error (nm_status_ts g) i = Some (now_status n) /\ nth_error (nm_import_ts g) i = Some (now_import n)
      /\ nth_error (nm_export_ts g) i = Some (now_export n) /\ nth_error (nm_co2_ts g) i = Some (now_co2 n)
      /\ nx_status x = CNum (now_status n)
      /\ (exists y, nth_error (nm_import_ts g) (S i) = Some y /\ nx_import x = CNum y)
      /\ (exists y, nth_error (nm_export_ts g) (S i) = Some y /\ nx_export x = CNum y)
      /\ (exists y, nth_error (nm_co2_ts g) (S i) = Some y /\ nx_co2 x = CNum y)
    else now_status n = 0 /\ now_import n = 0 /\ now_export n = 0 /\ now_co2 n = 0
      /\ nx_status x = CNum 0 /\ nx_import x = CNum 0 /\ nx_export x = CNum 0 /\ nx_co2 x = CNum 0
}.

(** One step: with the samples [ss], in which the rows up to [k] are the actual ones, every
    sample leads to a plan; of one whose cost has the rank that is asked for, the first step is
    carried out. *)
Definition votes (solve : solver Q) (g : nonmod Q) (percentile : Q) (k : nat) (ss : list (sample Q)) (r r' : copies Q) : Prop :=
  exists plans costs m rank st rest n x o,
    length plans = length ss /\ length costs = length ss
    /\ (forall i s plan cost, nth_error ss i = Some s -> nth_error plans i = Some plan -> nth_error costs i = Some cost ->
          proposes solve g k (k * length ss + i) r s plan cost)
    /\ nth_error plans m = Some (st :: rest)
    /\ position (length ss) percentile rank /\ (exists cost, nth_error costs m = Some cost /\ ranked rank costs cost)
    /\ rows_late g k n x /\ carried g (decided_by (has_genset (nm_arch g)) n st) n x r r' o /\ all_longer 1 r r'.

(** ** Agreement of two runs *)

(** The same columns with the same rows, except for some columns *)
Definition same_but_those (keys : list string) (r r' : record Q) : Prop :=
  Forall2 (fun a b => fst a = fst b /\ (~ In (fst a) keys -> snd a = snd b)) r r'.
(** A sample that predicts everything *)
Definition perfect (g : nonmod Q) (s : sample Q) : Prop :=
  forall i, (i < length (sm_load s))%nat -> nth_error (sm_load s) i = nth_error (nm_load_ts g) i
    /\ nth_error (sm_pv s) i = nth_error (nm_pv_ts g) i /\ nth_error (sm_grid s) i = status_at g i.
(** A solver that always gives the same answer to the same program *)
Definition steady (solve : solver Q) : Prop := forall k k' pr, solve k pr = solve k' pr.
