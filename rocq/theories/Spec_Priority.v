(** * Specification vocabulary for priority lists and rule-based control *)

From Coq Require Import ZArith QArith Qabs Bool String List.
From Verif Require Import Num Py Space Logger Forecast Module Container Microgrid PriorityList
  Spec_Module Spec_Reach Spec_Microgrid.
Import ListNotations.
Local Open Scope string_scope.
Local Open Scope list_scope.
Local Open Scope Q_scope.

(** [(name, number)] is the module with index [i]: the [number]-th of that name
    in the list the microgrid was built from. *)
Definition refers (D : list (mdef Q)) (r : string * nat) (i : nat) : Prop :=
  nth_error (positions (fst r) D) (snd r) = Some i.

(** A module a priority list deploys: controllable, and a source. *)
Definition deployable (m : module Q) : Prop :=
  module_type (m_kind m) = Controllable /\ is_source (m_kind m) = true.

(** [e] stands for module [m] with index [i]: a genset can be asked to be off or
    on, another module has one kind of action. *)
Definition stands_for (D : list (mdef Q)) (e : element Q) (i : nat) (m : module Q) : Prop :=
  refers D (el_module e) i
  /\ el_actions e = (if is_genset (m_kind m) then 2 else 1)%nat
  /\ (el_action e < el_actions e)%nat
  /\ production_marginal_cost m = Ok (el_cost e).

(** An order in which every deployable module is deployed once. *)
Definition deployment_order (D : list (mdef Q)) (g : mgrid Q) (pl : list (element Q)) : Prop :=
  NoDup (map el_module pl)
  /\ (forall i m, at_index g i m -> deployable m ->
        exists e, In e pl /\ refers D (el_module e) i)
  /\ Forall (fun e => exists i m, at_index g i m /\ deployable m /\ stands_for D e i m) pl.

(** The same without the costs, which may be those of an earlier moment. *)
Definition drives (D : list (mdef Q)) (g : mgrid Q) (pl : list (element Q)) : Prop :=
  NoDup (map el_module pl)
  /\ (forall i m, at_index g i m -> deployable m ->
        exists e, In e pl /\ refers D (el_module e) i)
  /\ Forall (fun e => exists i m, at_index g i m /\ deployable m /\ refers D (el_module e) i
                 /\ el_actions e = (if is_genset (m_kind m) then 2 else 1)%nat
                 /\ (el_action e < el_actions e)%nat) pl.

(** The order asks a genset that can run at zero to be off. *)
Definition idles_free_genset (D : list (mdef Q)) (g : mgrid Q) (pl : list (element Q)) : Prop :=
  exists e i m s, In e pl /\ refers D (el_module e) i /\ at_index g i m
    /\ m_kind m = KGenset s /\ g_min_prod s == 0 /\ el_action e = 0%nat.

(** ** What a priority list deploys *)

(** What a module can produce once the requested status change is made
    ([goal]: 0 is off, 1 is on; gensets only). *)
Definition production_limits (m : module Q) (goal : nat) (lo : Q) (hi : bound Q) : Prop :=
  match m_kind m with
  | KGenset s => lo = next_min_production s (negb (Nat.eqb goal 0))
                 /\ hi = BFin (next_max_production s (negb (Nat.eqb goal 0)))
  | _ => lo = 0 /\ max_production m = Ok hi
  end.
Definition below (x : Q) (b : bound Q) : Prop := match b with BFin y => x <= y | _ => True end.

(** The share [x] of module [m] in a net load [r] that is left: nothing if it is
    negligible; as much of a deficit as can be produced, but at least the
    minimum; as much of a surplus as can be absorbed. *)
Definition share_of (m : module Q) (goal : nat) (r x : Q) : Prop :=
  (Qabs r <= 1 # 10000 -> x == 0)
  /\ (1 # 10000 < r -> exists lo hi, production_limits m goal lo hi /\ 0 <= x
        /\ (r < lo -> x == lo)
        /\ (lo <= r -> below r hi -> x == r)
        /\ (lo <= r -> forall y, hi = BFin y -> y < r -> x == y))
  /\ (r < - (1 # 10000) -> is_sink (m_kind m) = false -> x == 0)
  /\ (r < - (1 # 10000) -> is_sink (m_kind m) = true ->
        exists b, max_consumption m = Ok b /\ x <= 0
          /\ (below (- r) b -> x == r)
          /\ (forall y, b = BFin y -> y < - r -> x == - y)).

(** Module after module, each its share of what is left; [r] at the start and
    [rest] at the end. *)
Inductive dispatched (D : list (mdef Q)) (g : mgrid Q) : list (element Q) -> Q -> list Q -> Q -> Prop :=
| disp_nil r rest : r == rest -> dispatched D g [] r [] rest
| disp_cons e pl r x xs rest i m :
    refers D (el_module e) i -> at_index g i m -> share_of m (el_action e) r x ->
    dispatched D g pl (r - x) xs rest -> dispatched D g (e :: pl) r (x :: xs) rest.

(** The command sent to the module: status and amount for a genset, the amount
    for the others. *)
Definition command (m : module Q) (e : element Q) (x : Q) : pyval Q :=
  if is_genset (m_kind m) then VA [inject_Z (Z.of_nat (el_action e)); x] else VS x.

(** Sum over all modules. *)
Definition total (f : module Q -> Q) (g : mgrid Q) : Q := fold_right (fun m acc => f m + acc) 0 (mg_mods g).
Definition finite (r : res (bound Q)) : Q := match r with Ok (BFin x) => x | _ => 0 end.
(** The current load, and what renewables can give now. *)
Definition demand (m : module Q) : Q := match m_kind m with KLoad _ => finite (max_consumption m) | _ => 0 end.
Definition renewable (m : module Q) : Q := match m_kind m with KRenewable _ => finite (max_production m) | _ => 0 end.

(** The control asks module [i] to do [v]. *)
Definition commands (D : list (mdef Q)) (c : control Q) (i : nat) (v : pyval Q) : Prop :=
  exists r w, refers D r i /\ dget (fst r) c = Some w /\ nth_error (ctrl_list w) (snd r) = Some v.

(** ** Rule-based control *)

(** The action the default list has for a module: gensets are off, except that
    with [remove_redundant_gensets] one that can run at zero is on. *)
Definition default_action (rr : bool) (m : module Q) : nat :=
  match m_kind m with
  | KGenset s => if rr && Qeq_bool (g_min_prod s) 0 then 1 else 0
  | _ => 0
  end%nat.
(** Cheaper first; for the same price, on before off. *)
Definition in_cost_order (a b : element Q) : Prop :=
  el_cost a < el_cost b \/ (el_cost a == el_cost b /\ (el_action b <= el_action a)%nat).
Definition same_rank (k e : element Q) : bool :=
  Qeq_bool (el_cost e) (el_cost k) && Nat.eqb (el_action e) (el_action k).
(** Equal as far as the program can tell. *)
Definition same_element (a b : element Q) : Prop :=
  el_module a = el_module b /\ el_actions a = el_actions b /\ el_action a = el_action b /\ el_cost a == el_cost b.

(** [k] steps of the controller, none but perhaps the last of which reported the end
    of the data. *)
Inductive controlled (pl : list (element Q)) (g : mgrid Q) : nat -> mgrid Q -> bool -> Prop :=
| ct_start : controlled pl g 0 g false
| ct_step k g1 g2 obs rw d inf : controlled pl g k g1 false -> rbc_step pl g1 = (g2, Ok (obs, rw, d, inf)) ->
    controlled pl g (S k) g2 d.

(** The length of the shortest time series. *)
Definition shortest_series (g : mgrid Q) (n : nat) : Prop :=
  (exists i m t, nth_error (mg_mods g) i = Some m /\ kind_ts (m_kind m) = Some t /\ length (ts_rows t) = n)
  /\ forall i m t, nth_error (mg_mods g) i = Some m -> kind_ts (m_kind m) = Some t -> (n <= length (ts_rows t))%nat.
