(** * What the outputs of control algorithms and the benchmarks are expected to do *)

From Coq Require Import ZArith QArith Qabs Bool String List.
From Coq.Floats Require Import SpecFloat.
From Verif Require Import Num Py NonModular Spec_NonModular NmRbc MPC NmMpc Saa Benchmarks.
Import ListNotations.
Local Open Scope string_scope.
Local Open Scope list_scope.
Local Open Scope Q_scope.

(** ** Costs *)

(** What [np.ceil] does *)
Definition ceils (c : Q -> Z) : Prop := forall x, x <= inject_Z (c x) /\ inject_Z (c x - 1) < x.

(** The value of a number in binary64 *)
Definition value (x : b64) : Q :=
  match x with
  | S754_finite s m e => let q := match e with Zneg p => Zpos m # (2 ^ p) | _ => inject_Z (Zpos m * 2 ^ e) end in if s then - q else q
  | _ => 0
  end.

Definition sum_of (xs : list Q) : Q := fold_left Qplus xs 0.
(** The first and the other steps, cut at an index that may count from the end *)
Definition cut_at (i : Z) (n : nat) : nat := Z.to_nat (if (i <? 0)%Z then Z.of_nat n + i else i).
Definition before (i : Z) (xs : list Q) : list Q := firstn (cut_at i (length xs)) xs.
Definition from (i : Z) (xs : list Q) : list Q := skipn (cut_at i (length xs)) xs.
(** The last [k] steps *)
Definition last_steps (k : nat) (xs : list Q) : list Q := skipn (length xs - k) xs.

(** The output has recorded these costs. *)
Definition records (o : output Q) (xs : list Q) : Prop :=
  exists t, dget "cost" (ou_tables o) = Some t /\ dget "total_cost" t = Some (map (fun x => ECell (CNum x)) xs).
(** The algorithms that were run, with the costs they recorded *)
Definition has_run (b : bench Q) (costs : string -> option (list Q)) : Prop :=
  forall name, match costs name with
               | Some xs => exists o, dget name (be_outputs b) = Some o /\ records o xs
               | None => dget name (be_outputs b) = None
               end.

(** ** What is printed *)

Definition known (algorithms : option (list string)) : Prop :=
  match algorithms with Some l => forall name, In name l -> In name ["mpc"; "rbc"; "saa"] | None => True end.
Definition wanted (algorithms : option (list string)) (name : string) : bool :=
  match algorithms with Some l => existsb (String.eqb name) l | None => true end.
(** A warning about the number of steps, and then the lines of every algorithm that was run and
    is asked for *)
Definition printed (costs : string -> option (list Q)) (n : nat) (algorithms : option (list string)) (f : string -> list Q -> list (line Q))
  : list (line Q) :=
  (if Z.eqb (Z.of_nat n) 8736 then [] else [LLength n])
  ++ concat (map (fun name => match costs name with
                              | Some xs => if wanted algorithms name then f name xs else []
                              | None => []
                              end) ["mpc"; "rbc"; "saa"]).
(** What a user may ask for *)
Definition allowed_split (test_split : bool) (ratio : option Q) (index : option Z) (n : nat) : Prop :=
  test_split = true ->
  match ratio, index with
  | Some r, None => 0 <= r <= 1
  | None, Some i => (i <= Z.of_nat n)%Z
  | _, _ => False
  end.

(** ** Histories *)

(** What an attribute holds is what the dictionary of outputs has. *)
Definition holds (b : bench Q) (name : string) (x : option (returned Q)) (has : bool) : Prop :=
  match dget name (be_outputs b) with
  | Some o => x = Some (Output o) /\ has = true /\ ou_alg o = name
  | None => x = None /\ has = false
  end.
Record in_order (b : bench Q) : Prop := mkInOrder {
  io_mpc : holds b "mpc" (be_mpc b) (be_has_mpc b);
  io_rbc : holds b "rbc" (be_rbc b) (be_has_rbc b);
  io_saa : holds b "saa" (be_saa b) (be_has_saa b);
  io_names : forall name, In name (dkeys (be_outputs b)) -> In name ["mpc"; "rbc"; "saa"];
  io_once : NoDup (dkeys (be_outputs b))
}.

(** The calls on a microgrid and its benchmarks *)
Inductive bench_call :=
| BGrid (c : nm_call)
| BMpc (solve : solver Q) (steps : option Z)
| BRbc
| BSaa (solve : solver Q) (drawn : res (list (sample Q))) (steps : option Z) (percentile : Q)
| BFrame (name : string).
Section Calls.
  Variable to_floor : Q -> Z.
  Variable partition : list (horizon_output Q) -> nat -> list (horizon_output Q).
  (** The state after a call, whether it returned or raised *)
  Definition bench_do (c : bench_call) (s : nonmod Q * bench Q) : nonmod Q * bench Q :=
    match c with
    | BGrid c => (nm_do c (fst s), snd s)
    | BMpc solve steps => fst (run_mpc_benchmark solve steps s)
    | BRbc => fst (run_rule_based_benchmark s)
    | BSaa solve drawn steps percentile => fst (run_saa_benchmark to_floor partition solve drawn steps percentile s)
    | BFrame name => fst (on_bench (frame_of name) s)
    end.
  Definition bench_after (cs : list bench_call) (s : nonmod Q * bench Q) : nonmod Q * bench Q := fold_left (fun s c => bench_do c s) cs s.
End Calls.

(** ** Comparisons *)

(** Entries that count as the same *)
Definition same_entry (x y : entry Q) : Prop :=
  match x, y with
  | ECell (CNum a), ECell (CNum b) => a == b
  | ECell CNone, ECell CNone => True
  | ECell (CMissing a), ECell (CMissing b) => a = b
  | ENan, ENan => True
  | _, _ => False
  end.
(** The same columns with the same entries *)
Definition same_table (t t' : dict (list (entry Q))) : Prop :=
  forall key, match dget key t, dget key t' with
              | Some l, Some l' => Forall2 same_entry l l'
              | None, None => True
              | _, _ => False
              end.
