(** * Model of microgrid/reward_shaping *)

From Coq Require Import ZArith Bool String List.
From Verif Require Import Num Py Module Microgrid.
Import ListNotations.
Local Open Scope string_scope.
Local Open Scope list_scope.
Local Open Scope py_scope.

Section Shaping.
Context {T : Type} `{NumOps T}.

(** [d[module_attr]] for one element of an info list.  An element that is no
    dict is a number put there because the module has the name of an info entry
    (Microgrid.v, [mstep_append]); subscripting it raises TypeError. *)
Definition entry_attr (attr : string) (e : entry T) : res T :=
  match e with
  | EInfo d => match dget attr d with Some x => Ok x | None => raise KeyError attr end
  | EVal _ => raise TypeError "'float' object is not subscriptable"
  end.

(** reward_shaping/base.py:11-16 [sum_module_val]: a KeyError anywhere makes the
    whole sum 0.0. *)
Definition sum_module_val (i : infos T) (name attr : string) : res T :=
  match (match dget name i with
         | None => raise KeyError name
         | Some l => rmap nsum (rmapM (entry_attr attr) l)
         end) with
  | Ok x => Ok x
  | Err e => match ex_class e with KeyError => Ok n0 | _ => Err e end
  end.

(** reward_shaping/pv_curtailment_shaper.py:15-17 *)
Definition pv_curtailment_shaper : shaper T :=
  fun step_info _ =>
    let? c := sum_module_val step_info "pv" "curtailment" in Ok (nneg c).

(** reward_shaping/battery_discharge_shaper.py:23-35.  Division by a load of
    zero raises ZeroDivisionError (caught, 0.0) if both operands are Python
    numbers; if the numerator is a numpy number the quotient is nan or an
    infinity, which the assertion rejects.  Number classes are not modelled:
    [numpy] says which of the two happens. *)
Definition battery_discharge_shaper (numpy : bool) : shaper T :=
  fun step_info _ =>
    let? battery_discharge := sum_module_val step_info "battery" "provided_energy" in
    let? load := sum_module_val step_info "load" "absorbed_energy" in
    let? loss_load := sum_module_val step_info "unbalanced_energy" "provided_energy" in
    if neqb load n0 then
      (if numpy then raise AssertionError "-1 <= percent_battery <= 1" else Ok n0)
    else
      let percent_battery := ndiv (nsub battery_discharge loss_load) load in
      if (nleb (nopp n1) percent_battery && nleb percent_battery n1)
         || isclose percent_battery n1 || isclose percent_battery n0
      then Ok percent_battery
      else raise AssertionError "-1 <= percent_battery <= 1".
End Shaping.
