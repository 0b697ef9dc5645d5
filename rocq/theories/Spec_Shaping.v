(** * Vocabulary for C44 *)

From Coq Require Import ZArith QArith Bool String List.
From Verif Require Import Num Py Module Container Microgrid Spec_Module Spec_Reach Spec_Microgrid.
Import ListNotations.
Local Open Scope Q_scope.

(** Sum over the steps of the modules with a name. *)
Definition sum_named (f : event -> Q) (nm : string) (es : list event) : Q :=
  sum_of f (filter (fun e => String.eqb nm (ev_name e)) es).

(** Every step of a module with this name reported the entry. *)
Definition all_report (key nm : string) (es : list event) : Prop :=
  forall e, In e es -> ev_name e = nm -> dget key (info_of (ev_out e)) <> None.

(** The entry, 0 if it is not there. *)
Definition ev_entry (key : string) (e : event) : Q :=
  match dget key (info_of (ev_out e)) with Some x => x | None => 0 end.

(** All modules with the name are of some kind. *)
Definition all_named (nm : string) (D : list (mdef Q)) (P : module Q -> Prop) : Prop :=
  forall d, In d D -> mdef_name d = nm -> P (snd d).
Definition is_renewable (m : module Q) : Prop := exists t, m_kind m = KRenewable t.
Definition is_load (m : module Q) : Prop := exists t, m_kind m = KLoad t.

(** What [sum_module_val] is meant to add up, and what it does instead when some
    module of that name did not report the entry. *)
Definition counted (key nm : string) (es : list event) (x : Q) : Prop :=
  (all_report key nm es /\ x == sum_named (ev_entry key) nm es)
  \/ (~ all_report key nm es /\ x == 0).
