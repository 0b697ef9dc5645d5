(** * Vocabulary for C36: windows of an episode *)

From Coq Require Import ZArith QArith List.
From Verif Require Import Num Py Module Container Microgrid Spec_Module Spec_Reach Spec_Microgrid.
Import ListNotations.
Local Open Scope Z_scope.

(** Within the microgrid's range. *)
Definition inside (initial final : Z) (w : Z * Z) : Prop :=
  initial <= fst w /\ snd w <= final.

(** [g'] is what [k] complete runs make of [g]. *)
Inductive after_runs (D : list (mdef Q)) (g : mgrid Q) : nat -> mgrid Q -> Prop :=
| after_none : after_runs D g 0 g
| after_run k g1 g2 c n out : after_runs D g k g1 -> complete D c ->
    run c n g1 = (g2, Ok out) -> after_runs D g (S k) g2.

(** What a module makes of a final step it is given: a value that is not
    positive stands for the end of its data (documented for [final_step = -1]). *)
Definition ends (e : Z) (m : module Q) : Z :=
  if e <=? 0 then Z.of_nat (length (series m)) else e.

(** Some module reads time series. *)
Definition has_series (g : mgrid Q) : Prop :=
  exists m f, In m (mg_mods g) /\ final_step m = Some f.

(** What the next reset asks the trajectory function, and what it answers. *)
Definition next_window (g : mgrid Q) (r : res (Z * Z)) : Prop :=
  exists f, mg_traj g = Some f /\ r = f (mg_calls g) (mg_initial g) (mg_final g).
