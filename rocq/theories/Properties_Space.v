(** * Properties C01, C02: normalization of module spaces *)

From Coq Require Import ZArith QArith Qabs Bool String List Lqa.
From Verif Require Import Num Py Space Spec_Module Proofs_Space.
Import ListNotations.
Local Open Scope Q_scope.

(** C01.  For every box and every value of the right shape the two conversions
    succeed and are inverse to each other, in both orders; every value of the
    wrong shape is refused by both with TypeError. *)
Theorem C01_normalization_lossless (sp : space Q) (v : pyval Q) : box sp ->
  (fits sp v ->
     (exists w v', normalize sp v = Ok w /\ denormalize sp w = Ok v' /\ same_value v' v)
  /\ (exists w v', denormalize sp v = Ok w /\ normalize sp w = Ok v' /\ same_value v' v))
  /\ (~ fits sp v -> raises TypeError (normalize sp v) /\ raises TypeError (denormalize sp v)).
Proof. exact (C01_lemma sp v). Qed.
Print Assumptions C01_normalization_lossless.

Example C01_example :
  box (mkSpace [2; -3] [4; -3]) /\ fits (mkSpace [2; -3] [4; -3]) (VA [3; 7])
  /\ ~ fits (mkSpace [2; -3] [4; -3]) (VS 3).
Proof. repeat split; try reflexivity. intros C; discriminate. Qed.

(** C02.  With low < high in every coordinate: a value is in range iff its
    normalization is in the unit cube, and every point of the unit cube
    denormalizes to a value in range. *)
Theorem C02_unit_cube_is_declared_range (sp : space Q) (v : pyval Q) :
  Forall2 Qlt (sp_low sp) (sp_high sp) -> fits sp v ->
  (exists w, normalize sp v = Ok w /\ (in_unit w <-> in_range sp v))
  /\ (in_unit v -> exists w, denormalize sp v = Ok w /\ in_range sp w).
Proof. exact (C02_lemma sp v). Qed.
Print Assumptions C02_unit_cube_is_declared_range.

Example C02_example :
  Forall2 Qlt (sp_low (mkSpace [2; -3] [4; 1])) (sp_high (mkSpace [2; -3] [4; 1]))
  /\ fits (mkSpace [2; -3] [4; 1]) (VA [1#2; 1#4]) /\ in_unit (VA [1#2; 1#4]).
Proof. repeat split; repeat constructor; simpl; lra. Qed.

(** C02, negative half: with low = high the declared range is left: the
    normalized action 1, inside the unit interval, denormalizes to low + 1. *)
Theorem C02_degenerate_range_refuted (lo : Q) :
  exists x, denormalize (mkSpace [lo] [lo]) (VS 1) = Ok (VS x) /\ x == lo + 1
            /\ ~ in_range (mkSpace [lo] [lo]) (VS x).
Proof. exact (C02_degenerate_lemma lo). Qed.
Print Assumptions C02_degenerate_range_refuted.
