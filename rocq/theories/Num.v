(** * Arithmetic used by the model.

    pymgrid computes with Python/numpy floats.  Every model definition is
    written once, generically over the operations below, and instantiated
    twice:
    - [Q_ops]: exact rational arithmetic (the main theorems);
    - [B64_ops]: IEEE-754 binary64 with round-to-nearest-even, using the
      executable specification [Coq.Floats.SpecFloat] (theorems about what
      rounding does and does not preserve).

    Simplifications: the rational instance has no NaN and no infinities. *)

From Coq Require Import ZArith QArith Qabs Bool List.
From Coq.Floats Require Import SpecFloat.

Class NumOps (T : Type) := {
  n0 : T;
  n1 : T;
  nadd : T -> T -> T;
  nsub : T -> T -> T;
  nmul : T -> T -> T;
  ndiv : T -> T -> T;
  nopp : T -> T;
  nabs : T -> T;
  nltb : T -> T -> bool;
  nleb : T -> T -> bool;
  neqb : T -> T -> bool;
  nofZ : Z -> T
}.

Definition ngtb {T} `{NumOps T} (x y : T) : bool := nltb y x.
Definition ngeb {T} `{NumOps T} (x y : T) : bool := nleb y x.

(** Python's [min(a, b)] / [max(a, b)]: the first argument is kept unless the
    second is strictly smaller / larger. *)
Definition nmin {T} `{NumOps T} (a b : T) : T := if nltb b a then b else a.
Definition nmax {T} `{NumOps T} (a b : T) : T := if nltb a b then b else a.

(** Multiplication by the literal [-1.0]. *)
Definition nneg {T} `{NumOps T} (x : T) : T := nmul (nopp n1) x.

Definition nfrac {T} `{NumOps T} (a : Z) (b : Z) : T := ndiv (nofZ a) (nofZ b).

(** [np.sum] of a list of scalars.  Simplification: left-to-right summation
    (numpy sums pairwise for 8 or more entries; the order is immaterial in
    exact arithmetic). *)
Definition nsum {T} `{NumOps T} (l : list T) : T := fold_left nadd l n0.

(** [np.isclose(a, b)] with default [rtol=1e-5], [atol] given:
    [|a - b| <= atol + rtol * |b|]. *)
Definition isclose_tol {T} `{NumOps T} (atol a b : T) : bool :=
  nleb (nabs (nsub a b)) (nadd atol (nmul (nfrac 1 100000) (nabs b))).

Definition isclose {T} `{NumOps T} (a b : T) : bool :=
  isclose_tol (nfrac 1 100000000) a b.

(** ** Exact rationals *)
Definition Qltb (x y : Q) : bool := negb (Qle_bool y x).

#[global] Instance Q_ops : NumOps Q := {
  n0 := 0%Q; n1 := 1%Q;
  nadd := Qplus; nsub := Qminus; nmul := Qmult; ndiv := Qdiv;
  nopp := Qopp; nabs := Qabs;
  nltb := Qltb; nleb := Qle_bool; neqb := Qeq_bool;
  nofZ := inject_Z
}.

(** ** IEEE-754 binary64 *)
Definition b64_prec : Z := 53.
Definition b64_emax : Z := 1024.
Definition b64 : Set := spec_float.

#[global] Instance B64_ops : NumOps b64 := {
  n0 := S754_zero false;
  n1 := binary_normalize b64_prec b64_emax 1 0 false;
  nadd := SFadd b64_prec b64_emax;
  nsub := SFsub b64_prec b64_emax;
  nmul := SFmul b64_prec b64_emax;
  ndiv := SFdiv b64_prec b64_emax;
  nopp := SFopp;
  nabs := SFabs;
  nltb := SFltb;
  nleb := SFleb;
  neqb := SFeqb;
  nofZ := fun z => binary_normalize b64_prec b64_emax z 0 false
}.
