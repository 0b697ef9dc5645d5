(** * Python values the model needs: exceptions, dictionaries, indexing. *)

From Coq Require Import ZArith Bool String DecimalString List.
From Verif Require Import Num.
Import ListNotations.
Local Open Scope string_scope.
Local Open Scope list_scope.

(** ** Exceptions are values.  The message is abbreviated to a tag that names
    the raise site. *)
Inductive exn_class :=
| AssertionError | ValueError | TypeError | RuntimeError | KeyError
| IndexError | AttributeError | NameError | ZeroDivisionError
| NotImplementedError | RepresenterError | FileNotFoundError.

Record exn := mkExn { ex_class : exn_class; ex_tag : string }.

Inductive res (A : Type) := Ok (a : A) | Err (e : exn).
Arguments Ok {A} a.
Arguments Err {A} e.

Definition raise {A} (c : exn_class) (tag : string) : res A := Err (mkExn c tag).

Definition rbind {A B} (x : res A) (f : A -> res B) : res B :=
  match x with Ok a => f a | Err e => Err e end.

Definition rmap {A B} (f : A -> B) (x : res A) : res B :=
  match x with Ok a => Ok (f a) | Err e => Err e end.

(** Evaluate a Python list comprehension left to right; the first exception
    aborts it. *)
Fixpoint rmapM {A B} (f : A -> res B) (l : list A) : res (list B) :=
  match l with
  | [] => Ok []
  | a :: l' => rbind (f a) (fun b => rmap (cons b) (rmapM f l'))
  end.

Definition is_ok {A} (x : res A) : bool :=
  match x with Ok _ => true | Err _ => false end.

(** ** Statements that can raise after having changed the state: the state is
    returned in both cases, so a failed call is visible as it was left. *)
Definition M (S A : Type) : Type := S -> S * res A.

Definition mret {S A} (a : A) : M S A := fun s => (s, Ok a).
Definition mraise {S A} (c : exn_class) (tag : string) : M S A :=
  fun s => (s, raise c tag).
Definition mbind {S A B} (x : M S A) (f : A -> M S B) : M S B :=
  fun s => match x s with
           | (s', Ok a) => f a s'
           | (s', Err e) => (s', Err e)
           end.
Definition mlift {S A} (r : res A) : M S A := fun s => (s, r).
Definition mget {S} : M S S := fun s => (s, Ok s).
Definition mput {S} (s' : S) : M S unit := fun _ => (s', Ok tt).
Definition mgets {S A} (f : S -> A) : M S A := fun s => (s, Ok (f s)).
Definition mmodify {S} (f : S -> S) : M S unit := fun s => (f s, Ok tt).
Definition massert {S} (b : bool) (tag : string) : M S unit :=
  fun s => if b then (s, Ok tt) else (s, raise AssertionError tag).

Declare Scope py_scope.
Delimit Scope py_scope with py.
Notation "x <- a ;; b" := (mbind a (fun x => b))
  (at level 61, a at next level, right associativity) : py_scope.
Notation "a ;; b" := (mbind a (fun _ => b))
  (at level 61, right associativity) : py_scope.
Notation "'let?' x := a 'in' b" := (rbind a (fun x => b))
  (at level 200, x name, a at level 100, b at level 200) : py_scope.

(** ** Insertion-ordered dictionaries with string keys. *)
Definition dict (A : Type) := list (string * A).

Fixpoint dget {A} (k : string) (d : dict A) : option A :=
  match d with
  | [] => None
  | (k', v) :: d' => if String.eqb k k' then Some v else dget k d'
  end.

(** [d[k] = v]: overwrite in place or append. *)
Fixpoint dset {A} (k : string) (v : A) (d : dict A) : dict A :=
  match d with
  | [] => [(k, v)]
  | (k', v') :: d' =>
      if String.eqb k k' then (k', v) :: d' else (k', v') :: dset k v d'
  end.

(** [d.update(pairs)] *)
Definition dupdate {A} (d : dict A) (kvs : list (string * A)) : dict A :=
  fold_left (fun acc kv => dset (fst kv) (snd kv) acc) kvs d.

(** [dict(pairs)] *)
Definition dict_of {A} (kvs : list (string * A)) : dict A := dupdate [] kvs.

(** [d.pop(k)] *)
Fixpoint dremove {A} (k : string) (d : dict A) : dict A :=
  match d with
  | [] => []
  | (k', v) :: d' => if String.eqb k k' then d' else (k', v) :: dremove k d'
  end.

Definition dkeys {A} (d : dict A) : list string := map fst d.
Definition dvalues {A} (d : dict A) : list A := map snd d.
Definition din {A} (k : string) (d : dict A) : bool :=
  match dget k d with Some _ => true | None => false end.

Definition str_in (k : string) (l : list string) : bool :=
  existsb (String.eqb k) l.

(** ** Sequences *)

(** [l[i]] with Python's negative indices; [None] models IndexError. *)
Definition py_nth {A} (l : list A) (i : Z) : option A :=
  let n := Z.of_nat (length l) in
  if (0 <=? i)%Z && (i <? n)%Z then nth_error l (Z.to_nat i)
  else if (- n <=? i)%Z && (i <? 0)%Z then nth_error l (Z.to_nat (i + n))
  else None.

Definition py_clamp (n i : Z) : Z :=
  if (i <? 0)%Z then Z.max 0 (i + n) else Z.min i n.

(** [l[a:b]] *)
Definition py_slice {A} (l : list A) (a b : Z) : list A :=
  let n := Z.of_nat (length l) in
  let a' := Z.to_nat (py_clamp n a) in
  let b' := Z.to_nat (py_clamp n b) in
  firstn (b' - a') (skipn a' l).

(** [l[-k:]] for [k >= 0]; note that [l[-0:]] is the whole list. *)
Definition py_last {A} (l : list A) (k : nat) : list A :=
  match k with
  | O => l
  | _ => skipn (length l - k) l
  end.

(** [l[i] = v] for an index known to be in range. *)
Fixpoint set_nth {A} (l : list A) (i : nat) (v : A) : list A :=
  match l, i with
  | [], _ => []
  | _ :: l', O => v :: l'
  | x :: l', S i' => x :: set_nth l' i' v
  end.

(** [str(n)] for a natural number. *)
Definition str_of_nat (n : nat) : string := NilZero.string_of_uint (Nat.to_uint n).

(** [arr.reshape((-1, c))] of a flat list whose length is a multiple of [c]. *)
Fixpoint chunks {A} (fuel c : nat) (l : list A) : list (list A) :=
  match fuel with
  | O => []
  | S f => match l with
           | [] => []
           | _ => firstn c l :: chunks f c (skipn c l)
           end
  end.
Definition reshape_rows {A} (c : nat) (l : list A) : list (list A) :=
  chunks (length l) c l.
