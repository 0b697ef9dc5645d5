(** * src/pymgrid/utils/space.py: module spaces *)

From Coq Require Import ZArith Bool String List.
From Verif Require Import Num Py.
Import ListNotations.
Local Open Scope string_scope.
Local Open Scope list_scope.
Local Open Scope py_scope.

Section Space.
Context {T : Type} `{NumOps T}.

(** An action or observation as passed to / returned by the API: a scalar or a
    one-dimensional numpy array.  (A plain Python list is not modelled: the
    code treats it like an array except that [denormalize] rejects it.) *)
Inductive pyval := VS (x : T) | VA (xs : list T).

(** space.py:183-205 [ModuleSpace.__init__]: one-dimensional box.  The bounds
    are taken as given; gym's own bookkeeping (dtype, seed) is not modelled. *)
Record space := mkSpace { sp_low : list T; sp_high : list T }.

Fixpoint map2 {A B C} (f : A -> B -> C) (l : list A) (m : list B) : list C :=
  match l, m with
  | a :: l', b :: m' => f a b :: map2 f l' m'
  | _, _ => []
  end.

(** space.py:204-205 [_spread = high - low; _spread[_spread == 0] = 1] *)
Definition spread1 (lo hi : T) : T :=
  let s := nsub hi lo in if neqb s n0 then n1 else s.
Definition sp_spread (sp : space) : list T := map2 spread1 (sp_low sp) (sp_high sp).

(** space.py:142-147 [_shape_check] *)
Definition shape_check (sp : space) (v : pyval) (func : string) : res unit :=
  match v with
  | VA xs => if Nat.eqb (length xs) (length (sp_low sp)) then Ok tt
             else raise TypeError ("Unable to " ++ func ++ " value of wrong length")%string
  | VS _ => if Nat.eqb (length (sp_low sp)) 1 then Ok tt
            else raise TypeError ("Unable to " ++ func ++ " scalar value")%string
  end.

(** space.py:215-218, 228-231: [arr.item()] if the array has exactly one
    element, the array itself otherwise. *)
Definition item_or_arr (xs : list T) : pyval :=
  match xs with
  | [x] => VS x
  | _ => VA xs
  end.

(** numpy broadcasting of a scalar against a length-one array. *)
Definition as_list (v : pyval) : list T :=
  match v with VS x => [x] | VA xs => xs end.

(** space.py:207-218 [normalize].  The out-of-bounds warning (233-239) has no
    effect on the result and is not modelled. *)
Definition norm1 (lo sp x : T) : T := ndiv (nsub x lo) sp.
Definition normalize (sp : space) (v : pyval) : res pyval :=
  let? _ := shape_check sp v "normalize" in
  Ok (item_or_arr
        (map2 (fun x ls => norm1 (fst ls) (snd ls) x) (as_list v)
              (combine (sp_low sp) (sp_spread sp)))).

(** space.py:220-231 [denormalize] *)
Definition denorm1 (lo sp y : T) : T := nadd lo (nmul sp y).
Definition denormalize (sp : space) (v : pyval) : res pyval :=
  let? _ := shape_check sp v "denormalize" in
  Ok (item_or_arr
        (map2 (fun y ls => denorm1 (fst ls) (snd ls) y) (as_list v)
              (combine (sp_low sp) (sp_spread sp)))).

(** space.py:116-135 [contains] on the unnormalized box: right shape and within
    the bounds, coordinate by coordinate. *)
Fixpoint in_box (lo hi xs : list T) : bool :=
  match lo, hi, xs with
  | [], [], [] => true
  | l :: lo', h :: hi', x :: xs' => nleb l x && nleb x h && in_box lo' hi' xs'
  | _, _, _ => false
  end.
Definition sp_contains (sp : space) (xs : list T) : bool :=
  in_box (sp_low sp) (sp_high sp) xs.

End Space.

Arguments pyval T : clear implicits.
Arguments space T : clear implicits.
