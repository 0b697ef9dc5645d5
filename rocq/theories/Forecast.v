(** * src/pymgrid/forecast/forecaster.py *)

From Coq Require Import ZArith Bool String List.
From Verif Require Import Num Py Space.
Import ListNotations.
Local Open Scope string_scope.
Local Open Scope list_scope.
Local Open Scope py_scope.

Section Forecast.
Context {T : Type} `{NumOps T}.

Definition row := list T.
Definition matrix := list (list T).

(** A user-supplied callable.  Python calls the same function with a matrix of
    future values or with a single row; the two uses are independent functions
    here.  The boolean says whether the result is a plain Python list (no
    [size] attribute) rather than an array.  User functions are assumed pure and
    to return freshly allocated arrays. *)
Record userfn := mkUserfn {
  uf_vec : row -> matrix -> nat -> res (bool * matrix);
  uf_scal : row -> row -> nat -> res row
}.

(** What the user passes as [forecaster] (forecaster.py:10-88). *)
Inductive fparam :=
| FPNone
| FPOracle
| FPNoise (std : T)
| FPUser (f : userfn).

Definition fparam_given (p : fparam) : bool :=
  match p with FPNone => false | _ => true end.

(** The forecaster classes.
    [FcGauss shape draw calls]: [draw k i j] is the noise added to entry (i,j)
    by the k-th call, an arbitrary stream standing for numpy's generator; its
    scale is not modelled, [shape] is the shape of [_noise_std] when
    [increase_uncertainty] makes it an array (forecaster.py:237-250).
    [FcUser vectorized f]: forecaster.py:193-212; [cast_to_arr] makes no
    difference to the outcome for results modelled here, see [fc_forecast]. *)
Inductive fkind :=
| FcNone
| FcOracle
| FcGauss (shape : option (nat * nat)) (draw : nat -> nat -> nat -> T) (calls : nat)
| FcUser (vectorized : bool) (f : userfn).

(** forecaster.py:91-95: observation-space bounds, the last [h] rows of bounds
    reshaped, and the fill array. *)
Record forecaster := mkForecaster {
  fc_kind : fkind;
  fc_obs : space T;
  fc_rows : nat;
  fc_cols : nat;
  fc_low : matrix;
  fc_high : matrix;
  fc_fill : list T
}.

(** forecaster.py:97-114 [_get_forecast_shaped_space] *)
Definition shaped_bounds (b : list T) (h c : nat) : res matrix :=
  match (h * c)%nat with
  | O => Ok (repeat [] h)
  | n => let l := py_last b n in
         if Nat.eqb (length l) n then Ok (reshape_rows c l)
         else raise ValueError "cannot reshape array"
  end.

(** forecaster.py:95, 158 *)
Definition fill_arr (sp : space T) : list T :=
  map2 (fun hi lo => ndiv (nadd hi lo) (nofZ 2)) (sp_high sp) (sp_low sp).

(** forecaster.py:92-95 [Forecaster.__init__] *)
Definition mk_forecaster (k : fkind) (sp : space T) (h c : nat) : res forecaster :=
  let? lo := shaped_bounds (sp_low sp) h c in
  let? hi := shaped_bounds (sp_high sp) h c in
  Ok (mkForecaster k sp h c lo hi (fill_arr sp)).

(** forecaster.py:155-163 [observation_space] setter *)
Definition fc_set_obs (fc : forecaster) (sp : space T) : res forecaster :=
  let c := fc_cols fc in
  let h := ((length (sp_low sp) - c) / c)%nat in
  mk_forecaster (fc_kind fc) sp h c.

(** forecaster.py:120-131 [_pad]; a forecast with more than [n] rows always
    fails later (clipping or the final shape assertion) and is rejected here. *)
Definition fc_pad (fc : forecaster) (cols : nat) (fr : matrix) (n : nat) : res matrix :=
  if Nat.eqb (length fr) n then Ok fr
  else if Nat.ltb n (length fr) then raise ValueError "forecast too long"
  else
    let amount := (n - length fr)%nat in
    let pad := py_last (reshape_rows cols (fc_fill fc)) amount in
    if Nat.ltb (length pad) amount
    then raise RuntimeError "Attempting to pad a forecast"
    else Ok (fr ++ pad).

(** forecaster.py:133-137 [full_pad] *)
Definition fc_full_pad (fc : forecaster) (cols n : nat) : res matrix :=
  fc_pad fc cols [] n.

(** forecaster.py:139-149 [_clip]: both masks are computed before either
    assignment. *)
Definition clip1 (x lo hi : T) : T :=
  let y := if nltb x lo then lo else x in
  if nltb hi x then hi else y.

Fixpoint clip_row (xs lo hi : list T) : list T :=
  match xs, lo, hi with
  | x :: xs', l :: lo', h :: hi' => clip1 x l h :: clip_row xs' lo' hi'
  | _, _, _ => []
  end.

Fixpoint clip_rows (m lo hi : matrix) : matrix :=
  match m, lo, hi with
  | r :: m', l :: lo', h :: hi' => clip_row r l h :: clip_rows m' lo' hi'
  | _, _, _ => []
  end.

Definition fc_clip (fc : forecaster) (m : matrix) : res matrix :=
  let lb := py_last (fc_low fc) (length m) in
  let ub := py_last (fc_high fc) (length m) in
  if Nat.eqb (length lb) (length m)
     && forallb (fun r => Nat.eqb (length r) (fc_cols fc)) m
  then Ok (clip_rows m lb ub)
  else raise ValueError "operands could not be broadcast together".

(** forecaster.py:252-260 [_get_noise]: numpy broadcasts a [_noise_std] array of
    one row; a longer one is cut; a shorter one cannot be used. *)
Definition noise_ok (shape : option (nat * nat)) (rows cols : nat) : bool :=
  match shape with
  | None => true
  | Some (r, c) => Nat.eqb c cols && (Nat.eqb r 1 || Nat.leb rows r)
  end.

Definition add_noise (draw : nat -> nat -> T) (m : matrix) : matrix :=
  map (fun ir => map (fun jx => nadd (snd jx) (draw (fst ir) (fst jx)))
                     (combine (seq 0 (length (snd ir))) (snd ir)))
      (combine (seq 0 (length m)) m).

(** forecaster.py:362-373 [vectorize_scalar_forecaster] *)
Definition vectorize_scalar (f : userfn) (val_c : row) (val_c_n : matrix) (n : nat)
  : res matrix :=
  if Nat.eqb n (length val_c_n)
  then rmapM (fun ir => uf_scal f val_c (snd ir) (fst ir))
             (combine (seq 0 (length val_c_n)) val_c_n)
  else raise ValueError "Incompatible true values length".

(** forecaster.py:205-279 [_forecast] of the four classes; also returns the
    kind, whose call counter advances.  A user function returning a plain list
    ends in AttributeError ([forecast.reshape] line 207 or [forecast.shape]
    line 121). *)
Definition fc_forecast (fc : forecaster) (val_c : row) (val_c_n : matrix) (n : nat)
  : fkind * res (option matrix) :=
  match fc_kind fc with
  | FcNone => (FcNone, Ok None)
  | FcOracle => (FcOracle, Ok (Some val_c_n))
  | FcGauss shape draw calls =>
      if noise_ok shape (length val_c_n) (fc_cols fc)
      then (FcGauss shape draw (S calls), Ok (Some (add_noise (draw calls) val_c_n)))
      else (FcGauss shape draw calls, raise RuntimeError "Cannot broadcast shapes")
  | FcUser vec f =>
      (FcUser vec f,
       if vec then
         match uf_vec f val_c val_c_n n with
         | Ok (false, m) => Ok (Some m)
         | Ok (true, _) => raise AttributeError "list has no attribute reshape"
         | Err e => Err e
         end
       else rmap Some (vectorize_scalar f val_c val_c_n n))
  end.

(** forecaster.py:172-187 [__call__].  The boolean says whether the returned
    array is a view of [val_c_n] (an oracle forecast that needed no padding), in
    which case the in-place clipping has written to the caller's time series. *)
Definition fc_call (fc : forecaster) (val_c : row) (val_c_n : matrix) (n : nat)
  : fkind * res (option (matrix * bool)) :=
  if Nat.ltb (fc_rows fc) (length val_c_n)
  then (fc_kind fc, raise RuntimeError "val_c_n shape is too large for space")
  else
    match fc_forecast fc val_c val_c_n n with
    | (k, Err e) => (k, Err e)
    | (k, Ok None) => (k, Ok None)
    | (k, Ok (Some m)) =>
        (k,
         let? p := fc_pad fc (fc_cols fc) m n in
         let? c := fc_clip fc p in
         if Nat.eqb (length c) n
         then Ok (Some (c, match fc_kind fc with
                           | FcOracle => Nat.eqb (length m) n
                           | _ => false
                           end))
         else raise AssertionError "forecast.shape")
    end.

(** ** Validation of user-defined forecasters, forecaster.py:283-359 *)

(** forecaster.py:350-359 [_validate_forecasted_value] on a row: with more than
    one column [not (array >= 0)] is ambiguous and raises ValueError. *)
Definition validate_value (out true_row : row) : res unit :=
  match out, true_row with
  | [o], [t] => if nleb n0 (nmul o t) then Ok tt
                else raise ValueError "Forecaster must return output of same sign"
  | _, _ => raise ValueError "truth value of an array is ambiguous"
  end.

Fixpoint validate_rows (m t : matrix) : res unit :=
  match m, t with
  | r :: m', u :: t' => let? _ := validate_value r u in validate_rows m' t'
  | _, _ => Ok tt
  end.

(** forecaster.py:299-325 [_validate_vectorized_forecaster]; the reshape check
    asks for the right number of entries. *)
Definition validate_vec (f : userfn) (val_c : row) (t : matrix) (n : nat) : res bool :=
  match uf_vec f val_c t n with
  | Err _ => raise NotImplementedError "Unable to call forecaster with vector inputs"
  | Ok (islist, m) =>
      if Nat.eqb (length (concat m)) (length (concat t))
      then let? _ := validate_rows (reshape_rows (length val_c) (concat m)) t in Ok islist
      else raise ValueError "cannot be casted to necessary forecast shape"
  end.

(** forecaster.py:328-347 [_validate_scalar_forecaster] *)
Definition validate_scal (f : userfn) (val_c : row) (t : row) (n : nat) : res unit :=
  match uf_scal f val_c t n with
  | Err _ => raise ValueError "Unable to call forecaster with scalar inputs."
  | Ok [x] => validate_value [x] t
  | Ok _ => raise ValueError "Forecaster must return scalar output with scalar input"
  end.

(** forecaster.py:283-296 [_validate_callable_forecaster]; [draw] is the
    [np.random.randint(2, len(time_series))] of line 285, used modulo the
    range. Returns [is_vectorized_forecaster]. *)
Definition validate_user (f : userfn) (ts : matrix) (draw : nat) : res bool :=
  match ts with
  | [] => raise IndexError "time_series[0]"
  | val_c :: _ =>
      if Nat.leb (length ts) 2 then raise ValueError "low >= high"
      else
        let n := (2 + draw mod (length ts - 2))%nat in
        let t := firstn n ts in
        match validate_vec f val_c t n with
        | Ok _ => Ok true
        | Err e =>
            match ex_class e with
            | NotImplementedError =>
                let? _ := validate_scal f val_c (last t []) n in Ok false
            | _ => Err e
            end
        end
  end.

(** Random choices made while building a forecaster: the validation draw and
    the noise stream. *)
Record frand := mkFrand { fr_draw : nat; fr_noise : nat -> nat -> nat -> T }.

(** forecaster.py:10-88 [get_forecaster].  Passing an existing forecaster
    object (74-75) is not modelled.  [increase] is [increase_uncertainty]. *)
Definition get_forecaster (p : fparam) (sp : space T) (h c : nat) (ts : matrix)
    (increase : bool) (rnd : frand) : res forecaster :=
  match p with
  | FPNone => mk_forecaster FcNone sp h c
  | FPUser f =>
      let? vec := validate_user f ts (fr_draw rnd) in
      mk_forecaster (FcUser vec f) sp h c
  | FPOracle => mk_forecaster FcOracle sp h c
  | FPNoise _ =>
      mk_forecaster (FcGauss (if increase then Some (h, c) else None) (fr_noise rnd) 0) sp h c
  end.

End Forecast.

Arguments userfn T : clear implicits.
Arguments fparam T : clear implicits.
Arguments fkind T : clear implicits.
Arguments forecaster T : clear implicits.
Arguments frand T : clear implicits.
