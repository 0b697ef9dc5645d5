(** * Model of utils/DataGenerator.py: random forecasts and samples of load, PV and grid

    Data frames with one column and the rows 0, 1, ... are lists of values.  What numpy
    draws is an input: uniform numbers of [0, 1) and standard normal numbers, which numpy
    scales.  The square root, the triangular distribution and the two curves that a quantile
    regression fits to the daily maxima are parameters.  Plots and printed output are not
    modelled, nor are data without rows. *)

From Coq Require Import ZArith Bool String List.
From Verif Require Import Num Py NonModular MPC NmRbc NmMpc Saa.
Import ListNotations.
Local Open Scope string_scope.
Local Open Scope list_scope.
Local Open Scope py_scope.

Section Sampling.
Context {T : Type} {N : NumOps T}.

(** ** The grid: [NoisyGridData], 727-809 *)

Record noisy_grid := mkNoisyGrid { ng_dist : string; ng_data : list T }.
(** 728-745 [__init__] *)
Definition new_noisy_grid (data : list T) (dist : string) : res noisy_grid :=
  if negb (forallb (fun x => neqb x n1 || neqb x n0) data) then raise ValueError "Non-binary values found in grid_data"
  else if String.eqb dist "naive" || String.eqb dist "markov" then Ok (mkNoisyGrid dist data)
  else raise TypeError "dist type not recognized".

(** The probabilities of 0 and of 1 *)
Definition chances : Type := T * T.
(** [transition_prob_matrix] and [occurrences] *)
Inductive distribution :=
| Naive (p : chances)
| Markov (from_zero from_one : chances) (occurrences : T * T).

(** [int(val)] of a value that is 0 or 1 *)
Definition is_one (x : T) : bool := neqb x n1.
(** 755-762: the transitions are counted. *)
Definition more (to_one : bool) (c : T * T) : T * T :=
  if to_one then (fst c, nadd (snd c) n1) else (nadd (fst c) n1, snd c).
Fixpoint count_moves (l : list T) (c0 c1 o : T * T) : (T * T) * (T * T) * (T * T) :=
  match l with
  | x :: ((y :: _) as l') =>
      if is_one x then count_moves l' c0 (more (is_one y) c1) (more true o)
      else count_moves l' (more (is_one y) c0) c1 (more false o)
  | _ => (c0, c1, o)
  end.
(** 747-783 [learn_distribution].  (It is not learned again by later samples: the data do not
    change.) *)
Definition learn_distribution (g : noisy_grid) : res distribution :=
  if String.eqb (ng_dist g) "naive" then
    let p := ndiv (nsum (ng_data g)) (nofZ (Z.of_nat (length (ng_data g)))) in
    Ok (Naive (nsub n1 p, p))
  else
    let '(c0, c1, o) := count_moves (ng_data g) (n0, n0) (n0, n0) (n0, n0) in
    let row0 := if nltb n0 (fst o) then (ndiv (fst c0) (fst o), ndiv (snd c0) (fst o)) else (n1, snd c0) in
    let row1 := if nltb n0 (snd o) then (ndiv (fst c1) (snd o), ndiv (snd c1) (snd o)) else (fst c1, n1) in
    if neqb (nadd (fst row0) (snd row0)) n1 && neqb (nadd (fst row1) (snd row1)) n1
    then Ok (Markov row0 row1 o)
    else raise AssertionError "transition prob matrix invalid".

(** [np.random.choice([0, 1], p=p)] with the uniform number [u].  (Its checks of [p] are passed,
    except that NaN is refused: see below.) *)
Definition choice (p : chances) (u : T) : bool := nleb (ndiv (fst p) (nadd (fst p) (snd p))) u.
Definition as_value (b : bool) : T := if b then n1 else n0.
(** 800-802 *)
Fixpoint walk (from_zero from_one : chances) (u : nat -> T) (j n : nat) (at_one : bool) : list T :=
  match n with
  | O => []
  | S n' => let b := choice (if at_one then from_one else from_zero) (u j) in
            as_value b :: walk from_zero from_one u (S j) n' b
  end.
(** 785-809 [sample].  The mean of no values, and the shares of no occurrences, are NaN, which
    [np.random.choice] refuses. *)
Definition sample_grid (g : noisy_grid) (u : nat -> T) : res (list T) :=
  let? d := learn_distribution g in
  let n := length (ng_data g) in
  match d with
  | Naive p =>
      if Nat.eqb n 0 then raise ValueError "probabilities contain NaN"
      else Ok (map (fun j => as_value (choice p (u j))) (seq 0 n))
  | Markov row0 row1 o =>
      let total := nadd (fst o) (snd o) in
      if neqb total n0 then raise ValueError "probabilities contain NaN"
      else
        let b := choice (ndiv (fst o) total, ndiv (snd o) total) (u 0%nat) in
        Ok (as_value b :: walk row0 row1 u 1 (n - 1) b)
  end.

(** ** The load: [NoisyLoadData], 595-713 *)

(** [np.sqrt] *)
Variable root : T -> T.

Definition year : nat := Z.to_nat 8760.
(** [nl_rows] rows, of which the last ones are missing (NaN) if there are fewer data. *)
Record noisy_load := mkNoisyLoad { nl_rows : nat; nl_data : list T }.
(** 596-620 [__init__] *)
Definition new_noisy_load (rows : nat) (data : list T) : noisy_load :=
  mkNoisyLoad (Nat.min rows year) (firstn year data).

Definition hour_of (i : nat) : nat := (i mod 24)%nat.
Definition day_of (i : nat) : nat := (i / 24)%nat.
Definition weekday_of (i : nat) : nat := (day_of i mod 7)%nat.
(** 634-642: the values of one hour of one day of the week *)
Definition group (data : list T) (w h : nat) : list T :=
  map snd (filter (fun e => Nat.eqb (hour_of (fst e)) h && Nat.eqb (weekday_of (fst e)) w) (combine (seq 0 (length data)) data)).
Definition count_of (l : list T) : T := nofZ (Z.of_nat (length l)).
Definition mean (l : list T) : T := ndiv (nsum l) (count_of l).
(** 643: the deviation of a single value, NaN, becomes 0. *)
Definition deviation (l : list T) : T :=
  match l with
  | _ :: _ :: _ =>
      let m := mean l in
      root (ndiv (nsum (map (fun x => nmul (nsub x m) (nsub x m)) l)) (nsub (count_of l) n1))
  | _ => n0
  end.
(** The days times hours of the pivoted frame, row by row *)
Definition table_cells (rows : nat) : list nat :=
  filter (fun i => Nat.ltb (hour_of i) rows) (seq 0 (24 * ((rows + 23) / 24))).
(** 656-678: mean and deviation of the group, and the standard normal number [z i].  Cells of
    groups without values are NaN, which [stack] drops. *)
Definition drawn_loads (l : noisy_load) (scale : T) (z : nat -> T) : list T :=
  flat_map (fun i => match group (nl_data l) (weekday_of i) (hour_of i) with
                     | [] => []
                     | v => [nadd (mean v) (nmul (nmul scale (deviation v)) (z i))]
                     end) (table_cells (nl_rows l)).
(** [DataFrame.min] of a column (without values: NaN, which is not modelled) *)
Definition least_of (l : list T) : T := match l with [] => n0 | x :: l' => fold_left nmin l' x end.
(** 690-713 [_check_sample]: a frame with one value is squeezed to a number. *)
Definition check_sample (value : T) (l : list T) : res (list T) :=
  if Nat.eqb (length l) 1 then raise ValueError "stacked_data needs to be a series or a single column DataFrame"
  else
    let l := map (fun x => if nltb x n0 then value else x) l in
    if forallb (fun x => nleb n0 x) l then Ok l else raise AssertionError "There are still negative numbers".
(** 647-688 [sample], stacked.  [np.random.normal] refuses negative scales (also -0.0). *)
Definition sample_load (l : noisy_load) (distribution : string) (scale : T) (z : nat -> T) : res (list T) :=
  if negb (String.eqb distribution "gaussian") then raise ValueError "distribution not recognized"
  else if nltb scale n0 then raise ValueError "scale < 0"
  else check_sample (least_of (nl_data l)) (drawn_loads l scale z).

(** ** The PV: [NoisyPVData], 63-530 *)

(** The curves fitted to the daily minima and maxima (178-305 [max_min_curve_interpolate], [most_light_curve_eval]), at an hour
    counted from the start *)
Variables least_light most_light : T -> T.
(** [np.random.triangular] with the uniform number at the end *)
Variable triangular : T -> T -> T -> T -> T.

(** [pv_named]: the column is called 'GH illum (lx)'. *)
Record noisy_pv := mkNoisyPv { pv_data : list T; pv_named : bool; pv_base : option (list (list T)) }.
Definition new_noisy_pv (data : list T) (named : bool) : noisy_pv := mkNoisyPv data named None.

(** Arguments of [sample] (409-421) *)
Record pv_args := mkPvArgs {
  az_shape : option string; az_noise : option string;         (* noise_types *)
  az_lower : T; az_upper : T; az_mode : T; az_std : T;         (* noise_params *)
  az_peak : option T;                                          (* push_peak_ratio, if push_peak_val *)
  az_each : option T                                           (* push_individual_ratio, if push_individual_vals *)
}.

(** 94-108: the values of one day *)
Definition day_values (data : list T) (d : nat) : list T := firstn 24 (skipn (24 * d) data).
(** 322 *)
Fixpoint dark (i : nat) (col : list T) : list nat :=
  match col with
  | [] => []
  | x :: col' => if neqb x n0 then i :: dark (S i) col' else dark (S i) col'
  end.
(** 323-326: the last dark hour before the first light one and the first dark hour after it.  The
    last dark hour, 23, is compared to the first one. *)
Fixpoint dawn_dusk (night : list nat) : res (nat * nat) :=
  match night with
  | a :: ((b :: _) as night') => if Nat.eqb (S a) b then dawn_dusk night' else Ok (a, b)
  | _ => raise IndexError "index out of bounds"
  end.
Definition of_nat (n : nat) : T := nofZ (Z.of_nat n).
(** 329-343: the bounds at an hour *)
Definition light_bounds (hour : T) : T * T :=
  let a := least_light hour in
  let b := most_light hour in
  if nltb a n0 then
    if nltb b n0 then (nopp (nmax a b), nopp (nmin a b)) else (n0, b)
  else (a, b).
(** 345-392: the highest value of a day *)
Definition peak_of (a : pv_args) (bounds : T * T) (col : list T) (u : T) : res T :=
  let '(lb, ub) := bounds in
  let spread := nsub ub lb in
  let low := nadd lb (nmul (az_lower a) spread) in
  let high := nadd ub (nmul (nsub (az_upper a) n1) spread) in
  let? peak :=
    match az_shape a with
    | Some s =>
        if String.eqb s "uniform" then Ok (nadd low (nmul (nsub high low) u))
        else
          if negb (nleb n0 (az_mode a) && nleb (az_mode a) n1) then raise ValueError "mode parameter invalid"
          else
            let mode := nadd (nmul spread (az_mode a)) lb in
            if negb (nleb mode high && nleb low mode) then raise AssertionError "mode computation did not work"
            else if neqb low high then raise ValueError "left == right"
            else Ok (triangular low mode high u)
    | None => raise RuntimeError "Fell through in noise_types"
    end in
  match az_peak a with
  | None => Ok peak
  | Some r => Ok (nadd peak (nmul r (nsub (fold_left nmax col n0) peak)))
  end.
(** 394-402: the parabola through (dawn, 0), (middle, peak) and (dusk, 0), 0 outside.  (The check of
    the order never fails.) *)
Definition parabola (dawn dusk : nat) (peak : T) (h : nat) : T :=
  if Nat.ltb h dawn || Nat.ltb dusk h then n0
  else
    let middle := ndiv (nadd (of_nat dawn) (of_nat dusk)) (nofZ 2) in
    let x := ndiv (nsub (of_nat h) middle) (nsub middle (of_nat dawn)) in
    nmul peak (nsub n1 (nmul x x)).
(** 316-402: one day.  A missing value is not 0; with less than a day there is no row 23. *)
Definition sample_day (a : pv_args) (data : list T) (d : nat) (u : T) : res (list T) :=
  let col := day_values data d in
  if negb (neqb (hd n0 col) n0) then raise RuntimeError "sunny at midnight"
  else if Nat.ltb (length data) 24 then raise KeyError "23"
  else if Nat.ltb (length col) 24 || negb (neqb (nth 23 col n0) n0) then raise RuntimeError "sunny at 11PM"
  else
    let? dd := dawn_dusk (dark 0 col) in
    let '(dawn, dusk) := dd in
    let middle := ndiv (nadd (of_nat dawn) (of_nat dusk)) (nofZ 2) in
    let? peak := peak_of a (light_bounds (nadd (of_nat (d * 24)) middle)) col u in
    Ok (map (parabola dawn dusk peak) (seq 0 24)).
(** 307-407 [_sample_parabola] *)
Definition sample_parabola (a : pv_args) (data : list T) (u : nat -> T) : res (list (list T)) :=
  rmapM (fun d => sample_day a data d (u d)) (seq 0 ((length data + 23) / 24)).
(** 467: the scale of each value is refused if it is negative (also -0.0: at midnight the value
    is 0). *)
Definition add_noise (a : pv_args) (base : list (list T)) (z : nat -> nat -> T) : res (list (list T)) :=
  match az_noise a with
  | None => Ok base
  | Some _ =>
      if nltb (az_std a) n0 || existsb (existsb (fun x => nltb x n0)) base then raise ValueError "scale < 0"
      else Ok (map (fun e => map (fun x => nadd (snd x) (nmul (nmul (az_std a) (snd x)) (z (fst e) (fst x))))
                                 (combine (seq 0 (length (snd e))) (snd e)))
                   (combine (seq 0 (length base)) base))
  end.
Definition known_noises (a : pv_args) : bool :=
  match az_shape a with None => true | Some s => String.eqb s "uniform" || String.eqb s "triangular" end
  && match az_noise a with None => true | Some s => String.eqb s "gaussian" end.
(** 409-503 [sample], stacked, with two noise types and parameters.  The baseline is kept. *)
Definition sample_pv (a : pv_args) (u : nat -> T) (z : nat -> nat -> T) : M noisy_pv (list T) :=
  v <- mget ;;
  if negb (known_noises a) then mraise ValueError "Noise not recognized"
  else
    base <- match az_shape a with
            | None => match pv_base v with
                      | None => mraise ValueError "noise_types[0] is None, but there is no stored baseline"
                      | Some b => mret b
                      end
            | Some _ =>
                b <- mlift (sample_parabola a (pv_data v) u) ;;
                mmodify (fun v => mkNoisyPv (pv_data v) (pv_named v) (Some b)) ;;
                mret b
            end ;;
    noisy <- mlift (add_noise a base z) ;;
    checked <- mlift (check_sample n0 (concat noisy)) ;;
    match az_each a with
    | None => mret checked
    | Some r =>
        if pv_named v
        then mret (map (fun e => nadd (fst e) (nmul r (nsub (snd e) (fst e)))) (combine checked (pv_data v)))
        else mraise KeyError "GH illum (lx)"
    end.

(** ** Forecasts and samples of a microgrid: [SampleGenerator], 811-955 *)

(** What is drawn for one forecast or sample *)
Record draws := mkDraws { dr_peak : nat -> T; dr_pv : nat -> nat -> T; dr_load : nat -> T; dr_grid : nat -> T }.
(** The columns of [forecasts].  Shorter ones are filled up with NaN. *)
Record forecast := mkForecast { fo_pv : list T; fo_load : list T; fo_grid : list T }.
Definition fo_rows (f : forecast) : nat := Nat.max (Nat.max (length (fo_pv f)) (length (fo_load f))) (length (fo_grid f)).

Record generator := mkGenerator {
  gn_pv : noisy_pv; gn_data : sample T; gn_forecasts : forecast; gn_samples : option (list (sample T))
}.

(** 409-427: the defaults; [load_variance_scale=1.] *)
Definition default_pv_args : pv_args :=
  mkPvArgs (Some "uniform") (Some "gaussian") n0 n1 (nfrac 1 2) (nfrac 1 20) None None.
Inductive forecast_args := Given (pv : pv_args) (distribution : string) (scale : T) | Preset (accuracy : Z).
(** 994-1047 [ForecastArgSet], [get_preset] *)
Definition args_of (a : forecast_args) : res (pv_args * string * T) :=
  match a with
  | Given pv dist scale => Ok (pv, dist, scale)
  | Preset n =>
      let preset ratio := Ok (mkPvArgs (Some "uniform") (Some "gaussian") n0 (nfrac 1 2) (nfrac 1 2) (nfrac 1 4) (Some n0) (Some ratio),
                              "gaussian", nofZ 2) in
      if (n =? 50)%Z then preset (nfrac 1 2)
      else if (n =? 70)%Z then preset (nfrac 13 20)
      else if (n =? 85)%Z then preset n1
      else raise ValueError "do not have relevant sampling parameters"
  end.

(** 826-862 [create_forecasts].  [load] and [grid]: [NL] and [NG]. *)
Definition create_forecasts (load : list T) (grid : option noisy_grid) (a : forecast_args) (d : draws) : M noisy_pv forecast :=
  x <- mlift (args_of a) ;;
  let '(pa, dist, scale) := x in
  pv <- sample_pv pa (dr_peak d) (dr_pv d) ;;
  l <- mlift (sample_load (new_noisy_load (length load) load) dist scale (dr_load d)) ;;
  gr <- mlift (match grid with Some g => sample_grid g (dr_grid d) | None => Ok (zeros (length load)) end) ;;
  mret (mkForecast pv l gr).
(** 812-824 [__init__] *)
Definition new_generator (g : nonmod T) (named : bool) (a : forecast_args) (d : draws) : res generator :=
  let? ng := (if has_grid (nm_arch g) then rmap Some (new_noisy_grid (nm_status_ts g) "markov") else Ok None) in
  let '(npv, f) := create_forecasts (nm_load_ts g) ng a d (new_noisy_pv (nm_pv_ts g) named) in
  let? f := f in
  Ok (mkGenerator npv (underlying_data g) f None).

(** 919-955 [sample_from_forecasts] *)
Definition one_sample (nl : noisy_load) (ng : noisy_grid) (pa : pv_args) (dist : string) (scale : T) (d : draws)
  : M noisy_pv (sample T) :=
  v <- mget ;;
  pv <- sample_pv pa (dr_peak d) (dr_pv d) ;;
  l <- mlift (sample_load nl dist scale (dr_load d)) ;;
  gr <- mlift (sample_grid ng (dr_grid d)) ;;
  let n := Nat.min (Nat.min (length (pv_data v)) (nl_rows nl)) (length (ng_data ng)) in
  mret (mkSample (firstn n l) (firstn n pv) (firstn n gr)).
Fixpoint more_samples (nl : noisy_load) (ng : noisy_grid) (pa : pv_args) (dist : string) (scale : T) (ds : list draws)
  : M noisy_pv (list (sample T)) :=
  match ds with
  | [] => mret []
  | d :: ds' => s <- one_sample nl ng pa dist scale d ;;
                ss <- more_samples nl ng pa dist scale ds' ;;
                mret (s :: ss)
  end.
(** The method, as many samples as [ds] has entries.  A column 'grid' with missing values is
    refused by [NoisyGridData]. *)
Definition sample_from_forecasts (pa : pv_args) (dist : string) (scale : T) (ds : list draws) : M generator (list (sample T)) :=
  fun gn =>
    let f := gn_forecasts gn in
    let nl := new_noisy_load (fo_rows f) (fo_load f) in
    match (if Nat.ltb (length (fo_grid f)) (fo_rows f) then raise ValueError "Non-binary values found in grid_data"
           else new_noisy_grid (fo_grid f) "markov") with
    | Err e => (gn, Err e)
    | Ok ng =>
        let '(npv, ss) := more_samples nl ng pa dist scale ds (gn_pv gn) in
        match ss with
        | Ok ss => (mkGenerator npv (gn_data gn) f (Some ss), Ok ss)
        | Err e => (mkGenerator npv (gn_data gn) f (gn_samples gn), Err e)
        end
    end.
(** 938-939: the noise types that are used if none are given *)
Definition default_sampling : pv_args :=
  mkPvArgs None (Some "gaussian") n0 n1 (nfrac 1 2) (nfrac 1 20) None None.

(** 900-917 [mape].  A difference divided by 0 is infinite; 0 / 0, NaN, is left out; the mean of
    no values is NaN.  (The columns have the same length.) *)
Inductive error_rate := Rate (x : T) | Infinite | Unknown.
Definition mape (actual forecast : list T) : error_rate :=
  let pairs := combine actual forecast in
  if existsb (fun e => neqb (fst e) n0 && negb (neqb (snd e) n0)) pairs then Infinite
  else
    match filter (fun e => negb (neqb (fst e) n0)) pairs with
    | [] => Unknown
    | l => Rate (mean (map (fun e => nabs (ndiv (nsub (fst e) (snd e)) (fst e))) l))
    end.

(** ** Runs of the sample average approximation: saa.py:41-80 *)

Variable to_floor : T -> Z.
Variable partition : list (horizon_output T) -> nat -> list (horizon_output T).

(** 41-51 [__init__]: the forecasts are made before the controller. *)
Definition make_saa (g : nonmod T) (control_duration : Z) (named : bool) (a : forecast_args) (d : draws) : res (saa T * generator) :=
  if (8760 <? control_duration)%Z then raise ValueError "control_duration must be less than 8760"
  else
    let? gn := new_generator g named a d in
    let? s := new_saa g control_duration in
    Ok (s, gn).
(** 52-80 [run] *)
Definition saa_run (s : saa T) (solve : solver T) (g : nonmod T) (reuse : bool) (pa : pv_args) (dist : string) (scale : T)
    (ds : list draws) (steps : option Z) (percentile : T) : M generator (copies T) :=
  gn <- mget ;;
  match gn_samples gn, reuse with
  | Some _, true => mret tt
  | _, _ => sample_from_forecasts pa dist scale ds ;; mret tt
  end ;;
  gn <- mget ;;
  let '(ss, r) := run_mpc_on_group to_floor partition s solve g steps percentile (match gn_samples gn with Some ss => ss | None => [] end) in
  mmodify (fun gn => mkGenerator (gn_pv gn) (gn_data gn) (gn_forecasts gn) (Some ss)) ;;
  mlift r.

End Sampling.

Arguments noisy_grid T : clear implicits.
Arguments distribution T : clear implicits.
Arguments noisy_load T : clear implicits.
Arguments noisy_pv T : clear implicits.
Arguments pv_args T : clear implicits.
Arguments draws T : clear implicits.
Arguments forecast T : clear implicits.
Arguments generator T : clear implicits.
Arguments forecast_args T : clear implicits.
Arguments error_rate T : clear implicits.
