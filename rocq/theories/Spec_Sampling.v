(** * What random forecasts and samples are expected to be *)

From Coq Require Import ZArith QArith Qabs Qminmax Bool String List.
From Verif Require Import Num Py NonModular Spec_NonModular NmMpc Saa Spec_Saa Sampling.
Import ListNotations.
Local Open Scope string_scope.
Local Open Scope list_scope.
Local Open Scope Q_scope.

(** Numbers that numpy draws uniformly *)
Definition uniform (u : nat -> Q) : Prop := forall j, 0 <= u j /\ u j < 1.

(** ** The grid *)

Definition binary (x : Q) : Prop := x == 0 \/ x == 1.
(** Row [i] exists and has the value [v]. *)
Definition value_is (l : list Q) (i : nat) (v : Q) : bool :=
  match nth_error l i with Some x => Qeq_bool x v | None => false end.
(** How often [a] occurs before the last row, and how often it is followed by [b] *)
Definition times (l : list Q) (a : Q) : nat := length (filter (fun i => value_is l i a) (seq 0 (length l - 1))).
Definition moves (l : list Q) (a b : Q) : nat :=
  length (filter (fun i => value_is l i a && value_is l (S i) b) (seq 0 (length l - 1))).
Definition number (n : nat) : Q := inject_Z (Z.of_nat n).
(** The chances after the value [a]: the shares in the data, or to stay if there are none *)
Definition learned_from (l : list Q) (a : Q) (p : Q * Q) : Prop :=
  0 <= fst p /\ 0 <= snd p /\ fst p + snd p == 1
  /\ ((0 < times l a)%nat -> fst p * number (times l a) == number (moves l a 0) /\ snd p * number (times l a) == number (moves l a 1))
  /\ (times l a = 0%nat -> if Qeq_bool a 0 then fst p == 1 else snd p == 1).
(** Series that can be sampled: the first value occurs before the last row of the data, and every
    value is followed by one that follows it in the data.  After a value that only occurs in
    the last row nothing changes. *)
Definition possible (l s : list Q) : Prop :=
  length s = length l /\ Forall binary s
  /\ (forall x, nth_error s 0 = Some x -> (0 < times l x)%nat)
  /\ (forall i x y, nth_error s i = Some x -> nth_error s (S i) = Some y ->
        if Nat.eqb (times l x) 0 then y == x else (0 < moves l x y)%nat).

(** ** The load *)

(** Rows at the same hour of the same day of the week *)
Definition same_time (i j : nat) : Prop := (i mod 24 = j mod 24 /\ (i / 24) mod 7 = (j / 24) mod 7)%nat.
Definition same_timeb (i j : nat) : bool := (Nat.eqb (i mod 24) (j mod 24) && Nat.eqb ((i / 24) mod 7) ((j / 24) mod 7))%nat.
(** The data in those rows *)
Definition alike (l : list Q) (i : nat) : list Q := map (fun j => nth j l 0) (filter (same_timeb i) (seq 0 (length l))).
Definition average (l : list Q) (m : Q) : Prop := m * number (length l) == fold_right Qplus 0 l.
Definition smallest (l : list Q) (m : Q) : Prop := In m l /\ forall x, In x l -> m <= x.
(** What [np.sqrt] does: all that is needed *)
Definition takes_roots (root : Q -> Q) : Prop := (forall x y, x == y -> root x == root y) /\ root 0 == 0 /\ forall x, 0 <= root x.
Definition whole_days (l : list Q) (days : nat) : Prop := length l = (24 * days)%nat.

(** ** The PV *)

(** A day with sun: dark until [dawn], light until [dusk], when it is dark again *)
Record sunny (day : list Q) (dawn dusk : nat) : Prop := mkSunny {
  su_hours : length day = 24%nat;
  su_dawn : forall h, (h <= dawn)%nat -> nth h day 1 == 0;
  su_light : forall h, (dawn < h < dusk)%nat -> ~ nth h day 0 == 0;
  su_dusk : nth dusk day 1 == 0;
  su_order : (S dawn < dusk)%nat;
  su_night : nth 23 day 1 == 0
}.
Definition day_of_data (l : list Q) (d : nat) : list Q := firstn 24 (skipn (24 * d) l).

(** The deviation of values from their average, 0 for a single one *)
Definition spread (root : Q -> Q) (l : list Q) (d : Q) : Prop :=
  match l with
  | [] | [_] => d == 0
  | _ => exists m v, average l m /\ v * number (length l - 1) == fold_right Qplus 0 (map (fun x => (x - m) * (x - m)) l) /\ d == root v
  end.

(** The value at hour [h] of a parabola that is 0 at [dawn] and [dusk] and has its peak in the
    middle; 0 at night *)
Definition arc (dawn dusk : nat) (peak : Q) (h : nat) (v : Q) : Prop :=
  if (Nat.ltb dawn h && Nat.ltb h dusk)%bool
  then v * ((number dusk - number dawn) * (number dusk - number dawn)) == 4 * (number h - number dawn) * (number dusk - number h) * peak
  else v == 0.
(** The bounds between which the peak is drawn, in the middle of the light hours: the curves,
    made positive *)
Definition between_curves (least most : Q -> Q) (hour lb ub : Q) : Prop :=
  if Qle_bool 0 (least hour) then lb == least hour /\ ub == most hour
  else if Qle_bool 0 (most hour) then lb == 0 /\ ub == most hour
  else lb == Qmin (- least hour) (- most hour) /\ ub == Qmax (- least hour) (- most hour).
Definition middle (d dawn dusk : nat) : Q := number (24 * d) + (number dawn + number dusk) / 2.
(** A peak drawn uniformly, with the parameters [lower] and [upper] *)
Definition peak_between (least most : Q -> Q) (lower upper : Q) (d dawn dusk : nat) (peak : Q) : Prop :=
  exists lb ub w, between_curves least most (middle d dawn dusk) lb ub /\ 0 <= w /\ w < 1
    /\ peak == (1 - w) * (lb + lower * (ub - lb)) + w * (lb + upper * (ub - lb)).
(** Every day has sun *)
Definition all_sunny (l : list Q) (days : nat) : Prop :=
  whole_days l days /\ forall d, (d < days)%nat -> exists dawn dusk, sunny (day_of_data l d) dawn dusk.
(** The baseline of a sample: an arc for each day *)
Definition arcs (l : list Q) (days : nat) (good : nat -> nat -> nat -> Q -> Prop) (base : list Q) : Prop :=
  length base = (24 * days)%nat
  /\ forall d, (d < days)%nat -> exists dawn dusk peak, sunny (day_of_data l d) dawn dusk /\ good d dawn dusk peak
       /\ forall h, (h < 24)%nat -> exists v, nth_error base (24 * d + h) = Some v /\ arc dawn dusk peak h v.

(** What is sampled around a baseline: normal noise in proportion to each value, and nothing
    negative *)
Definition sampled_around (a : pv_args Q) (z : nat -> nat -> Q) (base s : list Q) : Prop :=
  length s = length base
  /\ forall d h v, (h < 24)%nat -> nth_error base (24 * d + h) = Some v ->
       exists x, nth_error s (24 * d + h) = Some x
         /\ x == Qmax 0 (v + match az_noise a with None => 0 | Some _ => az_std a * v * z d h end).
(** The peak that is drawn, and if asked for moved towards the highest value of the day *)
Definition highest (l : list Q) (m : Q) : Prop := In m l /\ forall x, In x l -> x <= m.
Definition peak_drawn (least most : Q -> Q) (a : pv_args Q) (l : list Q) (d dawn dusk : nat) (peak : Q) : Prop :=
  match az_peak a with
  | None => peak_between least most (az_lower a) (az_upper a) d dawn dusk peak
  | Some r => exists p m, peak_between least most (az_lower a) (az_upper a) d dawn dusk p /\ highest (day_of_data l d) m
                /\ peak == p + r * (m - p)
  end.
(** Values moved from [c] towards the data [l] by the ratio [r] *)
Definition moved_towards (r : option Q) (l c s : list Q) : Prop :=
  length s = length c
  /\ forall i x y, nth_error c i = Some x -> nth_error l i = Some y ->
       exists v, nth_error s i = Some v /\ v == match r with None => x | Some r => x + r * (y - x) end.

(** ** Forecasts and samples of a microgrid *)

(** A microgrid whose data can be sampled: whole days, each with sun, loads that are not negative
    and, if there is a grid, a status of 0 or 1 in each row *)
Record sampleable (g : nonmod Q) (days : nat) : Prop := mkSampleable {
  sb_days : (0 < days)%nat;
  sb_pv : all_sunny (nm_pv_ts g) days;
  sb_load : whole_days (nm_load_ts g) days /\ forall x, In x (nm_load_ts g) -> 0 <= x;
  sb_grid : has_grid (nm_arch g) = true -> whole_days (nm_status_ts g) days /\ Forall binary (nm_status_ts g)
}.
(** Arguments for the PV with which a forecast can be drawn.  [named]: see Sampling.v. *)
Record good_args (named : bool) (a : pv_args Q) : Prop := mkGoodArgs {
  ga_shape : az_shape a = Some "uniform";
  ga_noise : az_noise a = None \/ az_noise a = Some "gaussian";
  ga_bounds : 0 <= az_lower a /\ 0 <= az_upper a;
  ga_std : 0 <= az_std a;
  ga_peak : forall r, az_peak a = Some r -> 0 <= r /\ r <= 1;
  ga_each : az_each a <> None -> named = true
}.
(** Arguments with which samples can be drawn around a forecast *)
Record sampling_args (a : pv_args Q) : Prop := mkSamplingArgs {
  sg_shape : az_shape a = None;
  sg_noise : az_noise a = None \/ az_noise a = Some "gaussian";
  sg_std : 0 <= az_std a;
  sg_each : az_each a = None
}.
Definition fair (d : draws Q) : Prop := uniform (dr_peak d) /\ uniform (dr_grid d).
(** Forecasts and samples end after a year. *)
Definition rows_of (days : nat) : nat := Nat.min (24 * days) (24 * 365).
Definition first_year (l : list Q) : list Q := firstn (24 * 365) l.
(** A forecast of the load from [l], with the normal numbers [z] *)
Definition load_drawn (root : Q -> Q) (scale : Q) (z : nat -> Q) (l s : list Q) : Prop :=
  length s = length l
  /\ forall i x, nth_error s i = Some x -> 0 <= x /\ exists m d least,
       average (alike l i) m /\ spread root (alike l i) d /\ smallest l least
       /\ (let y := m + scale * d * z i in (y < 0 -> x = least) /\ (0 <= y -> x == y)).
(** No PV where the data are dark: before dawn and after dusk *)
Definition dark_at_night (l s : list Q) : Prop :=
  forall d dawn dusk h x, sunny (day_of_data l d) dawn dusk -> (h < 24)%nat -> (h <= dawn \/ dusk <= h)%nat ->
    nth_error s (24 * d + h) = Some x -> x == 0.
(** A generator that was made with the draws [d]: the PV is forecast around a baseline, which is
    kept, of an arc for each day. *)
Record made (root least most : Q -> Q) (g : nonmod Q) (days : nat) (named : bool) (pa : pv_args Q) (scale : Q) (d : draws Q) (gn : generator Q) : Prop := mkMade {
  md_base : exists base c, gn_pv gn = mkNoisyPv (nm_pv_ts g) named (Some base) /\ (forall x, In x base -> length x = 24%nat) /\ length base = days
    /\ arcs (nm_pv_ts g) days (peak_drawn least most pa (nm_pv_ts g)) (concat base)
    /\ sampled_around pa (dr_pv d) (concat base) c /\ moved_towards (az_each pa) (nm_pv_ts g) c (fo_pv (gn_forecasts gn));
  md_load : load_drawn root scale (dr_load d) (first_year (nm_load_ts g)) (fo_load (gn_forecasts gn)) /\ length (fo_load (gn_forecasts gn)) = rows_of days;
  md_grid : if has_grid (nm_arch g) then possible (nm_status_ts g) (fo_grid (gn_forecasts gn)) else fo_grid (gn_forecasts gn) = repeat 0 (24 * days);
  md_data : gn_data gn = underlying_data g;
  md_samples : gn_samples gn = None
}.
(** What a sample of a generator is *)
Record good_sample (g : nonmod Q) (days : nat) (gn : generator Q) (s : sample Q) : Prop := mkGoodSample {
  gs_fits : fits g s;
  gs_rows : length (sm_load s) = rows_of days;
  gs_load : forall x, In x (sm_load s) -> 0 <= x;
  gs_pv : forall x, In x (sm_pv s) -> 0 <= x;
  gs_night : dark_at_night (nm_pv_ts g) (sm_pv s);
  gs_grid : Forall binary (sm_grid s) /\ exists full, possible (fo_grid (gn_forecasts gn)) full /\ sm_grid s = firstn (rows_of days) full
}.

(** ** The error of a forecast *)

(** The relative errors where the data are not 0 *)
Definition errors (actual forecast : list Q) : list Q :=
  map (fun e => Qabs ((fst e - snd e) / fst e)) (filter (fun e => negb (Qeq_bool (fst e) 0)) (combine actual forecast)).
(** Loads that cover every hour of the week, or whole days *)
Definition enough_loads (l : list Q) : Prop := (24 <= length l)%nat /\ ((exists days, whole_days l days) \/ (7 * 24 < length l)%nat).
