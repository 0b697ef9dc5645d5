(** * Model of MicrogridGenerator.py: random microgrids

    Files have one column: a file is the list of its values, a folder the list of its files.
    What numpy draws is an input ([draws], one for each microgrid).  [np.ceil], [int] and
    [np.around] are parameters.  Not modelled: the seed, the scenarios on disk ([load]), the
    printed tables ([print_mg_parameters], [print_all_costs]), and the functions that nothing
    calls ([_resize_timeseries], [_get_wind_ts], [_get_grid_price_ts]). *)

From Coq Require Import ZArith Bool String List.
From Verif Require Import Num Py Module Microgrid NonModular Conversion.
Import ListNotations.
Local Open Scope string_scope.
Local Open Scope list_scope.
Local Open Scope py_scope.

Section Generator.
Context {T : Type} {N : NumOps T}.
(** [int(np.ceil(x))], [int(x)] and [np.around(x, d)] *)
Variables (ceil trunc : T -> Z) (around : Z -> T -> T).

(** The folders data/load, data/pv and data/co2 *)
Record folders := mkFolders { fo_load : list (list T); fo_pv : list (list T); fo_co2 : list (list T) }.
(** What is drawn for one microgrid.  Draws that are not needed are not used (numpy does not
    draw them). *)
Record draws := mkDraws {
  dr_arch : T;             (* 418 *)
  dr_load : Z;             (* 439 *)
  dr_load_file : nat;      (* 135 *)
  dr_pv : Z;               (* 357 *)
  dr_hours : Z;            (* 385 *)
  dr_pv_file : nat;
  dr_soc : T;              (* 239 *)
  dr_weak : Z;             (* 535 *)
  dr_tariff : Z;           (* 536 *)
  dr_outage : T;           (* 292 *)
  dr_duration : Z;         (* 293 *)
  dr_uniform : list T;     (* 327 *)
  dr_co2_file : nat;
  dr_poly : T * T * T      (* 217 *)
}.

(** 128-135 [_get_random_file].  (The choice is that of an existing file.) *)
Definition random_file (folder : list (list T)) (i : nat) : res (list T) :=
  match folder with
  | [] => raise NameError "Unable to find csv data files"
  | _ => match nth_error folder i with
         | Some l => Ok l
         | None => raise NameError "no such choice"
         end
  end.

(** 137-148 [_scale_ts] with the method 'max'.  (A file whose maximum is 0 gives values that
    are no numbers; not modelled.) *)
Definition scale_ts (l : list T) (size : T) : list T :=
  match list_max l with
  | Ok m => let ratio := ndiv size m in map (fun x => nmul x ratio) l
  | Err _ => []
  end.

(** 417-435 [_bin_genset_grid]: genset and grid *)
Definition bin_genset_grid (rand : T) : bool * bool :=
  if nltb rand (nfrac 33 100) then (true, false)
  else if ngeb rand (nfrac 33 100) && nltb rand (nfrac 66 100) then (false, true)
  else (true, true).

(** 346-386 [_size_mg], [_size_genset], [_size_battery].  (A load without rows is a
    ValueError: NaN is no integer.) *)
Record sizes := mkSizes { sz_pv : T; sz_battery : Z; sz_genset : Z; sz_grid : Z }.
Definition mean (l : list T) : T := ndiv (nsum l) (nofZ (Z.of_nat (length l))).
Definition size_genset (peak : T) : Z := ceil (ndiv peak (nfrac 9 10)).
Definition size_battery (l : list T) (hours : Z) : Z := ceil (nmul (nofZ hours) (mean l)).
Definition size_mg (load : list T) (pct hours : Z) : res sizes :=
  let? peak := list_max load in
  Ok (mkSizes (nmul peak (nfrac pct 100)) (size_battery load hours) (size_genset peak)
        (trunc (nmul peak (nofZ 2)))).

(** 230-243 [_get_battery] with the defaults for all but the capacity *)
Record battery_info := mkBatteryInfo {
  bi_capa : T; bi_pcharge : T; bi_pdischarge : T; bi_soc_max : T; bi_soc_min : T;
  bi_efficiency : T; bi_soc_0 : T; bi_cost_cycle : T
}.
Definition get_battery (capa : Z) (randn : T) : battery_info :=
  let soc_max := n1 in
  let soc_min := nfrac 1 5 in
  mkBatteryInfo (nofZ capa) (nofZ (ceil (ndiv (nofZ capa) (nofZ 4)))) (nofZ (ceil (ndiv (nofZ capa) (nofZ 4))))
    soc_max soc_min (nfrac 9 10) (nmin (nmax randn soc_min) soc_max) (nfrac 1 50).

(** 253-285 [_get_electricity_tariff]: the prices of import and of export.  For another
    scenario there are no prices of import. *)
Definition price_1 (i : nat) : T :=
  let h := Nat.modulo i 24 in
  if Nat.leb 12 h && Nat.ltb h 18 then nfrac 59 100
  else if Nat.ltb h 8 || Nat.leb 21 h then nfrac 22 100
  else nfrac 29 100.
Definition price_2 (i : nat) : T :=
  let h := Nat.modulo i 24 in
  if (Nat.leb 0 h && Nat.ltb h 5) || (Nat.leb 14 h && Nat.ltb h 17) then nfrac 8 100
  else nfrac 11 100.
(** 8760 *)
Definition hours_per_year : nat := 24 * 365.
Definition electricity_tariff (scenario : Z) : list T * list T :=
  ((if Z.eqb scenario 1 then map price_1 (seq 0 hours_per_year) else [])
   ++ (if Z.eqb scenario 2 then map price_2 (seq 0 hours_per_year) else []),
   repeat n0 hours_per_year).

(** 321-340 [_generate_weak_grid_profile] for one row an hour *)
Definition outage_row (duration : Z) (ts : list T) (i : nat) : list T :=
  match nth_error ts i with
  | Some x =>
      if neqb x n0 then
        fold_left (fun ts j => if Nat.ltb 0 (i - j) then set_nth ts (i - j) n0 else ts)
                  (seq 1 (Z.to_nat (duration - 1))) ts
      else ts
  | None => ts
  end.
Definition weak_grid_profile (outage_per_day : T) (duration : Z) (uniform : list T) : list T :=
  let ts := map (fun u => if nltb u (ndiv outage_per_day (nofZ 24)) then n0 else n1) uniform in
  fold_left (outage_row duration) (seq 0 (length ts)) ts.

(** 288-319 [_get_grid] *)
Record grid_info := mkGridInfo { gi_power : T; gi_ts : list T; gi_import : list T; gi_export : list T }.
Definition get_grid (rated : Z) (weak : Z) (scenario : Z) (d : draws) : grid_info :=
  let ts := if Z.eqb weak 1
            then weak_grid_profile (nadd (ndiv (nmul (dr_outage d) (nofZ 3)) (nofZ 4)) (nfrac 1 4))
                                   (dr_duration d) (dr_uniform d)
            else repeat n1 hours_per_year in
  let prices := electricity_tariff scenario in
  mkGridInfo (nofZ rated) (firstn hours_per_year ts) (fst prices) (snd prices).

(** 214-228 [_get_genset] with the defaults for all but the power, as stored by 563-573 *)
Definition genset_parameters (rated : Z) (poly : T * T * T) : dict T :=
  let '(a, b, c) := poly in
  [("genset_polynom_order", nofZ 3);
   ("genset_polynom_0", nmul a (nofZ 10)); ("genset_polynom_1", b); ("genset_polynom_2", ndiv c (nofZ 10));
   ("genset_rated_power", nofZ rated); ("genset_pmin", nfrac 5 100); ("genset_pmax", nfrac 9 10);
   ("fuel_cost", nfrac 4 10); ("genset_co2", nofZ 2)].
(** 499-506 *)
Definition battery_parameters (b : battery_info) : dict T :=
  [("battery_soc_0", bi_soc_0 b); ("battery_power_charge", bi_pcharge b); ("battery_power_discharge", bi_pdischarge b);
   ("battery_capacity", bi_capa b); ("battery_efficiency", bi_efficiency b); ("battery_soc_min", bi_soc_min b);
   ("battery_soc_max", bi_soc_max b); ("battery_cost_cycle", bi_cost_cycle b)].
(** 512-527 *)
Definition battery_status (b : battery_info) : record T :=
  let cap := bi_capa b in
  let to_charge := nmax (ndiv (nsub (nmul (bi_soc_max b) cap) (nmul (bi_soc_0 b) cap)) (bi_efficiency b)) n0 in
  let to_discharge := nmax (nmul (nsub (nmul (bi_soc_0 b) cap) (nmul (bi_soc_min b) cap)) (bi_efficiency b)) n0 in
  [("battery_soc", [CNum (bi_soc_0 b)]); ("capa_to_charge", [CNum (around 1 to_charge)]);
   ("capa_to_discharge", [CNum (around 1 to_discharge)])].

(** 579-581: {key: [] for key in ...} *)
Definition empty_columns (names : list string) : record T := map (fun k => (k, [])) names.

(** What the grid adds: 533-560 *)
Record grid_addition := mkGridAddition {
  gp_info : grid_info; gp_co2 : list T; gp_parameters : dict T; gp_status : record T
}.
Definition grid_addition_of (fs : folders) (sz : sizes) (d : draws) : res grid_addition :=
  let g := get_grid (sz_grid sz) (dr_weak d) (dr_tariff d) d in
  let? s0 := iloc (gi_ts g) 0 in
  let? co2 := random_file (fo_co2 fs) (dr_co2_file d) in
  let? c0 := iloc co2 0 in
  let? i0 := iloc (gi_import g) 0 in
  let? e0 := iloc (gi_export g) 0 in
  Ok (mkGridAddition g co2
        [("grid_weak", nofZ (dr_weak d)); ("grid_power_import", gi_power g); ("grid_power_export", gi_power g)]
        [("grid_status", [CNum s0]); ("grid_co2", [CNum c0]); ("grid_price_import", [CNum i0]); ("grid_price_export", [CNum e0])]).

(** 443-599 [_create_microgrid] up to the call of the constructor.  (There are no series of a
    grid that is not there.)  First what is assembled from the parts. *)
Definition assemble_spec (d : draws) (bin_genset : bool) (load pv : list T) (load0 pv0 : T) (sz : sizes)
    (grid : option grid_addition) : nm_spec T :=
  let battery := get_battery (sz_battery sz) (dr_soc d) in
  let bin_grid := match grid with Some _ => true | None => false end in
  let genset := bin_genset || (bin_grid && Z.eqb (dr_weak d) 1) in
  let of_grid (f : grid_addition -> list T) : option (list T) := option_map f grid in
  let grid_columns := if bin_grid then ["grid_import"; "grid_export"] else [] in
  let genset_columns := if genset then ["genset"] else [] in
  mkSpec
    ([("load", nofZ (dr_load d)); ("cost_loss_load", nofZ 10); ("cost_overgeneration", n1); ("cost_co2", nfrac 1 10);
      ("PV_rated_power", around 2 (sz_pv sz))]
     ++ battery_parameters battery ++ match grid with Some p => gp_parameters p | None => [] end
     ++ (if genset then genset_parameters (sz_genset sz) (dr_poly d) else []))
    (mkArch true true genset bin_grid)
    (Some load) (Some pv)
    (of_grid (fun p => gi_ts (gp_info p))) (of_grid (fun p => gi_import (gp_info p)))
    (of_grid (fun p => gi_export (gp_info p))) (of_grid gp_co2)
    (empty_columns (["load"; "pv_consummed"; "pv_curtailed"; "pv"; "battery_charge"; "battery_discharge"]
                    ++ grid_columns ++ genset_columns))
    ([("load", [CNum (around 1 load0)]); ("hour", [CNum n0]); ("pv", [CNum (around 1 pv0)])]
     ++ battery_status battery ++ match grid with Some p => gp_status p | None => [] end)
    (empty_columns (["loss_load"; "overgeneration"; "pv_consummed"; "pv_curtailed"; "battery_charge"; "battery_discharge"]
                    ++ grid_columns ++ genset_columns))
    (empty_columns (["loss_load"; "overgeneration"; "co2"; "battery"] ++ grid_columns ++ genset_columns ++ ["total_cost"]))
    (empty_columns ["co2"]).
Definition microgrid_spec (fs : folders) (d : draws) : res (nm_spec T) :=
  let '(bin_genset, bin_grid) := bin_genset_grid (dr_arch d) in
  let? load_file := random_file (fo_load fs) (dr_load_file d) in
  let load := scale_ts load_file (nofZ (dr_load d)) in
  let? sz := size_mg load (dr_pv d) (dr_hours d) in
  let? load0 := iloc load 0 in
  let? pv_file := random_file (fo_pv fs) (dr_pv_file d) in
  let pv := scale_ts pv_file (sz_pv sz) in
  let? pv0 := iloc pv 0 in
  let? grid := (if bin_grid then let? p := grid_addition_of fs sz d in Ok (Some p) else Ok None) in
  Ok (assemble_spec d bin_genset load pv load0 pv0 sz grid).
(** 601-603; the default horizon of non_modular_microgrid.py:48 *)
Definition create_microgrid (fs : folders) (d : draws) : res (nonmod T) :=
  let? sp := microgrid_spec fs d in new_nonmodular sp 24.

(** ** The generator *)

(** A microgrid of either kind *)
Inductive made := MadeModular (mg : mgrid T) | MadeNonmodular (g : nonmod T).
Record generator := mkGenerator { ge_microgrids : list made; ge_nb : Z; ge_timestep : Z }.
(** 112-121 [__init__] *)
Definition new_generator (nb_microgrid timestep : Z) : generator := mkGenerator [] nb_microgrid 1.

(** 396: [to_modular] with its default *)
Definition convert_made (modular : bool) (g : nonmod T) : res made :=
  if modular then let? mg := to_modular false g in Ok (MadeModular mg) else Ok (MadeNonmodular g).
(** 393-405 [generate_microgrid] without the printed tables; the [i]-th microgrid of the call
    uses the draws [ds i]. *)
Fixpoint generate_from (fs : folders) (modular : bool) (ds : nat -> draws) (i k : nat) : M generator unit :=
  match k with
  | O => mret tt
  | S k' =>
      m <- mlift (let? g := create_microgrid fs (ds i) in convert_made modular g) ;;
      mmodify (fun s => mkGenerator (ge_microgrids s ++ [m]) (ge_nb s) (ge_timestep s)) ;;
      generate_from fs modular ds (S i) k'
  end.
Definition generate_microgrid (fs : folders) (modular : bool) (ds : nat -> draws) : M generator unit :=
  s <- mget ;; generate_from fs modular ds 0 (Z.to_nat (ge_nb s)).
End Generator.
Arguments folders : clear implicits.
Arguments draws : clear implicits.
Arguments sizes : clear implicits.
Arguments made : clear implicits.
Arguments generator : clear implicits.
Arguments grid_info : clear implicits.
Arguments grid_addition : clear implicits.
Arguments battery_info : clear implicits.
