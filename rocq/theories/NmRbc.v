(** * Model of algos/rbc/_nonmodular_rbc.py: rule-based control of non-modular microgrids

    Progress output is not modelled.  The microgrid is only read: everything recorded
    is recorded in copies (lines 185-189). *)

From Coq Require Import ZArith Bool String List.
From Verif Require Import Num Py NonModular.
Import ListNotations.
Local Open Scope string_scope.
Local Open Scope list_scope.
Local Open Scope py_scope.

Section NmRbc.
Context {T : Type} {N : NumOps T}.

(** Python's [int] of a number *)
Variable to_int : T -> Z.

(** 15-46 [_generate_priority_list].  [grid]: the grid's status, import and export price
    (the default arguments are only used without a grid).  A division by a zero
    efficiency is not modelled: it gives 0 instead of infinity or NaN. *)
Definition flag (b : bool) : Z := if b then 1 else 0.
Definition priorities (ar : arch) (par : dict T) (status price_import price_export : T) : res (dict Z) :=
  if has_grid ar then
    let? eff := dfind par "battery_efficiency" in
    if nltb (ndiv price_export (nmul eff eff)) price_import
    then Ok [("PV", flag (has_pv ar)); ("battery", 2 * flag (has_battery ar))%Z;
             ("grid", to_int (nmul (nofZ 3) status)); ("genset", 4 * flag (has_genset ar))%Z]
    else Ok [("PV", flag (has_pv ar)); ("battery", 3 * flag (has_battery ar))%Z;
             ("grid", to_int (nmul (nofZ 2) status)); ("genset", 4 * flag (has_genset ar))%Z]
  else Ok [("PV", flag (has_pv ar)); ("battery", 2 * flag (has_battery ar))%Z;
           ("grid", 0%Z); ("genset", 4 * flag (has_genset ar))%Z].

(** 107: [sorted(priority_dict.items(), key=itemgetter(1))], a stable sort *)
Fixpoint insert_prio (e : string * Z) (l : list (string * Z)) : list (string * Z) :=
  match l with
  | [] => [e]
  | x :: l' => if (snd e <? snd x)%Z then e :: x :: l' else x :: insert_prio e l'
  end.
Definition sort_prio (l : list (string * Z)) : list (string * Z) :=
  fold_left (fun acc e => insert_prio e acc) l [].

(** The local variables of [_run_priority_based] *)
Record dispatch := mkDispatch {
  di_load : T;     (* temp_load *)
  di_excess : T;   (* excess_gen *)
  di_charge : T; di_discharge : T; di_import : T; di_export : T; di_genset : T;
  di_pv : T;       (* pv_not_curtailed *)
  di_min : T       (* min_load *)
}.

(** 86-90, 129-133: what the battery can give.  [battery.p_discharge_max] is the parameter
    'battery_power_discharge' (the battery object is made from the parameters). *)
Definition rb_room (par : dict T) (status : record T) : res T :=
  let? soc := last_num status "battery_soc" in
  let? cap := dfind par "battery_capacity" in
  let? smin := dfind par "battery_soc_min" in
  let? eff := dfind par "battery_efficiency" in
  Ok (nmul (nsub (nmul soc cap) (nmul smin cap)) eff).

(** 112-163: the turn of one generator *)
Definition turn (par : dict T) (status : record T) (pv : T) (e : string * Z) (d : dispatch) : res dispatch :=
  if negb (0 <? snd e)%Z then Ok d
  else if String.eqb (fst e) "PV" then
    let self := nmin (di_load d) pv in
    let excess := nsub pv self in
    Ok (mkDispatch (nmax n0 (nsub (di_load d) self)) excess (di_charge d) (di_discharge d) (di_import d) (di_export d)
          (di_genset d) (nsub (nadd (di_pv d) pv) excess) (di_min d))
  else if String.eqb (fst e) "battery" then
    let? smax := dfind par "battery_soc_max" in
    let? cap := dfind par "battery_capacity" in
    let? soc := last_num status "battery_soc" in
    let? eff := dfind par "battery_efficiency" in
    let to_charge := nmax (ndiv (nsub (nmul smax cap) (nmul soc cap)) eff) n0 in
    let? room := rb_room par status in
    let to_discharge := nmax room n0 in
    if ngtb (di_load d) n0 then
      let? pd := dfind par "battery_power_discharge" in
      let p := nmax n0 (nmin (nmin to_discharge pd) (di_load d)) in
      Ok (mkDispatch (nsub (di_load d) p) (di_excess d) (di_charge d) p (di_import d) (di_export d) (di_genset d)
            (di_pv d) (di_min d))
    else if ngtb (di_excess d) n0 then
      let? pc := dfind par "battery_power_charge" in
      let p := nmax n0 (nmin (nmin to_charge pc) (di_excess d)) in
      Ok (mkDispatch (di_load d) (nsub (di_excess d) p) p (di_discharge d) (di_import d) (di_export d) (di_genset d)
            (nadd (di_pv d) p) (di_min d))
    else Ok d
  else if String.eqb (fst e) "grid" then
    if ngtb (di_load d) n0 then
      Ok (mkDispatch n0 (di_excess d) (di_charge d) (di_discharge d) (di_load d) (di_export d) (di_genset d)
            (di_pv d) (di_min d))
    else if ngtb (di_excess d) n0 then
      Ok (mkDispatch (di_load d) n0 (di_charge d) (di_discharge d) (di_import d) (di_excess d) (di_genset d)
            (nadd (di_pv d) (di_excess d)) (di_min d))
    else Ok d
  else
    if ngtb (di_load d) n0 then
      Ok (mkDispatch n0 (di_excess d) (di_charge d) (di_discharge d) (di_import d) (di_export d)
            (nadd (di_load d) (di_min d)) (di_pv d) n0)
    else Ok d.
Fixpoint turns (par : dict T) (status : record T) (pv : T) (l : list (string * Z)) (d : dispatch) : res dispatch :=
  match l with
  | [] => Ok d
  | e :: l' => let? d := turn par status pv e d in turns par status pv l' d
  end.

(** 82-105: the smallest power of the genset is set aside, or the genset is all that runs. *)
Definition genset_first (par : dict T) (ar : arch) (load pv : T) (status : record T) (pr : dict Z)
  : res (T * T * dict Z) :=
  if has_genset ar then
    let? room := rb_room par status in
    let? pd := dfind par "battery_power_discharge" in
    let to_discharge := nmax (nmin room pd) n0 in
    let? g := dfind pr "grid" in
    let? s := dfind pr "genset" in
    let grid_first := has_grid ar && (g <? s)%Z && (0 <? g)%Z in
    if ngtb load (nadd pv to_discharge) && negb grid_first then
      let? rated := dfind par "genset_rated_power" in
      let? pmin := dfind par "genset_pmin" in
      let least := nmul rated pmin in
      if nleb least load then Ok (nsub load least, least, pr)
      else Ok (least, least, [("PV", 0%Z); ("battery", 0%Z); ("grid", 0%Z); ("genset", 1%Z)])
    else Ok (load, n0, pr)
  else Ok (load, n0, pr).

(** 48-179 [_run_priority_based] *)
Definition run_priority_based (par : dict T) (ar : arch) (load pv : T) (status : record T) (pr : dict Z)
  : res (dict T) :=
  let? s := genset_first par ar load pv status pr in
  let '(temp, least, pr) := s in
  let? d := turns par status pv (sort_prio pr) (mkDispatch temp n0 n0 n0 n0 n0 n0 n0 least) in
  Ok [("battery_charge", di_charge d); ("battery_discharge", di_discharge d); ("genset", di_genset d);
      ("grid_import", di_import d); ("grid_export", di_export d);
      ("loss_load", if ngtb (di_load d) n0 then n1 else n0);
      ("pv_consummed", di_pv d); ("pv_curtailed", nsub pv (di_pv d)); ("load", load); ("pv", pv)].

(** The copies of the records: action, status, production, cost, co2 *)
Record copies := mkCopies {
  cp_actions : record T; cp_state : record T; cp_production : record T; cp_cost : record T; cp_co2 : record T
}.
Definition copies_of (g : nonmod T) : copies :=
  mkCopies (nm_actions g) (nm_state g) (nm_production g) (nm_cost g) (nm_co2 g).

(** A method that changes one record *)
Definition on_copy (f : M (record T) unit) (r : record T) : res (record T) :=
  let '(r', x) := f r in rmap (fun _ => r') x.

(** 217-228: what is decided in step [i] *)
Definition rb_control (g : nonmod T) (i : Z) (status : record T) : res (dict T) :=
  let? pr := (if has_grid (nm_arch g) then
                let? s := iloc (nm_status_ts g) i in
                let? im := iloc (nm_import_ts g) i in
                let? ex := iloc (nm_export_ts g) i in
                priorities (nm_arch g) (nm_par g) s im ex
              else priorities (nm_arch g) (nm_par g) n0 n0 n0) in
  let? load := iloc (nm_load_ts g) i in
  let? pv := iloc (nm_pv_ts g) i in
  run_priority_based (nm_par g) (nm_arch g) load pv status pr.

(** 217-279: one step.  (The decided dictionary loses 'pv_consummed' after it was
    recorded.) *)
Definition rb_step (g : nonmod T) (i : Z) (r : copies) : res copies :=
  let par := nm_par g in
  let ar := nm_arch g in
  let? control := rb_control g i (cp_state r) in
  let actions := record_action control (cp_actions r) in
  let control := dremove "pv_consummed" control in
  let? production := on_copy (record_production par ar control (cp_state r)) (cp_production r) in
  let? prod := last_row production in
  let? now := (if has_grid ar then
                 let? c := iloc (nm_co2_ts g) i in Ok c
               else Ok n0) in
  let? co2 := on_copy (record_co2 par ar prod now) (cp_co2 r) in
  let? load := iloc (nm_load_ts g) (i + 1) in
  let? pv := iloc (nm_pv_ts g) (i + 1) in
  let? next := (if has_grid ar then
                  let? s := iloc (nm_status_ts g) (i + 1) in
                  let? im := iloc (nm_import_ts g) (i + 1) in
                  let? ex := iloc (nm_export_ts g) (i + 1) in
                  let? c := iloc (nm_co2_ts g) (i + 1) in
                  Ok (mkNext (CNum load) (CNum pv) (CNum s) (CNum im) (CNum ex) (CNum c))
                else Ok (mkNext (CNum load) (CNum pv) (CNum n0) (CNum n0) (CNum n0) (CNum n0))) in
  let? state := on_copy (update_status par ar (nm_t g) prod next) (cp_state r) in
  let? prices := (if has_grid ar then
                    let? im := iloc (nm_import_ts g) i in
                    let? ex := iloc (nm_export_ts g) i in Ok (im, ex)
                  else Ok (n0, n0)) in
  let? cost := on_copy (record_cost par ar prod co2 (fst prices) (snd prices)) (cp_cost r) in
  Ok (mkCopies actions state production cost co2).

(** 181-286 [run_rule_based] *)
Fixpoint rb_steps (g : nonmod T) (i : Z) (n : nat) (r : copies) : res copies :=
  match n with
  | O => Ok r
  | S n' => let? r := rb_step g i r in rb_steps g (i + 1) n' r
  end.
Definition rb_length (g : nonmod T) (length : option Z) : Z :=
  match length with
  | None => nm_len g - 1
  | Some l => if (nm_len g <=? l)%Z then nm_len g - 1 else l
  end%Z.
Definition run_rule_based (g : nonmod T) (length : option Z) : res copies :=
  rb_steps g 0 (Z.to_nat (rb_length g length - nm_horizon g)) (copies_of g).

End NmRbc.

Arguments dispatch T : clear implicits.
Arguments copies T : clear implicits.
