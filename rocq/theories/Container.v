(** * src/pymgrid/modules/module_container.py *)

From Coq Require Import ZArith Bool String List.
From Verif Require Import Num Py Space Logger Forecast Module.
Import ListNotations.
Local Open Scope string_scope.
Local Open Scope list_scope.
Local Open Scope py_scope.

(** Keys of the lowest-level containers, module_container.py:355-362, 408-411. *)
Inductive ssink := Sources | Sinks | SourceAndSinks.

Definition mtype_eqb (a b : mtype) : bool :=
  match a, b with
  | Fixed, Fixed | Flex, Flex | Controllable, Controllable => true
  | _, _ => false
  end.
Definition ssink_eqb (a b : ssink) : bool :=
  match a, b with
  | Sources, Sources | Sinks, Sinks | SourceAndSinks, SourceAndSinks => true
  | _, _ => false
  end.

Definition all_mtypes : list mtype := [Fixed; Flex; Controllable].
Definition all_ssinks : list ssink := [Sources; Sinks; SourceAndSinks].

(** A lowest-level container: module names with the list of their modules,
    given by index in the microgrid's module heap. *)
Definition subcontainer := dict (list nat).

(** [ModuleContainer._containers] (module_container.py:289), as a function of
    its key; the iteration order is that of [all_mtypes] x [all_ssinks]. *)
Record containers := mkContainers {
  ct_fixed_sources : subcontainer; ct_fixed_sinks : subcontainer; ct_fixed_both : subcontainer;
  ct_flex_sources : subcontainer; ct_flex_sinks : subcontainer; ct_flex_both : subcontainer;
  ct_con_sources : subcontainer; ct_con_sinks : subcontainer; ct_con_both : subcontainer
}.

Definition ct_empty : containers := mkContainers [] [] [] [] [] [] [] [] [].

Definition ct_get (c : containers) (f : mtype) (s : ssink) : subcontainer :=
  match f, s with
  | Fixed, Sources => ct_fixed_sources c
  | Fixed, Sinks => ct_fixed_sinks c
  | Fixed, SourceAndSinks => ct_fixed_both c
  | Flex, Sources => ct_flex_sources c
  | Flex, Sinks => ct_flex_sinks c
  | Flex, SourceAndSinks => ct_flex_both c
  | Controllable, Sources => ct_con_sources c
  | Controllable, Sinks => ct_con_sinks c
  | Controllable, SourceAndSinks => ct_con_both c
  end.

Definition ct_upd (c : containers) (f : mtype) (s : ssink) (v : subcontainer) : containers :=
  let pick f' s' := if mtype_eqb f f' && ssink_eqb s s' then v else ct_get c f' s' in
  mkContainers (pick Fixed Sources) (pick Fixed Sinks) (pick Fixed SourceAndSinks)
               (pick Flex Sources) (pick Flex Sinks) (pick Flex SourceAndSinks)
               (pick Controllable Sources) (pick Controllable Sinks)
               (pick Controllable SourceAndSinks).

(** [d[name].append(module)], creating the list if needed
    (module_container.py:397-400). *)
Fixpoint sub_add (name : string) (i : nat) (d : subcontainer) : subcontainer :=
  match d with
  | [] => [(name, [i])]
  | (k, l) :: d' => if String.eqb name k then (k, l ++ [i]) :: d' else (k, l) :: sub_add name i d'
  end.

(** The sub-containers seen when iterating over everything, over one of
    [fixed]/[flex]/[controllable], or over one lowest-level container. *)
Definition subs_of (c : containers) (f : mtype) : list subcontainer :=
  map (ct_get c f) all_ssinks.
Definition subs_all (c : containers) : list subcontainer :=
  concat (map (subs_of c) all_mtypes).

(** module_container.py:25-38 [to_list] / [iterlist] *)
Definition to_list (ds : list subcontainer) : list nat :=
  concat (map (fun d => concat (map snd d)) ds).

(** module_container.py:40-53 [to_dict] / [iterdict]: successive [dict.update]. *)
Definition to_dict (ds : list subcontainer) : dict (list nat) :=
  fold_left dupdate ds [].

(** module_container.py:55-69 [to_tuples] *)
Definition to_tuples (ds : list subcontainer) : list (string * nat) :=
  concat (map (fun kl => map (fun i => (fst kl, i)) (snd kl)) (to_dict ds)).

(** module_container.py:209-218 [__getitem__] with a module name.
    (A name equal to one of 'fixed', 'flex', 'controllable', 'sources', 'sinks',
    'source_and_sinks', 'data', 'module_dict' is not modelled.) *)
Definition ct_lookup (c : containers) (name : string) : res (list nat) :=
  match dget name (to_dict (subs_all c)) with
  | Some l => Ok l
  | None => raise KeyError name
  end.

(** module_container.py:243-247, 287-290, 292-293 [names] *)
Definition ct_names (c : containers) : list string :=
  dkeys (fold_left (fun acc d => dupdate acc (map (fun kl => (fst kl, tt)) d)) (subs_all c) []).

(** module_container.py:235-236 [__len__]: lengths of the module lists, summed
    over the lowest-level containers. *)
Definition ct_len (c : containers) : nat :=
  length (to_list (subs_all c)).

Section Container.
Context {T : Type} `{NumOps T}.

(** module_container.py:376-377: source/sink class of a module. *)
Definition ssink_of (k : kind T) : ssink :=
  if is_sink k && is_source k then SourceAndSinks
  else if is_source k then Sources else Sinks.

(** A member of the [modules] list: a module or a (name, module) pair. *)
Definition mdef := (option string * module T)%type.

Definition mdef_name (d : mdef) : string :=
  match fst d with Some n => n | None => default_name (m_kind (snd d)) end.

(** module_container.py:355-413 [get_subcontainers]: place every module.
    Returns the containers and the modules with their [name] set. *)
Fixpoint get_subcontainers (i : nat) (ds : list mdef) (c : containers)
  : containers * list (module T) :=
  match ds with
  | [] => (c, [])
  | d :: ds' =>
      let m := snd d in
      let nm := mdef_name d in
      let f := module_type (m_kind m) in
      let s := ssink_of (m_kind m) in
      let sub := sub_add nm i (ct_get c f s) in
      let num := match dget nm sub with Some l => length l - 1 | None => 0 end in
      let m' := set_name m (Some nm, Some num) in
      let '(c', ms) := get_subcontainers (S i) ds' (ct_upd c f s sub) in
      (c', m' :: ms)
  end.

End Container.

Arguments mdef T : clear implicits.
