(** * src/pymgrid/utils/logger.py: ModularLogger *)

From Coq Require Import ZArith Bool String List.
From Verif Require Import Num Py.
Import ListNotations.
Local Open Scope string_scope.
Local Open Scope list_scope.
Local Open Scope py_scope.

Section Logger.
Context {T : Type}.

(** One log column.  [ColList] is a Python list; [ColSeries] is a pandas
    Series, which is what the columns are after [from_raw] of a DataFrame
    (logger.py:45-51).  [None] is the NaN filler of logger.py:25. *)
Inductive column :=
| ColList (cells : list (option T))
| ColSeries (cells : list (option T)).

Definition col_cells (c : column) : list (option T) :=
  match c with ColList l => l | ColSeries l => l end.

(** logger.py:7-10: the data and [_log_length]. *)
Record logger := mkLogger { lg_data : dict column; lg_len : nat }.

Definition logger_empty : logger := mkLogger [] 0.

(** logger.py:12-16 [flush]: returns the old data. *)
Definition logger_flush (lg : logger) : logger * dict column :=
  (logger_empty, lg_data lg).

(** logger.py:18-28 [log]: appends to an existing column, creates a padded new
    one.  Appending to a pandas Series raises (AttributeError with pandas >= 2,
    TypeError before; modelled as AttributeError). *)
Fixpoint log_items (len : nat) (kvs : list (string * T)) (d : dict column)
  : dict column * res unit :=
  match kvs with
  | [] => (d, Ok tt)
  | (k, v) :: kvs' =>
      match dget k d with
      | Some (ColList l) => log_items len kvs' (dset k (ColList (l ++ [Some v])) d)
      | Some (ColSeries _) => (d, raise AttributeError "Series has no append")
      | None => log_items len kvs' (dset k (ColList (repeat None len ++ [Some v])) d)
      end
  end.

Definition logger_log (kvs : list (string * T)) (lg : logger) : logger * res unit :=
  match log_items (lg_len lg) kvs (lg_data lg) with
  | (d, Ok _) => (mkLogger d (S (lg_len lg)), Ok tt)
  | (d, Err e) => (mkLogger d (lg_len lg), Err e)
  end.

(** logger.py:36-37 [to_frame]: [pd.DataFrame] of a dict of columns requires
    equal lengths. *)
Definition cols_len_ok (n : nat) (d : dict column) : bool :=
  forallb (fun kc => Nat.eqb (length (col_cells (snd kc))) n) d.

Definition logger_to_frame (lg : logger) : res (dict (list (option T))) :=
  match lg_data lg with
  | [] => Ok []
  | (_, c) :: _ =>
      if cols_len_ok (length (col_cells c)) (lg_data lg)
      then Ok (map (fun kc => (fst kc, col_cells (snd kc))) (lg_data lg))
      else raise ValueError "All arrays must be of the same length"
  end.

(** logger.py:39-40 [serialize] *)
Definition logger_serialize (lg : logger) : res (option (dict (list (option T)))) :=
  match lg_len lg with
  | O => Ok None
  | _ => rmap Some (logger_to_frame lg)
  end.

(** logger.py:45-51 [from_raw]: [None] or a DataFrame, whose columns arrive as
    Series; [_log_length] is the length of the longest column (8-10). *)
Definition logger_from_raw (raw : option (dict (list (option T)))) : logger :=
  match raw with
  | None => logger_empty
  | Some df =>
      mkLogger (map (fun kc => (fst kc, ColSeries (snd kc))) df)
               (fold_left Nat.max (map (fun kc => length (snd kc)) df) 0)
  end.

End Logger.

Arguments column T : clear implicits.
Arguments logger T : clear implicits.
