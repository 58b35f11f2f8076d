(** Tables: a 2-dimensional numpy array with an array of column names. *)
From Verif Require Import PyBase.

(** A cell of a numpy object array coming from a data frame: a number, a missing
    value ([None] or NaN), or a string that does not denote a number.
    Simplification: strings that spell a number are represented by [CNum]. *)
Inductive cell : Type :=
| CNum (q : Q)
| CMiss
| CStr (s : string).

Notation row := (list cell) (only parsing).
Notation tdata := (list (list cell)) (only parsing).

(** First index at which [columns == name]  ([np.where(columns == name)[0][0]]). *)
Fixpoint index_of (name : string) (columns : list string) : option nat :=
  match columns with
  | [] => None
  | c :: cs => if String.eqb c name then Some O
               else match index_of name cs with Some i => Some (S i) | None => None end
  end.

(** Element-wise part of [np.array(..., dtype=np.float64)]: [None] becomes NaN, a
    non-numeric string raises ValueError. *)
Definition to_float (c : cell) : res (option Q) :=
  match c with
  | CNum q => Ok (Some q)
  | CMiss => Ok None
  | CStr _ => Err ValueError
  end.

Fixpoint mapM {A B : Type} (f : A -> res B) (l : list A) : res (list B) :=
  match l with
  | [] => Ok []
  | x :: xs => y <- f x ;; ys <- mapM f xs ;; Ok (y :: ys)
  end.

(** [row[i]]: IndexError when the row has no such column. *)
Definition cell_at (i : nat) (r : row) : res cell :=
  match nth_error r i with Some c => Ok c | None => Err IndexError end.

(** [input_data[:, i]]. *)
Definition column_at (data : tdata) (i : nat) : res (list cell) := mapM (cell_at i) data.

(** metcalcpy/util/utils.py 297-326, [column_data_by_name] (with [rm_none=False]).
    Missing column: [None]; IndexError is caught and gives [None]. *)
Definition column_data_by_name (data : tdata) (columns : list string) (name : string)
  : res (option (list (option Q))) :=
  match index_of name columns with
  | None => Ok None
  | Some i =>
      catch [IndexError]
        (cs <- column_at data i ;; fs <- mapM to_float cs ;; Ok (Some fs)) None
  end.

Definition is_nan (v : option Q) : bool := match v with None => true | Some _ => false end.

(** [np.nansum]. *)
Fixpoint nansum (l : list (option Q)) : Q :=
  match l with
  | [] => 0
  | Some q :: t => q + nansum t
  | None :: t => nansum t
  end.

(** metcalcpy/util/utils.py 262-294, [sum_column_data_by_name].  [np.isnan(a).all()] is
    True on an empty array.  When [rm_none] is False and no NaN is present the builtin
    [sum] is the same sum. *)
Definition sum_column_data_by_name (data : tdata) (columns : list string) (name : string)
  (rm_none : bool) : res pyval :=
  d <- column_data_by_name data columns name ;;
  match d with
  | None => Ok None
  | Some l =>
      if forallb is_nan l then Ok None
      else if rm_none then Ok (Some (nansum l))
      else if existsb is_nan l then Ok None
      else Ok (Some (nansum l))
  end.

(** Filter value: MODE flags are compared as integers or strings,
    [column.astype(type(value)) == value]. *)
Inductive fvalue : Type := FInt (z : Z) | FStr (s : string).

(** [int(x)] of a float: truncation towards zero. *)
Definition trunc (p : Q) : Z := Z.quot (Qnum p) (Zpos (Qden p)).

(** Comparison of one cell with a filter value.  [astype(int)] truncates a number and raises
    ValueError on a non-numeric string and on NaN.  Simplifications: it raises TypeError on
    [None], here ValueError (every caller catches both); a string filter value never equals
    a numeric or missing cell (their string forms, e.g. "1.0" or "nan", are not used as
    filter values). *)
Definition cell_matches (v : fvalue) (c : cell) : res bool :=
  match v, c with
  | FInt z, CNum p => Ok (Z.eqb (trunc p) z)
  | FInt _, CMiss => Err ValueError
  | FInt _, CStr _ => Err ValueError
  | FStr s, CStr t => Ok (String.eqb t s)
  | FStr _, _ => Ok false
  end.

(** Rows of [data] selected by a boolean mask. *)
Fixpoint mask {A : Type} (bs : list bool) (l : list A) : list A :=
  match bs, l with
  | b :: bs', x :: l' => if b then x :: mask bs' l' else mask bs' l'
  | _, _ => []
  end.

(** Result of [column_data_by_name_value]: an array of rows, the integer 0 that the
    code returns when a filter column does not exist, or the empty list it returns after
    an IndexError. *)
Inductive filtered : Type :=
| FRows (d : tdata)
| FZero
| FNil.

(** metcalcpy/util/utils.py 343-352: the loop over the filters. *)
Fixpoint filter_loop (data : tdata) (columns : list string) (filters : list (string * fvalue))
  : res filtered :=
  match filters with
  | [] => Ok (FRows data)
  | (key, v) :: rest =>
      match index_of key columns with
      | None => Ok FZero
      | Some i =>
          cs <- column_at data i ;;
          bs <- mapM (cell_matches v) cs ;;
          filter_loop (mask bs data) columns rest
      end
  end.

(** metcalcpy/util/utils.py 329-357, [column_data_by_name_value].  On IndexError the code
    returns an empty list. *)
Definition column_data_by_name_value (data : tdata) (columns : list string)
  (filters : list (string * fvalue)) : res filtered :=
  catch [IndexError] (filter_loop data columns filters) FNil.

(** metcalcpy/util/utils.py 360-375, [nrow_column_data_by_name_value]: [.shape[0]] of the
    filter result; the integer 0 and the empty list have no attribute [shape]
    (AttributeError). *)
Definition nrow_column_data_by_name_value (data : tdata) (columns : list string)
  (filters : list (string * fvalue)) : res Q :=
  f <- column_data_by_name_value data columns filters ;;
  match f with
  | FRows d => Ok (inject_Z (Z.of_nat (length d)))
  | FZero | FNil => Err AttributeError
  end.

(** metcalcpy/util/utils.py 437-455, [get_total_values]. *)
Definition get_total_values (data : tdata) (columns : list string) (aggregation : bool)
  : res pyval :=
  if aggregation then sum_column_data_by_name data columns "total" true else Ok (Some 1).
