(** Looking up columns and reading nested lists: metcalcpy/util/met_stats.py and metcalcpy/bootstrap.py. *)
From Verif Require Import PyBase.
From Coq Require Import String List.
Open Scope nat_scope.
Open Scope list_scope.

(** met_stats.py 32: [np.where(columns == column_name)[0]], the positions from [i] on. *)
Fixpoint where_equal (columns : list string) (column_name : string) (i : nat) : list nat :=
  match columns with
  | [] => []
  | c :: rest => if String.eqb c column_name then i :: where_equal rest column_name (S i) else where_equal rest column_name (S i)
  end.
(** met_stats.py 21-35, [get_column_index_by_name]: the first position, or None. *)
Definition get_column_index_by_name (columns : list string) (column_name : string) : option nat :=
  let index_array := where_equal columns column_name 0 in
  match index_array with [] => None | i :: _ => Some i end.

(** What [flatten] distinguishes: things that are not iterable or are floats, texts, and other iterables (lists, tuples). *)
Inductive item : Type :=
| Number (q : Q)
| Text (s : string)
| Items (l : list item).
(** bootstrap.py 414-420, [flatten]: the generator as the values it yields and whether it comes to its end.  A text is iterable
    and its characters are texts again: unless it is empty, the recursion ends with RecursionError.  Lists that are nested deeper
    than Python's limit are not modelled. *)
Fixpoint flatten_item (x : item) : list Q * bool :=
  match x with
  | Number q => ([q], true)
  | Text s => match s with EmptyString => ([], true) | String _ _ => ([], false) end
  | Items lis =>
      (fix loop (lis : list item) : list Q * bool :=
         match lis with
         | [] => ([], true)
         | x :: rest =>
             match flatten_item x with
             | (ys, false) => (ys, false)
             | (ys, true) => let (zs, ended) := loop rest in (ys ++ zs, ended)
             end
         end) lis
  end.
(** bootstrap.py 414-420: the call with a list. *)
Definition flatten (lis : list item) : list Q * bool := flatten_item (Items lis).
