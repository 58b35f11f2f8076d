(** Specification vocabulary shared by the property theorems: what it means to be the
    nearest multiple of 10^-d, and what the total of a named column is.  Only the data
    types of the model (cells, rows) are used, none of its functions. *)
From Verif Require Import PyBase ColumnModel.

(** [w] is a whole multiple of [10^-d]. *)
Definition MultipleOf (d : nat) (w : Q) : Prop :=
  exists k : Z, w * inject_Z (10 ^ Z.of_nat d) == inject_Z k.

(** Half of the last published decimal. *)
Definition half_unit (d : nat) : Q := (1 # 2) / inject_Z (10 ^ Z.of_nat d).

(** [w] is the multiple of [10^-d] nearest to [v], a tie going to the larger one:
    v - half < w <= v + half. *)
Definition Nearest (d : nat) (v w : Q) : Prop :=
  MultipleOf d w /\ w <= v + half_unit d /\ v - half_unit d < w.

(** Published value of a possibly undefined quantity: undefined stays undefined,
    a number is published as its nearest 7-decimal number. *)
Definition Published (x r : option Q) : Prop :=
  match x, r with
  | None, None => True
  | Some v, Some w => Nearest 7 v w
  | _, _ => False
  end.

(** Sum of a list of numbers. *)
Definition qsum (l : list Q) : Q := fold_right Qplus 0 l.

(** Numbers present in position [i] of the rows. *)
Fixpoint present_at (i : nat) (data : tdata) : list Q :=
  match data with
  | [] => []
  | r :: rest =>
      match nth_error r i with
      | Some (CNum q) => q :: present_at i rest
      | _ => present_at i rest
      end
  end.

(** [i] is the first position of [name] among the column names. *)
Definition ColumnAt (columns : list string) (name : string) (i : nat) : Prop :=
  nth_error columns i = Some name /\
  forall j, (j < i)%nat -> nth_error columns j <> Some name.

(** [o] is the total of column [name]: undefined if the column is absent or has no
    number in it, otherwise the sum of its numbers. *)
Definition ColumnTotal (data : tdata) (columns : list string) (name : string)
  (o : option Q) : Prop :=
  (~ In name columns -> o = None) /\
  (forall i, ColumnAt columns name i ->
     (present_at i data = [] -> o = None) /\
     (present_at i data <> [] -> exists q, o = Some q /\ q == qsum (present_at i data))).

(** Every row has one cell per column name (numpy arrays are rectangular). *)
Definition Rectangular (data : tdata) (columns : list string) : Prop :=
  forall r, In r data -> length r = length columns.

(** The named column holds numbers or missing values only. *)
Definition NumericColumn (data : tdata) (columns : list string) (name : string) : Prop :=
  forall i r s, ColumnAt columns name i -> In r data -> nth_error r i <> Some (CStr s).

(** Arithmetic on possibly undefined quantities; a ratio is undefined when the
    denominator is zero. *)
Definition oadd (a b : option Q) : option Q :=
  match a, b with Some x, Some y => Some (x + y) | _, _ => None end.
Definition osub (a b : option Q) : option Q :=
  match a, b with Some x, Some y => Some (x - y) | _, _ => None end.
Definition omul (a b : option Q) : option Q :=
  match a, b with Some x, Some y => Some (x * y) | _, _ => None end.
Definition oratio (a b : option Q) : option Q :=
  match a, b with
  | Some x, Some y => if Qeq_dec y 0 then None else Some (x / y)
  | _, _ => None
  end.

(** Equality of possibly undefined numbers. *)
Definition oeq (a b : option Q) : Prop :=
  match a, b with Some x, Some y => x == y | None, None => True | _, _ => False end.

(** A cell equals a filter value. *)
Definition CellIs (v : fvalue) (c : cell) : Prop :=
  match v, c with
  | FInt z, CNum p => p == inject_Z z
  | FStr s, CStr t => t = s
  | _, _ => False
  end.

(** A row satisfies all conditions. *)
Definition Satisfies (columns : list string) (conds : list (string * fvalue)) (r : row) : Prop :=
  forall key v, In (key, v) conds ->
    exists i c, ColumnAt columns key i /\ nth_error r i = Some c /\ CellIs v c.

(** Every cell of a column is a whole number. *)
Definition IntegerColumn (data : tdata) (columns : list string) (name : string) : Prop :=
  forall i r, ColumnAt columns name i -> In r data ->
    exists p z, nth_error r i = Some (CNum p) /\ p == inject_Z z.

(** Columns compared with a whole number hold whole numbers. *)
Definition ConditionsTyped (data : tdata) (columns : list string) (conds : list (string * fvalue)) : Prop :=
  forall key z, In (key, FInt z) conds -> IntegerColumn data columns key.
