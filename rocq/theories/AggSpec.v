(** What it means for table rows to summarise groups of raw cases: each row holds, for
    its own group, the number of cases and the mean of each field over the group. *)
From Verif Require Import PyBase ColumnModel BaseSpec.

(** Number of cases, total and mean of a quantity over a list of cases. *)
Definition count {A : Type} (l : list A) : Q := inject_Z (Z.of_nat (length l)).
Definition total_of {A : Type} (g : A -> Q) (l : list A) : Q := qsum (map g l).
Definition mean_of {A : Type} (g : A -> Q) (l : list A) : Q := total_of g l / count l.

(** The row's cell in the named column is a number equal to [v]. *)
Definition CellHolds (columns : list string) (r : row) (name : string) (v : Q) : Prop :=
  exists i q, ColumnAt columns name i /\ nth_error r i = Some (CNum q) /\ q == v.

(** Row [r] summarises the non-empty group [b]. *)
Record SummaryRow {A : Type} (fields : list (string * (A -> Q))) (columns : list string)
  (b : list A) (r : row) : Prop := {
  sr_len : length r = length columns;
  sr_nonempty : b <> [];
  sr_total : CellHolds columns r "total" (count b);
  sr_field : forall name g, In (name, g) fields -> CellHolds columns r name (mean_of g b)
}.

(** The rows summarise the groups, one row per group, at least one. *)
Definition Summaries {A : Type} (fields : list (string * (A -> Q))) (columns : list string)
  (groups : list (list A)) (data : tdata) : Prop :=
  groups <> [] /\ Forall2 (SummaryRow fields columns) groups data.

(** The line that MET writes for a group, with columns "total" and the field names. *)
Definition line_columns {A : Type} (fields : list (string * (A -> Q))) : list string :=
  "total"%string :: map fst fields.
Definition line_of {A : Type} (fields : list (string * (A -> Q))) (b : list A) : row :=
  CNum (count b) :: map (fun nf => CNum (mean_of (snd nf) b)) fields.
