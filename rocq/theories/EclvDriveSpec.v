(** Specification of the driver of economic cost/loss values.  From EclvDriveModel.v only the rows of the
    output are used. *)
From Coq Require Import Sorted.
From Verif Require Import PyBase ColumnModel BaseSpec EventSpec EclvSpec DriveSpec EclvDriveModel.
From Coq Require Import List.
Open Scope string_scope.

(** The cost/loss ratios: all multiples of the step between zero and one, in ascending order. *)
Definition Ratios (step : Q) (l : list Q) : Prop :=
  StronglySorted Qlt l /\
  (forall x, In x l -> x < 1 /\ exists k : Z, (0 < k)%Z /\ x == inject_Z k * step) /\
  (forall k : Z, (0 < k)%Z -> inject_Z k * step < 1 -> exists x, In x l /\ x == inject_Z k * step).

(** The row has the values of a point, as far as there are such columns. *)
Definition OfCurve (columns : list string) (series : list (string * list string)) (p : list string) (r : row) : Prop :=
  Forall2 (fun nv v => forall c, CellOf columns r (fst nv) c -> HasValue v c) series p.

(** The thresholds of some rows: all of them, each once, in ascending order; zero if there is no such column. *)
Definition Thresholds (columns : list string) (rows : tdata) (l : list Q) : Prop :=
  (~ In "thresh_i" columns -> l = [0]) /\
  (In "thresh_i" columns ->
     StronglySorted Qlt l /\
     forall t, (exists x, In x l /\ x == t) <-> (exists r q, In r rows /\ CellOf columns r "thresh_i" (CNum q) /\ q == t)).

(** The columns of the counts hold numbers, not below zero, or missing values. *)
Definition count_columns : list string := ["fy_oy"; "fy_on"; "fn_oy"; "fn_on"].
Definition CountTable (columns : list string) (data : tdata) : Prop :=
  Rectangular data columns /\ In "total" columns /\
  forall n, In n count_columns -> In n columns /\
    forall r c, In r data -> CellOf columns r n c -> c = CMiss \/ exists q, c = CNum q /\ 0 <= q.
(** Hits, false alarms, misses and correct negatives in all rows. *)
Definition Totals (columns : list string) (rows : tdata) (a b c d : option Q) : Prop :=
  Forall2 (ColumnTotal rows columns) count_columns [a; b; c; d].
(** Both events and other cases occur. *)
Definition Both (a b c d : option Q) : Prop :=
  exists a' b' c' d', (a = Some a' /\ b = Some b' /\ c = Some c' /\ d = Some d') /\ 0 < a' + c' /\ 0 < b' + d'.

(** The rows of one curve: for every ratio the realised fraction of the possible saving. *)
Definition CurveRows (columns : list string) (series : list (string * list string)) (step : Q) (p : list string)
  (rows : tdata) (th : Q) (out : list eclv_row) : Prop :=
  exists a b c d ratios, Totals columns rows (Some a) (Some b) (Some c) (Some d) /\ Ratios step ratios /\
    Forall2 (fun x o =>
      eclv_point o = combine (map fst series) p /\ thresh_i o = th /\ x_pnt_i o = x /\
      (exists v, y_pnt_i o = Some v /\ EconomicValue (hit_rate a b c d) (false_rate a b c d) (base_rate a b c d) x v) /\
      eclv_nstats o = length rows) ratios out.

(** ** Examples *)
Definition eclv_columns : list string := ["model"; "total"; "fy_oy"; "fy_on"; "fn_oy"; "fn_on"].
Definition eclv_line (m : string) (a b c d : Q) : row := [CStr m; CNum (a + b + c + d); CNum a; CNum b; CNum c; CNum d].
Definition eclv_data : tdata := [eclv_line "A" 4 1 1 14; eclv_line "B" 2 3 2 13; eclv_line "A" 2 1 1 6; eclv_line "B" 0 0 0 9].
