(** Specification of the files of the programs. *)
From Coq Require Import Reals.
From Verif Require Import PyBase ColumnModel BaseSpec EventSpec BootModel DriveModel DriveSpec EclvDriveModel EclvDriveSpec CardModel ModeDriveModel FileModel.
From Coq Require Import List.
Open Scope string_scope.

(** The lines of a table: the names of the columns, then the rows. *)
Definition TableLines (columns : list string) (data : tdata) : list (list card_cell) :=
  map Given columns :: map (map Kept) data.
(** The file [path] is the table with these columns and rows. *)
Definition HoldsTable (w : string -> option (list (list card_cell))) (path : string) (columns : list string) (data : tdata) : Prop :=
  columns <> [] /\ NoDup columns /\ Rectangular data columns /\ w path = Some (TableLines columns data).

(** All files but one are as before. *)
Definition Others (path : string) (w w' : string -> option (list (list card_cell))) : Prop :=
  forall p, p <> path -> w' p = w p.
(** The lines of a file; no lines if there is none. *)
Definition LinesBefore (w : string -> option (list (list card_cell))) (path : string) (lines : list (list card_cell)) : Prop :=
  w path = Some lines \/ (w path = None /\ lines = []).

(** The two programs that may extend their output. *)
Inductive job : Type := Statistics (p : agg_params) | Economic (p : eclv_params).
Definition run_job (show : Q -> string) (order : list string -> list string) (j : job) : io unit :=
  match j with Statistics p => agg_stat show order p | Economic p => agg_eclv show p end.
Definition input_of (j : job) : string := match j with Statistics p => agg_input p | Economic p => eclv_input p end.
Definition output_of (j : job) : string := match j with Statistics p => agg_output p | Economic p => eclv_output p end.
Definition append_of (j : job) : option param := match j with Statistics p => agg_append p | Economic p => eclv_append p end.
(** The same run with another entry append_to_file. *)
Definition with_append (a : option param) (j : job) : job :=
  match j with
  | Statistics (AggParams i o _ e f v1 v2 r1 r2 en s l) => Statistics (AggParams i o a e f v1 v2 r1 r2 en s l)
  | Economic (EclvParams i o _ e b f s l st br sa np) => Economic (EclvParams i o a e b f s l st br sa np)
  end.
(** Runs one after the other, none of which fails. *)
Inductive AllDone (show : Q -> string) (order : list string -> list string) : list job -> (string -> option (list (list card_cell))) -> (string -> option (list (list card_cell))) -> Prop :=
| done_nil w : AllDone show order [] w w
| done_cons j rest w w1 w2 : run_job show order j w = (w1, inl tt) -> AllDone show order rest w1 w2 -> AllDone show order (j :: rest) w w2.
(** What the run gives if it does not extend its output. *)
Definition Gives (show : Q -> string) (order : list string -> list string) (w : string -> option (list (list card_cell)))
  (j : job) (t : list string * list (list card_cell)) : Prop :=
  exists w', run_job show order (with_append None j) w = (w', inl tt) /\ w' (output_of j) = Some (map Given (fst t) :: snd t).

(** Values of the switch event_equal. *)
Definition On (v : param) : Prop := v = PText "True" \/ v = PBool true.
Definition Off (v : param) : Prop := v = PText "False" \/ v = PBool false \/ v = PNone \/ v = PText "".
Definition OtherText (v : param) : Prop := exists s, v = PText s /\ s <> "True" /\ s <> "False" /\ s <> "".
(** The programs with another value of the switch. *)
Definition agg_switch (v : param) (p : agg_params) : agg_params :=
  match p with AggParams i o a _ f v1 v2 r1 r2 en s l => AggParams i o a v f v1 v2 r1 r2 en s l end.
Definition eclv_switch (v : param) (p : eclv_params) : eclv_params :=
  match p with EclvParams i o a _ b f s l st br sa np => EclvParams i o a v b f s l st br sa np end.
Definition sum_switch (v : param) (p : sum_params) : sum_params :=
  match p with SumParams i o _ f v1 v2 l n vs s1 s2 st => SumParams i o v f v1 v2 l n vs s1 s2 st end.
Definition eqz_switch (v : param) (p : eqz_params) : eqz_params :=
  match p with EqzParams i c o _ v1 v2 s1 s2 => EqzParams i c o v v1 v2 s1 s2 end.
Definition mode_switch (v : param) (p : mode_params) : mode_params :=
  match p with ModeParams q r1 r2 t c s => ModeParams (eqz_switch v q) r1 r2 t c s end.
(** All programs that have the switch do the same with both values. *)
Definition SameRuns (v v' : param) : Prop :=
  forall show order w,
  (forall p, agg_stat show order (agg_switch v p) w = agg_stat show order (agg_switch v' p) w) /\
  (forall p, agg_eclv show (eclv_switch v p) w = agg_eclv show (eclv_switch v' p) w) /\
  (forall p, sum_stat show order (sum_switch v p) w = sum_stat show order (sum_switch v' p) w) /\
  (forall p, agg_stat_eqz show (eqz_switch v p) w = agg_stat_eqz show (eqz_switch v' p) w) /\
  (forall p, agg_stat_bootstrap show (mode_switch v p) w = agg_stat_bootstrap show (mode_switch v' p) w).

(** The field of a line under a column. *)
Definition FieldOf (names : list string) (l : list card_cell) (n : string) (f : card_cell) : Prop :=
  exists i, nth_error names i = Some n /\ nth_error l i = Some f.
Definition NumberField (names : list string) (l : list card_cell) (n : string) (v : option Q) : Prop :=
  (v = None /\ FieldOf names l n (Kept CMiss)) \/ (exists q, v = Some q /\ FieldOf names l n (Kept (CNum q))).
Definition TextField (names : list string) (l : list card_cell) (n : string) (v : option string) : Prop :=
  (v = None /\ FieldOf names l n (Kept CMiss)) \/ (exists s, v = Some s /\ FieldOf names l n (Given s)).
Definition as_number (n : nat) : Q := inject_Z (Z.of_nat n).

Definition result_columns : list string := ["fcst_var"; "stat_value"; "stat_btcl"; "stat_btcu"; "nstats"].
(** The line of a row of aggregated statistics. *)
Definition StatLine (names : list string) (o : out_row) (l : list card_cell) : Prop :=
  length l = length names /\
  (forall n v, In (n, v) (point_of o) -> FieldOf names l n (Given v)) /\
  (forall n, In n names -> ~ In n (map fst (point_of o)) -> ~ In n result_columns -> FieldOf names l n (Kept CMiss)) /\
  TextField names l "fcst_var" (fcst_var_of o) /\
  NumberField names l "stat_value" (value (stat_of o)) /\ NumberField names l "stat_btcl" (lower_bound (stat_of o)) /\
  NumberField names l "stat_btcu" (upper_bound (stat_of o)) /\ NumberField names l "nstats" (Some (as_number (nstats o))).
(** The same for the statistics of objects. *)
Definition ModeLine (names : list string) (o : mode_row) (l : list card_cell) : Prop :=
  length l = length names /\
  (forall n v, In (n, v) (mode_point o) -> FieldOf names l n (Given v)) /\
  TextField names l "fcst_var" (mode_var o) /\
  NumberField names l "stat_value" (value (mode_result o)) /\ NumberField names l "stat_btcl" (lower_bound (mode_result o)) /\
  NumberField names l "stat_btcu" (upper_bound (mode_result o)) /\
  NumberField names l "nstats" (option_map as_number (mode_nstats o)).
(** The line of a row of economic values. *)
Definition EclvLine (names : list string) (o : eclv_row) (l : list card_cell) : Prop :=
  length l = length names /\
  (forall n v, In (n, v) (eclv_point o) -> FieldOf names l n (Given v)) /\
  NumberField names l "thresh_i" (Some (thresh_i o)) /\ NumberField names l "x_pnt_i" (Some (x_pnt_i o)) /\
  NumberField names l "y_pnt_i" (y_pnt_i o) /\ NumberField names l "stat_btcl" (stat_btcl o) /\
  NumberField names l "stat_btcu" (stat_btcu o) /\ NumberField names l "nstats" (Some (as_number (eclv_nstats o))).

(** ** Concrete cases *)
Definition show_case (q : Q) : string := if Qeq_bool q 12 then "12" else "24".
Definition order_case (l : list string) : list string := nodup string_dec l.
Definition object_columns : list string := ["fcst_valid"; "fcst_lead"; "model"; "fcst_var"; "x"].
Definition object_row (t : string) (x : Q) : row := [CStr t; CNum 12; CStr "A"; CStr "TMP"; CNum x].
Definition files_case : string -> option (list (list card_cell)) := fun p =>
  if String.eqb p "d1.data" then Some (TableLines drive_columns [drive_row "d1" 12 "A" "TMP" 5])
  else if String.eqb p "d2.data" then Some (TableLines drive_columns [drive_row "d2" 12 "A" "TMP" 7])
  else if String.eqb p "empty.data" then Some (TableLines drive_columns [])
  else if String.eqb p "objects.data" then Some (TableLines object_columns [object_row "d1" 5; object_row "d2" 6])
  else if String.eqb p "cases.data" then
    Some (TableLines (object_columns ++ ["equalize"]) [object_row "d1" 5 ++ [CStr "d1 12"]; object_row "d3" 5 ++ [CStr "d3 12"]])%list
  else if String.eqb p "eclv.data" then Some (TableLines eclv_columns eclv_data)
  else None.
Definition values_case (n : string) : list string := if String.eqb n "model" then ["A"] else ["12"].
(** The sum of the values of model A at lead 12; [first] and [second] are the two variables in some order. *)
Definition stat_job (input : string) (append : option param) (first second : string) : agg_params :=
  AggParams input "out" append (PBool false) [] None None
    (Request [(first, values_case first)] second (values_case second) ["TOTAL"] [] [])
    (Request [] second [] [] [] []) (fun _ => sum_engine) true "ctc".
Definition eqz_case (v : param) : eqz_params :=
  EqzParams "objects.data" "cases.data" "out" v [("TMP", ["x"])] [] [("model", ["A"])] [].
Definition eclv_case : eclv_params :=
  EclvParams "eclv.data" "out" None (PBool false) (PBool false) [] [("model", ["A"; "B"])] "ctc" (1 # 2) None None false.
(** Two axes, and one axis with event equalization. *)
Definition two_axes_case : agg_params :=
  AggParams "d1.data" "out" None (PText "False") [] None None
    (Request [("model", ["A"])] "fcst_lead" ["12"] ["TOTAL"] [] [])
    (Request [("fcst_valid_beg", ["d1"])] "fcst_lead" ["12"] ["TOTAL"] [] []) (fun _ => sum_engine) true "ctc".
Definition pairs_case : string -> option (list (list card_cell)) := fun p =>
  if String.eqb p "pairs.data"
  then Some (TableLines drive_columns [drive_row "d1" 12 "A" "TMP" 5; drive_row "d1" 12 "B" "TMP" 6; drive_row "d2" 12 "A" "TMP" 9])
  else None.
Definition equalized_case : agg_params :=
  AggParams "pairs.data" "out" None (PText "True") [] (Some (Some [("TMP", ["TOTAL"])])) (Some (Some []))
    (Request [("model", ["A"; "B"])] "fcst_lead" ["12"] ["TOTAL"] [] [])
    (Request [] "fcst_lead" ["12"] [] [] []) (fun _ => sum_engine) true "ctc".
(** Counts of objects. *)
Definition object_case (input output : string) (v : param) : mode_params :=
  ModeParams (EqzParams input "cases.data" output v [("TMP", ["x"])] [] [("model", ["A"])] [])
    (Request [("model", ["A"])] "fcst_lead" ["12"] ["COUNT"] [] []) (Request [] "fcst_lead" ["12"] [] [] [])
    (fun _ c => match c with CStr s => s | CNum q => show_case q | CMiss => "NA" end)
    (fun _ _ rows => Ok (Some (as_number (length rows)))) None.
Definition card_case : card_params :=
  CardParams "d1.data" "out" None (Request [("model", ["A"])] "fcst_lead" ["12"] ["TOTAL"] [] []) (fun _ x => x) false 0.
Definition summary_case (v : param) : sum_params :=
  SumParams "pairs.data" "out" v [] (Some (Some [("TMP", ["TOTAL"])])) (Some (Some [])) "ctc" "fcst_lead" ["12"] [("model", ["A"; "B"])] (Some [])
    (fun n => if String.eqb n "total" then Some (fun _ _ => Ok (Some 8)) else None).
