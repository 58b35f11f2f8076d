(** Bootstrapped statistics of objects: property C63. *)
From Coq Require Import Ascii Permutation Sorted.
From Verif Require Import PyBase ColumnModel BaseSpec EventSpec UtilSpec BootModel DriveModel DriveSpec ModeDriveModel ModeDriveSpec ModeDriveProofs.
From Coq Require Import List.
Open Scope string_scope.

(** C63: for one statistic, series values that are texts, and no forecast variable: the output has, axis after
    axis, one row for every combination of series values and values of the independent variable, with the
    statistic of exactly the rows of the table with these values, and their number. *)
Theorem C63_rows : forall text calc bootstrap columns data rq1 rq2 fields1 fields2 stat1 stat2 output,
  Rectangular data columns ->
  let Good rq fields stat := ModeFields rq fields /\ TextRequest rq /\ list_stat rq = [stat] /\ (fcst_vars rq = [] \/ ~ In "fcst_var" columns) in
  Good rq1 fields1 stat1 -> (series_val rq2 <> [] -> Good rq2 fields2 stat2 /\ indy_var rq2 = indy_var rq1) ->
  mode_values text calc bootstrap columns data rq1 rq2 = Ok output ->
  (data = [] -> output = []) /\
  (data <> [] -> exists o1 o2, output = (o1 ++ o2)%list /\
     ModeRows fields1 (fun p i s o => Filled text calc bootstrap columns data rq1 stat1 p i o) o1 /\
     (series_val rq2 = [] -> o2 = []) /\
     (series_val rq2 <> [] -> ModeRows fields2 (fun p i s o => Filled text calc bootstrap columns data rq2 stat2 p i o) o2)).
Proof. exact C63_rows_proof. Qed.
Print Assumptions C63_rows.
Example C63_rows_case :
  let rq := mode_request ["A"; "B"] [] ["COUNT"] in
  let row m l n := ModeRow [("model", m); ("fcst_lead", l); ("stat_name", "COUNT")] None (Results None (Some (inject_Z (Z.of_nat n))) None) (Some n) in
  Rectangular mode_data mode_columns /\
  ModeFields rq [("model", ["A"; "B"]); ("fcst_lead", ["12"; "24"]); ("stat_name", ["COUNT"])] /\ TextRequest rq /\
  mode_values mode_text mode_count None mode_columns mode_data rq no_series =
    Ok [row "A" "12" 2; row "A" "24" 1; row "B" "12" 2; row "B" "24" 0]%nat.
Proof. exact C63_rows_case_proof. Qed.

(** C63 fails for requests with several statistics: all results are written to the rows of the first statistic,
    which in the end hold those of the last one; the rows of the other statistics stay empty. *)
Theorem C63_statistics_refuted : forall text calc bootstrap columns data rq fields first middle lst output,
  Rectangular data columns -> ModeFields rq fields -> TextRequest rq -> list_stat rq = (first :: middle ++ [lst])%list ->
  (fcst_vars rq = [] \/ ~ In "fcst_var" columns) -> data <> [] ->
  mode_values text calc bootstrap columns data rq no_series = Ok output ->
  ModeRows fields (fun p i s o => (s = first -> Filled text calc bootstrap columns data rq lst p i o) /\ (s <> first -> Unfilled o)) output.
Proof. exact C63_statistics_refuted_proof. Qed.
Print Assumptions C63_statistics_refuted.
Example C63_statistics_case :
  let rq := mode_request ["A"] [] ["COUNT"; "OTHER"] in
  ModeFields rq [("model", ["A"]); ("fcst_lead", ["12"; "24"]); ("stat_name", ["COUNT"; "OTHER"])] /\ TextRequest rq /\
  exists output, mode_values mode_text mode_count None mode_columns mode_data rq no_series = Ok output.
Proof. exact C63_statistics_case_proof. Qed.

(** C63 fails for series values that are numbers: there is no output at all. *)
Theorem C63_numbers_refuted : forall text calc bootstrap columns data rq fields n vals v output,
  Rectangular data columns -> data <> [] -> ModeFields rq fields -> (forall n vals, In (n, vals) fields -> vals <> []) ->
  In (n, vals) (series_val rq) -> In v vals -> IsNumber v ->
  mode_values text calc bootstrap columns data rq no_series <> Ok output.
Proof. exact C63_numbers_refuted_proof. Qed.
Print Assumptions C63_numbers_refuted.
Example C63_numbers_case :
  let rq := Request [("object_id", ["3"; "7"])] "fcst_lead" ["12"] ["COUNT"] [] [] in
  ModeFields rq [("object_id", ["3"; "7"]); ("fcst_lead", ["12"]); ("stat_name", ["COUNT"])] /\ IsNumber "7" /\
  mode_values mode_text mode_count None mode_columns mode_data rq no_series = Err IndexError.
Proof. exact C63_numbers_case_proof. Qed.

(** C63 fails for groups of values: the result of the group is written to the row of one of its members. *)
Theorem C63_groups_refuted :
  let row m l n := ModeRow [("model", m); ("fcst_lead", l); ("stat_name", "COUNT")] None (Results None (Some (inject_Z (Z.of_nat n))) None) (Some n) in
  let empty m l := ModeRow [("model", m); ("fcst_lead", l); ("stat_name", "COUNT")] None NoResult None in
  mode_values mode_text mode_count None mode_columns mode_data (mode_request ["A"; "A:B"] [] ["COUNT"]) no_series =
    Ok [row "A" "12" 4; row "A" "24" 1; empty "A:B" "12"; empty "A:B" "24"]%nat /\
  mode_values mode_text mode_count None mode_columns mode_data (mode_request ["A:B"] [] ["COUNT"]) no_series = Err IndexError.
Proof. exact C63_groups_refuted_proof. Qed.
Print Assumptions C63_groups_refuted.

(** C63 fails for a forecast variable: rows of other variables are counted, and their values are used if the
    case also occurs for this variable. *)
Theorem C63_variable_refuted :
  let row m l n k := ModeRow [("model", m); ("fcst_lead", l); ("stat_name", "COUNT")] (Some "HGT") (Results None (Some (inject_Z (Z.of_nat n))) None) (Some k) in
  mode_values mode_text mode_count None mode_columns mode_data (mode_request ["A"; "B"] ["HGT"] ["COUNT"]) no_series =
    Ok [row "A" "12" 1 2; row "A" "24" 0 1; row "B" "12" 1 2; row "B" "24" 0 0]%nat.
Proof. exact C63_variable_refuted_proof. Qed.
Print Assumptions C63_variable_refuted.

(** C63 fails for resampling with replacement: how often a sample has a case makes no difference. *)
Theorem C63_samples_refuted : forall text calc samples samples' method columns data rq1 rq2,
  (forall cases, Forall2 (fun s s' => forall c : string, In c s <-> In c s') (samples cases) (samples' cases)) ->
  mode_values text calc (Some (samples, method)) columns data rq1 rq2 = mode_values text calc (Some (samples', method)) columns data rq1 rq2.
Proof. exact C63_samples_refuted_proof. Qed.
Print Assumptions C63_samples_refuted.
Example C63_samples_case :
  let draws cases := match cases with a :: _ => [[a; a]] | [] => [[]] end in
  let once cases := match cases with a :: _ => [[a]] | [] => [[]] end in
  (forall cases, Forall2 (fun s s' => forall c : string, In c s <-> In c s') (draws cases) (once cases)).
Proof. exact C63_samples_case_proof. Qed.

(** C63: exceptions.  Without the columns of the time, the independent variable, the series variables or the lead
    there is no output, but a KeyError. *)
Theorem C63_exceptions : forall text calc bootstrap columns data rq fields,
  mode_values text calc bootstrap columns [] rq no_series = Ok [] /\
  (Rectangular data columns -> data <> [] -> ModeFields rq fields -> (forall n vals, In (n, vals) fields -> vals <> []) ->
   (~ In "fcst_valid" columns \/ ~ In (indy_var rq) columns \/ (exists n, In n (map fst (series_val rq)) /\ ~ In n columns) \/
    series_val rq = [] \/ ~ In "fcst_lead" columns) ->
   mode_values text calc bootstrap columns data rq no_series = Err KeyError).
Proof. exact C63_exceptions_proof. Qed.
Print Assumptions C63_exceptions.
