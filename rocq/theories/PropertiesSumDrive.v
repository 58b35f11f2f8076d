(** Summary statistics of lines: property C64. *)
From Coq Require Import Ascii.
From Verif Require Import PyBase ColumnModel BaseSpec EventSpec UtilSpec DriveSpec SumDriveModel SumDriveSpec SumDriveProofs.
From Coq Require Import List.
Open Scope string_scope.

(** C64: without groups, and if there is a statistic for every row, the output has one row for every row of the
    table, in the same order.  Its value is the statistic of the row alone, by the name in the row; the fields of
    the line type are left out, and all other cells are kept. *)
Theorem C64_rows : forall statistic columns names data line_type fields indy indys series1 series2 out output,
  Rectangular data columns -> In (line_type, fields) line_fields -> NamesFor line_type columns names -> NoDup names ->
  NoGroups indys series1 -> NoGroups indys series2 -> (forall r, In r data -> ~ NoStatistic statistic names r) ->
  calculate_stats statistic columns data line_type indy indys (Some series1) (Some series2) = Ok (out, output) ->
  exists values, Forall2 (StatisticOf statistic names) data values /\
    SumTable names fields (combine data (map Some values)) out output.
Proof. exact C64_rows_proof. Qed.
Print Assumptions C64_rows.
Example C64_rows_case :
  let series := [("model", ["A"; "B"; "A;B"])] in
  Rectangular sum_data sum_columns /\ (exists fields, In ("sl1l2", fields) line_fields) /\ NamesFor "sl1l2" sum_columns sum_columns /\ NoDup sum_columns /\
  NoGroups ["12"; "24"] series /\ (forall r, In r sum_data -> ~ NoStatistic sum_statistic sum_columns r) /\
  calculate_stats sum_statistic sum_columns sum_data "sl1l2" "fcst_lead" ["12"; "24"] (Some series) (Some []) =
    Ok (["model"; "fcst_lead"; "fcst_valid_beg"; "stat_name"; "stat_value"],
        [[CStr "A"; CNum 12; CStr "d1"; CStr "FBAR"; CNum 3]; [CStr "B"; CNum 12; CStr "d1"; CStr "FBAR"; CNum 5];
         [CStr "A"; CNum 24; CStr "d1"; CStr "FBAR"; CNum 7]]).
Proof. exact C64_rows_case_proof. Qed.

(** C64 fails if there is no statistic for a row: the rows from the first such row on have no value, although
    there are statistics for them, and no exception tells of it. *)
Theorem C64_stop_refuted : forall statistic columns names data line_type fields indy indys series1 series2 before r after out output,
  Rectangular data columns -> In (line_type, fields) line_fields -> NamesFor line_type columns names -> NoDup names ->
  NoGroups indys series1 -> NoGroups indys series2 ->
  data = (before ++ r :: after)%list -> (forall x, In x before -> ~ NoStatistic statistic names x) -> NoStatistic statistic names r ->
  calculate_stats statistic columns data line_type indy indys (Some series1) (Some series2) = Ok (out, output) ->
  exists values, Forall2 (StatisticOf statistic names) before values /\
    SumTable names fields (combine data (map Some values ++ map (fun _ => None) (r :: after))) out output.
Proof. exact C64_stop_refuted_proof. Qed.
Print Assumptions C64_stop_refuted.
Example C64_stop_case :
  NoStatistic sum_statistic sum_columns (sum_line "A" 12 "OTHER" 1 1) /\ ~ NoStatistic sum_statistic sum_columns (sum_line "A" 12 "FBAR" 10 3) /\
  calculate_stats sum_statistic sum_columns [sum_line "A" 12 "FBAR" 10 3; sum_line "A" 12 "OTHER" 1 1; sum_line "B" 12 "FBAR" 20 5]
    "sl1l2" "fcst_lead" ["12"] (Some [("model", ["A"])]) (Some []) =
    Ok (["model"; "fcst_lead"; "fcst_valid_beg"; "stat_name"; "stat_value"],
        [[CStr "A"; CNum 12; CStr "d1"; CStr "FBAR"; CNum 3]; [CStr "A"; CNum 12; CStr "d1"; CStr "OTHER"; CMiss];
         [CStr "B"; CNum 12; CStr "d1"; CStr "FBAR"; CMiss]]).
Proof. exact C64_stop_case_proof. Qed.

(** C64 fails for joined series values ("A;B"): without groups the values of the series make no difference, and
    nothing is aggregated (see C64_rows_case). *)
Theorem C64_joined_refuted : forall statistic columns data line_type indy indys series1 series2,
  NoGroups indys series1 -> NoGroups indys series2 ->
  calculate_stats statistic columns data line_type indy indys (Some series1) (Some series2) =
  calculate_stats statistic columns data line_type indy [] (Some []) (Some []).
Proof. exact C64_joined_refuted_proof. Qed.
Print Assumptions C64_joined_refuted.
Example C64_joined_case : NoGroups ["12"; "12;24"] [("model", ["A;B"])].
Proof. exact C64_joined_case_proof. Qed.

(** C64: with a group among the values of the independent variable, the output has the rows of every value of
    the independent variable and every combination of series values, one after the other.  The value of the
    independent variable of a row must be the listed value itself, as a text. *)
Theorem C64_groups : forall statistic columns names data line_type fields indy indys series out output,
  Rectangular data columns -> In (line_type, fields) line_fields -> NamesFor line_type columns names -> NoDup names ->
  In indy names -> (forall n, In n (map fst series) -> In n names) -> (forall n vals, In (n, vals) series -> vals <> []) -> series <> [] ->
  (exists v, In v indys /\ Has ":" v) ->
  (forall v, In v indys -> ~ Has ";" v) -> (forall n vals v, In (n, vals) series -> In v vals -> ~ Has ";" v) ->
  (forall r, In r data -> ~ NoStatistic statistic names r) ->
  calculate_stats statistic columns data line_type indy indys (Some series) (Some []) = Ok (out, output) ->
  exists blocks values,
    Forall2 (fun ip rows => Selection (fun r => CellOf names r indy (CStr (fst ip)) /\ OfSeries names series (snd ip) r) data rows)
      (list_prod indys (combinations (map snd series))) blocks /\
    Forall2 (StatisticOf statistic names) (concat blocks) values /\
    SumTable names fields (combine (concat blocks) (map Some values)) out output.
Proof. exact C64_groups_proof. Qed.
Print Assumptions C64_groups.
Example C64_groups_case :
  let run indy indys := calculate_stats sum_statistic sum_columns sum_data "sl1l2" indy indys (Some [("fcst_lead", ["12:24"; "24"])]) (Some []) in
  run "model" ["A"; "A:B"] =
    Ok (["model"; "fcst_lead"; "fcst_valid_beg"; "stat_name"; "stat_value"],
        [[CStr "A"; CNum 12; CStr "d1"; CStr "FBAR"; CNum 3]; [CStr "A"; CNum 24; CStr "d1"; CStr "FBAR"; CNum 7];
         [CStr "A"; CNum 24; CStr "d1"; CStr "FBAR"; CNum 7]]).
Proof. exact C64_groups_case_proof. Qed.

(** C64 fails for groups of values of the independent variable: if the values in the table are numbers, as those
    of lead times, there is no output row. *)
Theorem C64_numbers_refuted : forall statistic columns names data line_type fields indy indys series out output,
  Rectangular data columns -> In (line_type, fields) line_fields -> NamesFor line_type columns names -> NoDup names ->
  In indy names -> (forall n, In n (map fst series) -> In n names) -> (forall n vals, In (n, vals) series -> vals <> []) -> series <> [] ->
  (exists v, In v indys /\ Has ":" v) ->
  (forall r s, In r data -> ~ CellOf names r indy (CStr s)) ->
  calculate_stats statistic columns data line_type indy indys (Some series) (Some []) = Ok (out, output) -> output = [].
Proof. exact C64_numbers_refuted_proof. Qed.
Print Assumptions C64_numbers_refuted.
Example C64_numbers_case :
  (forall r s, In r sum_data -> ~ CellOf sum_columns r "fcst_lead" (CStr s)) /\
  calculate_stats sum_statistic sum_columns sum_data "sl1l2" "fcst_lead" ["12:24"; "12"] (Some [("model", ["A"; "B"])]) (Some []) =
    Ok (["model"; "fcst_lead"; "fcst_valid_beg"; "stat_name"], []).
Proof. exact C64_numbers_case_proof. Qed.

(** C64 fails for a request that does not mention the second axis, for a line type that is not known, and for
    groups together with a variable that is no column: no value is calculated, and the table is written without
    the fields of the line type. *)
Theorem C64_request_refuted : forall statistic columns names data line_type fields indy indys series out output,
  Rectangular data columns -> NoDup names ->
  (In (line_type, fields) line_fields -> NamesFor line_type columns names -> NoGroups indys series ->
   calculate_stats statistic columns data line_type indy indys (Some series) None = Ok (out, output) ->
   SumTable names fields (map (fun r => (r, None)) data) out output) /\
  (~ In line_type (map fst line_fields) -> NoDup columns -> forall series1 series2,
   calculate_stats statistic columns data line_type indy indys series1 series2 = Ok (out, output) ->
   SumTable columns [] (map (fun r => (r, None)) data) out output) /\
  (In (line_type, fields) line_fields -> NamesFor line_type columns names -> (exists v, In v indys /\ Has ":" v) -> series <> [] ->
   (forall n vals, In (n, vals) series -> vals <> []) -> (exists n, In n (indy :: map fst series) /\ ~ In n names) -> forall series2,
   calculate_stats statistic columns data line_type indy indys (Some series) series2 = Ok (out, output) ->
   SumTable names fields (map (fun r => (r, None)) data) out output).
Proof. exact C64_request_refuted_proof. Qed.
Print Assumptions C64_request_refuted.
Example C64_request_case :
  calculate_stats sum_statistic sum_columns sum_data "sl1l2" "fcst_lead" ["12"] (Some [("model", ["A"])]) None =
    Ok (["model"; "fcst_lead"; "fcst_valid_beg"; "stat_name"],
        [[CStr "A"; CNum 12; CStr "d1"; CStr "FBAR"]; [CStr "B"; CNum 12; CStr "d1"; CStr "FBAR"]; [CStr "A"; CNum 24; CStr "d1"; CStr "FBAR"]]) /\
  (exists output, calculate_stats sum_statistic sum_columns sum_data "mctc" "fcst_lead" ["12"] None None = Ok output) /\
  exists output, calculate_stats sum_statistic sum_columns sum_data "sl1l2" "model" ["A:B"] (Some [("vx_mask", ["A"])]) (Some []) = Ok output.
Proof. exact C64_request_case_proof. Qed.

(** C64: exceptions.  A table without rows; a row whose statistic is no text, or raises an exception other than
    KeyError: there is no output at all.  A KeyError for groups together with a series variable
    without values. *)
Theorem C64_exceptions : forall statistic columns names data line_type fields indy indys series1 series2 before r after,
  calculate_stats statistic columns [] line_type indy indys (Some series1) (Some series2) = Err ValueError /\
  (Rectangular data columns -> In (line_type, fields) line_fields -> NamesFor line_type columns names ->
   NoGroups indys series1 -> NoGroups indys series2 ->
   data = (before ++ r :: after)%list -> (forall x, In x before -> exists v, StatisticOf statistic names x v) ->
   (forall c, CellOf names r "stat_name" c -> (forall s, c <> CStr s) ->
      calculate_stats statistic columns data line_type indy indys (Some series1) (Some series2) = Err AttributeError) /\
   (forall s st f e, CellOf names r "stat_name" (CStr s) -> InSmallLetters s st -> statistic st = Some f -> f names [r] = Err e -> e <> KeyError ->
      calculate_stats statistic columns data line_type indy indys (Some series1) (Some series2) = Err e)) /\
  (In "total" names -> NamesFor line_type columns names -> In (line_type, fields) line_fields -> data <> [] ->
   (exists v, In v indys /\ Has ":" v) -> Rectangular data columns -> In indy names -> (exists n, In (n, []) series1) ->
   calculate_stats statistic columns data line_type indy indys (Some series1) (Some []) = Err KeyError).
Proof. exact C64_exceptions_proof. Qed.
Print Assumptions C64_exceptions.
Example C64_exceptions_case :
  calculate_stats sum_statistic sum_columns [[CStr "A"; CNum 12; CStr "d1"; CMiss; CNum 1; CNum 1; CNum 1]] "sl1l2" "fcst_lead" ["12"] (Some [("model", ["A"])]) (Some []) = Err AttributeError /\
  calculate_stats sum_statistic sum_columns [[CStr "A"; CNum 12; CStr "d1"; CStr "FBAR"; CNum 1; CNum 1; CMiss]] "sl1l2" "fcst_lead" ["12"] (Some [("model", ["A"])]) (Some []) = Err TypeError /\
  calculate_stats sum_statistic sum_columns sum_data "sl1l2" "fcst_lead" ["12:24"] (Some [("model", [])]) (Some []) = Err KeyError.
Proof. exact C64_exceptions_case_proof. Qed.
