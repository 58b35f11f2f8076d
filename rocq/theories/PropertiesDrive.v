(** The driver of aggregated statistics: properties C55 to C60. *)
From Verif Require Import PyBase ColumnModel BaseSpec EventSpec UtilSpec BootModel DriveModel DriveSpec DriveProofs.
From Coq Require Import List.
Open Scope string_scope.

(** C55: without derived curves the output has one row for every combination of series values, independent
    value and statistic, in order; its value and limits are the result for exactly the rows with these
    values, and its count is the number of these rows. *)
Theorem C55_rows : forall e single line_type groups columns data rq fields statistic known statistic' known' out,
  Rectangular data columns -> data <> [] -> Fields rq fields -> Plain rq fields -> derived_series rq = [] ->
  proceed_with_axis e single line_type groups columns data rq statistic known = Ok (statistic', known', out) ->
  known' = known /\ Forall2 (RowOfPoint e single columns data rq fields) (combinations (map snd fields)) out.
Proof. exact C55_rows_proof. Qed.
Print Assumptions C55_rows.
Example C55_rows_case :
  Rectangular drive_data drive_columns /\ Fields drive_request drive_fields /\ Plain drive_request drive_fields /\
  proceed_with_axis sum_engine true "ctc" [] drive_columns drive_data drive_request "None" [] =
  Ok ("total", [], map (fun x => OutRow [("model", fst (fst (fst x))); ("fcst_lead", snd (fst (fst x))); ("stat_name", "TOTAL")]
                              (Some "TMP") (Results None (Some (snd (fst x))) None) (snd x))
                   [(("A", "12"), 12, 2%nat); (("A", "24"), 3, 1%nat); (("B", "12"), 2, 2%nat); (("B", "24"), 4, 1%nat)]).
Proof. exact C55_rows_case_proof. Qed.

(** C55: there is such an output whenever the series variables are columns, some field is a column, the
    columns by which rows are sorted have one kind of values each, and the result of every point exists. *)
Theorem C55_total : forall e single line_type groups columns data rq fields statistic known,
  Rectangular data columns -> Fields rq fields -> Plain rq fields -> derived_series rq = [] ->
  (forall n, In n (map fst (series_val rq)) -> In n columns) ->
  ((exists n, In n (map fst fields) /\ In n columns) \/ (fcst_vars rq <> [] /\ In "fcst_var" columns)) ->
  (forall fs n, SortFields columns fs -> In n fs -> OneKind columns data n) ->
  (forall before stat st rows, Combination fields (before ++ [stat])%list -> InSmallLetters stat st ->
     Selection (OfPoint columns fields (fcst_vars rq) (before ++ [stat])%list) data rows ->
     exists r, ResultOf e single columns st rows r) ->
  exists statistic' out,
    proceed_with_axis e single line_type groups columns data rq statistic known = Ok (statistic', known, out).
Proof. exact C55_total_proof. Qed.
Print Assumptions C55_total.
Example C55_total_case :
  (forall fs n, SortFields drive_columns fs -> In n fs -> OneKind drive_columns drive_data n) /\
  forall st rows, exists r, incl rows drive_data -> ResultOf sum_engine true drive_columns st rows r.
Proof. exact C55_total_case_proof. Qed.

(** C55: every row with listed values is counted once, other rows are not. *)
Theorem C55_counted : forall e single line_type groups columns data rq fields statistic known statistic' known' out wanted,
  Rectangular data columns -> data <> [] -> Fields rq fields -> Plain rq fields -> derived_series rq = [] ->
  (forall n, In n (map fst fields) -> In n columns) -> Apart fields ->
  proceed_with_axis e single line_type groups columns data rq statistic known = Ok (statistic', known', out) ->
  Selection (Wanted columns fields (fcst_vars rq)) data wanted ->
  list_sum (map nstats out) = length wanted.
Proof. exact C55_counted_proof. Qed.
Print Assumptions C55_counted.
Example C55_counted_case :
  (forall n, In n (map fst drive_fields) -> In n drive_columns) /\ Apart drive_fields /\
  Selection (Wanted drive_columns drive_fields ["TMP"]) drive_data (firstn 6 drive_data).
Proof. exact C55_counted_case_proof. Qed.

(** C55: a table without rows gives no output. *)
Theorem C55_empty : forall e single line_type groups columns rq statistic known,
  proceed_with_axis e single line_type groups columns [] rq statistic known = Ok (statistic, known, []).
Proof. exact C55_empty_proof. Qed.
Print Assumptions C55_empty.

(** C56 fails for texts that look like numbers: a listed value that is the text of a whole number or decimal
    fraction selects nothing from a column of texts, even if the same text is there. *)
Theorem C56_texts_refuted : forall e single line_type groups columns data rq fields statistic known statistic' known' out n v o,
  Rectangular data columns -> data <> [] -> Fields rq fields -> Plain rq fields -> derived_series rq = [] ->
  proceed_with_axis e single line_type groups columns data rq statistic known = Ok (statistic', known', out) ->
  In n columns -> (forall r c, In r data -> CellOf columns r n c -> exists s, c = CStr s) ->
  ((exists z, WholeNumber v z) \/ (exists q, Decimal v q)) ->
  In o out -> In (n, v) (point_of o) ->
  nstats o = 0%nat /\ stat_of o = NoResult.
Proof. exact C56_texts_refuted_proof. Qed.
Print Assumptions C56_texts_refuted.
Example C56_texts_case :
  proceed_with_axis sum_engine true "ctc" [] drive_columns [drive_row "d1" 12 "3" "TMP" 5]
    (Request [("model", ["3"])] "fcst_lead" [] ["TOTAL"] [] []) "None" [] =
  Ok ("total", [], [OutRow [("model", "3"); ("stat_name", "TOTAL")] None (Results None None None) 0]).
Proof. exact C56_texts_case_proof. Qed.

(** C56 fails for further forecast variables: only the first one is calculated. *)
Theorem C56_variables_refuted : forall e single line_type groups columns data series indy vals stats derived v rest statistic known,
  proceed_with_axis e single line_type groups columns data (Request series indy vals stats derived (v :: rest)) statistic known =
  proceed_with_axis e single line_type groups columns data (Request series indy vals stats derived [v]) statistic known.
Proof. exact C56_variables_refuted_proof. Qed.
Print Assumptions C56_variables_refuted.

(** C56: a series variable that is no column is a KeyError, also if no field is a column at all. *)
Theorem C56_missing : forall e single line_type groups columns data rq fields statistic known,
  Rectangular data columns -> data <> [] -> Fields rq fields -> Plain rq fields -> derived_series rq = [] ->
  (forall n vals, In (n, vals) fields -> vals <> []) ->
  ((exists n, In n (map fst (series_val rq)) /\ ~ In n columns) \/
   ((forall n, In n (map fst fields) -> ~ In n columns) /\ (fcst_vars rq = [] \/ ~ In "fcst_var" columns))) ->
  proceed_with_axis e single line_type groups columns data rq statistic known = Err KeyError.
Proof. exact C56_missing_proof. Qed.
Print Assumptions C56_missing.
Example C56_missing_case :
  let rq := Request [("thresh", [">0"])] "fcst_lead" ["12"] ["TOTAL"] [] [] in
  Fields rq [("thresh", [">0"]); ("fcst_lead", ["12"]); ("stat_name", ["TOTAL"])] /\ ~ In "thresh" drive_columns /\
  proceed_with_axis sum_engine true "ctc" [] drive_columns drive_data rq "None" [] = Err KeyError.
Proof. exact C56_missing_case_proof. Qed.

(** C56 fails for joined values of a series variable: the same two rows are one aggregated row if the
    joined value belongs to the independent variable, but stay two rows if it belongs to a series. *)
Theorem C56_joined_refuted :
  let data := [mask_row "EAST" 1 4; mask_row "WEST" 3 8] in
  proceed_with_axis sum_engine true "sl1l2" [] mask_columns data (Request [] "vx_mask" ["EAST;WEST"] ["TOTAL"] [] []) "None" [] =
    Ok ("total", [], [OutRow [("vx_mask", "EAST;WEST"); ("stat_name", "TOTAL")] None (Results None (Some 7) None) 1]) /\
  proceed_with_axis sum_engine true "sl1l2" [] mask_columns data (Request [("vx_mask", ["EAST;WEST"])] "fcst_lead" [] ["TOTAL"] [] []) "None" [] =
    Ok ("total", [], [OutRow [("vx_mask", "EAST;WEST"); ("stat_name", "TOTAL")] None (Results None (Some 12) None) 2]).
Proof. exact C56_joined_refuted_proof. Qed.
Print Assumptions C56_joined_refuted.
