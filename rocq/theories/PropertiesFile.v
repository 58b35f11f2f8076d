(** The files of the programs: properties C111 to C115. *)
From Coq Require Import Reals.
From Verif Require Import PyBase ColumnModel BaseSpec EventModel EventSpec BootModel DriveModel DriveSpec EqzModel EclvDriveModel CardModel ModeDriveModel
  FileModel FileSpec FileProofs.
From Verif Require SumDriveModel.
From Coq Require Import List.
Open Scope string_scope.

(** C111: a run whose entry append_to_file is not the text 'True' replaces its output by one header and its
    rows; no other file changes. *)
Theorem C111_replaces : forall show order j w w',
  append_of j <> Some (PText "True") -> run_job show order j w = (w', inl tt) ->
  (exists names rows, w' (output_of j) = Some (map Given names :: rows) /\ Gives show order w j (names, rows)) /\
  Others (output_of j) w w'.
Proof. exact C111_replaces_proof. Qed.
Print Assumptions C111_replaces.

(** C111: with the text 'True' the rows that the same run would give alone come after the lines that are there,
    without a header. *)
Theorem C111_appends : forall show order j w w' before,
  append_of j = Some (PText "True") -> LinesBefore w (output_of j) before -> run_job show order j w = (w', inl tt) ->
  (exists names rows, Gives show order w j (names, rows) /\ w' (output_of j) = Some (before ++ rows)%list) /\
  Others (output_of j) w w'.
Proof. exact C111_appends_proof. Qed.
Print Assumptions C111_appends.

(** C111: after any number of runs into one file, the first replacing and the others extending it, the file has
    one header and the rows of all runs in order, each as if it were alone.  What was in the file before does
    not matter, and no other file changes. *)
Theorem C111_history : forall show order path first rest w w',
  (forall j, In j (first :: rest) -> output_of j = path /\ input_of j <> path) ->
  append_of first <> Some (PText "True") -> (forall j, In j rest -> append_of j = Some (PText "True")) ->
  AllDone show order (first :: rest) w w' ->
  exists names rows tables, Gives show order w first (names, rows) /\ Forall2 (Gives show order w) rest tables /\
    w' path = Some (map Given names :: rows ++ concat (map snd tables))%list /\ Others path w w'.
Proof. exact C111_history_proof. Qed.
Print Assumptions C111_history.
Example C111_history_case :
  exists w', AllDone show_case order_case
      [Statistics (stat_job "d1.data" None "model" "fcst_lead"); Statistics (stat_job "d2.data" (Some (PText "True")) "model" "fcst_lead")]
      files_case w' /\
    w' "out" = Some
      [map Given ["model"; "fcst_lead"; "stat_name"; "fcst_var"; "stat_value"; "stat_btcl"; "stat_btcu"; "nstats"];
       [Given "A"; Given "12"; Given "TOTAL"; Kept CMiss; Kept (CNum 5); Kept CMiss; Kept CMiss; Kept (CNum 1)];
       [Given "A"; Given "12"; Given "TOTAL"; Kept CMiss; Kept (CNum 7); Kept CMiss; Kept CMiss; Kept (CNum 1)]].
Proof. exact C111_history_case_proof. Qed.

(** C111 fails for the truth value True: the run is that without the entry, earlier lines are lost. *)
Theorem C111_boolean_refuted : forall show order j w w' before,
  append_of j = Some (PBool true) -> w (output_of j) = Some before -> run_job show order j w = (w', inl tt) ->
  run_job show order (with_append None j) w = (w', inl tt) /\
  exists names rows, w' (output_of j) = Some (map Given names :: rows) /\ Gives show order w j (names, rows).
Proof. exact C111_boolean_refuted_proof. Qed.
Print Assumptions C111_boolean_refuted.
Example C111_boolean_case :
  exists w', run_job show_case order_case (Statistics (stat_job "d1.data" (Some (PBool true)) "model" "fcst_lead"))
    (fun p => if String.eqb p "out" then Some [[Given "old"]; [Kept (CNum 1)]] else files_case p) = (w', inl tt).
Proof. exact C111_boolean_case_proof. Qed.

(** C111 fails for the first run into a new file if it extends: the file never gets a header. *)
Theorem C111_no_file_refuted : forall show order path jobs w w',
  jobs <> [] -> (forall j, In j jobs -> output_of j = path /\ input_of j <> path /\ append_of j = Some (PText "True")) ->
  w path = None -> AllDone show order jobs w w' ->
  exists tables, Forall2 (Gives show order w) jobs tables /\ w' path = Some (concat (map snd tables)).
Proof. exact C111_no_file_refuted_proof. Qed.
Print Assumptions C111_no_file_refuted.

(** C111 fails for a first table without rows: only a blank line is written, and later rows have no header. *)
Theorem C111_empty_refuted : forall show order j w columns,
  HoldsTable w (input_of j) columns [] -> append_of j <> Some (PText "True") ->
  (forall p, j = Statistics p -> Off (agg_event_equal p)) ->
  (forall p, j = Economic p -> Off (eclv_event_equal p) /\ ~ eclv_step p == 0 /\ In (eclv_line_type p) ["ctc"; "pct"]) ->
  exists w', run_job show order j w = (w', inl tt) /\ w' (output_of j) = Some [[]].
Proof. exact C111_empty_refuted_proof. Qed.
Print Assumptions C111_empty_refuted.
Example C111_empty_case : HoldsTable files_case "empty.data" drive_columns [].
Proof. exact C111_empty_case_proof. Qed.

(** C111 fails for runs with other fields: their rows are put under the header of the first run. *)
Theorem C111_columns_refuted : exists show order w w' j1 j2 lead,
  AllDone show order [j1; j2] w w' /\ append_of j1 = None /\ append_of j2 = Some (PText "True") /\
  w' (output_of j1) = Some
    [map Given ["model"; "fcst_lead"; "stat_name"; "fcst_var"; "stat_value"; "stat_btcl"; "stat_btcu"; "nstats"];
     [Given "A"; Given lead; Given "TOTAL"; Kept CMiss; Kept (CNum 5); Kept CMiss; Kept CMiss; Kept (CNum 1)];
     [Given lead; Given "A"; Given "TOTAL"; Kept CMiss; Kept (CNum 7); Kept CMiss; Kept CMiss; Kept (CNum 1)]].
Proof. exact C111_columns_refuted_proof. Qed.
Print Assumptions C111_columns_refuted.

(** C112: a run that fails leaves every file as it was: for aggregated statistics, economic values and both
    programs of event equalization always, for the other programs if the table has rows (and, for statistics
    of objects, no equalization is asked for). *)
Theorem C112_untouched : forall show order uniq w w' f,
  (forall j, run_job show order j w = (w', inr f) -> w' = w) /\
  (forall p, agg_stat_eqz show p w = (w', inr f) -> w' = w) /\
  (forall p, event_equalize_program show uniq p w = (w', inr f) -> w' = w) /\
  (forall p columns data, HoldsTable w (card_input p) columns data -> data <> [] -> scorecard show p w = (w', inr f) -> w' = w) /\
  (forall p columns data, HoldsTable w (sum_input p) columns data -> data <> [] -> sum_stat show order p w = (w', inr f) -> w' = w) /\
  (forall p, Off (eqz_event_equal (mode_eqz p)) -> agg_stat_bootstrap show p w = (w', inr f) -> w' = w).
Proof. exact C112_untouched_proof. Qed.
Print Assumptions C112_untouched.
Example C112_untouched_case :
  exists f, run_job show_case order_case (Statistics (stat_job "d1.data" None "color" "fcst_lead")) files_case = (files_case, inr f).
Proof. exact C112_untouched_case_proof. Qed.

(** C112: without the input file every program says so. *)
Theorem C112_no_input : forall show order uniq w,
  (forall j, w (input_of j) = None ->
     (forall p, j = Economic p -> ~ eclv_step p == 0 /\ In (eclv_line_type p) ["ctc"; "pct"]) ->
     run_job show order j w = (w, inr (NoFile (input_of j)))) /\
  (forall p, w (card_input p) = None -> scorecard show p w = (w, inr (NoFile (card_input p)))) /\
  (forall p, w (sum_input p) = None -> sum_stat show order p w = (w, inr (NoFile (sum_input p)))) /\
  (forall p, w (eqz_input p) = None -> agg_stat_eqz show p w = (w, inr (NoFile (eqz_input p)))) /\
  (forall p, w (equalize_input p) = None -> event_equalize_program show uniq p w = (w, inr (NoFile (equalize_input p)))) /\
  (forall p, w (eqz_input (mode_eqz p)) = None -> agg_stat_bootstrap show p w = (w, inr (NoFile (eqz_input (mode_eqz p))))).
Proof. exact C112_no_input_proof. Qed.
Print Assumptions C112_no_input.

(** C112 fails for tables without rows: scorecards and summary statistics raise a ValueError after they have
    replaced their output by a header, scorecards even if they should extend it. *)
Theorem C112_empty_refuted : forall show order w columns,
  (forall p, HoldsTable w (card_input p) columns [] -> exists w', scorecard show p w = (w', inr (Raised ValueError)) /\
     w' (card_output p) = Some [map Given columns] /\ Others (card_output p) w w') /\
  (forall p, HoldsTable w (sum_input p) columns [] -> exists w', sum_stat show order p w = (w', inr (Raised ValueError)) /\
     w' (sum_output p) = Some [map Given columns] /\ Others (sum_output p) w w').
Proof. exact C112_empty_refuted_proof. Qed.
Print Assumptions C112_empty_refuted.

(** C112 fails for scorecards without derived series: the run is successful, and a file of an earlier run stays. *)
Theorem C112_stale_refuted : forall show p w w' columns data,
  HoldsTable w (card_input p) columns data -> data <> [] -> derived_series (card_rq p) = [] ->
  scorecard show p w = (w', inl tt) -> w' = w.
Proof. exact C112_stale_refuted_proof. Qed.
Print Assumptions C112_stale_refuted.
Example C112_stale_case :
  HoldsTable files_case (card_input card_case) drive_columns [drive_row "d1" 12 "A" "TMP" 5] /\ derived_series (card_rq card_case) = [] /\
  scorecard show_case card_case files_case = (files_case, inl tt).
Proof. exact C112_stale_case_proof. Qed.

(** C113: the texts 'True' and 'False' and the truth values mean the same; no value and no text mean False. *)
Theorem C113_switch : forall v v', (On v /\ On v') \/ (Off v /\ Off v') -> SameRuns v v'.
Proof. exact C113_switch_proof. Qed.
Print Assumptions C113_switch.

(** C113 fails for all other texts, such as 'false' and 'no': they mean True. *)
Theorem C113_texts_refuted : forall v, OtherText v -> SameRuns v (PBool true).
Proof. exact C113_texts_refuted_proof. Qed.
Print Assumptions C113_texts_refuted.
Example C113_texts_case :
  OtherText (PText "false") /\ OtherText (PText "no") /\
  exists w1 w2, agg_stat_eqz show_case (eqz_case (PText "false")) files_case = (w1, inl tt) /\
    agg_stat_eqz show_case (eqz_case (PText "False")) files_case = (w2, inl tt) /\ w1 "out" <> w2 "out".
Proof. exact C113_texts_case_proof. Qed.

(** C114: without equalization the program writes the table that it has read. *)
Theorem C114_copy : forall show p w columns data,
  HoldsTable w (eqz_input p) columns data -> Off (eqz_event_equal p) \/ data = [] ->
  exists w', agg_stat_eqz show p w = (w', inl tt) /\ HoldsTable w' (eqz_output p) columns data /\ Others (eqz_output p) w w'.
Proof. exact C114_copy_proof. Qed.
Print Assumptions C114_copy.

(** C114: with equalization it writes the rows of both axes (see C54 for the rows of an axis), the second axis
    only if it has series. *)
Theorem C114_equalized : forall show p w w' columns data pcolumns prev,
  HoldsTable w (eqz_input p) columns data -> data <> [] -> HoldsTable w (eqz_cases p) pcolumns prev -> ~ Off (eqz_event_equal p) ->
  agg_stat_eqz show p w = (w', inl tt) ->
  exists r1 r2, eqz_on_axis show (columns, data) (pcolumns, prev) (eqz_var1 p) (eqz_series1 p) = Ok r1 /\
    ((eqz_series2 p = [] /\ r2 = []) \/
     (eqz_series2 p <> [] /\ eqz_on_axis show (columns, data) (pcolumns, prev) (eqz_var2 p) (eqz_series2 p) = Ok r2)) /\
    ((r1 ++ r2 <> [] /\ HoldsTable w' (eqz_output p) columns (r1 ++ r2)) \/
     (r1 ++ r2 = [] /\ w' (eqz_output p) = Some [[]]))%list /\
    Others (eqz_output p) w w'.
Proof. exact C114_equalized_proof. Qed.
Print Assumptions C114_equalized.
Example C114_equalized_case :
  ~ Off (PText "True") /\ HoldsTable files_case "objects.data" object_columns [object_row "d1" 5; object_row "d2" 6] /\
  exists w', agg_stat_eqz show_case (eqz_case (PText "True")) files_case = (w', inl tt) /\
    w' "out" = Some (TableLines object_columns [object_row "d1" 5]).
Proof. exact C114_equalized_case_proof. Qed.

(** C114 fails for statistics of objects with equalization: no run is successful; after the equalization there
    is an AttributeError, and the output file has the equalized table in place of statistics. *)
Theorem C114_bootstrap_refuted : forall show p w columns data,
  HoldsTable w (eqz_input (mode_eqz p)) columns data -> data <> [] -> ~ Off (eqz_event_equal (mode_eqz p)) ->
  (forall w', agg_stat_bootstrap show p w <> (w', inl tt)) /\
  (forall w', agg_stat_eqz show (mode_eqz p) w = (w', inl tt) -> agg_stat_bootstrap show p w = (w', inr (Raised AttributeError))).
Proof. exact C114_bootstrap_refuted_proof. Qed.
Print Assumptions C114_bootstrap_refuted.
Example C114_bootstrap_case :
  let p := object_case "objects.data" "out" (PText "True") in
  ~ Off (eqz_event_equal (mode_eqz p)) /\
  exists w', agg_stat_bootstrap show_case p files_case = (w', inr (Raised AttributeError)) /\
    w' "out" = Some (TableLines object_columns [object_row "d1" 5]).
Proof. exact C114_bootstrap_case_proof. Qed.

(** C114: the two programs can be run one after the other: what the first one writes is what the second one
    reads... *)
Theorem C114_chain : forall show p q w w1 w2 columns data pcolumns prev kept,
  HoldsTable w (eqz_input p) columns data -> data <> [] -> HoldsTable w (eqz_cases p) pcolumns prev -> ~ Off (eqz_event_equal p) ->
  eqz_series2 p = [] -> eqz_on_axis show (columns, data) (pcolumns, prev) (eqz_var1 p) (eqz_series1 p) = Ok kept -> kept <> [] ->
  agg_stat_eqz show p w = (w1, inl tt) ->
  eqz_input (mode_eqz q) = eqz_output p -> Off (eqz_event_equal (mode_eqz q)) -> agg_stat_bootstrap show q w1 = (w2, inl tt) ->
  exists out names lines, mode_values (mode_text q) (mode_calc q columns) (mode_samples q) columns kept (mode_rq1 q) (mode_rq2 q) = Ok out /\
    w2 (eqz_output (mode_eqz q)) = Some (map Given names :: lines) /\ length lines = length out.
Proof. exact C114_chain_proof. Qed.
Print Assumptions C114_chain.
Example C114_chain_case :
  let q := object_case "out" "counts" (PText "False") in
  eqz_on_axis show_case (object_columns, [object_row "d1" 5; object_row "d2" 6])
    ((object_columns ++ ["equalize"])%list, [object_row "d1" 5 ++ [CStr "d1 12"]; object_row "d3" 5 ++ [CStr "d3 12"]]%list)
    [("TMP", ["x"])] [("model", ["A"])] = Ok [object_row "d1" 5] /\
  exists w1 w2, agg_stat_eqz show_case (eqz_case (PText "True")) files_case = (w1, inl tt) /\
    agg_stat_bootstrap show_case q w1 = (w2, inl tt) /\
    w2 "counts" = Some
      [map Given ["model"; "fcst_lead"; "stat_name"; "fcst_var"; "stat_value"; "stat_btcl"; "stat_btcu"; "nstats"];
       [Given "A"; Given "12"; Given "COUNT"; Kept CMiss; Kept (CNum 1); Kept CMiss; Kept CMiss; Kept (CNum 1)]].
Proof. exact C114_chain_case_proof. Qed.

(** ... unless no row is left: then the second program finds a file without columns. *)
Theorem C114_chain_refuted : forall show q w,
  w (eqz_input (mode_eqz q)) = Some [[]] -> agg_stat_bootstrap show q w = (w, inr NoData).
Proof. exact C114_chain_refuted_proof. Qed.
Print Assumptions C114_chain_refuted.

(** C114: the program that equalizes events writes the table of C53; for a table without rows a blank line. *)
Theorem C114_events : forall show uniq p w w' columns data,
  HoldsTable w (equalize_input p) columns data -> event_equalize_program show uniq p w = (w', inl tt) ->
  exists t, agg_stat_event_equalize show uniq (equalize_fixed p) (equalize_indy p) (equalize_series1 p) (equalize_series2 p) (columns, data) = Ok t /\
    (forall c d, t = Some (c, d) -> w' (equalize_output p) = Some (TableLines c d)) /\
    (t = None -> w' (equalize_output p) = Some [[]]) /\
    Others (equalize_output p) w w'.
Proof. exact C114_events_proof. Qed.
Print Assumptions C114_events.
Example C114_events_case :
  exists w', event_equalize_program show_case (fun l => l) (EqualizeParams "pairs.data" "out" [] "fcst_lead" [("model", ["A"; "B"])] []) pairs_case = (w', inl tt) /\
    w' "out" = Some (TableLines (drive_columns ++ ["equalize"])
      [drive_row "d1" 12 "A" "TMP" 5 ++ [CStr "d1 12"]; drive_row "d1" 12 "B" "TMP" 6 ++ [CStr "d1 12"]])%list.
Proof. exact C114_events_case_proof. Qed.

(** C115: the output of aggregated statistics has a line for every row (see C60 for the rows), every value
    under its column: the fields of the first axis, the results, then the further fields of the second axis. *)
Theorem C115_statistics : forall show order p w w' columns data fields1 fields2,
  HoldsTable w (agg_input p) columns data -> data <> [] -> Off (agg_event_equal p) -> append_of (Statistics p) = None ->
  Fields (agg_rq1 p) fields1 -> Fields (agg_rq2 p) fields2 ->
  (forall n, In n (map fst (fields1 ++ fields2)) -> ~ In n result_columns) ->
  agg_stat show order p w = (w', inl tt) ->
  exists out names lines,
    DriveModel.calculate_stats (agg_engine p columns) (agg_single p) (agg_line_type p) columns data (agg_rq1 p) (agg_rq2 p) = Ok out /\
    w' (agg_output p) = Some (map Given names :: lines) /\ NoDup names /\
    (exists more, names = (map fst fields1 ++ result_columns ++ more)%list /\
       (series_val (agg_rq2 p) = [] -> more = []) /\
       (series_val (agg_rq2 p) <> [] -> Selection (fun n => ~ In n (map fst fields1)) (map fst fields2) more)) /\
    Forall2 (StatLine names) out lines.
Proof. exact C115_statistics_proof. Qed.
Print Assumptions C115_statistics.
Example C115_statistics_case :
  let fields1 := [("model", ["A"]); ("fcst_lead", ["12"]); ("stat_name", ["TOTAL"])] in
  let fields2 := [("fcst_valid_beg", ["d1"]); ("fcst_lead", ["12"]); ("stat_name", ["TOTAL"])] in
  Fields (agg_rq1 two_axes_case) fields1 /\ Fields (agg_rq2 two_axes_case) fields2 /\
  (forall n, In n (map fst (fields1 ++ fields2)) -> ~ In n result_columns) /\
  exists w', agg_stat show_case order_case two_axes_case files_case = (w', inl tt) /\
    w' "out" = Some
      [map Given ["model"; "fcst_lead"; "stat_name"; "fcst_var"; "stat_value"; "stat_btcl"; "stat_btcu"; "nstats"; "fcst_valid_beg"];
       [Given "A"; Given "12"; Given "TOTAL"; Kept CMiss; Kept (CNum 5); Kept CMiss; Kept CMiss; Kept (CNum 1); Kept CMiss];
       [Kept CMiss; Given "12"; Given "TOTAL"; Kept CMiss; Kept (CNum 5); Kept CMiss; Kept CMiss; Kept (CNum 1); Given "d1"]].
Proof. exact C115_statistics_case_proof. Qed.

(** C115: with event equalization it is the output for the equalized table (see C51 and C52). *)
Theorem C115_equalized : forall show order p w w' columns data,
  HoldsTable w (agg_input p) columns data -> ~ Off (agg_event_equal p) -> agg_stat show order p w = (w', inl tt) ->
  exists kept,
    perform_event_equalization show order (agg_fixed p) (indy_var (agg_rq1 p)) (agg_var1 p) (agg_var2 p)
      (series_val (agg_rq1 p)) (series_val (agg_rq2 p)) (columns, data) = Ok kept /\
    forall columns' data', kept = Some (columns', data') -> data' <> [] -> append_of (Statistics p) = None ->
    exists out names lines,
      DriveModel.calculate_stats (agg_engine p columns) (agg_single p) (agg_line_type p) columns' data' (agg_rq1 p) (agg_rq2 p) = Ok out /\
      w' (agg_output p) = Some (map Given names :: lines) /\ length lines = length out.
Proof. exact C115_equalized_proof. Qed.
Print Assumptions C115_equalized.
Example C115_equalized_case :
  exists w', agg_stat show_case order_case equalized_case pairs_case = (w', inl tt) /\
    w' "out" = Some
      [map Given ["model"; "fcst_lead"; "stat_name"; "fcst_var"; "stat_value"; "stat_btcl"; "stat_btcu"; "nstats"];
       [Given "A"; Given "12"; Given "TOTAL"; Kept CMiss; Kept (CNum 5); Kept CMiss; Kept CMiss; Kept (CNum 1)];
       [Given "B"; Given "12"; Given "TOTAL"; Kept CMiss; Kept (CNum 6); Kept CMiss; Kept CMiss; Kept (CNum 1)]].
Proof. exact C115_equalized_case_proof. Qed.

(** C115: the same for economic values, with and without equalization: by the name of the statistic if asked
    for, else by the time alone. *)
Theorem C115_economic : forall show p w w' columns data,
  HoldsTable w (eclv_input p) columns data -> data <> [] -> append_of (Economic p) = None ->
  NoDup (map fst (eclv_series p)) ->
  (forall n, In n (map fst (eclv_series p)) -> ~ In n ["thresh_i"; "x_pnt_i"; "y_pnt_i"; "stat_btcl"; "stat_btcu"; "nstats"]) ->
  agg_eclv show p w = (w', inl tt) ->
  exists columns' data' out,
    ((Off (eclv_event_equal p) /\ columns' = columns /\ data' = data) \/
     (~ Off (eclv_event_equal p) /\ exists by_indep kept vals,
        (by_indep = false <-> Off (eclv_by_indep p)) /\
        Forall2 (fun kv l => exists d, snd kv = FDict d /\ l = concat (combinations (map snd d))) (eclv_fixed p) vals /\
        event_equalize show data columns "stat_name" (eclv_series p) (map fst (eclv_fixed p)) vals by_indep = Ok kept /\
        (~ In "equalize" columns -> columns' = (columns ++ ["equalize"])%list /\ data' = with_key kept))) /\
    aggregate_eclv (eclv_np_float p) (eclv_line_type p) columns' data' (eclv_series p) (eclv_step p) (eclv_base_rate p) (eclv_samples p) = Ok out /\
    (data' <> [] -> exists lines,
       let names := (map fst (eclv_series p) ++ ["thresh_i"; "x_pnt_i"; "y_pnt_i"; "stat_btcl"; "stat_btcu"; "nstats"])%list in
       w' (eclv_output p) = Some (map Given names :: lines) /\ Forall2 (EclvLine names) out lines) /\
    (data' = [] -> w' (eclv_output p) = Some [[]]).
Proof. exact C115_economic_proof. Qed.
Print Assumptions C115_economic.
Example C115_economic_case :
  exists w' x ya yb, agg_eclv show_case eclv_case files_case = (w', inl tt) /\ x == 1 # 2 /\ ya == 1 # 2 /\ yb == - (1 # 4) /\
    w' "out" = Some
      (map Given ["model"; "thresh_i"; "x_pnt_i"; "y_pnt_i"; "stat_btcl"; "stat_btcu"; "nstats"] ::
       [[Given "A"; Kept (CNum 0); Kept (CNum x); Kept (CNum ya); Kept CMiss; Kept CMiss; Kept (CNum 2)];
        [Given "B"; Kept (CNum 0); Kept (CNum x); Kept (CNum yb); Kept CMiss; Kept CMiss; Kept (CNum 2)]]).
Proof. exact C115_economic_case_proof. Qed.

(** C115: the output of statistics of objects without equalization. *)
Theorem C115_objects : forall show p w w' columns data,
  HoldsTable w (eqz_input (mode_eqz p)) columns data -> data <> [] -> Off (eqz_event_equal (mode_eqz p)) ->
  series_val (mode_rq2 p) = [] ->
  let names := (map fst (series_val (mode_rq1 p)) ++ [indy_var (mode_rq1 p); "stat_name"] ++ result_columns)%list in
  NoDup names -> agg_stat_bootstrap show p w = (w', inl tt) ->
  exists out lines,
    mode_values (mode_text p) (mode_calc p columns) (mode_samples p) columns data (mode_rq1 p) (mode_rq2 p) = Ok out /\
    w' (eqz_output (mode_eqz p)) = Some (map Given names :: lines) /\ Forall2 (ModeLine names) out lines.
Proof. exact C115_objects_proof. Qed.
Print Assumptions C115_objects.
Example C115_objects_case :
  let p := object_case "objects.data" "out" (PText "False") in
  NoDup (map fst (series_val (mode_rq1 p)) ++ [indy_var (mode_rq1 p); "stat_name"] ++ result_columns)%list /\
  exists w', agg_stat_bootstrap show_case p files_case = (w', inl tt) /\
    w' "out" = Some
      [map Given ["model"; "fcst_lead"; "stat_name"; "fcst_var"; "stat_value"; "stat_btcl"; "stat_btcu"; "nstats"];
       [Given "A"; Given "12"; Given "COUNT"; Kept CMiss; Kept (CNum 2); Kept CMiss; Kept CMiss; Kept (CNum 2)]].
Proof. exact C115_objects_case_proof. Qed.

(** C115: the output of summary statistics is the table of C64... *)
Theorem C115_summary : forall show order p w w' columns data,
  HoldsTable w (sum_input p) columns data -> data <> [] -> Off (sum_event_equal p) -> sum_stat show order p w = (w', inl tt) ->
  exists names rows,
    SumDriveModel.calculate_stats (sum_statistic p) columns data (sum_line_type p) (sum_indy p) (sum_indy_vals p)
      (Some (sum_series1 p)) (sum_series2 p) = Ok (names, rows) /\
    w' (sum_output p) = Some (TableLines names rows) /\ Others (sum_output p) w w'.
Proof. exact C115_summary_proof. Qed.
Print Assumptions C115_summary.
(** ... with event equalization that of the equalized table. *)
Theorem C115_summary_equalized : forall show order p w w' columns data series2 kept,
  HoldsTable w (sum_input p) columns data -> data <> [] -> ~ Off (sum_event_equal p) -> sum_line_type p <> "sal1l2" ->
  sum_series2 p = Some series2 ->
  perform_event_equalization show order (sum_fixed p) (sum_indy p) (sum_var1 p) (sum_var2 p) (sum_series1 p) series2 (columns, data)
    = Ok (Some (columns, kept)) -> kept <> [] ->
  In (sum_line_type p) ["ctc"; "sl1l2"; "grad"; "vl1l2"; "val1l2"; "pct"; "nbrcnt"; "ecnt"; "nbrctc"; "rps"] ->
  sum_stat show order p w = (w', inl tt) ->
  exists names rows,
    SumDriveModel.calculate_stats (sum_statistic p) columns kept (sum_line_type p) (sum_indy p) (sum_indy_vals p)
      (Some (sum_series1 p)) (Some series2) = Ok (names, rows) /\
    w' (sum_output p) = Some (TableLines names rows) /\ Others (sum_output p) w w'.
Proof. exact C115_summary_equalized_proof. Qed.
Print Assumptions C115_summary_equalized.
Example C115_summary_case :
  (exists w', sum_stat show_case order_case (summary_case (PText "False")) pairs_case = (w', inl tt) /\
    w' "out" = Some (TableLines (drive_columns ++ ["stat_value"]) [drive_row "d1" 12 "A" "TMP" 5 ++ [CNum 8]; drive_row "d1" 12 "B" "TMP" 6 ++ [CNum 8]; drive_row "d2" 12 "A" "TMP" 9 ++ [CNum 8]])%list) /\
  (exists w', sum_stat show_case order_case (summary_case (PText "True")) pairs_case = (w', inl tt) /\
    w' "out" = Some (TableLines (drive_columns ++ ["stat_value"]) [drive_row "d1" 12 "A" "TMP" 5 ++ [CNum 8]; drive_row "d1" 12 "B" "TMP" 6 ++ [CNum 8]])%list).
Proof. exact C115_summary_case_proof. Qed.

(** C115: the output of scorecards has the rows of C62 under the names of the first row. *)
Theorem C115_scorecard : forall show p w w' columns data before,
  HoldsTable w (card_input p) columns data -> data <> [] -> LinesBefore w (card_output p) before -> scorecard show p w = (w', inl tt) ->
  exists out, calculate_scorecard (card_cdf p) (card_emc p) (card_ndays p) columns data (card_rq p) = Ok out /\
    forall first rest, out = first :: rest ->
    let lines := map (map snd) out in
    (card_append p = Some (PText "True") -> w' (card_output p) = Some (before ++ lines)%list) /\
    (card_append p <> Some (PText "True") -> w' (card_output p) = Some (map Given (map fst first) :: lines)) /\
    Others (card_output p) w w'.
Proof. exact C115_scorecard_proof. Qed.
Print Assumptions C115_scorecard.
