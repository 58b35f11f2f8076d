(** The programs from file to file: properties C120 to C122.  [lambertw] is scipy's function (used by BAGSS), [randint] and
    [seed_gen] are the random generator, [state] its state before each bootstrap. *)
From Coq Require Import Reals Permutation.
From Verif Require Import PyBase ColumnModel BaseSpec RealSpec AggSpec CtcSpec Sl1l2Spec EnsSpec AnomSpec WindSpec EventSpec UtilSpec.
From Verif Require Import BootModel DriveModel DriveSpec PoolSpec SumDriveSpec CardModel FileModel FileSpec.
From Verif Require PoolModel.
From Verif Require Import WholeModel WholeSpec WholeProofs.
From Coq Require Import List.
Open Scope string_scope.
Open Scope Q_scope.

(** C120: from lines of any of these kinds, each the summary of its own cases, every output value of agg_stat is the measure
    that its statistic names, of all cases of the lines of its point pooled together; with and without bootstrap. *)
Theorem C120_lines : forall lambertw gen randint seed_gen state alpha iterations threads cpus seeds method cbb equivalence
    A line_type summaries measures single columns items rq1 rq2 fields out,
  let e := PoolModel.agg_engine lambertw gen randint seed_gen state alpha iterations threads cpus seeds method cbb line_type columns equivalence in
  Measured A line_type summaries measures ->
  items <> [] -> (forall b r, In (b, r) items -> SummaryRow summaries columns b r) ->
  series_val rq2 = [] -> Fields rq1 fields -> Plain rq1 fields -> derived_series rq1 = [] ->
  (single = true \/ method <> OtherMethod) ->
  DriveModel.calculate_stats e single line_type columns (map snd items) rq1 rq2 = Ok out ->
  Forall2 (OutputRow columns items rq1 fields (fun st chosen r =>
      forall Measure, In (st, Measure) measures -> Measure (concat (map fst chosen)) (value r)))
    (combinations (map snd fields)) out.
Proof. exact C120_lines_proof. Qed.
Print Assumptions C120_lines.
(** C120: without bootstrap such a run succeeds. *)
Theorem C120_succeeds : forall lambertw gen randint seed_gen state alpha iterations threads cpus seeds method cbb equivalence
    A line_type summaries measures columns items rq1 rq2 fields,
  let e := PoolModel.agg_engine lambertw gen randint seed_gen state alpha iterations threads cpus seeds method cbb line_type columns equivalence in
  Measured A line_type summaries measures ->
  items <> [] -> (forall b r, In (b, r) items -> SummaryRow summaries columns b r) ->
  series_val rq2 = [] -> Fields rq1 fields -> Plain rq1 fields -> derived_series rq1 = [] ->
  (forall n, In n (map fst (series_val rq1)) -> In n columns) ->
  ((exists n, In n (map fst fields) /\ In n columns) \/ (fcst_vars rq1 <> [] /\ In "fcst_var" columns)) ->
  (forall fs n, SortFields columns fs -> In n fs -> In n columns /\ OneKind columns (map snd items) n) ->
  (forall stat st, In stat (list_stat rq1) -> InSmallLetters stat st -> In st (map fst measures)) ->
  exists out, DriveModel.calculate_stats e true line_type columns (map snd items) rq1 rq2 = Ok out.
Proof. exact C120_succeeds_proof. Qed.
Print Assumptions C120_succeeds.
Example C120_lines_case :
  (forall b r, In (b, r) wind_items -> SummaryRow wind_fields wind_columns b r) /\
  Fields (pool_request ["VL1L2_MSVE"]) (pool_fields ["VL1L2_MSVE"]) /\ Plain (pool_request ["VL1L2_MSVE"]) (pool_fields ["VL1L2_MSVE"]) /\
  (forall fs n, SortFields wind_columns fs -> In n fs -> In n wind_columns /\ OneKind wind_columns (map snd wind_items) n) /\
  forall lambertw gen randint seed_gen state alpha iterations threads cpus seeds method cbb equivalence, exists out,
    DriveModel.calculate_stats (PoolModel.agg_engine lambertw gen randint seed_gen state alpha iterations threads cpus seeds method cbb "vl1l2" wind_columns equivalence)
      true "vl1l2" wind_columns (map snd wind_items) (pool_request ["VL1L2_MSVE"]) no_request = Ok out /\
    map (fun o => (nstats o, value (stat_of o))) out = [(2%nat, Some 3.6666667); (0%nat, None)].
Proof. exact C120_lines_case_proof. Qed.

(** C120 fails for the two wind speeds of VL1L2 lines. *)
Theorem C120_speeds_refuted : exists columns items,
  (forall b r, In (b, r) items -> SummaryRow wind_fields columns b r) /\
  forall lambertw gen randint seed_gen state alpha iterations threads cpus seeds method cbb equivalence,
  let e := PoolModel.agg_engine lambertw gen randint seed_gen state alpha iterations threads cpus seeds method cbb "vl1l2" columns equivalence in
  exists out f o, DriveModel.calculate_stats e true "vl1l2" columns (map snd items) (pool_request ["VL1L2_FSPD"; "VL1L2_OSPD"]) no_request = Ok out /\
    map (fun x => value (stat_of x)) (firstn 2 out) = [f; o] /\
    ~ FspeedOf (concat (map fst items)) f /\ ~ OspeedOf (concat (map fst items)) o.
Proof. exact C120_speeds_refuted_proof. Qed.
Print Assumptions C120_speeds_refuted.

(** C121: agg_stat from file to file.  If the input file is a table of such lines, the program without event equalization
    writes one line for each combination of the values of the request, in this order, under one header: the values of the
    point, the measure of all cases of its lines, and the number of its lines.  No other file changes. *)
Theorem C121_lines : forall lambertw gen randint seed_gen state alpha iterations threads cpus seeds method cbb equivalence
    show order p0 w w' A summaries measures columns items fields fields2,
  let p := with_functions lambertw gen randint seed_gen state alpha iterations threads cpus seeds method cbb equivalence p0 in
  HoldsTable w (agg_input p) columns (map snd items) -> items <> [] ->
  Measured A (agg_line_type p) summaries measures -> (forall b r, In (b, r) items -> SummaryRow summaries columns b r) ->
  Off (agg_event_equal p) -> agg_append p = None -> series_val (agg_rq2 p) = [] -> Fields (agg_rq2 p) fields2 ->
  Fields (agg_rq1 p) fields -> Plain (agg_rq1 p) fields -> derived_series (agg_rq1 p) = [] ->
  (forall n, In n (map fst (fields ++ fields2)) -> ~ In n result_columns) ->
  (agg_single p = true \/ method <> OtherMethod) ->
  agg_stat show order p w = (w', inl tt) ->
  exists lines, let names := (map fst fields ++ result_columns)%list in
    w' (agg_output p) = Some (map Given names :: lines) /\ Others (agg_output p) w w' /\
    Forall2 (OutputLine columns items (agg_rq1 p) fields (fun st chosen r =>
        forall Measure, In (st, Measure) measures -> Measure (concat (map fst chosen)) (value r)) names)
      (combinations (map snd fields)) lines.
Proof. exact C121_lines_proof. Qed.
Print Assumptions C121_lines.
(** C121: the same for contingency lines: the value is the textbook value of the added counts. *)
Theorem C121_tables : forall lambertw gen randint seed_gen state alpha iterations threads cpus seeds method cbb equivalence
    show order p0 w w' columns data fields fields2,
  let p := with_functions lambertw gen randint seed_gen state alpha iterations threads cpus seeds method cbb equivalence p0 in
  HoldsTable w (agg_input p) columns data -> data <> [] -> In (agg_line_type p) ["ctc"; "cts"; "nbr_ctc"] ->
  Off (agg_event_equal p) -> agg_append p = None -> series_val (agg_rq2 p) = [] -> Fields (agg_rq2 p) fields2 ->
  Fields (agg_rq1 p) fields -> Plain (agg_rq1 p) fields -> derived_series (agg_rq1 p) = [] ->
  (forall n, In n (map fst (fields ++ fields2)) -> ~ In n result_columns) ->
  (agg_single p = true \/ method <> OtherMethod) ->
  agg_stat show order p w = (w', inl tt) ->
  exists lines, let names := (map fst fields ++ result_columns)%list in
    w' (agg_output p) = Some (map Given names :: lines) /\ Others (agg_output p) w w' /\
    Forall2 (OutputLine columns (plain_items data) (agg_rq1 p) fields (fun st chosen r =>
        forall textbook h fa m c t, In (st, textbook) table_scores -> CtcTotals (map snd chosen) columns h fa m c t ->
          Published (textbook h fa m c t) (value r)) names)
      (combinations (map snd fields)) lines.
Proof. exact C121_tables_proof. Qed.
Print Assumptions C121_tables.
(** C121: without bootstrap the program on such lines succeeds. *)
Theorem C121_succeeds : forall lambertw gen randint seed_gen state alpha iterations threads cpus seeds method cbb equivalence
    show order p0 w A summaries measures columns items fields,
  let p := with_functions lambertw gen randint seed_gen state alpha iterations threads cpus seeds method cbb equivalence p0 in
  HoldsTable w (agg_input p) columns (map snd items) -> items <> [] ->
  Measured A (agg_line_type p) summaries measures -> (forall b r, In (b, r) items -> SummaryRow summaries columns b r) ->
  Off (agg_event_equal p) -> agg_single p = true -> series_val (agg_rq2 p) = [] ->
  Fields (agg_rq1 p) fields -> Plain (agg_rq1 p) fields -> derived_series (agg_rq1 p) = [] ->
  (forall n, In n (map fst (series_val (agg_rq1 p))) -> In n columns) ->
  ((exists n, In n (map fst fields) /\ In n columns) \/ (fcst_vars (agg_rq1 p) <> [] /\ In "fcst_var" columns)) ->
  (forall fs n, SortFields columns fs -> In n fs -> In n columns /\ OneKind columns (map snd items) n) ->
  (forall stat st, In stat (list_stat (agg_rq1 p)) -> InSmallLetters stat st -> In st (map fst measures)) ->
  exists w', agg_stat show order p w = (w', inl tt).
Proof. exact C121_succeeds_proof. Qed.
Print Assumptions C121_succeeds.
Example C121_lines_case :
  HoldsTable whole_files (agg_input whole_job) pool_columns (map snd pool_items) /\
  (forall n, In n (map fst (pool_fields ["FBAR"; "ME"] ++ [("stat_name", [])])) -> ~ In n result_columns) /\
  Fields no_request [("stat_name", [])] /\
  forall lambertw gen randint seed_gen state alpha iterations threads cpus seeds method cbb equivalence, exists w',
    agg_stat show_case order_case
      (with_functions lambertw gen randint seed_gen state alpha iterations threads cpus seeds method cbb equivalence whole_job) whole_files = (w', inl tt) /\
    w' "out" = Some
      [map Given ["model"; "fcst_lead"; "stat_name"; "fcst_var"; "stat_value"; "stat_btcl"; "stat_btcu"; "nstats"];
       [Given "A"; Given "12"; Given "FBAR"; Kept CMiss; Kept (CNum 3.2500000); Kept CMiss; Kept CMiss; Kept (CNum 2)];
       [Given "A"; Given "12"; Given "ME"; Kept CMiss; Kept (CNum 0.0000000); Kept CMiss; Kept CMiss; Kept (CNum 2)];
       [Given "B"; Given "12"; Given "FBAR"; Kept CMiss; Kept (CNum 1.5000000); Kept CMiss; Kept CMiss; Kept (CNum 1)];
       [Given "B"; Given "12"; Given "ME"; Kept CMiss; Kept (CNum 0.5000000); Kept CMiss; Kept CMiss; Kept (CNum 1)]].
Proof. exact C121_lines_case_proof. Qed.

(** C122: sum_stat from file to file.  If each line of the input is the summary of its own cases, the output has one row for
    each line, and its value is the measure that the line names, of its own cases. *)
Theorem C122_lines : forall lambertw show order p0 w A summaries measures columns names items fields series2,
  let p := with_statistics lambertw p0 in
  HoldsTable w (sum_input p) columns (map snd items) -> items <> [] ->
  MeasuredAlone A (sum_line_type p) summaries measures -> (forall b r, In (b, r) items -> SummaryRow summaries columns b r) ->
  (forall b r, In (b, r) items -> exists st, Asks columns r st /\ In st (map fst measures)) ->
  In (sum_line_type p, fields) line_fields -> NamesFor (sum_line_type p) columns names -> NoDup names ->
  Off (sum_event_equal p) -> sum_series2 p = Some series2 ->
  NoGroups (sum_indy_vals p) (sum_series1 p) -> NoGroups (sum_indy_vals p) series2 ->
  exists w' out output values, sum_stat show order p w = (w', inl tt) /\
    w' (sum_output p) = Some (TableLines out output) /\ Others (sum_output p) w w' /\
    SumTable names fields (combine (map snd items) (map Some values)) out output /\
    Forall2 (fun x v => forall st Measure, Asks columns (snd x) st -> In (st, Measure) measures -> Measure (fst x) v) items values.
Proof. exact C122_lines_proof. Qed.
Print Assumptions C122_lines.
Example C122_lines_case :
  HoldsTable summary_files "lines.data" summary_columns (map snd summary_items) /\
  (forall b r, In (b, r) summary_items -> SummaryRow sl1l2_fields summary_columns b r) /\
  (forall b r, In (b, r) summary_items -> exists st, Asks summary_columns r st /\ In st (map fst pair_measures)) /\
  forall lambertw, exists w', sum_stat show_case order_case (with_statistics lambertw (summary_job "lines.data" "sl1l2")) summary_files = (w', inl tt) /\
    w' "out" = Some (TableLines ["model"; "stat_name"; "mae"; "stat_value"]
      [[CStr "A"; CStr "FBAR"; CNum (mean_of (fun p => Qabs.Qabs (fc p - ob p)) [(1, 2); (3, 5); (2, 2)]); CNum 2.0000000];
       [CStr "A"; CStr "ME"; CNum (mean_of (fun p => Qabs.Qabs (fc p - ob p)) [(7, 4)]); CNum 3.0000000]]).
Proof. exact C122_lines_case_proof. Qed.
(** C122: the same for contingency lines. *)
Theorem C122_tables : forall lambertw show order p0 w columns data fields series2,
  let p := with_statistics lambertw p0 in
  HoldsTable w (sum_input p) columns data -> data <> [] -> In (sum_line_type p) ["ctc"; "nbrctc"] ->
  (forall r, In r data -> exists st, Asks columns r st /\ In st (map fst table_scores)) ->
  (forall r, In r data -> exists h fa m c t, CtcTotals [r] columns h fa m c t) ->
  In (sum_line_type p, fields) line_fields -> Off (sum_event_equal p) -> sum_series2 p = Some series2 ->
  NoGroups (sum_indy_vals p) (sum_series1 p) -> NoGroups (sum_indy_vals p) series2 ->
  exists w' out output values, sum_stat show order p w = (w', inl tt) /\
    w' (sum_output p) = Some (TableLines out output) /\ Others (sum_output p) w w' /\
    SumTable columns fields (combine data (map Some values)) out output /\
    Forall2 (fun r v => forall st textbook h fa m c t, Asks columns r st -> In (st, textbook) table_scores ->
        CtcTotals [r] columns h fa m c t -> Published (textbook h fa m c t) v) data values.
Proof. exact C122_tables_proof. Qed.
Print Assumptions C122_tables.
(** C122 fails for the scores of anomalies: the program does not have their functions.  From the first line that asks for one
    of them on there are no values, whatever the line type. *)
Theorem C122_anomalies_refuted : forall lambertw show order p0 w columns names r data fields series2 st,
  let p := with_statistics lambertw p0 in
  HoldsTable w (sum_input p) columns (r :: data) -> Asks columns r st -> In st (map fst anomaly_measures) ->
  In (sum_line_type p, fields) line_fields -> NamesFor (sum_line_type p) columns names -> NoDup names ->
  Off (sum_event_equal p) -> sum_series2 p = Some series2 ->
  NoGroups (sum_indy_vals p) (sum_series1 p) -> NoGroups (sum_indy_vals p) series2 ->
  exists w' out output, sum_stat show order p w = (w', inl tt) /\ w' (sum_output p) = Some (TableLines out output) /\
    SumTable names fields (map (fun x => (x, None)) (r :: data)) out output.
Proof. exact C122_anomalies_refuted_proof. Qed.
Print Assumptions C122_anomalies_refuted.
Example C122_anomalies_case :
  HoldsTable summary_files "anomalies.data" anomaly_columns anomaly_rows /\ Asks anomaly_columns (nth 0 anomaly_rows []) "anom_corr" /\
  NamesFor "sal1l2" anomaly_columns ["model"; "stat_name"; "total"; "fbar"; "obar"; "fobar"; "ffbar"; "oobar"] /\
  forall lambertw, exists w', sum_stat show_case order_case (with_statistics lambertw (summary_job "anomalies.data" "sal1l2")) summary_files = (w', inl tt) /\
    w' "out" = Some (TableLines ["model"; "stat_name"] [[CStr "A"; CStr "ANOM_CORR"]; [CStr "A"; CStr "FBAR"]]).
Proof. exact C122_anomalies_case_proof. Qed.
