(** Aggregated statistics by name: properties C116 to C119.  [lambertw] is scipy's function (used by BAGSS), [randint] and
    [seed_gen] are the random generator, [state] its state before each bootstrap. *)
From Coq Require Import Reals Permutation.
From Verif Require Import PyBase ColumnModel BaseSpec RealSpec AggSpec CtcSpec LogSpec Sl1l2Spec EnsSpec EventSpec BootModel DriveModel DriveSpec PoolModel PoolSpec PoolProofs.
From Coq Require Import List.
Open Scope string_scope.
Open Scope Q_scope.

(** C116: from a table of partial-sum lines, each the summary of its own pairs of forecast and observation, every output
    value is the measure that its statistic names, of all pairs of the lines of its point pooled together; with and without
    bootstrap. *)
Theorem C116_pairs : forall lambertw gen randint seed_gen state alpha iterations threads cpus seeds method cbb equivalence
    single columns items rq1 rq2 fields out,
  let e := agg_engine lambertw gen randint seed_gen state alpha iterations threads cpus seeds method cbb "sl1l2" columns equivalence in
  items <> [] -> (forall b r, In (b, r) items -> SummaryRow sl1l2_fields columns b r) ->
  series_val rq2 = [] -> Fields rq1 fields -> Plain rq1 fields -> derived_series rq1 = [] ->
  (single = true \/ method <> OtherMethod) ->
  calculate_stats e single "sl1l2" columns (map snd items) rq1 rq2 = Ok out ->
  Forall2 (OutputRow columns items rq1 fields (fun st chosen r =>
      forall Measure, In (st, Measure) pair_measures -> Measure (concat (map fst chosen)) (value r)))
    (combinations (map snd fields)) out.
Proof. exact C116_pairs_proof. Qed.
Print Assumptions C116_pairs.
Example C116_pairs_case :
  (forall b r, In (b, r) pool_items -> SummaryRow sl1l2_fields pool_columns b r) /\
  Fields (pool_request ["FBAR"; "ME"]) (pool_fields ["FBAR"; "ME"]) /\ Plain (pool_request ["FBAR"; "ME"]) (pool_fields ["FBAR"; "ME"]) /\
  forall lambertw gen randint seed_gen state alpha iterations threads cpus seeds method cbb equivalence, exists out,
    calculate_stats (agg_engine lambertw gen randint seed_gen state alpha iterations threads cpus seeds method cbb "sl1l2" pool_columns equivalence)
      true "sl1l2" pool_columns (map snd pool_items) (pool_request ["FBAR"; "ME"]) no_request = Ok out /\
    map (fun o => (nstats o, value (stat_of o))) out =
      [(2%nat, Some 3.2500000); (2%nat, Some 0.0000000); (1%nat, Some 1.5000000); (1%nat, Some 0.5000000)].
Proof. exact C116_pairs_case_proof. Qed.

(** C116: without bootstrap such a run succeeds. *)
Theorem C116_succeeds : forall lambertw gen randint seed_gen state alpha iterations threads cpus seeds method cbb equivalence
    columns items rq1 rq2 fields,
  let e := agg_engine lambertw gen randint seed_gen state alpha iterations threads cpus seeds method cbb "sl1l2" columns equivalence in
  items <> [] -> (forall b r, In (b, r) items -> SummaryRow sl1l2_fields columns b r) ->
  series_val rq2 = [] -> Fields rq1 fields -> Plain rq1 fields -> derived_series rq1 = [] ->
  (forall n, In n (map fst (series_val rq1)) -> In n columns) ->
  ((exists n, In n (map fst fields) /\ In n columns) \/ (fcst_vars rq1 <> [] /\ In "fcst_var" columns)) ->
  (forall fs n, SortFields columns fs -> In n fs -> In n columns /\ OneKind columns (map snd items) n) ->
  (forall stat st, In stat (list_stat rq1) -> InSmallLetters stat st -> In st (map fst pair_measures)) ->
  exists out, calculate_stats e true "sl1l2" columns (map snd items) rq1 rq2 = Ok out.
Proof. exact C116_succeeds_proof. Qed.
Print Assumptions C116_succeeds.
Example C116_succeeds_case :
  (forall fs n, SortFields pool_columns fs -> In n fs -> In n pool_columns /\ OneKind pool_columns (map snd pool_items) n) /\
  forall stat st, In stat ["FBAR"; "ME"] -> InSmallLetters stat st -> In st (map fst pair_measures).
Proof. exact C116_succeeds_case_proof. Qed.

(** C116: the same for gradients. *)
Theorem C116_gradients : forall lambertw gen randint seed_gen state alpha iterations threads cpus seeds method cbb equivalence
    single columns items rq1 rq2 fields out,
  let e := agg_engine lambertw gen randint seed_gen state alpha iterations threads cpus seeds method cbb "grad" columns equivalence in
  items <> [] -> (forall b r, In (b, r) items -> SummaryRow grad_fields columns b r) ->
  series_val rq2 = [] -> Fields rq1 fields -> Plain rq1 fields -> derived_series rq1 = [] ->
  (single = true \/ method <> OtherMethod) ->
  calculate_stats e single "grad" columns (map snd items) rq1 rq2 = Ok out ->
  Forall2 (OutputRow columns items rq1 fields (fun st chosen r =>
      forall measure, In (st, measure) gradient_measures -> Published (measure (concat (map fst chosen))) (value r)))
    (combinations (map snd fields)) out.
Proof. exact C116_gradients_proof. Qed.
Print Assumptions C116_gradients.
Example C116_gradients_case :
  (forall b r, In (b, r) gradient_items -> SummaryRow grad_fields gradient_columns b r) /\
  forall lambertw gen randint seed_gen state alpha iterations threads cpus seeds method cbb equivalence, exists out,
    calculate_stats (agg_engine lambertw gen randint seed_gen state alpha iterations threads cpus seeds method cbb "grad" gradient_columns equivalence)
      true "grad" gradient_columns (map snd gradient_items) (pool_request ["FGBAR"]) no_request = Ok out /\
    map (fun o => (nstats o, value (stat_of o))) out = [(2%nat, Some 2.0000000); (0%nat, None)].
Proof. exact C116_gradients_case_proof. Qed.

(** C116: ensemble scores are means of the lines of the point, weighted by their totals; spread and root-mean-square errors
    are pooled through their squares. *)
Theorem C116_ensembles : forall lambertw gen randint seed_gen state alpha iterations threads cpus seeds method cbb equivalence
    single columns items rq1 rq2 fields out,
  let e := agg_engine lambertw gen randint seed_gen state alpha iterations threads cpus seeds method cbb "ecnt" columns equivalence in
  items <> [] -> (forall b r, In (b, r) items -> Shows ecnt_fields columns b r) ->
  series_val rq2 = [] -> Fields rq1 fields -> Plain rq1 fields -> derived_series rq1 = [] ->
  (single = true \/ method <> OtherMethod) ->
  calculate_stats e single "ecnt" columns (map snd items) rq1 rq2 = Ok out ->
  Forall2 (OutputRow columns items rq1 fields (fun st chosen r =>
      (forall column, In (st, column) ensemble_means -> Published (by_total (field column) (map fst chosen)) (value r)) /\
      (forall column, In (st, column) ensemble_roots -> RootPublished (by_total (square_of column) (map fst chosen)) (value r))))
    (combinations (map snd fields)) out.
Proof. exact C116_ensembles_proof. Qed.
Print Assumptions C116_ensembles.
Example C116_ensembles_case :
  (forall b r, In (b, r) ensemble_items -> Shows ecnt_fields ensemble_columns b r) /\
  forall lambertw gen randint seed_gen state alpha iterations threads cpus seeds method cbb equivalence, exists out,
    calculate_stats (agg_engine lambertw gen randint seed_gen state alpha iterations threads cpus seeds method cbb "ecnt" ensemble_columns equivalence)
      true "ecnt" ensemble_columns (map snd ensemble_items) (pool_request ["ECNT_CRPS"]) no_request = Ok out /\
    map (fun o => (nstats o, value (stat_of o))) out = [(2%nat, Some 4.2500000); (0%nat, None)].
Proof. exact C116_ensembles_case_proof. Qed.

(** C116 fails if the line type is not given: the means of the lines are not weighted, but divided by the totals. *)
Theorem C116_line_type_refuted :
  forall lambertw gen randint seed_gen state alpha iterations threads cpus seeds method cbb equivalence, exists out,
    calculate_stats (agg_engine lambertw gen randint seed_gen state alpha iterations threads cpus seeds method cbb "None" pool_columns equivalence)
      true "None" pool_columns (map snd pool_items) (pool_request ["FBAR"]) no_request = Ok out /\
    map (fun o => value (stat_of o)) out = [Some 2.2500000; Some 0.7500000].
Proof. exact C116_line_type_refuted_proof. Qed.
Print Assumptions C116_line_type_refuted.

(** C117: from contingency lines every output value is the textbook value of the counts of the lines of its point, added up. *)
Theorem C117_tables : forall lambertw gen randint seed_gen state alpha iterations threads cpus seeds method cbb equivalence
    single line_type columns data rq1 rq2 fields out,
  let e := agg_engine lambertw gen randint seed_gen state alpha iterations threads cpus seeds method cbb line_type columns equivalence in
  In line_type ["ctc"; "cts"; "nbr_ctc"] -> Rectangular data columns -> data <> [] ->
  series_val rq2 = [] -> Fields rq1 fields -> Plain rq1 fields -> derived_series rq1 = [] ->
  (single = true \/ method <> OtherMethod) ->
  calculate_stats e single line_type columns data rq1 rq2 = Ok out ->
  Forall2 (OutputRow columns (plain_items data) rq1 fields (fun st chosen r =>
      forall textbook h fa m c t, In (st, textbook) table_scores -> CtcTotals (map snd chosen) columns h fa m c t ->
        Published (textbook h fa m c t) (value r)))
    (combinations (map snd fields)) out.
Proof. exact C117_tables_proof. Qed.
Print Assumptions C117_tables.
Example C117_tables_case :
  let data := [table_row "d2" "A" 0.5 10 2 3 85; table_row "d1" "A" 0.5 5 0 1 4; table_row "d1" "B" 0.25 1 1 1 1] in
  CtcTotals (firstn 2 data) table_columns (Some 15) (Some 2) (Some 4) (Some 89) (Some 110) /\
  forall lambertw gen randint seed_gen state alpha iterations threads cpus seeds method cbb equivalence, exists out,
    calculate_stats (agg_engine lambertw gen randint seed_gen state alpha iterations threads cpus seeds method cbb "ctc" table_columns equivalence)
      true "ctc" table_columns data (pool_request ["PODY"]) no_request = Ok out /\
    map (fun o => (nstats o, value (stat_of o))) out = [(2%nat, Some 0.7894737); (1%nat, Some 0.5000000)].
Proof. exact C117_tables_case_proof. Qed.

(** C117: the counts and the scores made from published rates or with logarithms are likewise those of the added counts. *)
Theorem C117_measures : forall lambertw gen randint seed_gen state alpha iterations threads cpus seeds method cbb equivalence
    single line_type columns data rq1 rq2 fields out,
  let e := agg_engine lambertw gen randint seed_gen state alpha iterations threads cpus seeds method cbb line_type columns equivalence in
  LambertW lambertw ->
  In line_type ["ctc"; "cts"; "nbr_ctc"] -> Rectangular data columns -> data <> [] ->
  series_val rq2 = [] -> Fields rq1 fields -> Plain rq1 fields -> derived_series rq1 = [] ->
  (single = true \/ method <> OtherMethod) ->
  calculate_stats e single line_type columns data rq1 rq2 = Ok out ->
  Forall2 (OutputRow columns (plain_items data) rq1 fields (fun st chosen r =>
      forall Measure h fa m c t, In (st, Measure) table_measures ->
        CtcTotals (map snd chosen) columns (Some h) (Some fa) (Some m) (Some c) (Some t) -> Genuine h fa m c t ->
        Measure h fa m c t (value r)))
    (combinations (map snd fields)) out.
Proof. exact C117_measures_proof. Qed.
Print Assumptions C117_measures.
Example C117_measures_case :
  let data := [table_row "d2" "A" 0.5 10 2 3 85; table_row "d1" "A" 0.5 5 0 1 4; table_row "d1" "B" 0.25 1 1 1 1] in
  (exists W, LambertW W) /\ Genuine 15 2 4 89 110 /\
  forall lambertw gen randint seed_gen state alpha iterations threads cpus seeds method cbb equivalence, exists out,
    calculate_stats (agg_engine lambertw gen randint seed_gen state alpha iterations threads cpus seeds method cbb "ctc" table_columns equivalence)
      true "ctc" table_columns data (pool_request ["CTC_FN_OY"; "HK"; "ODDS"]) no_request = Ok out /\
    map (fun o => value (stat_of o)) out =
      [Some 4.0000000; Some 0.7674957; Some 166.8751865; Some 1.0000000; Some 0.0000000; Some 1.0000000].
Proof. exact C117_measures_case_proof. Qed.
(** C117: the base rate, where no count is missing. *)
Theorem C117_base_rate : forall lambertw gen randint seed_gen state alpha iterations threads cpus seeds method cbb equivalence
    single line_type columns data rq1 rq2 fields out,
  let e := agg_engine lambertw gen randint seed_gen state alpha iterations threads cpus seeds method cbb line_type columns equivalence in
  In line_type ["ctc"; "cts"; "nbr_ctc"] -> Rectangular data columns -> data <> [] ->
  series_val rq2 = [] -> Fields rq1 fields -> Plain rq1 fields -> derived_series rq1 = [] ->
  (single = true \/ method <> OtherMethod) ->
  calculate_stats e single line_type columns data rq1 rq2 = Ok out ->
  Forall2 (OutputRow columns (plain_items data) rq1 fields (fun st chosen r =>
      forall hs ms ts, In st ["baser"; "nbr_baser"] ->
        AllNumbers (map snd chosen) columns "fy_oy" hs -> AllNumbers (map snd chosen) columns "fn_oy" ms ->
        AllNumbers (map snd chosen) columns "total" ts ->
        Published (oratio (Some (qsum hs + qsum ms)) (Some (qsum ts))) (value r)))
    (combinations (map snd fields)) out.
Proof. exact C117_base_rate_proof. Qed.
Print Assumptions C117_base_rate.
Example C117_base_rate_case :
  let data := [table_row "d2" "A" 0.5 10 2 3 85; table_row "d1" "A" 0.5 5 0 1 4; table_row "d1" "B" 0.25 1 1 1 1] in
  AllNumbers (firstn 2 data) table_columns "fy_oy" [10; 5] /\ AllNumbers (firstn 2 data) table_columns "fn_oy" [3; 1] /\
  AllNumbers (firstn 2 data) table_columns "total" [100; 10] /\
  forall lambertw gen randint seed_gen state alpha iterations threads cpus seeds method cbb equivalence, exists out,
    calculate_stats (agg_engine lambertw gen randint seed_gen state alpha iterations threads cpus seeds method cbb "ctc" table_columns equivalence)
      true "ctc" table_columns data (pool_request ["BASER"]) no_request = Ok out /\
    map (fun o => value (stat_of o)) out = [Some 0.1727273; Some 0.5000000].
Proof. exact C117_base_rate_case_proof. Qed.

(** C117: a run over contingency lines succeeds only if the lines of each point have one expected correctness (where the
    lines have it at all). *)
Theorem C117_expected : forall lambertw gen randint seed_gen state alpha iterations threads cpus seeds method cbb equivalence
    single line_type columns data rq1 rq2 fields out,
  let e := agg_engine lambertw gen randint seed_gen state alpha iterations threads cpus seeds method cbb line_type columns equivalence in
  In line_type ["ctc"; "cts"; "mctc"] -> Rectangular data columns -> data <> [] ->
  series_val rq2 = [] -> Fields rq1 fields -> Plain rq1 fields -> derived_series rq1 = [] ->
  calculate_stats e single line_type columns data rq1 rq2 = Ok out ->
  Forall2 (OutputRow columns (plain_items data) rq1 fields (fun st chosen r =>
      forall r1 r2 c1 c2, In r1 (map snd chosen) -> In r2 (map snd chosen) ->
        CellOf columns r1 "ec_value" c1 -> CellOf columns r2 "ec_value" c2 -> c1 <> CMiss /\ CellSame c1 c2))
    (combinations (map snd fields)) out.
Proof. exact C117_expected_proof. Qed.
Print Assumptions C117_expected.
(** C117 fails for lines that differ in it: no score is calculated, although POD does not depend on it. *)
Theorem C117_expected_refuted :
  forall lambertw gen randint seed_gen state alpha iterations threads cpus seeds method cbb equivalence single,
    calculate_stats (agg_engine lambertw gen randint seed_gen state alpha iterations threads cpus seeds method cbb "ctc" table_columns equivalence)
      single "ctc" table_columns [table_row "d1" "A" 0.5 10 2 3 85; table_row "d2" "A" 0.25 5 0 1 4] (pool_request ["PODY"]) no_request = Err ValueError.
Proof. exact C117_expected_refuted_proof. Qed.
Print Assumptions C117_expected_refuted.

(** C118: without bootstrap a run succeeds only if the statistics of all points with lines exist. *)
Theorem C118_known : forall lambertw gen randint seed_gen state alpha iterations threads cpus seeds method cbb equivalence
    line_type columns data rq1 rq2 fields out,
  let e := agg_engine lambertw gen randint seed_gen state alpha iterations threads cpus seeds method cbb line_type columns equivalence in
  Rectangular data columns -> data <> [] ->
  series_val rq2 = [] -> Fields rq1 fields -> Plain rq1 fields -> derived_series rq1 = [] ->
  calculate_stats e true line_type columns data rq1 rq2 = Ok out ->
  Forall2 (OutputRow columns (plain_items data) rq1 fields (fun st chosen r => In st statistic_names))
    (combinations (map snd fields)) out.
Proof. exact C118_known_proof. Qed.
Print Assumptions C118_known.
Example C118_known_case :
  forall lambertw gen randint seed_gen state alpha iterations threads cpus seeds method cbb equivalence,
    calculate_stats (agg_engine lambertw gen randint seed_gen state alpha iterations threads cpus seeds method cbb "sl1l2" pool_columns equivalence)
      true "sl1l2" pool_columns (map snd pool_items) (pool_request ["FBAR"; "BIAS"]) no_request = Err KeyError.
Proof. exact C118_known_case_proof. Qed.

(** C118 fails with bootstrap: a statistic that does not exist goes unnoticed, its rows have counts but no values. *)
Theorem C118_unknown_refuted : forall lambertw gen randint seed_gen state alpha iterations threads cpus seeds method cbb equivalence
    line_type columns data rq1 rq2 fields out,
  let e := agg_engine lambertw gen randint seed_gen state alpha iterations threads cpus seeds method cbb line_type columns equivalence in
  Rectangular data columns -> data <> [] ->
  series_val rq2 = [] -> Fields rq1 fields -> Plain rq1 fields -> derived_series rq1 = [] ->
  calculate_stats e false line_type columns data rq1 rq2 = Ok out ->
  Forall2 (OutputRow columns (plain_items data) rq1 fields (fun st chosen r => ~ In st statistic_names -> r = NoResult))
    (combinations (map snd fields)) out.
Proof. exact C118_unknown_refuted_proof. Qed.
Print Assumptions C118_unknown_refuted.
Example C118_unknown_case :
  forall lambertw gen randint seed_gen state alpha iterations threads cpus seeds method cbb equivalence, exists out,
    calculate_stats (agg_engine lambertw gen randint seed_gen state alpha iterations threads cpus seeds method cbb "sl1l2" pool_columns equivalence)
      false "sl1l2" pool_columns (map snd pool_items) (pool_request ["BIAS"]) no_request = Ok out /\
    map (fun o => (nstats o, stat_of o)) out = [(2%nat, NoResult); (1%nat, NoResult)].
Proof. exact C118_unknown_case_proof. Qed.

(** C118 fails with bootstrap: there is a misspelled statistic that is an error without bootstrap, and not with it. *)
Theorem C118_unnoticed_refuted : exists line_type columns data rq1 rq2 stat st,
  In stat (list_stat rq1) /\ InSmallLetters stat st /\ ~ In st statistic_names /\
  forall lambertw gen randint seed_gen state alpha iterations threads cpus seeds method cbb equivalence,
  let e := agg_engine lambertw gen randint seed_gen state alpha iterations threads cpus seeds method cbb line_type columns equivalence in
  calculate_stats e true line_type columns data rq1 rq2 = Err KeyError /\
  exists out, calculate_stats e false line_type columns data rq1 rq2 = Ok out /\
    map (fun o => (nstats o, stat_of o)) out = [(2%nat, NoResult); (1%nat, NoResult)].
Proof. exact C118_unnoticed_refuted_proof. Qed.
Print Assumptions C118_unnoticed_refuted.

(** C118: apart from that the bootstrap only adds limits: the values are those of a run without bootstrap. *)
Theorem C118_limits : forall lambertw gen randint seed_gen state alpha iterations threads cpus seeds method cbb equivalence
    gen' randint' seed_gen' state' alpha' iterations' threads' cpus' seeds' method' cbb' equivalence'
    line_type columns data rq1 rq2 fields out out',
  let e := agg_engine lambertw gen randint seed_gen state alpha iterations threads cpus seeds method cbb line_type columns equivalence in
  let e' := agg_engine lambertw gen' randint' seed_gen' state' alpha' iterations' threads' cpus' seeds' method' cbb' line_type columns equivalence' in
  Rectangular data columns -> data <> [] -> method' <> OtherMethod ->
  series_val rq2 = [] -> Fields rq1 fields -> Plain rq1 fields -> derived_series rq1 = [] ->
  calculate_stats e true line_type columns data rq1 rq2 = Ok out ->
  calculate_stats e' false line_type columns data rq1 rq2 = Ok out' ->
  Forall2 (fun o o' => point_of o = point_of o' /\ fcst_var_of o = fcst_var_of o' /\ nstats o = nstats o' /\ value (stat_of o) = value (stat_of o'))
    out out'.
Proof. exact C118_limits_proof. Qed.
Print Assumptions C118_limits.
Example C118_limits_case : forall lambertw equivalence, exists out,
  calculate_stats (agg_engine lambertw unit (fun g n => ((n - 1)%nat, g)) (fun _ => tt) (fun _ _ => tt) 0.05 2 1 4 [] Perc false "sl1l2" pool_columns equivalence)
    false "sl1l2" pool_columns (map snd pool_items) (pool_request ["FBAR"]) no_request = Ok out /\
  map (fun o => value (stat_of o)) out = [Some 3.2500000; Some 1.5000000].
Proof. exact C118_limits_case_proof. Qed.

(** C118 fails for a confidence interval by an unknown method: there are no values either. *)
Theorem C118_method_refuted : forall lambertw gen randint seed_gen state alpha iterations threads cpus seeds cbb equivalence
    line_type columns data rq1 rq2 fields out,
  let e := agg_engine lambertw gen randint seed_gen state alpha iterations threads cpus seeds OtherMethod cbb line_type columns equivalence in
  Rectangular data columns -> data <> [] ->
  series_val rq2 = [] -> Fields rq1 fields -> Plain rq1 fields -> derived_series rq1 = [] ->
  calculate_stats e false line_type columns data rq1 rq2 = Ok out ->
  Forall (fun o => stat_of o = NoResult) out.
Proof. exact C118_method_refuted_proof. Qed.
Print Assumptions C118_method_refuted.
Example C118_method_case : forall lambertw equivalence, exists out,
  calculate_stats (agg_engine lambertw unit (fun g n => ((n - 1)%nat, g)) (fun _ => tt) (fun _ _ => tt) 0.05 2 1 4 [] OtherMethod false "sl1l2" pool_columns equivalence)
    false "sl1l2" pool_columns (map snd pool_items) (pool_request ["FBAR"]) no_request = Ok out /\
  map (fun o => (nstats o, stat_of o)) out = [(2%nat, NoResult); (1%nat, NoResult)].
Proof. exact C118_method_case_proof. Qed.

(** C119: the order of the lines in the file has no influence on the contingency scores in the output. *)
Theorem C119_order : forall lambertw gen randint seed_gen state alpha iterations threads cpus seeds method cbb equivalence
    line_type columns data data' rq1 rq2 fields out out',
  let e := agg_engine lambertw gen randint seed_gen state alpha iterations threads cpus seeds method cbb line_type columns equivalence in
  In line_type ["ctc"; "cts"; "nbr_ctc"] -> Rectangular data columns -> data <> [] -> Permutation data data' ->
  (forall name, In name ["fy_oy"; "fy_on"; "fn_oy"; "fn_on"; "total"] -> In name columns /\ NumericColumn data columns name) ->
  series_val rq2 = [] -> Fields rq1 fields -> Plain rq1 fields -> derived_series rq1 = [] ->
  (forall stat st, In stat (list_stat rq1) -> InSmallLetters stat st -> In st order_free) ->
  calculate_stats e true line_type columns data rq1 rq2 = Ok out ->
  calculate_stats e true line_type columns data' rq1 rq2 = Ok out' ->
  out = out'.
Proof. exact C119_order_proof. Qed.
Print Assumptions C119_order.
Example C119_order_case :
  (forall stat st, In stat ["PODY"; "CSI"] -> InSmallLetters stat st -> In st order_free) /\
  forall lambertw gen randint seed_gen state alpha iterations threads cpus seeds method cbb equivalence, exists out,
  let run data := calculate_stats (agg_engine lambertw gen randint seed_gen state alpha iterations threads cpus seeds method cbb "ctc" table_columns equivalence)
      true "ctc" table_columns data (pool_request ["PODY"; "CSI"]) no_request in
  run [table_row "d2" "A" 0.5 10 2 3 85; table_row "d1" "A" 0.5 5 0 1 4] = Ok out /\
  run [table_row "d1" "A" 0.5 5 0 1 4; table_row "d2" "A" 0.5 10 2 3 85] = Ok out /\
  map (fun o => value (stat_of o)) out = [Some 0.7894737; Some 0.7142857; None; None].
Proof. exact C119_order_case_proof. Qed.
