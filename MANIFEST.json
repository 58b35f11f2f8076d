{
 "claims": [
  {
   "property": "C01",
   "status": "proved",
   "theorems": [
    "C01_round_nearest",
    "C01_nearest_unique",
    "C01_round_monotone",
    "C01_round_fixpoint",
    "C01_round_idempotent",
    "C01_round_interval"
   ],
   "note": ""
  },
  {
   "property": "C02",
   "status": "proved",
   "theorems": [
    "C02_total",
    "C02_total_unique",
    "C02_total_permutation",
    "C02_total_split",
    "C02_total_keep_missing"
   ],
   "note": ""
  },
  {
   "property": "C03",
   "status": "proved",
   "theorems": [
    "C03_filter_exact",
    "C03_filter_order",
    "C03_filter_absent_column"
   ],
   "note": ""
  },
  {
   "property": "C04",
   "status": "proved",
   "theorems": [
    "C04_ctc_textbook",
    "C04_baser_textbook",
    "C04_baser_missing_cell"
   ],
   "note": "BASER needs every cell to be a number: one missing cell makes it None (C04_baser_missing_cell), unlike the other scores."
  },
  {
   "property": "C05",
   "status": "proved",
   "theorems": [
    "C05_ctc_ranges",
    "C05_fbias_odds_nonnegative",
    "C05_csi_le_pody",
    "C05_baser_range"
   ],
   "note": "GSS lower bound is -1/3 rounded to 7 decimals, attained in C05_case."
  },
  {
   "property": "C06",
   "status": "proved",
   "theorems": [
    "C06_row_order",
    "C06_same_totals",
    "C06_merge_rows"
   ],
   "note": ""
  },
  {
   "property": "C07",
   "status": "proved",
   "theorems": [
    "C07_perfect",
    "C07_worst",
    "C07_podn_pofd"
   ],
   "note": ""
  },
  {
   "property": "C08",
   "status": "proved",
   "theorems": [
    "C08_no_exception",
    "C08_totals_raise",
    "C08_marginals_raise",
    "C08_baser_no_exception",
    "C08_baser_raises",
    "C08_odds_defined_refuted",
    "C08_odds_agree"
   ],
   "note": "Findings: plain totals raise TypeError on an undefined total; BASER raises IndexError on an absent column; ODDS can be None with four positive counts."
  },
  {
   "property": "C09",
   "status": "proved",
   "theorems": [
    "C09_value_meaning",
    "C09_value_bounds",
    "C09_value_monotone",
    "C09_defined_iff",
    "C09_missing_count",
    "C09_table",
    "C09_pct_defined_refuted",
    "C09_ctc_statistics_defined_refuted"
   ],
   "note": ""
  },
  {
   "property": "C10",
   "status": "proved",
   "theorems": [
    "C10_pooling",
    "C10_single_line",
    "C10_scatter_index",
    "C10_fe_pooling_refuted",
    "C10_estdev_pooling_refuted"
   ],
   "note": ""
  },
  {
   "property": "C11",
   "status": "proved",
   "theorems": [
    "C11_errors_nonneg",
    "C11_stdev_defined",
    "C11_correlation",
    "C11_correlation_linear",
    "C11_cauchy_schwarz",
    "C11_exact_order",
    "C11_published_order_refuted",
    "C11_bcmse_nonneg_refuted"
   ],
   "note": ""
  },
  {
   "property": "C12",
   "status": "proved",
   "theorems": [
    "C12_keeps_common_events",
    "C12_keys_exist",
    "C12_groups",
    "C12_no_valid_time"
   ],
   "note": ""
  },
  {
   "property": "C13",
   "status": "proved",
   "theorems": [
    "C13_balanced",
    "C13_idempotent",
    "C13_order_independent"
   ],
   "note": ""
  },
  {
   "property": "C14",
   "status": "proved",
   "theorems": [
    "C14_keeps_listed",
    "C14_no_time",
    "C14_no_lead",
    "C14_keyed"
   ],
   "note": ""
  },
  {
   "property": "C15",
   "status": "proved",
   "theorems": [
    "C15_metviewer_permutations",
    "C15_metviewer_distinct",
    "C15_metviewer_single",
    "C15_dictionary_skips_empty",
    "C15_list_form_skips_empty_refuted",
    "C15_plain_product"
   ],
   "note": ""
  },
  {
   "property": "C16",
   "status": "proved",
   "theorems": [
    "C16_undefined_iff",
    "C16_difference",
    "C16_ratio",
    "C16_skill_score",
    "C16_single",
    "C16_difference_antisymmetric",
    "C16_self_ratio",
    "C16_self_skill"
   ],
   "note": ""
  },
  {
   "property": "C17",
   "status": "proved",
   "theorems": [
    "C17_generated_names_recognised",
    "C17_default_name_recognised",
    "C17_derived_iff",
    "C17_unknown_operation"
   ],
   "note": ""
  },
  {
   "property": "C18",
   "status": "proved",
   "theorems": [
    "C18_no_perfect_score",
    "C18_sign",
    "C18_swap",
    "C18_unknown_statistic"
   ],
   "note": ""
  },
  {
   "property": "C19",
   "status": "proved",
   "theorems": [
    "C19_classification",
    "C19_significance_is_interval",
    "C19_undecided",
    "C19_values",
    "C19_only_failure",
    "C19_invalid_exits",
    "C19_default_alpha",
    "C19_always_returns_refuted",
    "C19_outcomes_agree_refuted"
   ],
   "note": "Student distribution functions are parameters; refutations use the Cauchy distribution."
  },
  {
   "property": "C20",
   "status": "proved",
   "theorems": [
    "C20_to_180",
    "C20_to_180_idempotent",
    "C20_with_indices",
    "C20_zero_range"
   ],
   "note": ""
  },
  {
   "property": "C21",
   "status": "proved",
   "theorems": [
    "C21_block_resamples",
    "C21_block_rule",
    "C21_independent_draws"
   ],
   "note": "The random generator is an arbitrary state machine whose draws are in range."
  },
  {
   "property": "C22",
   "status": "proved",
   "theorems": [
    "C22_percentile_limits",
    "C22_pivotal_limits",
    "C22_pivotal_missing_raises",
    "C22_quantile_monotone",
    "C22_quantile_bounded",
    "C22_limits_ordered",
    "C22_limits_in_range",
    "C22_nested",
    "C22_order_irrelevant",
    "C22_constant_no_limits",
    "C22_undefined_statistic",
    "C22_all_missing_raises",
    "C22_bad_alpha",
    "C22_significance",
    "C22_significance_refuted",
    "C22_eclv_no_limits"
   ],
   "note": "Findings: all-missing distribution raises; one missing value breaks the pivotal method; no limits for fully defined economic value curves; sign of get_result."
  },
  {
   "property": "C23",
   "status": "proved",
   "theorems": [
    "C23_exact_count",
    "C23_batch_size_irrelevant",
    "C23_threads_round_up",
    "C23_threads_exact_refuted",
    "C23_no_iterations_raises"
   ],
   "note": "Finding: with several threads more resamples than requested are made (C23_threads_exact_refuted)."
  },
  {
   "property": "C24",
   "status": "proved",
   "theorems": [
    "C24_ratios_follow_their_names",
    "C24_2d_ratios_follow_their_names",
    "C24_3d_ratios_follow_their_names",
    "C24_parts_in_unit_interval",
    "C24_complements",
    "C24_inverses",
    "C24_hits_misses_false_alarms",
    "C24_accounts_for_simple_objects",
    "C24_deviating_ratios_actual",
    "C24_documented_ratios_refuted",
    "C24_fsm_fsa_range_refuted",
    "C24_missing_flags_raise"
   ],
   "note": "Findings: FSM_FSA, FSU_FSA, FSM_ASM, OSM_ASM, object CSI and PODY deviate from their documentation (C24_deviating_ratios_actual, C24_documented_ratios_refuted); AttributeError escapes without flag columns."
  },
  {
   "property": "C25",
   "status": "proved",
   "theorems": [
    "C25_area_ratios_follow_their_names",
    "C25_2d_area_ratios_follow_their_names",
    "C25_area_hits_misses",
    "C25_parts_in_unit_interval",
    "C25_complements",
    "C25_deviating_areas_actual",
    "C25_osa_fsa_constant",
    "C25_documented_areas_refuted",
    "C25_perfect_forecast_undefined",
    "C25_volume_statistics_undefined"
   ],
   "note": "Findings: FSM_ASM, OSA_FSA and the area FAR deviate; area CSI/PODY of a perfect forecast are None; all 3-D volume statistics are None."
  },
  {
   "property": "C26",
   "status": "proved",
   "theorems": [
    "C26_roc_points",
    "C26_area_is_discrimination",
    "C26_perfect_area",
    "C26_no_skill_area",
    "C26_complement_area",
    "C26_one_sided_raises",
    "C26_no_cases_undefined_refuted"
   ],
   "note": "Findings: without any case the area is 0.5; with only events or only non-events an exception escapes."
  },
  {
   "property": "C27",
   "status": "proved",
   "theorems": [
    "C27_components",
    "C27_calibrated",
    "C27_brier_identity",
    "C27_no_cases",
    "C27_scores_returned_refuted",
    "C27_baser_range_refuted",
    "C27_single_bin"
   ],
   "note": "Findings: Brier score, skill score and resolution raise AttributeError on every proper table; the base rate can exceed 1 when counts are missing."
  },
  {
   "property": "C28",
   "status": "proved",
   "theorems": [
    "C28_pooling",
    "C28_fss_range",
    "C28_perfect_line_refuted",
    "C28_o_rate_actual",
    "C28_o_rate_pooling_refuted",
    "C28_ranges",
    "C28_ufss_upper"
   ],
   "note": "Findings: observed rate not weighted (C28_o_rate_pooling_refuted); perfect lines lose their reference (C28_perfect_line_refuted)."
  },
  {
   "property": "C29",
   "status": "proved",
   "theorems": [
    "C29_construction",
    "C29_line",
    "C29_nodes",
    "C29_covered",
    "C29_outside",
    "C29_range",
    "C29_monotone",
    "C29_ymax",
    "C29_unsorted_rejected_refuted",
    "C29_nodes_unsorted_refuted"
   ],
   "note": "Finding: unsorted nodes are accepted (C29_unsorted_rejected_refuted)."
  },
  {
   "property": "C30",
   "status": "proved",
   "theorems": [
    "C30_index",
    "C30_formula_bounds",
    "C30_default_range",
    "C30_scalar_mean",
    "C30_rejected",
    "C30_positive_spread_checked_refuted",
    "C30_range_without_check_refuted",
    "C30_missing_members_below",
    "C30_zero_mean"
   ],
   "note": "Findings: negative spread accepted; missing members count as below the threshold; a zero mean removes the spread term."
  },
  {
   "property": "C31",
   "status": "proved",
   "theorems": [
    "C31_class",
    "C31_levels",
    "C31_exchange",
    "C31_exchange_bias_refuted",
    "C31_defined_refuted",
    "C31_error_measure_refuted",
    "C31_errors",
    "C31_confidence",
    "C31_confidence_other"
   ],
   "note": "Findings: no class for a scaled advantage near -100 (C31_defined_refuted); both orders of two opposite biases favour the first model (C31_exchange_bias_refuted); MAE and other error measures are treated as larger-is-better (C31_error_measure_refuted). The t-test variant takes the distribution function as a parameter."
  },
  {
   "property": "C32",
   "status": "proved",
   "theorems": [
    "C32_between",
    "C32_linear",
    "C32_top_layer",
    "C32_top_layer_refuted",
    "C32_on_level",
    "C32_outside",
    "C32_single",
    "C32_nowhere",
    "C32_falling",
    "C32_units_and_targets"
   ],
   "note": "Findings: C32_top_layer (upper level left out in the top layer), C32_on_level (exact hits are missing), C32_falling (sum of both ends)."
  },
  {
   "property": "C33",
   "status": "proved",
   "theorems": [
    "C33_test",
    "C33_run_bounds",
    "C33_invariant",
    "C33_p_values",
    "C33_other_cases",
    "C33_mean_key_refuted"
   ],
   "note": "scipy norm.cdf is an arbitrary function. Findings: blank in a result key (C33_mean_key_refuted); too few values raise ZeroDivisionError (C33_test)."
  },
  {
   "property": "C34",
   "status": "proved",
   "theorems": [
    "C34_values",
    "C34_bounded",
    "C34_gaps_bounded_refuted",
    "C34_invariant",
    "C34_default_lag",
    "C34_other_cases",
    "C34_coefficient",
    "C34_coefficient_scale_refuted",
    "C34_coefficient_raises"
   ],
   "note": "Findings: C34_gaps_bounded_refuted, C34_coefficient (a missing square in the formula), C34_coefficient_scale_refuted."
  },
  {
   "property": "C35",
   "status": "proved",
   "theorems": [
    "C35_pooling",
    "C35_single_line",
    "C35_scalar_range",
    "C35_vector_pooling",
    "C35_vector_uncentred",
    "C35_clamped",
    "C35_upper_only",
    "C35_not_clamped_refuted",
    "C35_vcnt_centred_refuted"
   ],
   "note": "Findings: the scalar anomaly correlation and VAL1L2_ANOM_CORR are not clamped from below/at all (C35_not_clamped_refuted); VCNT_ANOM_CORR is not the centred correlation."
  },
  {
   "property": "C36",
   "status": "proved",
   "theorems": [
    "C36_weighted_means",
    "C36_skill",
    "C36_roots",
    "C36_spread_plus_oerr_actual",
    "C36_spread_plus_oerr_refuted",
    "C36_conditional",
    "C36_within",
    "C36_published_within",
    "C36_missing_ignored_refuted",
    "C36_rps"
   ],
   "note": "Findings: SPREAD_PLUS_OERR uses the wrong column; missing scores keep their weight."
  },
  {
   "property": "C37",
   "status": "proved",
   "theorems": [
    "C37_speeds_nonneg",
    "C37_directions",
    "C37_degrees_refuted",
    "C37_below_360_refuted",
    "C37_direction_error",
    "C37_direction_error_defined",
    "C37_direction_error_lost_refuted"
   ],
   "note": "Findings: directions stay in radians (C37_degrees_refuted), can be 360, and the direction error of many cases is lost."
  },
  {
   "property": "C38",
   "status": "proved",
   "theorems": [
    "C38_pooled",
    "C38_neighbourhood",
    "C38_perfect_line_refuted",
    "C38_ensemble",
    "C38_ranked",
    "C38_counts_refuted",
    "C38_anomaly_refuted",
    "C38_missing_mean_refuted",
    "C38_no_pairs",
    "C38_other_lines",
    "C38_joined",
    "C38_joined_leads",
    "C38_bad_lead",
    "C38_incomplete_refuted",
    "C38_two_values_refuted",
    "C38_nothing_joined"
   ],
   "note": "Pandas type changes on assignment are not modelled. Findings: C38_counts_refuted, C38_anomaly_refuted, C38_missing_mean_refuted, C38_perfect_line_refuted, C38_incomplete_refuted, C38_two_values_refuted."
  },
  {
   "property": "C39",
   "status": "proved",
   "theorems": [
    "C39_no_exception",
    "C39_no_exception_numeric",
    "C39_si_refuted",
    "C39_si_exact",
    "C39_mse_text_refuted"
   ],
   "note": ""
  },
  {
   "property": "C40",
   "status": "proved",
   "theorems": [
    "C40_pooling",
    "C40_s1_range"
   ],
   "note": ""
  },
  {
   "property": "C42",
   "status": "proved",
   "theorems": [
    "C42_pooling",
    "C42_single_line",
    "C42_variance",
    "C42_speeds_refuted"
   ],
   "note": "Finding: VL1L2_FSPD and VL1L2_OSPD are not weighted when aggregated (C42_speeds_refuted)."
  },
  {
   "property": "C43",
   "status": "proved",
   "theorems": [
    "C43_pooling",
    "C43_anomaly_correlation",
    "C43_spread",
    "C43_estdev_refuted",
    "C43_no_bin_count"
   ],
   "note": "Finding: the error standard deviation ignores the aggregation flag (C43_estdev_refuted)."
  },
  {
   "property": "C44",
   "status": "proved",
   "theorems": [
    "C44_mean",
    "C44_bounds",
    "C44_shift",
    "C44_scale_refuted",
    "C44_sum",
    "C44_last_value_raises",
    "C44_missing",
    "C44_median",
    "C44_median_inflated",
    "C44_median_inflated_missing_refuted"
   ],
   "note": "Findings: C44_scale_refuted, C44_missing, C44_last_value_raises, C44_median_inflated_missing_refuted."
  },
  {
   "property": "C45",
   "status": "proved",
   "theorems": [
    "C45_within_revisions",
    "C45_order",
    "C45_lag_two_refuted",
    "C45_runs",
    "C45_p_value",
    "C45_other_cases"
   ],
   "note": "Findings: C45_lag_two_refuted; the p-value does not depend on the data (C45_p_value)."
  },
  {
   "property": "C41",
   "status": "proved",
   "theorems": [
    "C41_value",
    "C41_pooled",
    "C41_order",
    "C41_range",
    "C41_layouts_refuted",
    "C41_errors",
    "C41_missing_column",
    "C41_no_expected"
   ],
   "note": "Findings: category positions are taken from the first line only (C41_layouts_refuted); missing columns raise IndexError (C41_missing_column)."
  },
  {
   "property": "C46",
   "status": "proved",
   "theorems": [
    "C46_all_above",
    "C46_partly_below_ground",
    "C46_thickness_refuted",
    "C46_on_level"
   ],
   "note": "Virtual temperature (MetPy) is an input. Findings: C46_thickness_refuted, C46_on_level."
  },
  {
   "property": "C47",
   "status": "proved",
   "theorems": [
    "C47_log_odds",
    "C47_extremal",
    "C47_dependency",
    "C47_missing",
    "C47_ranges",
    "C47_signs",
    "C47_no_misses",
    "C47_more_hits",
    "C47_fewer_false_alarms",
    "C47_symmetry",
    "C47_same_totals",
    "C47_no_exception",
    "C47_lodds_text_refuted",
    "C47_sedi_defined_refuted"
   ],
   "note": "Findings: C47_lodds_text_refuted, C47_sedi_defined_refuted; EDS ignores false alarms (C47_fewer_false_alarms), perfect forecasts have no score (C47_no_misses)."
  },
  {
   "property": "C48",
   "status": "proved",
   "theorems": [
    "C48_adjusted",
    "C48_unbiased",
    "C48_direction",
    "C48_undefined"
   ],
   "note": "Lambert's W is a parameter with its defining equation (existence shown by C48_case)."
  },
  {
   "property": "C49",
   "status": "proved",
   "theorems": [
    "C49_numbers",
    "C49_texts",
    "C49_less_equal_refuted",
    "C49_again",
    "C49_empty",
    "C49_mixed",
    "C49_unreadable"
   ],
   "note": "Number parsing is a parameter. Finding: C49_less_equal_refuted (text thresholds with <= are read as < with an equal sign in the text)."
  },
  {
   "property": "C50",
   "status": "proved",
   "theorems": [
    "C50_table",
    "C50_defined",
    "C50_order_refuted",
    "C50_spelling_refuted"
   ],
   "note": "Findings: C50_order_refuted (rows in string order, >=10 before >=2), C50_spelling_refuted (two spellings of one threshold give two rows)."
  },
  {
   "property": "C51",
   "status": "proved",
   "theorems": [
    "C51_axis",
    "C51_balanced",
    "C51_unlisted_refuted",
    "C51_numbers_refuted",
    "C51_copies_refuted",
    "C51_no_series",
    "C51_entry"
   ],
   "note": "Findings: C51_unlisted_refuted, C51_numbers_refuted, C51_copies_refuted, C51_no_series."
  },
  {
   "property": "C52",
   "status": "proved",
   "theorems": [
    "C52_both",
    "C52_fixed",
    "C52_fixed_text_refuted",
    "C52_one_axis",
    "C52_same_series_refuted",
    "C52_shared_variable_refuted"
   ],
   "note": "The order of sets is a parameter. Findings: C52_same_series_refuted, C52_shared_variable_refuted, C52_fixed_text_refuted."
  },
  {
   "property": "C53",
   "status": "proved",
   "theorems": [
    "C53_axis",
    "C53_copies_refuted",
    "C53_fixed_refuted",
    "C53_both",
    "C53_dates_refuted",
    "C53_missing",
    "C53_empty"
   ],
   "note": "Findings: C53_copies_refuted, C53_fixed_refuted, C53_dates_refuted; the last step uses the series of the second axis twice."
  },
  {
   "property": "C54",
   "status": "proved",
   "theorems": [
    "C54_axis",
    "C54_missing"
   ],
   "note": "Reading of the files is not modelled."
  },
  {
   "property": "C55",
   "status": "proved",
   "theorems": [
    "C55_rows",
    "C55_total",
    "C55_counted",
    "C55_empty"
   ],
   "note": "The statistics and their preparation are parameters (the engine). Line type pct and sort columns with both numbers and texts are not modelled."
  },
  {
   "property": "C56",
   "status": "proved",
   "theorems": [
    "C56_texts_refuted",
    "C56_variables_refuted",
    "C56_missing",
    "C56_joined_refuted"
   ],
   "note": "Findings: C56_texts_refuted, C56_variables_refuted, C56_joined_refuted, C56_missing."
  },
  {
   "property": "C57",
   "status": "proved",
   "theorems": [
    "C57_rows",
    "C57_named",
    "C57_mixed_refuted",
    "C57_groups_refuted"
   ],
   "note": "Findings: C57_mixed_refuted (several points named: the first one found is taken), C57_groups_refuted (groups of a variable that is not the last)."
  },
  {
   "property": "C58",
   "status": "proved",
   "theorems": [
    "C58_distinct",
    "C58_dates_refuted",
    "C58_groups_refuted",
    "C58_exempt_refuted"
   ],
   "note": "Findings: C58_dates_refuted, C58_groups_refuted, C58_exempt_refuted. Preparation is assumed to keep the columns of a case (KeepsCases)."
  },
  {
   "property": "C59",
   "status": "proved",
   "theorems": [
    "C59_bootstrapped",
    "C59_pairs",
    "C59_significance",
    "C59_equivalence_refuted"
   ],
   "note": "Finding: C59_equivalence_refuted. The bootstrap itself is a parameter here; it is C21 to C23."
  },
  {
   "property": "C60",
   "status": "proved",
   "theorems": [
    "C60_axes",
    "C60_one_axis",
    "C60_derived",
    "C60_empty"
   ],
   "note": "With derived curves stated without bootstrap; the other modes follow axis by axis from C58 and C59."
  },
  {
   "property": "C61",
   "status": "proved",
   "theorems": [
    "C61_rows",
    "C61_defined",
    "C61_empty_curve_refuted",
    "C61_groups_refuted",
    "C61_base_rate_refuted",
    "C61_probabilities_refuted",
    "C61_limits_refuted",
    "C61_exceptions"
   ],
   "note": "Findings: C61_empty_curve_refuted, C61_groups_refuted, C61_base_rate_refuted, C61_probabilities_refuted, C61_limits_refuted. Resampling is a parameter."
  },
  {
   "property": "C62",
   "status": "proved",
   "theorems": [
    "C62_rows",
    "C62_checked",
    "C62_difference",
    "C62_cases_refuted",
    "C62_statistics_refuted",
    "C62_exceptions",
    "C62_plain"
   ],
   "note": "Findings: C62_cases_refuted (the second series is not checked), C62_statistics_refuted (significance judged by the first statistic). C62_exceptions: series of different length stop the whole run."
  },
  {
   "property": "C63",
   "status": "proved",
   "theorems": [
    "C63_rows",
    "C63_statistics_refuted",
    "C63_numbers_refuted",
    "C63_groups_refuted",
    "C63_variable_refuted",
    "C63_samples_refuted",
    "C63_exceptions"
   ],
   "note": "Findings: C63_statistics_refuted, C63_numbers_refuted, C63_groups_refuted, C63_variable_refuted, C63_samples_refuted. The statistics of objects themselves are C24 and C25; here they are an arbitrary function."
  },
  {
   "property": "C64",
   "status": "proved",
   "theorems": [
    "C64_rows",
    "C64_stop_refuted",
    "C64_joined_refuted",
    "C64_groups",
    "C64_numbers_refuted",
    "C64_request_refuted",
    "C64_exceptions"
   ],
   "note": "Findings: C64_stop_refuted, C64_joined_refuted, C64_numbers_refuted, C64_request_refuted. The statistics of a line are an arbitrary function here; event equalization is C51-C54, aggregation of joined values C38."
  },
  {
   "property": "C65",
   "status": "proved",
   "theorems": [
    "C65_days",
    "C65_marked",
    "C65_found",
    "C65_crossing_refuted",
    "C65_distance_refuted",
    "C65_grid_refuted"
   ],
   "note": "Findings: C65_crossing_refuted, C65_distance_refuted, C65_grid_refuted."
  },
  {
   "property": "C66",
   "status": "proved",
   "theorems": [
    "C66_blocked",
    "C66_years",
    "C66_missing_refuted",
    "C66_method_refuted",
    "C66_exceptions"
   ],
   "note": "Findings: C66_missing_refuted, C66_method_refuted. Heights are exact rationals or missing (NaN)."
  },
  {
   "property": "C67",
   "status": "proved",
   "theorems": [
    "C67_central",
    "C67_missing_refuted",
    "C67_exceptions"
   ],
   "note": "Finding: C67_missing_refuted. Standard deviations and weights are reals (standard library axioms of the reals). Reading of files is not modelled."
  },
  {
   "property": "C68",
   "status": "proved",
   "theorems": [
    "C68_regimes"
   ],
   "note": "The clustering of scikit-learn and the order of ties in argsort are arguments."
  },
  {
   "property": "C69",
   "status": "proved",
   "theorems": [
    "C69_order",
    "C69_shares",
    "C69_correlate",
    "C69_unmatched_refuted",
    "C69_exceptions"
   ],
   "note": "Finding: C69_unmatched_refuted. Correlations are reals (standard library axioms of the reals)."
  },
  {
   "property": "C70",
   "status": "proved",
   "theorems": [
    "C70_windows",
    "C70_total",
    "C70_exceptions"
   ],
   "note": ""
  },
  {
   "property": "C71",
   "status": "proved",
   "theorems": [
    "C71_anomalies",
    "C71_trend_refuted",
    "C71_array_refuted"
   ],
   "note": "Findings: C71_trend_refuted, C71_array_refuted."
  },
  {
   "property": "C72",
   "status": "proved",
   "theorems": [
    "C72_to_360",
    "C72_to_180",
    "C72_places",
    "C72_places_back",
    "C72_places_refuted",
    "C72_shared_refuted",
    "C72_exceptions"
   ],
   "note": "Findings: C72_places_refuted, C72_shared_refuted."
  },
  {
   "property": "C73",
   "status": "proved",
   "theorems": [
    "C73_weights",
    "C73_total",
    "C73_bounds",
    "C73_missing",
    "C73_first",
    "C73_first_refuted",
    "C73_exceptions"
   ],
   "note": "Finding: C73_first_refuted."
  },
  {
   "property": "C74",
   "status": "proved",
   "theorems": [
    "C74_symmetric",
    "C74_antisymmetric",
    "C74_restores",
    "C74_rows",
    "C74_rows_refuted",
    "C74_exceptions"
   ],
   "note": "Finding: C74_rows_refuted."
  },
  {
   "property": "C75",
   "status": "proved",
   "theorems": [
    "C75_window",
    "C75_window_shape",
    "C75_window_exceptions",
    "C75_taper",
    "C75_taper_ends",
    "C75_taper_exceptions"
   ],
   "note": "Cosines are reals (standard library axioms of the reals)."
  },
  {
   "property": "C76",
   "status": "proved",
   "theorems": [
    "C76_mean",
    "C76_past",
    "C76_irregular_refuted",
    "C76_exceptions"
   ],
   "note": "Finding: C76_irregular_refuted."
  },
  {
   "property": "C77",
   "status": "proved",
   "theorems": [
    "C77_ends",
    "C77_starts",
    "C77_overlap",
    "C77_overlap_refuted",
    "C77_last_refuted"
   ],
   "note": "Findings: C77_overlap_refuted, C77_last_refuted."
  },
  {
   "property": "C78",
   "status": "proved",
   "theorems": [
    "C78_coherence",
    "C78_self",
    "C78_phase",
    "C78_exceptions"
   ],
   "note": "Spectra are reals; the Fourier transform itself is an argument."
  },
  {
   "property": "C79",
   "status": "proved",
   "theorems": [
    "C79_wavenumbers",
    "C79_frequencies",
    "C79_frequencies_refuted",
    "C79_last_row",
    "C79_mismatch"
   ],
   "note": "Findings: C79_frequencies_refuted, C79_last_row, C79_mismatch. The Fourier transform itself is an argument."
  },
  {
   "property": "C80",
   "status": "proved",
   "theorems": [
    "C80_zonal",
    "C80_band_refuted",
    "C80_meridional",
    "C80_limits",
    "C80_missing",
    "C80_bounds",
    "C80_exceptions"
   ],
   "note": "Finding: C80_band_refuted. Cosines are reals."
  },
  {
   "property": "C81",
   "status": "proved",
   "theorems": [
    "C81_components",
    "C81_speed",
    "C81_turn",
    "C81_exceptions"
   ],
   "note": "Angles are reals; float32 is not modelled."
  },
  {
   "property": "C82",
   "status": "proved",
   "theorems": [
    "C82_parts",
    "C82_contributions",
    "C82_sum",
    "C82_odd",
    "C82_total_refuted",
    "C82_selected",
    "C82_selected_refuted",
    "C82_order_refuted",
    "C82_exceptions"
   ],
   "note": "Findings: C82_total_refuted, C82_selected_refuted, C82_order_refuted. The transform is modelled as sums of reals."
  },
  {
   "property": "C83",
   "status": "proved",
   "theorems": [
    "C83_wave",
    "C83_shortest",
    "C83_shortest_refuted",
    "C83_pure",
    "C83_rows",
    "C83_exceptions",
    "C83_covariance_refuted"
   ],
   "note": "Findings: C83_shortest_refuted, C83_covariance_refuted."
  },
  {
   "property": "C84",
   "status": "proved",
   "theorems": [
    "C84_skill",
    "C84_argument_refuted",
    "C84_argument",
    "C84_exceptions",
    "C84_total_refuted"
   ],
   "note": "Findings: C84_argument_refuted, C84_total_refuted. Correlations are reals."
  },
  {
   "property": "C85",
   "status": "proved",
   "theorems": [
    "C85_cycle",
    "C85_zero",
    "C85_once",
    "C85_calendar",
    "C85_choice",
    "C85_choice_refuted",
    "C85_exceptions"
   ],
   "note": "Finding: C85_choice_refuted."
  },
  {
   "property": "C86",
   "status": "proved",
   "theorems": [
    "C86_projection",
    "C86_descending",
    "C86_descending_refuted",
    "C86_activity",
    "C86_files",
    "C86_exceptions"
   ],
   "note": "Finding: C86_descending_refuted. xarray is modelled by coordinate lists; NaN is not modelled here."
  },
  {
   "property": "C87",
   "status": "proved",
   "theorems": [
    "C87_pearson",
    "C87_symmetric",
    "C87_units",
    "C87_sign",
    "C87_self",
    "C87_missing",
    "C87_squares",
    "C87_exceptions"
   ],
   "note": "Numbers are reals. Spearman, Kendall and Shepherd as well as p-values, Bayes factors and power are not modelled."
  },
  {
   "property": "C88",
   "status": "proved",
   "theorems": [
    "C88_bicor",
    "C88_outliers"
   ],
   "note": ""
  },
  {
   "property": "C89",
   "status": "proved",
   "theorems": [
    "C89_percbend",
    "C89_equal_refuted"
   ],
   "note": "Finding: C89_equal_refuted."
  },
  {
   "property": "C90",
   "status": "proved",
   "theorems": [
    "C90_correlation",
    "C90_fisher",
    "C90_cohen",
    "C90_exceptions"
   ],
   "note": "Quantiles of the normal and of Student's distribution are parameters; the result is taken before it is rounded."
  },
  {
   "property": "C91",
   "status": "proved",
   "theorems": [
    "C91_shift",
    "C91_scale",
    "C91_ordered",
    "C91_width",
    "C91_back",
    "C91_significance",
    "C91_exceptions",
    "C91_fraction",
    "C91_fraction_missing"
   ],
   "note": "Distributions kept in the object are not modelled; they are lost by the operations."
  },
  {
   "property": "C92",
   "status": "proved",
   "theorems": [
    "C92_unchanged",
    "C92_filled",
    "C92_final",
    "C92_mentioned",
    "C92_filled_refuted"
   ],
   "note": "Finding: C92_filled_refuted. Texts are ASCII."
  },
  {
   "property": "C93",
   "status": "proved",
   "theorems": [
    "C93_tagged",
    "C93_plain",
    "C93_tag_refuted",
    "C93_source",
    "C93_loader_refuted"
   ],
   "note": "Findings: C93_tag_refuted, C93_loader_refuted."
  },
  {
   "property": "C94",
   "status": "proved",
   "theorems": [
    "C94_axis",
    "C94_kelvin",
    "C94_mrg",
    "C94_eig0",
    "C94_increasing",
    "C94_order",
    "C94_deeper"
   ],
   "note": "Numbers are reals; depths that are not positive are not modelled."
  },
  {
   "property": "C95",
   "status": "proved",
   "theorems": [
    "C95_roots",
    "C95_curves",
    "C95_order"
   ],
   "note": "The solver of scipy is a parameter; that it converges to the root next to the seed is not modelled."
  },
  {
   "property": "C96",
   "status": "proved",
   "theorems": [
    "C96_keep",
    "C96_again",
    "C96_mask",
    "C96_open",
    "C96_single_refuted",
    "C96_equal_refuted",
    "C96_exceptions"
   ],
   "note": "Numbers are exact; memory that is never written is a parameter."
  },
  {
   "property": "C97",
   "status": "proved",
   "theorems": [
    "C97_identity",
    "C97_east",
    "C97_west",
    "C97_range_refuted",
    "C97_times",
    "C97_times_refuted",
    "C97_exceptions"
   ],
   "note": "The transforms of numpy are modelled by their defining sums over the reals."
  },
  {
   "property": "C98",
   "status": "proved",
   "theorems": [
    "C98_detrend",
    "C98_filter",
    "C98_any",
    "C98_waves",
    "C98_odd",
    "C98_odd_refuted",
    "C98_equal_refuted",
    "C98_exceptions"
   ],
   "note": "The transforms of numpy and the least squares of scipy are modelled by their defining sums over the reals; limits are exact rationals."
  },
  {
   "property": "C99",
   "status": "proved",
   "theorems": [
    "C99_best",
    "C99_exact",
    "C99_linear",
    "C99_orthogonal",
    "C99_exceptions"
   ],
   "note": "Least squares are exact: singular values that numpy treats as zero because they are small are not."
  },
  {
   "property": "C100",
   "status": "proved",
   "theorems": [
    "C100_values",
    "C100_shift",
    "C100_past",
    "C100_grid_refuted",
    "C100_exceptions"
   ],
   "note": "Norms of 0 and gaps in the data are not modelled."
  },
  {
   "property": "C101",
   "status": "proved",
   "theorems": [
    "C101_values",
    "C101_filtered",
    "C101_unit",
    "C101_invariant",
    "C101_leap_refuted",
    "C101_grid_refuted",
    "C101_exceptions"
   ],
   "note": "A standard deviation of 0 is not modelled; the filter is that of C98."
  },
  {
   "property": "C102",
   "status": "proved",
   "theorems": [
    "C102_values",
    "C102_wave",
    "C102_periods_refuted",
    "C102_lines",
    "C102_overwrites_refuted",
    "C102_exceptions"
   ],
   "note": "The statement that waves within the limits are kept and others removed is refuted, and so is that the array passed is left unchanged. Transforms are exact sums over the reals."
  },
  {
   "property": "C103",
   "status": "proved",
   "theorems": [
    "C103_values",
    "C103_zero"
   ],
   "note": "Values are exact rationals."
  },
  {
   "property": "C104",
   "status": "proved",
   "theorems": [
    "C104_filter",
    "C104_constant",
    "C104_values",
    "C104_linear_refuted",
    "C104_exceptions"
   ],
   "note": "That factors of the flux are factors of the result is refuted: the factor c becomes c times its absolute value."
  },
  {
   "property": "C105",
   "status": "proved",
   "theorems": [
    "C105_structure",
    "C105_symmetric",
    "C105_positive",
    "C105_positive_refuted",
    "C105_latitudes_refuted",
    "C105_between_refuted",
    "C105_power",
    "C105_exceptions"
   ],
   "note": "That the structure is positive and that it belongs to the latitudes of the data is refuted. The error function is a parameter."
  },
  {
   "property": "C106",
   "status": "proved",
   "theorems": [
    "C106_calendar",
    "C106_values",
    "C106_dates_refuted",
    "C106_factors",
    "C106_sign",
    "C106_exceptions"
   ],
   "note": "That there are correctly labelled values whatever the 91st day is refuted. Values are reals without gaps; times are days of the proleptic Gregorian calendar."
  },
  {
   "property": "C107",
   "status": "proved",
   "theorems": [
    "C107_paired",
    "C107_driver",
    "C107_same",
    "C107_swap",
    "C107_rounding_refuted",
    "C107_statistic_refuted",
    "C107_exceptions"
   ],
   "note": "That the value does not depend on whether there is a bootstrap is refuted (without it the value is rounded to five digits), and so is that the statistic of the curve is used when the rows do not name one (IndexError)."
  },
  {
   "property": "C108",
   "status": "proved",
   "theorems": [
    "C108_blocks",
    "C108_values",
    "C108_total",
    "C108_gibl"
   ],
   "note": "The centers are those of the code; for groups that cross the first longitude they are wrong (C110)."
  },
  {
   "property": "C109",
   "status": "proved",
   "theorems": [
    "C109_one_chain",
    "C109_duration_refuted"
   ],
   "note": "That block_time is the number of days of a block is refuted: the number is fixed to five, and block_time is only compared with the number of groups left in the year."
  },
  {
   "property": "C110",
   "status": "proved",
   "theorems": [
    "C110_crossing_refuted",
    "C110_longitudes_refuted",
    "C110_empty_refuted",
    "C110_full_day"
   ],
   "note": "That a quiet period gives zeros is refuted (IndexError, TypeError), and so is that blocks over the first longitude are tracked like others (the center jumps by 340 degrees) and that the longitudes may start at -180 (longitudes are used as positions)."
  },
  {
   "property": "C111",
   "status": "proved",
   "theorems": [
    "C111_replaces",
    "C111_appends",
    "C111_history",
    "C111_boolean_refuted",
    "C111_no_file_refuted",
    "C111_empty_refuted",
    "C111_columns_refuted"
   ],
   "note": "That the truth value True appends, that a first run with the option gives a header, that a first run on a table without rows gives a header, and that runs with other fields get lines under their columns is refuted."
  },
  {
   "property": "C112",
   "status": "proved",
   "theorems": [
    "C112_untouched",
    "C112_no_input",
    "C112_empty_refuted",
    "C112_stale_refuted"
   ],
   "note": "For tables without rows scorecard and sum_stat are refuted: they replace the output by a header and then raise ValueError. A successful scorecard without derived series leaves the file of an earlier run."
  },
  {
   "property": "C113",
   "status": "proved",
   "theorems": [
    "C113_switch",
    "C113_texts_refuted"
   ],
   "note": "For other texts it is refuted that they mean False or are rejected: they mean True."
  },
  {
   "property": "C114",
   "status": "proved",
   "theorems": [
    "C114_copy",
    "C114_equalized",
    "C114_bootstrap_refuted",
    "C114_chain",
    "C114_chain_refuted",
    "C114_events"
   ],
   "note": "That agg_stat_bootstrap can equalize is refuted: it always raises AttributeError and leaves the equalized table as its output. If no row is kept the next program cannot read the file."
  },
  {
   "property": "C115",
   "status": "proved",
   "theorems": [
    "C115_statistics",
    "C115_equalized",
    "C115_economic",
    "C115_objects",
    "C115_summary",
    "C115_summary_equalized",
    "C115_scorecard"
   ],
   "note": "The rows are those of C60, C61 and C63. For agg_eclv with equalization the table handed on is given for tables without a column equalize."
  },
  {
   "property": "C116",
   "status": "proved",
   "theorems": [
    "C116_pairs",
    "C116_succeeds",
    "C116_gradients",
    "C116_ensembles",
    "C116_line_type_refuted"
   ],
   "note": "That the same holds if the line type is not given is refuted. Line types sal1l2, vl1l2, val1l2, vcnt, ssvar, rps and nbr_cnt are in the model; what their statistics are is stated in C35 to C43 for the functions themselves."
  },
  {
   "property": "C117",
   "status": "proved",
   "theorems": [
    "C117_tables",
    "C117_measures",
    "C117_base_rate",
    "C117_expected",
    "C117_expected_refuted"
   ],
   "note": "That lines with different ec_value can be added up for the scores that do not depend on it is refuted."
  },
  {
   "property": "C118",
   "status": "proved",
   "theorems": [
    "C118_known",
    "C118_unknown_refuted",
    "C118_unnoticed_refuted",
    "C118_limits",
    "C118_method_refuted"
   ],
   "note": "With bootstrap it is refuted that unknown statistics are noticed (the rows have counts and no values), and that an unknown method for the limits leaves the values."
  },
  {
   "property": "C119",
   "status": "proved",
   "theorems": [
    "C119_order"
   ],
   "note": "For runs without bootstrap."
  },
  {
   "property": "C120",
   "status": "proved",
   "theorems": [
    "C120_lines",
    "C120_succeeds",
    "C120_speeds_refuted"
   ],
   "note": "For the two wind speeds VL1L2_FSPD and VL1L2_OSPD it is refuted."
  },
  {
   "property": "C121",
   "status": "proved",
   "theorems": [
    "C121_lines",
    "C121_tables",
    "C121_succeeds"
   ],
   "note": "With one axis, no derived curves and no append_to_file."
  },
  {
   "property": "C122",
   "status": "proved",
   "theorems": [
    "C122_lines",
    "C122_tables",
    "C122_anomalies_refuted"
   ],
   "note": "For the scores of anomalies of line type sal1l2 it is refuted: the program does not import their functions."
  },
  {
   "property": "C123",
   "status": "proved",
   "theorems": [
    "C123_files",
    "C123_shift_refuted",
    "C123_short"
   ],
   "note": "That every line has all its columns is refuted for days whose observation is missing."
  },
  {
   "property": "C124",
   "status": "proved",
   "theorems": [
    "C124_read",
    "C124_negative_refuted",
    "C124_masked_refuted",
    "C124_refused"
   ],
   "note": "For negative leads and for masked values the expected result is refuted."
  },
  {
   "property": "C125",
   "status": "proved",
   "theorems": [
    "C125_elbow",
    "C125_inside",
    "C125_one_refuted"
   ],
   "note": "The sums of squared distances of the clusterings are the input; with one number of clusters nothing is chosen."
  },
  {
   "property": "C126",
   "status": "proved",
   "theorems": [
    "C126_text",
    "C126_blank_refuted",
    "C126_netcdf",
    "C126_lost_refuted"
   ],
   "note": "Days without a valid time: refuted for both types of file."
  },
  {
   "property": "C127",
   "status": "proved",
   "theorems": [
    "C127_spectra",
    "C127_last_refuted",
    "C127_refused"
   ],
   "note": "That the highest frequency is repeated in the last row for all four spectra is refuted for even sizes."
  },
  {
   "property": "C128",
   "status": "proved",
   "theorems": [
    "C128_bounds",
    "C128_symmetry",
    "C128_sign_refuted"
   ],
   "note": "That both functions for a segment give the same quadrature spectrum is refuted: they have opposite signs."
  },
  {
   "property": "C129",
   "status": "proved",
   "theorems": [
    "C129_sums",
    "C129_wave"
   ],
   "note": "Numbers are reals and the transform is its defining sum."
  },
  {
   "property": "C130",
   "status": "proved",
   "theorems": [
    "C130_fields",
    "C130_small",
    "C130_small_refuted",
    "C130_refused"
   ],
   "note": "That every field keeps its values is refuted by small integers below zero."
  },
  {
   "property": "C131",
   "status": "proved",
   "theorems": [
    "C131_times",
    "C131_shift",
    "C131_origin_refuted"
   ],
   "note": "That the file determines the coordinates of the dataset is refuted."
  },
  {
   "property": "C132",
   "status": "proved",
   "theorems": [
    "C132_valid_time",
    "C132_attributes_refuted",
    "C132_replaced_refuted",
    "C132_first",
    "C132_missing"
   ],
   "note": "That every other field keeps its attributes is refuted: attributes of the valid time are put on the variable written before it, in place of its own of the same name. That datetime takes an array of one element for its number is assumed."
  },
  {
   "property": "C133",
   "status": "proved",
   "theorems": [
    "C133_reference",
    "C133_zone_refuted",
    "C133_refused",
    "C133_program",
    "C133_directory_refuted"
   ],
   "note": "That the variable is the hour since 1970 is refuted by a clock away from UTC; that the name of the file decides is refuted by a directory with a dot."
  },
  {
   "property": "C134",
   "status": "proved",
   "theorems": [
    "C134_agree",
    "C134_invalid",
    "C134_verdict",
    "C134_no_spread",
    "C134_same_refuted",
    "C134_values",
    "C134_default_alpha",
    "C134_unbound"
   ],
   "note": "That both functions always report the same outcome is refuted where a p-value is zero."
  },
  {
   "property": "C135",
   "status": "proved",
   "theorems": [
    "C135_name",
    "C135_extension_refuted"
   ],
   "note": "That the postfix is only put before the extension is refuted by plot.v1.png."
  },
  {
   "property": "C136",
   "status": "proved",
   "theorems": [
    "C136_clean",
    "C136_documented",
    "C136_similar",
    "C136_similar_refuted"
   ],
   "note": "That the files of other plots stay is refuted by plot_1 and plot_10."
  },
  {
   "property": "C137",
   "status": "proved",
   "theorems": [
    "C137_period",
    "C137_refused",
    "C137_selected"
   ],
   "note": ""
  },
  {
   "property": "C138",
   "status": "proved",
   "theorems": [
    "C138_check",
    "C138_no_tag",
    "C138_untouched",
    "C138_report",
    "C138_all_refuted"
   ],
   "note": "Images, the similarity index, the batch program and the clock are parameters. That every selected document is reported is refuted by images of different sizes."
  },
  {
   "property": "C139",
   "status": "proved",
   "theorems": [
    "C139_unreadable",
    "C139_history",
    "C139_again_refuted"
   ],
   "note": "That the threshold image can be saved and then shown is refuted."
  },
  {
   "property": "C140",
   "status": "proved",
   "theorems": [
    "C140_arguments",
    "C140_ranges",
    "C140_small",
    "C140_value",
    "C140_bounds",
    "C140_sign",
    "C140_stronger",
    "C140_level",
    "C140_mirror",
    "C140_level_refuted",
    "C140_found",
    "C140_none"
   ],
   "note": "Distributions and the finding of zeros are parameters with the properties used. That the one-sided power does not fall as the level rises is refuted."
  },
  {
   "property": "C141",
   "status": "proved",
   "theorems": [
    "C141_formula",
    "C141_wetzels",
    "C141_sign",
    "C141_tail",
    "C141_direction_refuted",
    "C141_refused"
   ],
   "note": "Special functions and the integral are parameters. That one-sided alternatives differ is refuted. A negative kappa and correlations of exactly one by the method of Ly are not modelled."
  },
  {
   "property": "C142",
   "status": "proved",
   "theorems": [
    "C142_distances",
    "C142_degenerate",
    "C142_answer_refuted",
    "C142_units",
    "C142_shepherd",
    "C142_refused"
   ],
   "note": "The QR decomposition is modelled by Gram and Schmidt, whose squares agree with any other. That data with spread have an answer is refuted."
  },
  {
   "property": "C143",
   "status": "proved",
   "theorems": [
    "C143_answer",
    "C143_fractions",
    "C143_whole",
    "C143_zero",
    "C143_standard",
    "C143_units",
    "C143_covariance_refuted",
    "C143_values_refuted",
    "C143_refused"
   ],
   "note": "numpy's singular value decomposition is a parameter with the properties of one. That a covariance does not depend on the zero of a place and that the second result is the singular values are refuted."
  },
  {
   "property": "C144",
   "status": "proved",
   "theorems": [
    "C144_anomalies",
    "C144_again",
    "C144_reconstruct",
    "C144_all",
    "C144_all_refuted",
    "C144_refused"
   ],
   "note": "The package eofs is modelled by its formulas; the singular value decomposition is a parameter. That NUMPCS equal to the number of records gives the data back is refuted in exact arithmetic, where detrending leaves a singular value of zero."
  },
  {
   "property": "C145",
   "status": "proved",
   "theorems": [
    "C145_table",
    "C145_sides",
    "C145_multiplied",
    "C145_rows_refuted",
    "C145_name_refuted",
    "C145_depths",
    "C145_depth_failed"
   ],
   "note": "The texts of numbers and scipy's solver are parameters. That there are as many rows as wavenumbers and that a mode is found by its name are refuted."
  },
  {
   "property": "C146",
   "status": "proved",
   "theorems": [
    "C146_cells",
    "C146_format_refuted",
    "C146_again",
    "C146_array",
    "C146_order",
    "C146_sign_refuted",
    "C146_corr",
    "C146_none",
    "C146_columns_refuted",
    "C146_outliers"
   ],
   "note": "The texts of numbers are parameters. That every row has the same format, that positive limits stay positive and that the columns depend on the method only are refuted."
  },
  {
   "property": "C147",
   "status": "proved",
   "theorems": [
    "C147_between",
    "C147_linear",
    "C147_units_refuted",
    "C147_mismatch",
    "C147_alone",
    "C147_shape",
    "C147_times",
    "C147_settings",
    "C147_unopened",
    "C147_no_fields"
   ],
   "note": "Sizes and quantities of units are parameters. Fields with other shapes than columns on one grid are not modelled. That a level means the same in another unit is refuted."
  },
  {
   "property": "C148",
   "status": "proved",
   "theorems": [
    "C148_between",
    "C148_lost"
   ],
   "note": "The virtual temperature of MetPy and the sizes of units are parameters. Rests on C32 and C46 for single columns."
  },
  {
   "property": "C149",
   "status": "proved",
   "theorems": [
    "C149_same_draws",
    "C149_alone",
    "C149_totals_add",
    "C149_shapes",
    "C149_sparse_refuted",
    "C149_sparse_rows_refuted",
    "C149_aligned_refuted",
    "C149_functions"
   ],
   "note": "The generator is a parameter; jobs run one after the other. That sparse matrices can be resampled, that matrices of several rows are refused and that alignment of the entries is checked are refuted."
  },
  {
   "property": "C150",
   "status": "proved",
   "theorems": [
    "C150_blocking",
    "C150_regimes",
    "C150_refused",
    "C150_one_number",
    "C150_labels",
    "C150_directory_refuted",
    "C150_base_refuted",
    "C150_steps",
    "C150_no_steps_refuted"
   ],
   "note": "Texts are ASCII. That directories are separate per label, that the base directory is needed only as a default, and that a run without steps has none are refuted."
  },
  {
   "property": "C151",
   "status": "proved",
   "theorems": [
    "C151_files",
    "C151_distinct",
    "C151_order",
    "C151_warning_refuted",
    "C151_descending_refuted",
    "C151_path_refuted"
   ],
   "note": "get_symmasymm and mjo_cross are parameters; variables have a row for each latitude. The warning, descending rain and a path that is a text are refuted."
  },
  {
   "property": "C152",
   "status": "proved",
   "theorems": [
    "C152_saved",
    "C152_cut_refuted",
    "C152_lost_refuted",
    "C152_places_refuted"
   ],
   "note": "Axes have as many values as the array; other lengths are not modelled. Wavenumbers with a fraction, refused arrays and the second function are refuted."
  },
  {
   "property": "C153",
   "status": "proved",
   "theorems": [
    "C153_column",
    "C153_no_column",
    "C153_flatten",
    "C153_flatten_text",
    "C153_flatten_nesting"
   ],
   "note": "Lists nested deeper than the recursion limit of Python are not modelled."
  }
 ]
}